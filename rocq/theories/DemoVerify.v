(** * Concrete archives for the statements about printed verifications. *)
From Verif Require Import Bytes Compress SpecCompress ToyCodec Header Archive Signature Info CliConfig InfoReport Json CliInfo CliVerify
  SpecListfile SpecReport SpecJson SpecInfoText SpecVerifyText Demo34 DemoOther DemoReport DemoJson DemoCli DemoInfoText VerifyTextFacts VerifyPrintFacts.
From Verif Require Cli Builder DemoArchive Listfile.
Open Scope N_scope.

Definition a_reason (n : bytes) (e : error) : bytes := lit "it cannot be read".

(** ** Names of the archive's own list *)
Lemma named_there a names : forall es, list_named a names = Ok es -> Forall (fun e => there a (fe_name e)) es.
Proof.
  induction names as [|n names IH]; intros es H; cbn [list_named] in H; [apply Ok_inj in H; subst; apply Forall_nil|].
  destruct (find_file a n) as [f| |] eqn:E; cbn [bind] in H; try discriminate.
  destruct (list_named a names) as [rest| |]; cbn [bind] in H; try discriminate. specialize (IH _ eq_refl).
  destruct f as [fi|]; apply Ok_inj in H; subst es; [|exact IH]. apply Forall_cons; [|exact IH]. exists fi. exact E.
Qed.
Lemma never_gone L md5 sha1 rd file contents r l a : checked L md5 sha1 rd file contents r l -> open_archive L file = Ok a -> there a (lit "(listfile)") ->
  how_many is_gone l = 0.
Proof.
  intros (b & es & Ho & _ & Hf & En & Hj) Ho' (fi & Hi). rewrite Ho in Ho'. apply Ok_inj in Ho'. subst b.
  unfold list_files in Hf. change Listfile.LISTFILE with (lit "(listfile)") in Hf. rewrite Hi in Hf. cbn [bind] in Hf.
  destruct (read_file L a (lit "(listfile)")) as [d| |]; cbn [bind] in Hf; try discriminate. apply named_there in Hf.
  assert (G : Forall (fun x : bytes * verdict => is_gone (snd x) = false) l).
  { apply Forall_forall. intros [n v] Hx. rewrite Forall_forall in Hj. specialize (Hj _ Hx). cbn [fst snd] in *.
    destruct v; try reflexivity. cbn [judged] in Hj.
    assert (I : In n (map fe_name es)) by (rewrite <- En; exact (in_map fst _ _ Hx)). apply in_map_iff in I as (e & Ee & He).
    rewrite Forall_forall in Hf. destruct (Hf e He) as (gi & Hg). rewrite Ee, Hj in Hg. discriminate. }
  clear - G. unfold how_many. induction G as [|x l Hx _ IH]; [reflexivity|]. cbn [filter]. now rewrite Hx.
Qed.

Lemma line_there x ls : existsb (bytes_eqb x) ls = true -> In x ls.
Proof. intros Hx. apply existsb_exists in Hx as (y & Hy & E). apply bytes_eqb_eq in E. now subst. Qed.
Lemma said (p : bytes * res unit) o ls : snd p = o -> forallb (fun x => existsb (bytes_eqb x) (lines_of (fst p))) ls = true ->
  let (d, o') := p in o' = o /\ (fix all (ls : list bytes) := match ls with [] => True | [x] => In x (lines_of d) | x :: t => In x (lines_of d) /\ all t end) ls.
Proof.
  destruct p as [d o']. cbn [fst snd]. intros -> H. split; [reflexivity|].
  assert (G : forall x, existsb (bytes_eqb x) (lines_of d) = true -> In x (lines_of d)).
  { intros x Hx. apply existsb_exists in Hx as (y & Hy & E). apply bytes_eqb_eq in E. now subst. }
  induction ls as [|x ls IH]; [exact I|]. cbn [forallb] in H. apply andb_true_iff in H as [H1 H2]. destruct ls as [|y ls]; [now apply G|].
  split; [now apply G|now apply IH].
Qed.

(** ** An archive without a list: every file can be read, none is said to be there. *)
Lemma unlisted_said : exists file a, open_archive toy file = Ok a /\
  (exists d, read_file toy a (lit "a.txt") = Ok d) /\ (exists d, read_file toy a (lit "b.txt") = Ok d) /\
  forall md5 sha1 why contents, let (d, o) := archive_verify toy md5 sha1 every_read pretty why Text false false contents false (lit "o.mpq") file in
    o = Err EInvalidFormat /\ In (lit "Files Found:        0") (lines_of d) /\ In (lit "Files Missing:      3") (lines_of d) /\
    In (cross ++ lit " Archive verification FAILED") (lines_of d).
Proof.
  exists o_file, o_arc. split; [exact o_opens|]. split; [eexists; vm_compute; reflexivity|]. split; [eexists; vm_compute; reflexivity|].
  intros md5 sha1 why contents.
  assert (E : archive_verify toy md5 sha1 every_read pretty why Text false false contents false (lit "o.mpq") o_file =
              archive_verify toy toy_md5 toy_md5 every_read pretty a_reason Text false false true false (lit "o.mpq") o_file).
  { destruct contents; vm_compute; reflexivity. }
  rewrite E. apply (said _ _ [lit "Files Found:        0"; lit "Files Missing:      3"; cross ++ lit " Archive verification FAILED"]); vm_compute; reflexivity.
Qed.

(** ** Passed, with a digest or a signature that is wrong *)
Lemma passed_said :
  (let (d, o) := archive_verify toy toy_md5 toy_md5 all_read pretty a_reason Text false false true false (lit "f.mpq") four_soft in
   o = Ok tt /\ In (lit "Header MD5:         Invalid") (lines_of d) /\ In (tick ++ lit " Archive verification PASSED") (lines_of d)) /\
  (let (d, o) := archive_verify toy DemoArchive.no_md5 DemoArchive.no_md5 all_read pretty a_reason Text false false true false (lit "u.mpq") unsigned_arc in
   o = Ok tt /\ In (lit "Digital Signature:  Weak signature (Invalid)") (lines_of d) /\ In (tick ++ lit " Archive verification PASSED") (lines_of d)).
Proof.
  split; [apply (said _ _ [lit "Header MD5:         Invalid"; tick ++ lit " Archive verification PASSED"])|
          apply (said _ _ [lit "Digital Signature:  Weak signature (Invalid)"; tick ++ lit " Archive verification PASSED"])]; vm_compute; reflexivity.
Qed.

(** ** An archive of which one file is damaged *)
Definition hurt_cfg := Builder.mkCfg V1 0 Builder.LGenerate ZLIB true false ZLIB.
Definition hurt_files := [Demo34.plain (lit "a.txt") (repeat "a"%byte 40); Demo34.plain (lit "b.txt") (repeat "b"%byte 700)].
Definition hurt : bytes := Eval vm_compute in
  match Builder.build toy DemoArchive.no_md5 hurt_cfg hurt_files with Ok a => flip a 60 | _ => [] end.
Definition hurt_names : list (bytes * verdict) := [(lit "a.txt", Broken EChecksum); (lit "b.txt", Whole 712); (lit "(listfile)", Whole 26)].
Lemma hurt_checked : exists r, checked toy toy_md5 toy_md5 every_read hurt true r hurt_names /\ countable hurt_names.
Proof.
  eexists. split.
  - do 2 eexists. split; [vm_compute; reflexivity|]. split; [vm_compute; reflexivity|]. split; [vm_compute; reflexivity|]. split; [vm_compute; reflexivity|].
    apply Forall_cons; [|apply Forall_cons; [|apply Forall_cons; [|apply Forall_nil]]]; cbn [fst snd judged hurt_names].
    + split; [reflexivity|]. split; [eexists; vm_compute; reflexivity|vm_compute; reflexivity].
    + split; [reflexivity|]. split; [eexists; vm_compute; reflexivity|]. eexists. split; vm_compute; reflexivity.
    + split; [reflexivity|]. split; [eexists; vm_compute; reflexivity|]. eexists. split; vm_compute; reflexivity.
  - split; [reflexivity|]. repeat (apply Forall_cons; [easy|]). apply Forall_nil.
Qed.
Lemma hurt_lines : lines_of (fst (archive_verify toy toy_md5 toy_md5 every_read pretty a_reason Text false true true true (lit "h.mpq") hurt)) =
  [lit "Verifying archive: h.mpq"; cross ++ lit " a.txt - it cannot be read"; tick ++ lit " b.txt (712 bytes)"; tick ++ lit " (listfile) (26 bytes)"; [];
   lit "Archive Verification Report"; repeat "="%byte 60; lit "Archive: h.mpq"; lit "Format: MPQ v1"; [];
   lit "Header Verification"; repeat "-"%byte 60; lit "MPQ Signature:      Valid"; lit "Format Version:     Supported (v1)";
   lit "Digital Signature:  No signature"; [];
   lit "Table Verification"; repeat "-"%byte 60; lit "Hash Table:         Loaded successfully"; lit "Block Table:        Loaded successfully"; [];
   lit "File Verification Summary"; repeat "-"%byte 60; lit "Total Files:        3"; lit "Files Found:        3"; lit "Files Readable:     2";
   lit "Files Missing:      0"; lit "Files Corrupted:    1"; []; lit "Verified:           2 / 3 (66%)"; [];
   lit "Warnings:"; lit "  " ++ alert ++ lit " CRC verification requested but not yet implemented for file: b.txt";
   lit "  " ++ alert ++ lit " CRC verification requested but not yet implemented for file: (listfile)"; [];
   lit "Errors:"; lit "  " ++ cross ++ lit " a.txt - it cannot be read"; [];
   lit "Overall Status"; repeat "="%byte 60; cross ++ lit " Archive verification FAILED"].
Proof. vm_compute. reflexivity. Qed.
