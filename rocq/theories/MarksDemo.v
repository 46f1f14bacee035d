(** * What an archive tells about how a file is stored: archives for examples. *)
From Verif Require Import Bytes Crypto SpecNames NameFacts HashTable BlockTable Header SpecHeader Compress SpecCompress
  SpecTables ToyCodec HeaderSearch Listfile Builder BuilderFacts HetBet Attributes Archive SpecArchive ArchiveFacts DemoArchive
  SpecConform SpecialInfo SpecMarks DemoConform.
Open Scope N_scope.

Lemma not_smaller :
  exists L md5 c files arc a x y, lossless L /\ built_at L md5 c files arc [] [] /\ open_archive L arc = Ok a /\
    In (pf_name x) (map pf_name files) /\ In (pf_name y) (map pf_name files) /\
    exists fx fy, find_file a (pf_name x) = Ok (Some fx) /\ find_file a (pf_name y) = Ok (Some fy) /\
      is_compressed (fi_flags fx) = true /\ fi_csize fx = fi_size fx /\
      is_compressed (fi_flags fy) = false /\ fi_size fy < fi_csize fy.
Proof.
  exists toy, no_md5, conf_cfg, conf_files, conf_bytes, conf_arc, even_file, plain_file.
  split; [exact toy_lossless|]. split; [exact conf_built|]. split; [exact conf_opens|].
  split; [cbn [map In conf_files]; tauto|]. split; [cbn [map In conf_files]; tauto|].
  exists (conf_info (pf_name even_file)), (conf_info (pf_name plain_file)). vm_compute. repeat split.
Qed.

Definition odd_file := mkPF (lit "open") (lit "odd.txt") 0 false true 0.
Definition odd_arc : bytes :=
  Eval vm_compute in match build toy no_md5 bad_cfg [odd_file] with Ok a => a | _ => [] end.
Lemma fix_not_told :
  exists L md5 c f arc a fi, lossless L /\ built_at L md5 c [f] arc [] [] /\ open_archive L arc = Ok a /\
    pf_fix f = true /\ find_file a (pf_name f) = Ok (Some fi) /\ has_fix_key (fi_flags fi) = false.
Proof.
  destruct (open_archive toy odd_arc) as [a| |] eqn:Ho; [|vm_compute in Ho; discriminate..].
  destruct (find_file a (pf_name odd_file)) as [[fi|]| |] eqn:Hf;
    [|exfalso; vm_compute in Ho; injection Ho as <-; vm_compute in Hf; discriminate..].
  exists toy, no_md5, bad_cfg, odd_file, odd_arc, a, fi.
  split; [exact toy_lossless|]. split.
  { apply one_file_built; [left; reflexivity| |vm_compute; reflexivity|vm_compute; reflexivity].
    split; [reflexivity|]. split; [reflexivity|]. intros f [<-|[]]. split; reflexivity. }
  split; [exact Ho|]. split; [reflexivity|]. split; [exact Hf|].
  vm_compute in Ho. injection Ho as <-. vm_compute in Hf. injection Hf as <-. reflexivity.
Qed.

Lemma special_iff name : (exists si, special_info name = Some si) <->
  In name [lit "(listfile)"; lit "(attributes)"; lit "(signature)"; lit "(user data)"].
Proof.
  split.
  - intros (si & H). unfold special_info in H.
    destruct (bytes_eqb name (lit "(listfile)")) eqn:E1; [apply bytes_eqb_eq in E1; left; congruence|].
    destruct (bytes_eqb name (lit "(attributes)")) eqn:E2; [apply bytes_eqb_eq in E2; right; left; congruence|].
    destruct (bytes_eqb name (lit "(signature)")) eqn:E3; [apply bytes_eqb_eq in E3; right; right; left; congruence|].
    destruct (bytes_eqb name (lit "(user data)")) eqn:E4; [apply bytes_eqb_eq in E4; right; right; right; left; congruence|].
    discriminate.
  - intros [<-|[<-|[<-|[<-|[]]]]]; eexists; vm_compute; reflexivity.
Qed.

Lemma special_says name si : special_info name = Some si ->
  si_name si = name /\ si_encrypted si = false /\
  (si_compressed si = true <-> name = lit "(listfile)" \/ name = lit "(attributes)").
Proof.
  intros H. assert (Hi : exists si, special_info name = Some si) by eauto.
  apply special_iff in Hi. destruct Hi as [<-|[<-|[<-|[<-|[]]]]]; vm_compute in H; injection H as <-.
  all: split; [reflexivity|]; split; [reflexivity|]; cbn [si_compressed].
  - split; auto.
  - split; auto.
  - split; [discriminate|]. intros [H|H]; vm_compute in H; discriminate.
  - split; [discriminate|]. intros [H|H]; vm_compute in H; discriminate.
Qed.

Lemma F2_len {A B} (P : A -> B -> Prop) l m : Forall2 P l m -> length l = length m.
Proof. induction 1; cbn [length]; congruence. Qed.
Lemma demo_listfile_added :
  built_at toy no_md5 demo_cfg demo_files demo_arc demo_pre demo_post /\ c_listfile demo_cfg <> LNone /\
  forall f, In f demo_files -> ~ name_equiv special_listfile (pf_name f).
Proof.
  split; [exact demo_built_at|]. split; [discriminate|]. intros f Hf H.
  apply (F2_len _ _ _) in H.
  repeat (destruct Hf as [<-|Hf]; [vm_compute in H; discriminate|]). destruct Hf.
Qed.

Lemma special_wrong :
  exists L md5 c files arc pre post a name fi si other,
    lossless L /\ built_at L md5 c files arc pre post /\ c_listfile c = LGenerate /\
    open_archive L (pre ++ arc ++ post) = Ok a /\ find_file a name = Ok (Some fi) /\
    special_info name = Some si /\ si_compressed si = true /\ is_compressed (fi_flags fi) = false /\
    find_file a other = Ok (Some fi) /\ special_info other = None.
Proof.
  destruct (open_archive toy demo_file) as [a| |] eqn:Ho; [|vm_compute in Ho; discriminate..].
  destruct (find_file a (lit "(listfile)")) as [[fi|]| |] eqn:Hf;
    [|exfalso; vm_compute in Ho; injection Ho as <-; vm_compute in Hf; discriminate..].
  exists toy, no_md5, demo_cfg, demo_files, demo_arc, demo_pre, demo_post, a, (lit "(listfile)"), fi,
    (mkSI (lit "(listfile)") false true), (lit "(ListFile)").
  split; [exact toy_lossless|]. split; [exact demo_built_at|]. split; [reflexivity|]. split; [exact Ho|].
  split; [exact Hf|].
  vm_compute in Ho. injection Ho as <-. vm_compute in Hf. injection Hf as <-.
  split; [vm_compute; reflexivity|]. split; [reflexivity|]. split; [vm_compute; reflexivity|].
  split; [vm_compute; reflexivity|vm_compute; reflexivity].
Qed.

Lemma demo_listed : exists a es,
  built_at toy no_md5 demo_cfg demo_files demo_arc demo_pre demo_post /\
  open_archive toy demo_file = Ok a /\ find_file a special_listfile <> Ok None /\ list_files toy a = Ok es /\
  map (fun x => (fe_size x, is_encrypted (fe_flags x), is_compressed (fe_flags x))) es =
    map (fun f => (lenN (pf_data f), pf_encrypt f, 100 <? lenN (pf_data f))) demo_files ++ [(48, false, false)].
Proof.
  destruct (open_archive toy demo_file) as [a| |] eqn:Ho; [|vm_compute in Ho; discriminate..].
  destruct (list_files toy a) as [es| |] eqn:Hf;
    [|exfalso; vm_compute in Ho; injection Ho as <-; vm_compute in Hf; discriminate..].
  exists a, es. split; [exact demo_built_at|]. split; [reflexivity|].
  vm_compute in Ho. injection Ho as <-. split; [vm_compute; discriminate|]. split; [exact Hf|].
  vm_compute in Hf. apply Ok_inj in Hf. subst es. vm_compute. reflexivity.
Qed.
