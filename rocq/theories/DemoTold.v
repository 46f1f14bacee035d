(** * Concrete runs for the statements about extracting and creating, and what verification promises about extracting *)
From Verif Require Import Bytes Header Compress SpecCompress ToyCodec Builder Archive Signature Info Cli SpecCli CliBuilt CliCreate CliVerify
  SpecReport SpecCliList SpecVerifyText CliTold SpecTold ToldFacts DemoArchive DemoCli DemoOther DemoReport DemoVerify.
From Verif Require DemoCreate.
Open Scope N_scope.

(** ** After a successful verification of the contents extracting complains about nothing and counts right. *)
Lemma verified_count L md5 sha1 rd why file output pres a l evs :
  verify L md5 sha1 rd file true = Ok tt -> open_archive L file = Ok a -> list_files L a = Ok l -> lenN l < 2 ^ 64 ->
  extract_told L why false file None output pres = (evs, Ok tt) ->
  err_lines evs = [] /\ lenN (writes_of (changes evs)) = lenN l.
Proof.
  intros V Ho Hl B E. apply verify_ok in V as (a' & i & l' & Ho' & _ & Hl' & V).
  rewrite Ho in Ho'. apply Ok_inj in Ho'. subst a'. rewrite Hl in Hl'. apply Ok_inj in Hl'. subst l'.
  pose proof (count_right L md5 why file output pres a l evs Ho Hl B E) as C.
  assert (X : lenN (writes_of (changes evs)) = lenN l).
  { apply (count_exact L md5 why file output pres a l evs Ho Hl B E). intros e He. exact (proj2 (V e He) eq_refl). }
  split; [|exact X]. destruct (err_lines evs) as [|x t]; [reflexivity|]. exfalso. revert C. unfold lenN at 2. cbn [length]. lia.
Qed.

(** ** An archive with one damaged file of three *)
Lemma hurt_told : exists evs, extract_told toy a_reason false hurt None (Some (lit "out")) false = (evs, Ok tt) /\
  out_lines evs = [lit "Extracted: b.txt"; lit "Extracted: (listfile)"; tick ++ lit " Extracted 3 files"] /\
  err_lines evs = [lit "Failed to extract a.txt: it cannot be read"] /\ lenN (writes_of (changes evs)) = 2.
Proof. eexists. split; [vm_compute; reflexivity|]. vm_compute. auto. Qed.

(** ** A directory with an unreadable file *)
Definition shut_tree : tree := TCons (lit "a.txt") (NFile None) TNil.
Lemma shut_told : create_told toy no_md5 false (DemoCreate.demo_cfg V1) (lit "x.mpq") (lit "src") false true [] (SDir true shut_tree) =
  ([Out (lit "Creating archive: x.mpq"); Out (lit "Added: a.txt")], Err EIo).
Proof. vm_compute. reflexivity. Qed.

Lemma tree_told : exists arc, create_told toy no_md5 false (DemoCreate.demo_cfg V1) (lit "x.mpq") (lit "src") false true [lit ".tmp"] (SDir true DemoCreate.demo_tree) =
  ([Out (lit "Creating archive: x.mpq"); Out (lit "Added: a.txt"); Out (lit "Added: sub/b.txt"); Act (AWrite (lit "x.mpq") arc);
    Out (tick ++ lit " Archive created successfully")], Ok arc).
Proof. eexists. vm_compute. reflexivity. Qed.

(** ** Everything readable *)
Lemma whole_told : verify toy no_md5 no_md5 every_read demo_arc true = Ok tt /\
  exists a l evs, open_archive toy demo_arc = Ok a /\ list_files toy a = Ok l /\
  extract_told toy a_reason false demo_arc None None true = (evs, Ok tt) /\
  lenN l = 5 /\ last (out_lines evs) [] = tick ++ lit " Extracted 5 files".
Proof.
  split; [vm_compute; reflexivity|]. do 3 eexists. split; [vm_compute; reflexivity|]. split; [vm_compute; reflexivity|].
  split; [vm_compute; reflexivity|]. vm_compute. auto.
Qed.
