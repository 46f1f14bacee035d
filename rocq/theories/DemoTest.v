(** * Test archives: paths, and what the configuration asks for in vain *)
From Coq Require Import Lia FinFun.
From Verif Require Import Bytes Header Compress SpecCompress ToyCodec Listfile Builder Archive DemoArchive FileSystem SpecBuilding TestArchives SpecTest TestFacts TestPresets.
Open Scope N_scope.

(** ** Paths *)
Definition dotless (n : bytes) : Prop := ~ In DOT n.
Lemma until_dot_none r : ~ In DOT r -> until_dot r = None.
Proof.
  induction r as [|b r IH]; intros H; [reflexivity|]. cbn [until_dot].
  destruct (beqb b DOT) eqn:E; [apply beqb_eq in E; elim H; left; exact E|]. apply IH. intros C. apply H. now right.
Qed.
Lemma stem_dotless n : dotless n -> stem n = n.
Proof. intros H. unfold stem. rewrite until_dot_none; [reflexivity|]. intros C. apply H. now apply in_rev. Qed.
Lemma dotless_path dir t : dotless (tc_name t) -> archive_path dir t = mkPath dir (tc_name t ++ lit ".mpq").
Proof. intros H. unfold archive_path. now rewrite stem_dotless. Qed.

Definition preset_names : list bytes :=
  [lit "minimal_v1"; lit "minimal_v2"; lit "minimal_v3"; lit "minimal_v4"; lit "compressed_zlib"; lit "compressed_bzip2";
   lit "compressed_lzma"; lit "compressed_sparse"; lit "encrypted"; lit "edge_cases"; lit "comprehensive_v2"; lit "comprehensive_v4"; lit "crc_test"].
Lemma names_presets random : map tc_name (all_configs random) = preset_names.
Proof. reflexivity. Qed.
Lemma preset_paths random dir : map (archive_path dir) (all_configs random) = map (fun n => mkPath dir (n ++ lit ".mpq")) preset_names.
Proof.
  rewrite <- (names_presets random), map_map. apply map_ext_in. intros t Ht. apply dotless_path.
  apply (in_map tc_name) in Ht. rewrite names_presets in Ht.
  assert (G : forallb (fun n => negb (existsb (beqb DOT) n)) preset_names = true) by (vm_compute; reflexivity).
  rewrite forallb_forall in G. specialize (G _ Ht). intros C. apply negb_true_iff in G.
  assert (E : existsb (beqb DOT) (tc_name t) = true) by (apply existsb_exists; exists DOT; split; [exact C|now apply beqb_eq]). congruence.
Qed.
Lemma preset_paths_distinct random dir : NoDup (map (archive_path dir) (all_configs random)).
Proof.
  rewrite preset_paths. apply FinFun.Injective_map_NoDup.
  - intros x y E. injection E as E. now apply app_inv_tail in E.
  - unfold preset_names. repeat (apply NoDup_cons; [cbn [In]; intros C; repeat (destruct C as [C|C]; [vm_compute in C; discriminate C|]); exact C|]). apply NoDup_nil.
Qed.
Lemma presets_created L md5 random dir w0 w ps :
  steps (create_all_test_archives L md5 random dir, w0) (Ret (Ok ps), w) ->
  ps = map (archive_path dir) (all_configs random) /\ forall t, In t (all_configs random) ->
    exists arc, build L md5 (test_config t) (test_files t) = Ok arc /\ w_files w (archive_path dir t) = Some arc.
Proof. apply each_created. apply preset_paths_distinct. Qed.
Lemma presets_succeed L md5 random dir w0 :
  calm_encoders L -> willing_encoders L -> (forall x, lenN (md5 x) = 16) -> (forall n, lenN (random n) = n) ->
  w_fault w0 = false -> (exists n, temp_name n /\ w_files w0 (mkPath dir n) = None) ->
  exists w ps, steps (create_all_test_archives L md5 random dir, w0) (Ret (Ok ps), w) /\ w_fault w = false.
Proof.
  intros HC HW H16 HR Hf Hn. destruct (each_succeeds L md5 dir (all_configs random) w0) as (w & H & F); auto.
  - intros t Ht. now apply (all_created L md5 random).
  - exists w. eexists. split; [exact H|exact F].
Qed.
Lemma same_path : exists dir t u, tc_name t <> tc_name u /\ archive_path dir t = archive_path dir u.
Proof.
  exists (lit "out"), (mkTC (lit "test.1") V1 [] None None true false), (mkTC (lit "test.2") V1 [] None None true false).
  split; [vm_compute; discriminate|reflexivity].
Qed.

(** ** In vain *)
Definition plain_test : tconfig :=
  mkTC (lit "plain") V1 [mkTF (lit "a.txt") (repeat "a"%byte 100) None false false] (Some 64) None false false.
Lemma plain_packed : exists L md5 t f arc a fi, lossless L /\ In f (tc_files t) /\ tf_comp f = None /\
  build L md5 (test_config t) (test_files t) = Ok arc /\ open_archive L arc = Ok a /\ find_file a (tf_name f) = Ok (Some fi) /\
  fi_csize fi < fi_size fi.
Proof.
  exists toy, no_md5, plain_test. eexists. eexists. eexists. eexists. split; [exact toy_lossless|]. split; [left; reflexivity|]. split; [reflexivity|].
  split; [vm_compute; reflexivity|]. split; [vm_compute; reflexivity|]. split; [vm_compute; reflexivity|]. vm_compute. reflexivity.
Qed.
Lemma size_ignored : exists L md5 t arc a n, lossless L /\ tc_hash_size t = Some n /\
  build L md5 (test_config t) (test_files t) = Ok arc /\ open_archive L arc = Ok a /\ h_hash_count (a_header a) <> n.
Proof.
  exists toy, no_md5, plain_test. eexists. eexists. eexists. split; [exact toy_lossless|]. split; [reflexivity|].
  split; [vm_compute; reflexivity|]. split; [vm_compute; reflexivity|]. vm_compute. discriminate.
Qed.
(** Bit 26 is the flag of checksums. *)
Lemma crc_absent : exists L md5 arc a fi, lossless L /\
  build L md5 (test_config with_crc) (test_files with_crc) = Ok arc /\ open_archive L arc = Ok a /\
  find_file a (lit "crc_protected.dat") = Ok (Some fi) /\ N.testbit (fi_flags fi) 26 = false.
Proof.
  exists toy, no_md5. eexists. eexists. eexists. split; [exact toy_lossless|].
  split; [vm_compute; reflexivity|]. split; [vm_compute; reflexivity|]. split; [vm_compute; reflexivity|]. vm_compute. reflexivity.
Qed.
