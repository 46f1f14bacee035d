(** * Property C83: the archives made for tests. *)
From Coq Require Import Lia.
From Verif Require Import Bytes Header Compress SpecNames HashTable SpecTables SpecCompress ToyCodec Listfile Builder BuilderFacts Archive SpecArchive SpecArchive34
  SpecNameTable SpecBuilding FileSystem BuildIo SpecBuild PropBuild TestArchives SpecTest TestFacts TestPresets DemoArchive DemoSuccess DemoTest.
Open Scope N_scope.

(** What creating a test archive leaves behind: the archive that the builder makes of
    the configuration's files, lists and attributes, at a path made of its name. *)
Theorem C83_created : forall (L : codecs) (md5 : bytes -> bytes) (dir : bytes) (t : tconfig) (w0 w : world) (p : path),
  steps (create_test_archive L md5 dir t, w0) (Ret (Ok p), w) ->
  (exists s, without_extension (tc_name t) s /\ p = mkPath dir (s ++ lit ".mpq")) /\
  exists arc, build L md5 (test_config t) (test_files t) = Ok arc /\ w_files w p = Some arc.
Proof. exact test_created_named. Qed.
Print Assumptions C83_created.
Example C83_path_example : without_extension (lit "a.b.c") (lit "a.b") /\ without_extension (lit ".a") (lit ".a").
Proof. exact (conj (stem_ok (lit "a.b.c")) (stem_ok (lit ".a"))). Qed.

(** Creating all of them: if it succeeds, every one of the thirteen is there in the end. *)
Theorem C83_all_created : forall (L : codecs) (md5 : bytes -> bytes) (random : N -> bytes) (dir : bytes) (w0 w : world) (ps : list path),
  steps (create_all_test_archives L md5 random dir, w0) (Ret (Ok ps), w) ->
  ps = map (archive_path dir) (all_configs random) /\ forall t, In t (all_configs random) ->
    exists arc, build L md5 (test_config t) (test_files t) = Ok arc /\ w_files w (archive_path dir t) = Some arc.
Proof. exact presets_created. Qed.
Print Assumptions C83_all_created.

(** And it can succeed, unless a call of the system fails or no temporary name is free. *)
Theorem C83_all_succeed : forall (L : codecs) (md5 : bytes -> bytes) (random : N -> bytes) (dir : bytes) (w0 : world),
  calm_encoders L -> willing_encoders L -> (forall x, lenN (md5 x) = 16) -> (forall n, lenN (random n) = n) ->
  w_fault w0 = false -> (exists n, temp_name n /\ w_files w0 (mkPath dir n) = None) ->
  exists w ps, steps (create_all_test_archives L md5 random dir, w0) (Ret (Ok ps), w) /\ w_fault w = false.
Proof. exact presets_succeed. Qed.
Print Assumptions C83_all_succeed.

(** The generated contents, byte by byte *)
Theorem C83_compressible : forall (size : N), lenN (generate_compressible_data size) = size /\
  forall i, i < size -> nthN (generate_compressible_data size) i =
    nthN (lit "This is test data that should compress well because it has repeated patterns. ") (i mod 78).
Proof. exact compressible_ok. Qed.
Print Assumptions C83_compressible.
Theorem C83_binary : forall (size : N), lenN (generate_binary_pattern size) = size /\
  forall i, i < size -> nthN (generate_binary_pattern size) i = Some (Nb (i mod 256)).
Proof. exact binary_ok. Qed.
Print Assumptions C83_binary.
Theorem C83_attributes : forall (t : tconfig), fake_attributes t (generate_attributes (tc_files t)).
Proof. exact attributes_fake. Qed.
Print Assumptions C83_attributes.

(** A list included by hand comes behind the files and has their names, one per line. *)
Theorem C83_list : forall (t : tconfig), tc_listfile t = true ->
  exists d before after, test_files t = before ++ mkPF d (lit "(listfile)") 2 false false 0 :: after /\
    length before = length (tc_files t) /\ one_per_line (map tf_name (tc_files t)) d.
Proof. exact test_list. Qed.
Print Assumptions C83_list.
Example C83_list_example : tc_listfile (comprehensive V4) = true /\
  one_per_line [lit "a"; lit "b"] (lit "a" ++ "010"%byte :: lit "b").
Proof. split; reflexivity. Qed.

(** All thirteen configurations can be built. *)
Theorem C83_all_built : forall (L : codecs) (md5 : bytes -> bytes) (random : N -> bytes) (t : tconfig),
  calm_encoders L -> willing_encoders L -> (forall x, lenN (md5 x) = 16) -> (forall n, lenN (random n) = n) ->
  In t (all_configs random) ->
  exists arc, build L md5 (test_config t) (test_files t) = Ok arc.
Proof. exact all_created. Qed.
Print Assumptions C83_all_built.

(** Those without attributes can be opened, and the files that the format brings back
    (C10, C11) are read. *)
Theorem C83_readable_partial : forall (L : codecs) (md5 : bytes -> bytes) (random : N -> bytes) (t : tconfig),
  lossless L -> calm_encoders L -> willing_encoders L -> (forall x, lenN (md5 x) = 16) -> (forall n, lenN (random n) = n) ->
  In t (all_configs random) -> tc_attributes t = false ->
  exists arc a, build L md5 (test_config t) (test_files t) = Ok arc /\ open_archive L arc = Ok a /\
    forall f, In f (tc_files t) -> reads_back L (test_config t) (test_method f) (tf_data f) -> read_file L a (tf_name f) = Ok (tf_data f).
Proof. exact others_read. Qed.
Print Assumptions C83_readable_partial.

(** Those with attributes are built, but can never be opened: what is written there
    is no set of attributes. *)
Theorem C83_openable_refuted : forall (L : codecs) (md5 : bytes -> bytes) (random : N -> bytes) (t : tconfig),
  lossless L -> calm_encoders L -> willing_encoders L -> (forall x, lenN (md5 x) = 16) ->
  In t (all_configs random) -> tc_attributes t = true ->
  exists arc, build L md5 (test_config t) (test_files t) = Ok arc /\ open_archive L arc = Err EInvalidFormat.
Proof. exact some_refused. Qed.
Print Assumptions C83_openable_refuted.
Theorem C83_refused_v1_v2 : forall (L : codecs) (md5 : bytes -> bytes) (t : tconfig) (arc pre post : bytes),
  lossless L -> built_at L md5 (test_config t) (test_files t) arc pre post ->
  no_collision (lit "(listfile)" :: map pf_name (test_files t)) -> tc_attributes t = true ->
  (forall f, In f (tc_files t) -> ~ name_equiv (lit "(attributes)") (tf_name f)) ->
  8 + 8 * lenN (tc_files t) <= sector_bytes (test_config t) -> lenN (tc_files t) < 2 ^ 20 ->
  open_archive L (pre ++ arc ++ post) = Err EInvalidFormat.
Proof. exact test_refused12. Qed.
Print Assumptions C83_refused_v1_v2.
Theorem C83_refused_v3_v4 : forall (L : codecs) (md5 : bytes -> bytes) (t : tconfig) (arc pre post : bytes),
  lossless L -> built34_at L md5 (test_config t) (test_files t) arc pre post ->
  no_collision (lit "(listfile)" :: map pf_name (test_files t)) -> tc_attributes t = true ->
  ~ mistaken (test_config t) (test_files t) (lit "(attributes)") ->
  (forall f, In f (tc_files t) -> ~ name_equiv (lit "(attributes)") (tf_name f)) ->
  8 + 8 * lenN (tc_files t) <= sector_bytes (test_config t) -> lenN (tc_files t) < 2 ^ 20 ->
  open_archive L (pre ++ arc ++ post) = Err EInvalidFormat.
Proof. exact test_refused34. Qed.
Print Assumptions C83_refused_v3_v4.

(** "No compression" of a file that is not encrypted means zlib. *)
Theorem C83_uncompressed_refuted : exists L md5 t f arc a fi, lossless L /\ In f (tc_files t) /\ tf_comp f = None /\
  build L md5 (test_config t) (test_files t) = Ok arc /\ open_archive L arc = Ok a /\ find_file a (tf_name f) = Ok (Some fi) /\
  fi_csize fi < fi_size fi.
Proof. exact plain_packed. Qed.
Print Assumptions C83_uncompressed_refuted.

(** The size of the hash table that is asked for is not what the archive gets. *)
Theorem C83_hash_size_refuted : exists L md5 t arc a n, lossless L /\ tc_hash_size t = Some n /\
  build L md5 (test_config t) (test_files t) = Ok arc /\ open_archive L arc = Ok a /\ h_hash_count (a_header a) <> n.
Proof. exact size_ignored. Qed.
Print Assumptions C83_hash_size_refuted.

(** The archive for testing checksums has none (bit 26 says whether a file has). *)
Theorem C83_checksums_refuted : exists L md5 arc a fi, lossless L /\
  build L md5 (test_config with_crc) (test_files with_crc) = Ok arc /\ open_archive L arc = Ok a /\
  find_file a (lit "crc_protected.dat") = Ok (Some fi) /\ N.testbit (fi_flags fi) 26 = false.
Proof. exact crc_absent. Qed.
Print Assumptions C83_checksums_refuted.

(** The thirteen configurations, in outline *)
Theorem C83_presets : forall (random : N -> bytes), (forall n, lenN (random n) = n) ->
  map outline (all_configs random) = outlines.
Proof. exact preset_outlines. Qed.
Print Assumptions C83_presets.

(** The thirteen archives have thirteen different paths; configurations with different
    names need not. *)
Theorem C83_paths : forall (random : N -> bytes) (dir : bytes), map (archive_path dir) (all_configs random) =
  map (fun n => mkPath dir (n ++ lit ".mpq"))
    [lit "minimal_v1"; lit "minimal_v2"; lit "minimal_v3"; lit "minimal_v4"; lit "compressed_zlib"; lit "compressed_bzip2";
     lit "compressed_lzma"; lit "compressed_sparse"; lit "encrypted"; lit "edge_cases"; lit "comprehensive_v2"; lit "comprehensive_v4"; lit "crc_test"].
Proof. exact preset_paths. Qed.
Print Assumptions C83_paths.
Theorem C83_paths_distinct : forall (random : N -> bytes) (dir : bytes), NoDup (map (archive_path dir) (all_configs random)).
Proof. exact preset_paths_distinct. Qed.
Print Assumptions C83_paths_distinct.
Theorem C83_same_path_refuted : exists dir t u, tc_name t <> tc_name u /\ archive_path dir t = archive_path dir u.
Proof. exact same_path. Qed.
Print Assumptions C83_same_path_refuted.

(** The hypotheses about third-party encoders, digests and random data can be met, and
    both kinds of configuration occur. *)
Example C83_example :
  (exists arc, build toy no_md5 (test_config (comprehensive V4)) (test_files (comprehensive V4)) = Ok arc /\
     open_archive toy arc = Err EInvalidFormat) /\
  (exists arc a, build toy no_md5 (test_config encrypted) (test_files encrypted) = Ok arc /\ open_archive toy arc = Ok a /\
     read_file toy a (lit "fixed_key.dat") = Ok (lit "This uses fix key encryption!")).
Proof.
  assert (R : forall n, lenN (zeros n) = n) by (intros; apply zeros_length).
  split.
  - apply (C83_openable_refuted toy no_md5 zeros); auto using toy_lossless, toy_calm, toy_willing.
    apply in_or_app. right. apply in_or_app. right. right. right. right. now left.
  - destruct (C83_readable_partial toy no_md5 zeros encrypted) as (arc & a & E & Ho & H);
      auto using toy_lossless, toy_calm, toy_willing.
    + apply in_or_app. right. apply in_or_app. right. now left.
    + exists arc, a. split; [exact E|]. split; [exact Ho|].
      refine (H (mkTF (lit "fixed_key.dat") (lit "This uses fix key encryption!") None true true) _ _); [right; now left|].
      left. split; [vm_compute; discriminate|]. split; [vm_compute; reflexivity|]. now left.
Qed.
(** On an empty disk: all are created, one of them is [encrypted.mpq]. *)
Example C83_created_example : exists w ps arc,
  steps (create_all_test_archives toy no_md5 zeros (lit "out"), mkW (fun _ => None) 0 false) (Ret (Ok ps), w) /\
  w_files w (mkPath (lit "out") (lit "encrypted.mpq")) = Some arc /\ build toy no_md5 (test_config encrypted) (test_files encrypted) = Ok arc.
Proof.
  destruct (C83_all_succeed toy no_md5 zeros (lit "out") (mkW (fun _ => None) 0 false) toy_calm toy_willing
    (fun _ => eq_refl) zeros_length eq_refl) as (w & ps & H & _).
  { exists (lit ".tmpABCDEF"). split; [|reflexivity]. exists (lit "ABCDEF"). split; [reflexivity|]. split; [reflexivity|].
    apply Forall_forall. intros b Hb. right. left. repeat (destruct Hb as [<-|Hb]; [split; vm_compute; discriminate|]). destruct Hb. }
  destruct (C83_all_created toy no_md5 zeros (lit "out") _ w ps H) as [_ G].
  destruct (G encrypted) as (arc & E & F); [apply in_or_app; right; apply in_or_app; right; now left|].
  exists w, ps, arc. split; [exact H|]. split; [exact F|exact E].
Qed.
Example C83_attributes_example :
  generate_attributes [mkTF (lit "a") (lit "four") None false false] = le32 100 ++ le32 3 ++ le32 4 ++ le32 0x5F000000.
Proof. vm_compute. reflexivity. Qed.
