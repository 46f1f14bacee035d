(** * C59: packing a directory from the command line *)
From Verif Require Import Bytes Crypto SpecNames Header Compress SpecTables SpecCompress ToyCodec CompressFacts Listfile SpecListfile
  Builder SpecBuilding BuildCalm Archive SpecArchive SpecArchive34 DemoArchive DemoSuccess DemoCli Cli SpecCli CliFacts CliCreate SpecCreate CreateFacts EndToEnd DemoCreate.
Open Scope N_scope.

(** Exactly the wanted files of the tree are packed, each once, each under its path
    below the directory. *)
Theorem C59_packs_the_tree :
  forall (L : codecs) (md5 : bytes -> bytes) (c : config) (src : bytes) (follow deep : bool) (pats : list bytes) (t : tree),
  is_text src -> proper t -> (deep = true -> ~ hidden follow t) ->
  (forall p d, file_at follow t p d -> wanted src deep pats p -> is_text (path_below src p) /\ d <> None) ->
  exists walk,
    create_archive L md5 c src follow deep pats (SDir true t) = build L md5 c (create_files c walk) /\
    (forall p d, In (mkFound p d) walk <-> file_at follow t p (Some d) /\ wanted src deep pats p) /\
    NoDup (map f_parts walk).
Proof. exact created. Qed.
Print Assumptions C59_packs_the_tree.

(** The premises are needed: an archive is written only if every directory could be
    listed, every wanted file could be read, and its path is text. *)
Theorem C59_all_or_nothing :
  forall (L : codecs) (md5 : bytes -> bytes) (c : config) (src : bytes) (follow deep : bool) (pats : list bytes) (ok : bool)
    (t : tree) (arc : bytes),
  proper t -> create_archive L md5 c src follow deep pats (SDir ok t) = Ok arc ->
  ok = true /\ (deep = true -> ~ hidden follow t) /\
  forall p d, file_at follow t p d -> wanted src deep pats p -> is_text (path_below src p) /\ d <> None.
Proof. exact created_only. Qed.
Print Assumptions C59_all_or_nothing.

(** A single file is packed under its name. *)
Theorem C59_single_file :
  forall (L : codecs) (md5 : bytes -> bytes) (c : config) (pre name : bytes) (follow deep : bool) (pats : list bytes) (d : bytes),
  ordinary name -> name <> lit "." -> name <> lit ".." -> is_text name -> pre = [] \/ (exists r, pre = r ++ lit "/") ->
  create_archive L md5 c (pre ++ name) follow deep pats (SFile (Some d)) = build L md5 c [mkPF d name (c_default c) false false 0].
Proof. exact single. Qed.
Print Assumptions C59_single_file.

(** Packed and unpacked: the wanted files of the tree, and they only, are below the
    output directory.  What is missing: contents of more than four thousand million bytes, and what
    C42 leaves out. *)
Theorem C59_there_and_back_partial :
  forall (L : codecs) (md5 : bytes -> bytes) (c : config) (src : bytes) (follow deep : bool) (pats : list bytes) (t : tree)
    (walk : list found),
  is_text src -> proper t ->
  added src follow deep pats true t = Ok (map (fun f => (f_parts f, Some (f_data f))) walk) ->
  (forall p d, file_at follow t p (Some d) -> wanted src deep pats p ->
     Forall component p /\ listable (with_slashes p) /\ ~ name_equiv (lit "(listfile)") (with_slashes p) /\
     reads_back L c (c_default c) d) ->
  lossless L -> calm_encoders L -> c_listfile c = LGenerate -> c_block_size c < 55 -> c_default c < 256 ->
  Forall (packable L c) (all_stored c (create_files c walk)) -> all_distinct (all_names c (create_files c walk)) ->
  no_collision (special_listfile :: map pf_name (create_files c walk)) ->
  hashes_apart special_attributes (special_listfile :: map pf_name (create_files c walk)) ->
  reads_back L c (c_default c) (listfile_content (map pf_name (create_files c walk))) ->
  forall (cwd : place) (dir : bytes) (dl : place), c_version c = V1 \/ c_version c = V2 ->
  within_limits c (create_files c walk) -> leads cwd dir dl ->
  exists arc acts, create_archive L md5 c src follow deep pats (SDir true t) = Ok arc /\
    extract L arc None (Some dir) true = (acts, Ok tt) /\ restored src follow deep pats t cwd dl acts.
Proof. exact there_and_back12. Qed.
Print Assumptions C59_there_and_back_partial.

(** Versions 3 and 4 with at most three files; what is missing: more files, see C18 and C42. *)
Theorem C59_there_and_back_v3_v4_partial :
  forall (L : codecs) (md5 : bytes -> bytes) (c : config) (src : bytes) (follow deep : bool) (pats : list bytes) (t : tree)
    (walk : list found),
  is_text src -> proper t ->
  added src follow deep pats true t = Ok (map (fun f => (f_parts f, Some (f_data f))) walk) ->
  (forall p d, file_at follow t p (Some d) -> wanted src deep pats p ->
     Forall component p /\ listable (with_slashes p) /\ ~ name_equiv (lit "(listfile)") (with_slashes p) /\
     reads_back L c (c_default c) d) ->
  lossless L -> calm_encoders L -> c_listfile c = LGenerate -> c_block_size c < 55 -> c_default c < 256 ->
  Forall (packable L c) (all_stored c (create_files c walk)) -> all_distinct (all_names c (create_files c walk)) ->
  no_collision (special_listfile :: map pf_name (create_files c walk)) ->
  hashes_apart special_attributes (special_listfile :: map pf_name (create_files c walk)) ->
  reads_back L c (c_default c) (listfile_content (map pf_name (create_files c walk))) ->
  forall (cwd : place) (dir : bytes) (dl : place), c_version c = V3 \/ c_version c = V4 -> c_ctables c = false ->
  (forall x, lenN (md5 x) = 16) -> lenN walk <= 3 ->
  narrow (all_contents c (create_files c walk)) -> leads cwd dir dl ->
  exists arc acts, create_archive L md5 c src follow deep pats (SDir true t) = Ok arc /\
    extract L arc None (Some dir) true = (acts, Ok tt) /\ restored src follow deep pats t cwd dl acts.
Proof. exact there_and_back34. Qed.
Print Assumptions C59_there_and_back_v3_v4_partial.

(** A link to a directory is not followed, a file that matches a pattern is left out. *)
Example C59_example :
  forall v, exists arc acts, create_archive toy no_md5 (demo_cfg v) (lit "src") false true [lit ".tmp"] (SDir true demo_tree) = Ok arc /\
    extract toy arc None (Some (lit "out")) true = (acts, Ok tt) /\
    restored (lit "src") false true [lit ".tmp"] demo_tree [lit "home"] [lit "home"; lit "out"] acts /\
    file_at false demo_tree [lit "sub"; lit "b.txt"] (Some (repeat x41 600)) /\ wanted (lit "src") true [lit ".tmp"] [lit "sub"; lit "b.txt"].
Proof.
  intros v. assert (Hl : leads [lit "home"] (lit "out") [lit "home"; lit "out"]) by now apply leads_loc.
  assert (H : exists arc acts, create_archive toy no_md5 (demo_cfg v) (lit "src") false true [lit ".tmp"] (SDir true demo_tree) = Ok arc /\
    extract toy arc None (Some (lit "out")) true = (acts, Ok tt) /\
    restored (lit "src") false true [lit ".tmp"] demo_tree [lit "home"] [lit "home"; lit "out"] acts).
  { assert (Hmd : forall x, lenN (no_md5 x) = 16) by reflexivity. destruct (version_ge v V3) eqn:Hv3.
    - assert (Hv : v = V3 \/ v = V4) by (destruct v; try discriminate Hv3; auto).
      exact (C59_there_and_back_v3_v4_partial toy no_md5 (demo_cfg v) (lit "src") false true [lit ".tmp"] demo_tree demo_walk src_text demo_proper
        demo_added (demo_fine v) toy_lossless toy_calm eq_refl eq_refl eq_refl (demo_packable v) (demo_distinct v) (demo_no_collision v)
        (demo_apart v) (demo_list v) [lit "home"] (lit "out") [lit "home"; lit "out"] Hv eq_refl Hmd
        ltac:(vm_compute; discriminate) ltac:(apply narrow_small; vm_compute; discriminate) Hl).
    - assert (Hv : v = V1 \/ v = V2) by (destruct v; try discriminate Hv3; auto).
      assert (Hr : total_room (all_contents (demo_cfg v) (create_files (demo_cfg v) demo_walk)) <= 2 ^ 28) by (vm_compute; discriminate).
      exact (C59_there_and_back_partial toy no_md5 (demo_cfg v) (lit "src") false true [lit ".tmp"] demo_tree demo_walk src_text demo_proper
        demo_added (demo_fine v) toy_lossless toy_calm eq_refl eq_refl eq_refl (demo_packable v) (demo_distinct v) (demo_no_collision v)
        (demo_apart v) (demo_list v) [lit "home"] (lit "out") [lit "home"; lit "out"] Hv (small_within (demo_cfg v) _ Hv Hr) Hl). }
  destruct H as (arc & acts & H1 & H2 & H3).
  exists arc, acts. split; [exact H1|]. split; [exact H2|]. split; [exact H3|].
  apply (in_walk _ _ _ _ _ _ demo_proper demo_added). right. left. reflexivity.
Qed.

(** ** Findings *)
(** The patterns of the documentation, ["*.tmp"] and ["*.log"], leave nothing out: they
    are looked for literally. *)
Theorem C59_star_refuted :
  create_archive toy no_md5 cli_cfg (lit "src/") false true [lit "*.tmp"; lit "*.log"] (SDir true star_tree) = Ok star_arc /\
  exists a, open_archive toy star_arc = Ok a /\ read_file toy a (lit "notes.tmp") = Ok (lit "junk").
Proof. exact star_packs. Qed.
Print Assumptions C59_star_refuted.
Theorem C59_star_keeps_all :
  forall (src : bytes) (deep : bool) (pats : list bytes) (p : list bytes),
  is_text (path_below src p) -> is_text (last p []) ->
  ~ In "*"%byte (path_below src p) -> ~ In "*"%byte (last p []) -> (forall pat, In pat pats -> In "*"%byte pat) ->
  deep = true \/ length p = 1%nat -> wanted src deep pats p.
Proof. exact star_keeps. Qed.
Print Assumptions C59_star_keeps_all.

(** A pattern that appears in the path of the source directory itself leaves out every
    file, and a new archive without files is written. *)
Theorem C59_own_path_refuted :
  forall (L : codecs) (md5 : bytes -> bytes) (c : config) (src : bytes) (follow deep : bool) (pats : list bytes) (pat : bytes) (t : tree),
  is_text src -> proper t -> (deep = true -> ~ hidden follow t) -> In pat pats -> appears pat src ->
  create_archive L md5 c src follow deep pats (SDir true t) = build L md5 c [].
Proof. exact own_path_drops_all. Qed.
Print Assumptions C59_own_path_refuted.

(** A file name that is not text stops the program. *)
Theorem C59_not_text_refuted :
  forall (L : codecs) (md5 : bytes -> bytes) (c : config),
  create_archive L md5 c (lit "src") false true [] (SDir true (TCons [xff] (NFile (Some [])) TNil)) = Panic.
Proof. exact (fun L md5 c => eq_refl). Qed.
Print Assumptions C59_not_text_refuted.

Example C59_refuted_example :
  create_archive toy no_md5 cli_cfg (lit "tmp/src") false true [lit "tmp"] (SDir true star_tree) = build toy no_md5 cli_cfg [].
Proof.
  apply (C59_own_path_refuted toy no_md5 cli_cfg (lit "tmp/src") false true [lit "tmp"] (lit "tmp")).
  - apply ListfileFacts.text_ascii. repeat constructor.
  - exact star_proper.
  - intros _ H. inversion H as [? ? ? ? X|? ? ? ? X]; inversion X as [|? ? ? ? ? Y]; inversion Y.
  - now left.
  - exists [], (lit "/src"). reflexivity.
Qed.
