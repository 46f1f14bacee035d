(** * C61: the statistics of [archive analyze]. *)
From Verif Require Import Bytes Crypto SpecNames NameFacts Header Compress SpecTables SpecCompress ToyCodec CompressFacts Listfile SpecListfile
  Builder Archive SpecArchive DemoArchive Cli DemoCli CliList SpecCliList CliAnalyze SpecAnalyze AnalyzeFacts.
Open Scope N_scope.

(** What is counted are the entries of the listing that are found: how often each
    method comes up, how often with each extension, which of them are stored with
    an unsupported method, and the sums of the sizes; the number of files is that
    of all entries. *)
Theorem C61_counts :
  forall (L : codecs) (lower : bytes -> bytes) (file : bytes) (by_ext : bool) (r : report),
  analyze_report L lower file by_ext = Ok r ->
  exists a es hs, open_archive L file = Ok a /\ list_with_hashes L a = Ok es /\ found_in a es hs /\
    (let meth := fun h : bytes * finfo => from_flags (fi_flags (snd h) mod 256) in
     tally (map (fun h => method_name (meth h)) hs) (r_methods r) /\
     (if by_ext then tally2 (map (fun h => (file_extension lower (fst h), method_name (meth h))) hs) (r_extensions r)
      else r_extensions r = []) /\
     r_unsupported r = map (fun h => (fst h, method_name (meth h))) (filter (fun h => negb (supported (meth h))) hs) /\
     r_csize r = total (fun h => fi_csize (snd h)) hs /\ r_size r = total (fun h => fi_size (snd h)) hs) /\
    r_files r = lenN es.
Proof. exact report_counts. Qed.
Print Assumptions C61_counts.

(** It ends if the sums of the sizes fit, and panics if they do not. *)
Theorem C61_ends_or_panics :
  forall (L : codecs) (lower : bytes -> bytes) (file : bytes) (a : archive) (es : list fentry)
    (hs : list (bytes * finfo)) (by_ext : bool),
  open_archive L file = Ok a -> list_with_hashes L a = Ok es -> found_in a es hs ->
  (exists r, analyze_report L lower file by_ext = Ok r) /\
    total (fun h => fi_csize (snd h)) hs < 2 ^ 64 /\ total (fun h => fi_size (snd h)) hs < 2 ^ 64 \/
  analyze_report L lower file by_ext = Panic /\
    (2 ^ 64 <= total (fun h => fi_csize (snd h)) hs \/ 2 ^ 64 <= total (fun h => fi_size (snd h)) hs).
Proof. exact report_ends. Qed.
Print Assumptions C61_ends_or_panics.

(** If the archive has a list nothing is left out. *)
Theorem C61_with_list_all_counted :
  forall (L : codecs) (a : archive) (fi : finfo) (es : list fentry) (hs : list (bytes * finfo)),
  find_file a (lit "(listfile)") = Ok (Some fi) -> list_with_hashes L a = Ok es -> found_in a es hs ->
  map fst hs = map fe_name es.
Proof. exact listed_found. Qed.
Print Assumptions C61_with_list_all_counted.

(** Different method bytes are counted under different names, and the two tables of
    supported methods agree. *)
Theorem C61_methods_apart :
  forall x y, x < 256 -> y < 256 -> method_name (from_flags x) = method_name (from_flags y) -> x = y.
Proof. exact names_apart. Qed.
Print Assumptions C61_methods_apart.
Theorem C61_tables_agree : forall m, supported_name (method_name m) = supported m.
Proof. exact names_agree. Qed.
Print Assumptions C61_tables_agree.

(** The extension is that of the last part of the path. *)
Theorem C61_extension :
  forall (lower : bytes -> bytes) (d f : bytes),
  f <> [] -> f <> lit "." -> f <> lit ".." -> ~ In "/"%byte f ->
  (forall e, extension f e -> file_extension lower f = lower e /\ file_extension lower (d ++ lit "/" ++ f) = lower e) /\
  ((forall e, ~ extension f e) ->
   file_extension lower f = lit "(no extension)" /\ file_extension lower (d ++ lit "/" ++ f) = lit "(no extension)").
Proof. exact extension_of. Qed.
Print Assumptions C61_extension.

(** The separator of MPQ names does not count: a dot in a directory makes an
    extension that reaches over the file name. *)
Theorem C61_backslash_refuted :
  forall (lower : bytes -> bytes) (b e f : bytes),
  b <> [] -> ~ In "/"%byte (b ++ e ++ f) -> ~ In "."%byte (e ++ f) ->
  file_extension lower (b ++ lit "." ++ e ++ lit "\" ++ f) = lower (e ++ lit "\" ++ f).
Proof. exact backslash_extension. Qed.
Print Assumptions C61_backslash_refuted.

(** A built archive: every file and the list, all under the method None, the sizes
    added up. *)
Theorem C61_built :
  forall (L : codecs) (md5 lower : bytes -> bytes) (c : config) (files : list pending) (arc pre post : bytes),
  lossless L -> built_at L md5 c files arc pre post -> c_listfile c = LGenerate ->
  no_collision (special_listfile :: map pf_name files) ->
  hashes_apart special_attributes (special_listfile :: map pf_name files) ->
  (forall f, In f files ->
     is_text (pf_name f) /\ listable (pf_name f) /\ ~ name_equiv special_listfile (pf_name f)) ->
  reads_back L c (c_default c) (listfile_content (map pf_name files)) ->
  forall by_ext, exists r, analyze_report L lower (pre ++ arc ++ post) by_ext = Ok r /\
    r_files r = lenN files + 1 /\ r_methods r = [(lit "None", lenN files + 1)] /\ r_unsupported r = [] /\
    ((forall f, In f files -> means files (pf_name f) f /\ lenN (pf_data f) < 2 ^ 32) ->
     lenN (listfile_content (map pf_name files)) < 2 ^ 32 ->
     r_size r = total (fun f => lenN (pf_data f)) files + lenN (listfile_content (map pf_name files))) /\
    (by_ext = true -> forall e, In e (map fst (r_extensions r)) <->
       e = file_extension lower (lit "(listfile)") \/
       exists f, In f files /\ e = file_extension lower (pf_name f)).
Proof. exact report_built. Qed.
Print Assumptions C61_built.

(** Without a list nothing is found: no method, no size, nothing unsupported, though
    the archive has a file. *)
Theorem C61_no_list_refuted :
  exists files arc, build toy no_md5 bare_cfg files = Ok arc /\ lenN files = 1 /\
  exists a, open_archive toy arc = Ok a /\ (forall f, In f files -> read_file toy a (pf_name f) = Ok (pf_data f)) /\
    forall lower by_ext, analyze_report toy lower arc by_ext = Ok (mkReport [] [] [] 0 0 1).
Proof.
  exists [bare_file], bare_arc. split; [vm_compute; reflexivity|]. split; [reflexivity|].
  eexists. split; [vm_compute; reflexivity|]. split; [intros f [<-|[]]; vm_compute; reflexivity|].
  intros lower by_ext. vm_compute. reflexivity.
Qed.
Print Assumptions C61_no_list_refuted.

Example C61_example :
  exists r, analyze_report toy (fun e => e) walk_arc true = Ok r /\ r_files r = 3 /\ r_methods r = [(lit "None", 3)] /\
    (forall e, In e (map fst (r_extensions r)) <-> In e [lit "(no extension)"; lit "txt"; lit "bin"]).
Proof.
  destruct (C61_built toy no_md5 (fun e => e) cli_cfg (create_files cli_cfg walk_demo) walk_arc [] []
    toy_lossless walk_built eq_refl walk_no_collision (walk_apart _ (or_introl eq_refl)) walk_names
    (walk_reads _ (or_introl eq_refl)) true) as (r & H & H1 & H2 & _ & _ & H3).
  rewrite app_nil_r in H. exists r. split; [exact H|]. split; [exact H1|]. split; [exact H2|].
  intros e. rewrite (H3 eq_refl). split.
  - intros [->|(f & [<-|[<-|[]]] & ->)]; vm_compute; auto.
  - intros [<-|[<-|[<-|[]]]]; [now left| |]; right.
    + eexists. split; [left; reflexivity|reflexivity].
    + eexists. split; [right; left; reflexivity|reflexivity].
Qed.
Example C61_extension_examples :
  file_extension (fun e => e) (lit "dir/readme.txt") = lit "txt" /\
  file_extension (fun e => e) (lit ".profile") = lit "(no extension)" /\
  file_extension (fun e => e) (lit "Scripts.v1\common") = lit "v1\common".
Proof.
  split; [|split].
  - apply (C61_extension (fun e => e) (lit "dir") (lit "readme.txt")); try discriminate; [intros X; repeat destruct X as [X|X]; try discriminate X; destruct X|].
    exists (lit "readme"). split; [discriminate|]. split; [reflexivity|]. intros X; repeat destruct X as [X|X]; try discriminate X; destruct X.
  - reflexivity.
  - apply (C61_backslash_refuted (fun e => e) (lit "Scripts") (lit "v1") (lit "common")); [discriminate| |];
      intros X; vm_compute in X; repeat destruct X as [X|X]; try discriminate X; destruct X.
Qed.
