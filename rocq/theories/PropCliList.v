(** * C44-C47: listing, finding, printing and analysing. *)
From Coq Require Import Sorting.Permutation.
From Verif Require Import Bytes Crypto SpecNames NameFacts HashTable BlockTable Header Compress SpecTables SpecCompress
  ToyCodec Listfile SpecListfile ListfileFacts Builder Archive SpecArchive DemoArchive Demo34
  Cli SpecCli DemoCli CliList SpecCliList CliListFacts DemoCliList.
Open Scope N_scope.

(** C44: [list] shows exactly the entries of the archive's listing whose names
    match, in the order of their names, entries of the same name in the order of
    the listing. *)
Theorem C44_list_shows_matching :
  forall (L : codecs) (compile : bool -> bytes -> option (bytes -> bool))
    (file : bytes) (all : bool) (pattern : option bytes) (regex hashes : bool) (out : list fentry),
  list_cmd L compile file all pattern regex hashes = Ok out <->
  exists a es m, open_archive L file = Ok a /\
    (match all, hashes with
     | true, true => list_all_with_hashes a
     | true, false => list_all a
     | false, true => list_with_hashes L a
     | false, false => list_files L a
     end) = Ok es /\
    (match pattern with None => Some (fun _ => true) | Some p => compile regex p end) = Some m /\
    in_order fe_name out /\
    forall n, named fe_name n out = if m n then named fe_name n es else [].
Proof. exact list_cmd_spec. Qed.
Print Assumptions C44_list_shows_matching.

(** For a built archive these are the names that were added and that match. *)
Theorem C44_built_archive :
  forall (L : codecs) (md5 : bytes -> bytes) (compile : bool -> bytes -> option (bytes -> bool))
    (c : config) (files : list pending) (arc pre post : bytes),
  lossless L -> built_at L md5 c files arc pre post -> c_listfile c = LGenerate ->
  no_collision (special_listfile :: map pf_name files) ->
  hashes_apart special_attributes (special_listfile :: map pf_name files) ->
  (forall f, In f files ->
     is_text (pf_name f) /\ listable (pf_name f) /\ ~ name_equiv special_listfile (pf_name f)) ->
  reads_back L c (c_default c) (listfile_content (map pf_name files)) ->
  forall pattern regex hashes m,
  (match pattern with None => Some (fun _ => true) | Some p => compile regex p end) = Some m ->
  exists out, list_cmd L compile (pre ++ arc ++ post) false pattern regex hashes = Ok out /\
    in_order fe_name out /\
    Permutation (map fe_name out) (filter m (map pf_name files ++ [special_listfile])).
Proof. exact list_cmd_built. Qed.
Print Assumptions C44_built_archive.

(** [find] shows the matching ones in the order in which they were added. *)
Theorem C44_built_archive_find :
  forall (L : codecs) (md5 : bytes -> bytes) (compile : bool -> bytes -> option (bytes -> bool))
    (lower : bytes -> bytes) (c : config) (files : list pending) (arc pre post : bytes),
  lossless L -> built_at L md5 c files arc pre post -> c_listfile c = LGenerate ->
  no_collision (special_listfile :: map pf_name files) ->
  hashes_apart special_attributes (special_listfile :: map pf_name files) ->
  (forall f, In f files ->
     is_text (pf_name f) /\ listable (pf_name f) /\ ~ name_equiv special_listfile (pf_name f)) ->
  reads_back L c (c_default c) (listfile_content (map pf_name files)) ->
  forall pattern regex m, compile regex pattern = Some m ->
  find_cmd L compile lower (pre ++ arc ++ post) pattern regex false =
    Ok (filter m (map pf_name files ++ [special_listfile])).
Proof. exact list_find_built. Qed.
Print Assumptions C44_built_archive_find.

(** Finding without regard to case: the case of the pattern does not matter, and
    of names that differ in case only, all are found or none. *)
Theorem C44_find_ignores_case :
  forall (L : codecs) (compile : bool -> bytes -> option (bytes -> bool)) (lower : bytes -> bytes) (file : bytes),
  (forall p p', lower p = lower p' ->
     find_cmd L compile lower file p false true = find_cmd L compile lower file p' false true) /\
  (forall p names l a n n',
     find_cmd L compile lower file p false true = Ok names -> open_archive L file = Ok a -> list_files L a = Ok l ->
     In n (map fe_name l) -> In n' (map fe_name l) -> lower n = lower n' -> In n names -> In n' names).
Proof. exact find_ignores_case. Qed.
Print Assumptions C44_find_ignores_case.

(** The same for regular expressions, with an engine that ignores the case where the
    expression begins with [(?i)]: of names that are alike but for it all are found
    or none, and nothing that is found with regard to case is missed. *)
Theorem C44_find_regex_ignores_case :
  forall (L : codecs) (compile : bool -> bytes -> option (bytes -> bool)) (lower : bytes -> bytes) (file : bytes)
    (alike : bytes -> bytes -> Prop),
  (forall p m n n', compile true (lit "(?i)" ++ p) = Some m -> alike n n' -> m n = m n') ->
  (forall p m, compile true p = Some m ->
     exists m', compile true (lit "(?i)" ++ p) = Some m' /\ forall n, m n = true -> m' n = true) ->
  (forall p names l a n n',
     find_cmd L compile lower file p true true = Ok names -> open_archive L file = Ok a -> list_files L a = Ok l ->
     In n (map fe_name l) -> In n' (map fe_name l) -> alike n n' -> In n names -> In n' names) /\
  (forall p names, find_cmd L compile lower file p true false = Ok names ->
     exists names', find_cmd L compile lower file p true true = Ok names' /\ incl names names').
Proof. exact find_regex_case. Qed.
Print Assumptions C44_find_regex_ignores_case.

Example C44_regex_example :
  (forall p m n n', marked true (lit "(?i)" ++ p) = Some m -> lower_ascii n = lower_ascii n' -> m n = m n') /\
  find_cmd toy marked lower_ascii walk_arc (lit "SUB") true true = Ok [lit "sub/deep/x.bin"] /\
  find_cmd toy marked lower_ascii walk_arc (lit "SUB") true false = Ok [].
Proof.
  split; [|split; vm_compute; reflexivity]. intros p m n n' E K. cbn in E. injection E as <-. now rewrite K.
Qed.

Example C44_example :
  (exists out, list_cmd toy beginnings walk_arc false (Some (lit "sub")) false true = Ok out /\
     in_order fe_name out /\ Permutation (map fe_name out) [lit "sub/deep/x.bin"]) /\
  (exists out, list_cmd toy beginnings walk_arc false None false false = Ok out /\
     in_order fe_name out /\
     map fe_name out = [lit "(listfile)"; lit "readme.txt"; lit "sub/deep/x.bin"]) /\
  find_cmd toy beginnings lower_ascii walk_arc (lit "SUB") false true = Ok [lit "sub/deep/x.bin"].
Proof.
  pose proof (C44_built_archive toy no_md5 beginnings cli_cfg (create_files cli_cfg walk_demo) walk_arc [] []
    toy_lossless walk_built eq_refl walk_no_collision (walk_apart _ (or_introl eq_refl)) walk_names
    (walk_reads _ (or_introl eq_refl))) as H.
  rewrite app_nil_r in H. cbn [app] in H. split; [|split].
  - exact (H (Some (lit "sub")) false true (starts (lit "sub")) eq_refl).
  - eexists. split; [vm_compute; reflexivity|]. split; [|vm_compute; reflexivity].
    match goal with |- in_order _ ?l => change l with (sort_entries l) end. apply sort_ordered.
  - rewrite (proj1 (C44_find_ignores_case toy beginnings lower_ascii walk_arc) (lit "SUB") (lit "sub") eq_refl).
    vm_compute. reflexivity.
Qed.

(** C45: the table of [list --verbose] panics exactly where a long name has a
    character across its 36th byte or the sizes add up to 2^64. *)
Theorem C45_table_panics_iff : forall es : list fentry,
  (print_verbose es 0 0 = Panic <->
   (exists e, In e es /\ 39 < lenN (fe_name e) /\ inside_char (fe_name e) 36) \/
   2 ^ 64 <= total fe_size es \/ 2 ^ 64 <= total fe_csize es) /\
  (forall x, print_verbose es 0 0 <> Err x) /\
  (forall rows, print_verbose es 0 0 = Ok rows ->
     Forall2 (fun e d => (lenN (fe_name e) <= 39 /\ d = fe_name e) \/
                         (39 < lenN (fe_name e) /\ d = firstn 36 (fe_name e) ++ lit "...")) es rows).
Proof. exact table_panics. Qed.
Print Assumptions C45_table_panics_iff.

Theorem C45_table_refuted :
  exists n arc es, is_text n /\ build toy no_md5 cli_cfg [plain n (lit "text")] = Ok arc /\
    list_cmd toy beginnings arc false None false false = Ok es /\ print_verbose es 0 0 = Panic.
Proof. exact table_refuted. Qed.
Print Assumptions C45_table_refuted.

Example C45_example :
  let es := [mkFE (repeat "a"%byte 50) 3 2 0 None; mkFE (lit "b") 1 1 0 None] in
  print_verbose es 0 0 <> Panic /\ print_verbose es 0 0 = Ok [repeat "a"%byte 36 ++ lit "..."; lit "b"].
Proof. split; vm_compute; [discriminate|reflexivity]. Qed.

(** C46: the listing as comma separated values says what it should exactly where
    no name has a comma, a quote or a line end. *)
Theorem C46_names_iff : forall names : list bytes,
  csv_text ([lit "filename"] :: map (fun n => [n]) names) (print_names_csv names) <-> Forall csv_plain names.
Proof. exact names_csv. Qed.
Print Assumptions C46_names_iff.

(** With hashes, of which the text is eight digits each, NA where there are none. *)
Theorem C46_hashes_iff : forall es : list fentry, (exists e, In e es /\ fe_hashes e <> None) ->
  (forall e a b, In e es -> fe_hashes e = Some (a, b) -> a < 2 ^ 32 /\ b < 2 ^ 32) ->
  (exists rows,
     Forall2 (fun e r => match fe_hashes e with
                         | Some (a, b) => exists x y, hex_of a x /\ hex_of b y /\ r = [fe_name e; x; y]
                         | None => r = [fe_name e; lit "NA"; lit "NA"]
                         end) es rows /\
     csv_text ([lit "filename"; lit "hash1"; lit "hash2"] :: rows) (print_hashes_csv es)) <->
  Forall (fun e => csv_plain (fe_name e)) es.
Proof. exact hashes_csv_rows. Qed.
Print Assumptions C46_hashes_iff.

Theorem C46_comma_refuted :
  exists n arc es, build toy no_md5 cli_cfg [plain n (lit "text")] = Ok arc /\
    list_cmd toy beginnings arc false None false false = Ok es /\
    map fe_name es = [lit "(listfile)"; n] /\
    ~ csv_text [[lit "filename"]; [lit "(listfile)"]; [n]] (print_names_csv (map fe_name es)) /\
    csv_text [[lit "filename"]; [lit "(listfile)"]; [lit "a"; lit "b.txt"]] (print_names_csv (map fe_name es)).
Proof. exact comma_refuted. Qed.
Print Assumptions C46_comma_refuted.

Example C46_example :
  csv_text [[lit "filename"]; [lit "dir\a.txt"]; [lit "b c.txt"]]
    (lit "filename" ++ ["010"%byte] ++ lit "dir\a.txt" ++ ["010"%byte] ++ lit "b c.txt" ++ ["010"%byte]) /\
  hex_of 0xDEADBEEF (lit "DEADBEEF").
Proof.
  split; [|split; vm_compute; reflexivity].
  apply (proj2 (C46_names_iff [lit "dir\a.txt"; lit "b c.txt"])).
  repeat (apply Forall_cons; [apply csv_plainb; reflexivity|]). constructor.
Qed.

(** C47: whatever methods the files are stored with, [analyze] reports every file
    of a built archive as not compressed. *)
Theorem C47_always_none :
  forall (L : codecs) (md5 : bytes -> bytes) (c : config) (files : list pending) (arc pre post : bytes),
  lossless L -> built_at L md5 c files arc pre post -> c_listfile c = LGenerate ->
  no_collision (special_listfile :: map pf_name files) ->
  hashes_apart special_attributes (special_listfile :: map pf_name files) ->
  (forall f, In f files ->
     is_text (pf_name f) /\ listable (pf_name f) /\ ~ name_equiv special_listfile (pf_name f)) ->
  reads_back L c (c_default c) (listfile_content (map pf_name files)) ->
  analyze L (pre ++ arc ++ post) =
    Ok (map (fun n => (n, MNone, true)) (map pf_name files ++ [special_listfile])).
Proof. exact analyze_built. Qed.
Print Assumptions C47_always_none.

(** A file whose stored bytes begin with the method byte of zlib and one with a
    method that counts as unsupported are both reported as not compressed and
    supported. *)
Theorem C47_method_refuted :
  exists files arc, build toy no_md5 cli_cfg files = Ok arc /\
  exists a z p rows, open_archive toy arc = Ok a /\
    find_file a (lit "z.bin") = Ok (Some z) /\ N.testbit (fi_flags z) 9 = true /\
    slice (fi_pos z) 1 arc = Some [Nb ZLIB] /\
    find_file a (lit "p.bin") = Ok (Some p) /\ N.testbit (fi_flags p) 9 = true /\
    slice (fi_pos p) 1 arc = Some [Nb PKWARE] /\
    analyze toy arc = Ok rows /\
    In (lit "z.bin", MNone, true) rows /\ In (lit "p.bin", MNone, true) rows /\
    supported (from_flags PKWARE) = false.
Proof. exact (ex_intro _ mixed_files (ex_intro _ mixed_arc mixed_wrong)). Qed.
Print Assumptions C47_method_refuted.

Example C47_example :
  analyze toy walk_arc =
    Ok [(lit "readme.txt", MNone, true); (lit "sub/deep/x.bin", MNone, true); (lit "(listfile)", MNone, true)].
Proof.
  pose proof (C47_always_none toy no_md5 cli_cfg (create_files cli_cfg walk_demo) walk_arc [] []
    toy_lossless walk_built eq_refl walk_no_collision (walk_apart _ (or_introl eq_refl)) walk_names
    (walk_reads _ (or_introl eq_refl))) as H.
  rewrite app_nil_r in H. exact H.
Qed.
