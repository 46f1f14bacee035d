(** * C79: what [archive analyze] prints, as text and as CSV, and how it ends. *)
From Verif Require Import Bytes Header Compress SpecCompress ToyCodec Builder BlockTable Archive Cli CliList CliConfig CliAnalyze SpecReport SpecCliList
  SpecVerifyText SpecAnalyze CliAnalyzed SpecAnalyzed AnalyzedFacts DemoArchive DemoCli DemoCliList DemoVerify DemoAnalyzed.
From Coq Require Import Permutation.
Open Scope N_scope.

(** It ends as the statistics of C61 do, whatever is printed. *)
Theorem C79_outcome : forall L lower walk as_json out quiet detailed by_ext only stats path file,
  snd (analyze_told L lower walk as_json out quiet detailed by_ext only stats path file) = (_ <- analyze_report L lower file by_ext ;; Ok tt).
Proof. exact analysis_ends. Qed.
Print Assumptions C79_outcome.

(** ** Text: these lines, in whatever order the maps are walked through.  The limits are those of the
    numbers whose percentages are right. *)
Theorem C79_text : forall L lower walk as_json, (forall k A l, Permutation (walk k A l) l) ->
  forall detailed by_ext only stats path file a es hs,
  open_archive L file = Ok a -> list_with_hashes L a = Ok es -> es <> [] -> found_in a es hs -> lenN es < 2 ^ 45 ->
  total (fun h => fi_size (snd h)) hs < 2 ^ 45 -> total (fun h => fi_csize (snd h)) hs < 2 ^ 45 ->
  exists ls, analyze_told L lower walk as_json Text false detailed by_ext only stats path file = (ls, Ok tt) /\
    analysis_says (file_extension lower) detailed by_ext only stats path (lenN es) (methods_of hs) ls.
Proof. exact analysis_right. Qed.
Print Assumptions C79_text.

(** ** CSV *)
Theorem C79_csv : forall L lower walk as_json, (forall k A l, Permutation (walk k A l) l) ->
  forall quiet detailed by_ext only stats path file a es hs,
  open_archive L file = Ok a -> list_with_hashes L a = Ok es -> es <> [] -> found_in a es hs -> lenN es < 2 ^ 45 ->
  total (fun h => fi_size (snd h)) hs < 2 ^ 64 -> total (fun h => fi_csize (snd h)) hs < 2 ^ 64 ->
  exists ls, analyze_told L lower walk as_json Csv quiet detailed by_ext only stats path file = (ls, Ok tt) /\ analysis_rows (methods_of hs) ls.
Proof. exact analysis_csv_right. Qed.
Print Assumptions C79_csv.

Example C79_example : (exists a es hs, open_archive toy mixed_arc = Ok a /\ list_with_hashes toy a = Ok es /\ es <> [] /\ found_in a es hs /\
  lenN es < 2 ^ 45 /\ total (fun h => fi_size (snd h)) hs < 2 ^ 45 /\ total (fun h => fi_csize (snd h)) hs < 2 ^ 45) /\
  analyze_told toy (fun e => e) as_is no_json Csv true true true false true (lit "m.mpq") mixed_arc =
  ([lit "compression_method,file_count,supported"; lit "None,3,true"], Ok tt).
Proof. split; [exact mixed_found|]. vm_compute. reflexivity. Qed.
Example C79_two_example : analysis_text as_is true false true (mkReport [(lit "Zlib", 2); (lit "PKWare DCL", 1)]
    [(lit "txt", [(lit "Zlib", 2); (lit "PKWare DCL", 1)])] [(lit "p.txt", lit "PKWare DCL")] 50 200 3) =
  [[]; lit "Compression Method Summary"; repeat "="%byte 60; tick ++ lit " Zlib                      2 files ( 66%)";
   cross ++ lit " PKWare DCL                1 files ( 33%)"; []; lit "Archive Statistics"; repeat "-"%byte 60; lit "Total files:           3";
   lit "Total uncompressed:    200 bytes"; lit "Total compressed:      50 bytes"; lit "Overall compression:   25%"; [];
   lit "Compression by File Extension"; repeat "="%byte 60; []; lit "txt (3 files):"; lit "  " ++ tick ++ lit " Zlib                  2 files ( 66%)";
   lit "  " ++ cross ++ lit " PKWare DCL            1 files ( 33%)"; []; lit "Unsupported Compression Methods"; repeat "="%byte 60;
   lit "Found 1 files ( 33%) using unsupported compression methods:"; []; lit "Unsupported method breakdown:"; lit "  PKWare DCL - 1 files"].
Proof. exact two_said. Qed.

(** ** A listing without entries *)
Theorem C79_empty : forall L lower walk as_json out quiet detailed by_ext only stats path file a,
  open_archive L file = Ok a -> list_with_hashes L a = Ok [] ->
  analyze_told L lower walk as_json out quiet detailed by_ext only stats path file =
  (match out with Text => (if quiet then [] else [lit "Analyzing compression methods: " ++ path]) ++ [lit "No files found in archive"] | _ => [] end, Ok tt).
Proof. exact analysis_empty. Qed.
Print Assumptions C79_empty.

(** ** [--quiet] leaves out the first line and nothing else. *)
Theorem C79_quiet : forall L lower walk as_json out detailed by_ext only stats path file, exists ls o,
  analyze_told L lower walk as_json out true detailed by_ext only stats path file = (ls, o) /\
  analyze_told L lower walk as_json out false detailed by_ext only stats path file =
  ((match out with Text => [lit "Analyzing compression methods: " ++ path] | _ => [] end) ++ ls, o).
Proof. exact analysis_quiet. Qed.
Print Assumptions C79_quiet.

(** ** What is printed need not be true of the archive: a file packed with a method that counts as not
    supported (the archive of C47) is shown as not packed, and all methods are said to be supported; *)
Theorem C79_all_supported_refuted : exists files arc,
  build toy no_md5 cli_cfg files = Ok arc /\ (exists f, In f files /\ supported (from_flags (pf_comp f)) = false) /\
  exists ls, analyze_told toy (fun e => e) as_is no_json Text false true true false true (lit "m.mpq") arc = (ls, Ok tt) /\
    In (tick ++ lit " p.bin None (100 -> 4 bytes, 4%)") ls /\
    In (tick ++ lit " All compression methods in this archive are supported!") ls.
Proof.
  exists mixed_files, mixed_arc. split; [vm_compute; reflexivity|].
  split; [exists (mkPF (repeat x42 100) (lit "p.bin") PKWARE false false 0); split; [right; left; reflexivity|reflexivity]|].
  eexists. split; [exact mixed_said|]. split; apply line_there; vm_compute; reflexivity.
Qed.
Print Assumptions C79_all_supported_refuted.

(** and the total size of an archive without a list is 0. *)
Theorem C79_size_refuted : exists arc d,
  build toy no_md5 bare_cfg [bare_file] = Ok arc /\ (exists a, open_archive toy arc = Ok a /\ read_file toy a (lit "a.txt") = Ok d) /\ lenN d = 7 /\
  exists ls, analyze_told toy (fun e => e) as_is no_json Text true true true false true (lit "m.mpq") arc = (ls, Ok tt) /\
    In (lit "Total files:           1") ls /\ In (lit "Total uncompressed:    0 bytes") ls /\ In (lit "Overall compression:   100%") ls.
Proof.
  exists bare_arc, (lit "content"). split; [vm_compute; reflexivity|]. split; [eexists; split; [vm_compute; reflexivity|]; vm_compute; reflexivity|]. split; [reflexivity|].
  eexists. split; [exact bare_said|]. repeat split; apply line_there; vm_compute; reflexivity.
Qed.
Print Assumptions C79_size_refuted.
