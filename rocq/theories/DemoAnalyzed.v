(** * How printed analyses end, and concrete ones *)
From Verif Require Import Bytes Header Compress SpecCompress ToyCodec Builder BlockTable Archive Cli CliList CliConfig CliAnalyze SpecReport SpecCliList
  SpecVerifyText SpecAnalyze CliAnalyzed SpecAnalyzed AnalyzedFacts DemoArchive DemoCli DemoCliList.
From Coq Require Import Permutation.
Open Scope N_scope.

Section Ends.
Variable L : codecs.
Variable lower : bytes -> bytes.
Variable walk : map_of -> forall A : Type, list A -> list A.
Variable as_json : report -> bytes.

Lemma analysis_ends out quiet detailed by_ext only stats path file :
  snd (analyze_told L lower walk as_json out quiet detailed by_ext only stats path file) = (_ <- analyze_report L lower file by_ext ;; Ok tt).
Proof.
  unfold analyze_told, analyze_report. destruct (open_archive L file) as [a|e|]; cbn [bind]; [|reflexivity|reflexivity].
  destruct (list_with_hashes L a) as [es|e|]; cbn [bind]; [|reflexivity|reflexivity].
  destruct es as [|x es]; [reflexivity|].
  pose proof (loop_same lower (match out with Text => true | _ => false end) detailed only stats by_ext a (x :: es) (mkReport [] [] [] 0 0 (lenN (x :: es)))) as E.
  destruct (analyze_loop_told _ _ _ _ _ _ _ _ _) as [ls o]. cbn [snd] in E. rewrite <- E. now destruct o.
Qed.

Lemma analysis_empty out quiet detailed by_ext only stats path file a :
  open_archive L file = Ok a -> list_with_hashes L a = Ok [] ->
  analyze_told L lower walk as_json out quiet detailed by_ext only stats path file =
  (match out with Text => (if quiet then [] else [lit "Analyzing compression methods: " ++ path]) ++ [lit "No files found in archive"] | _ => [] end, Ok tt).
Proof. intros Ho Hl. unfold analyze_told. rewrite Ho. cbn [bind]. rewrite Hl. cbn [bind]. now destruct out, quiet. Qed.

(** [--quiet] leaves out the first line and nothing else. *)
Lemma analysis_quiet out detailed by_ext only stats path file : exists ls o,
  analyze_told L lower walk as_json out true detailed by_ext only stats path file = (ls, o) /\
  analyze_told L lower walk as_json out false detailed by_ext only stats path file =
  ((match out with Text => [lit "Analyzing compression methods: " ++ path] | _ => [] end) ++ ls, o).
Proof.
  do 2 eexists. split; [apply surjective_pairing|]. unfold analyze_told.
  destruct (a <- open_archive L file ;; es <- list_with_hashes L a ;; Ok (a, es)) as [[a es]|e|]; [|now destruct out|now destruct out].
  destruct es as [|x es]; [now destruct out|]. destruct (analyze_loop_told _ _ _ _ _ _ _ _ _) as [ls o]. destruct o; now destruct out.
Qed.
End Ends.

(** ** The archive of [mixed_wrong]: a file with a method that is not supported *)
Definition as_is (m : map_of) (A : Type) (l : list A) : list A := l.
Definition no_json (r : report) : bytes := [].
Lemma mixed_said : analyze_told toy (fun e => e) as_is no_json Text false true true false true (lit "m.mpq") mixed_arc =
  ([lit "Analyzing compression methods: m.mpq"; tick ++ lit " z.bin None (100 -> 4 bytes, 4%)"; tick ++ lit " p.bin None (100 -> 4 bytes, 4%)";
    tick ++ lit " (listfile) None (26 -> 26 bytes, 100%)"; []; lit "Compression Method Summary"; repeat "="%byte 60;
    tick ++ lit " None                      3 files (100%)"; []; lit "Archive Statistics"; repeat "-"%byte 60; lit "Total files:           3";
    lit "Total uncompressed:    226 bytes"; lit "Total compressed:      34 bytes"; lit "Overall compression:   15%"; [];
    lit "Compression by File Extension"; repeat "="%byte 60; []; lit "bin (2 files):"; lit "  " ++ tick ++ lit " None                  2 files (100%)"; [];
    lit "(no extension) (1 files):"; lit "  " ++ tick ++ lit " None                  1 files (100%)"; [];
    tick ++ lit " All compression methods in this archive are supported!"], Ok tt).
Proof. vm_compute. reflexivity. Qed.

(** Without a list: one file, of no size *)
Lemma bare_said : analyze_told toy (fun e => e) as_is no_json Text true true true false true (lit "m.mpq") bare_arc =
  ([[]; lit "Compression Method Summary"; repeat "="%byte 60; []; lit "Archive Statistics"; repeat "-"%byte 60; lit "Total files:           1";
    lit "Total uncompressed:    0 bytes"; lit "Total compressed:      0 bytes"; lit "Overall compression:   100%"; [];
    tick ++ lit " All compression methods in this archive are supported!"], Ok tt).
Proof. vm_compute. reflexivity. Qed.

(** The hypotheses are met. *)
Lemma mixed_found : exists a es hs, open_archive toy mixed_arc = Ok a /\ list_with_hashes toy a = Ok es /\ es <> [] /\ found_in a es hs /\
  lenN es < 2 ^ 45 /\ total (fun h => fi_size (snd h)) hs < 2 ^ 45 /\ total (fun h => fi_csize (snd h)) hs < 2 ^ 45.
Proof.
  do 2 eexists. eexists ?[hs]. split; [vm_compute; reflexivity|]. split; [vm_compute; reflexivity|]. split; [discriminate|].
  split; [|shelve]. repeat (eapply found_some; [vm_compute; reflexivity|]). apply found_nil.
  Unshelve. vm_compute. auto.
Qed.

(** A report with two methods, one of them not supported *)
Lemma two_said : analysis_text as_is true false true (mkReport [(lit "Zlib", 2); (lit "PKWare DCL", 1)]
    [(lit "txt", [(lit "Zlib", 2); (lit "PKWare DCL", 1)])] [(lit "p.txt", lit "PKWare DCL")] 50 200 3) =
  [[]; lit "Compression Method Summary"; repeat "="%byte 60; tick ++ lit " Zlib                      2 files ( 66%)";
   cross ++ lit " PKWare DCL                1 files ( 33%)"; []; lit "Archive Statistics"; repeat "-"%byte 60; lit "Total files:           3";
   lit "Total uncompressed:    200 bytes"; lit "Total compressed:      50 bytes"; lit "Overall compression:   25%"; [];
   lit "Compression by File Extension"; repeat "="%byte 60; []; lit "txt (3 files):"; lit "  " ++ tick ++ lit " Zlib                  2 files ( 66%)";
   lit "  " ++ cross ++ lit " PKWare DCL            1 files ( 33%)"; []; lit "Unsupported Compression Methods"; repeat "="%byte 60;
   lit "Found 1 files ( 33%) using unsupported compression methods:"; []; lit "Unsupported method breakdown:"; lit "  PKWare DCL - 1 files"].
Proof. vm_compute. reflexivity. Qed.
