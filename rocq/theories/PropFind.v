(** * C44: what [file find] prints about the names it has found *)
From Verif Require Import Bytes Compress ToyCodec Header Archive CliList CliInfo SpecReport SpecInfoText DemoCli FindFacts.
Open Scope N_scope.

(** The names, one on each line, and their number if asked for; if there are none, so it is said.
    The pattern is repeated on one line if it has one. *)
Theorem C44_find_printed : forall L compile lower file pattern regex fold names quiet verbose,
  find_cmd L compile lower file pattern regex fold = Ok names -> lenN names < 2 ^ 64 ->
  (names = [] -> quiet = false ->
   (lines_of (print_find quiet verbose pattern names) = [lit "No files found matching pattern: " ++ pattern] <-> ~ In "010"%byte pattern)) /\
  (names = [] -> quiet = true -> print_find quiet verbose pattern names = []) /\
  (names <> [] -> exists n, shown (lenN names) n /\
   lines_of (print_find quiet verbose pattern names) =
   names ++ (if verbose && negb quiet then [[]; lit "Found " ++ n ++ lit " matching files"] else [])).
Proof. exact find_says. Qed.
Print Assumptions C44_find_printed.

Example C44_find_printed_example :
  let compile := fun (_ : bool) (p : bytes) => Some (fun n : bytes => bytes_eqb n p) in
  let lower := fun n : bytes => n in
  find_cmd toy compile lower DemoCli.four_soft (lit "(listfile)") false false = Ok [lit "(listfile)"] /\
  print_find false true (lit "(listfile)") [lit "(listfile)"] =
    lit "(listfile)" ++ ["010"; "010"]%byte ++ lit "Found 1 matching files" ++ ["010"%byte] /\
  find_cmd toy compile lower DemoCli.four_soft (lit "no such file") false false = Ok [].
Proof. vm_compute. repeat split. Qed.
