(** * Specification: what is told about extracting and creating. *)
From Verif Require Import Bytes Compress Archive Cli SpecCli SpecReport SpecCliList SpecVerifyText CliTold.
Open Scope N_scope.

(** The lines on the standard output, those on the standard error output, and what is done *)
Definition out_lines (es : list event) : list bytes := flat_map (fun e => match e with Out l => [l] | _ => [] end) es.
Definition err_lines (es : list event) : list bytes := flat_map (fun e => match e with Grumble l => [l] | _ => [] end) es.
Definition changes (es : list event) : list action := flat_map (fun e => match e with Act x => [x] | _ => [] end) es.

(** What is told about a name: that it is extracted, right after its content was written, or why not *)
Inductive handled (L : codecs) (why : bytes -> error -> bytes) (a : archive) (n : bytes) : list event -> Prop :=
| handled_written xs p d :
    read_file L a n = Ok d -> writes_of xs = [] ->
    handled L why a n (map Act (xs ++ [AWrite p d]) ++ [Out (lit "Extracted: " ++ n)])
| handled_not e :
    read_file L a n = Err e -> handled L why a n [Grumble (lit "Failed to extract " ++ n ++ lit ": " ++ why n e)].
