(** * C44 for archives of version 3 and 4 *)
From Coq Require Import Sorting.Permutation.
From Verif Require Import Bytes SpecNames NameFacts HashTable Header Compress SpecCompress SpecTables ToyCodec Listfile SpecListfile Builder Archive SpecArchive SpecArchive34
  CliList SpecCliList SpecNameTable List34Facts NameArchiveFacts DemoArchive Demo34 DemoNames34.
Open Scope N_scope.

(** [list] and [find] show the names that were added and that match, if no name is
    mistaken (C18); what happens with names that are is in C18 and C37. *)
Theorem C44_v3_v4_sure_partial :
  forall (L : codecs) (md5 : bytes -> bytes) (compile : bool -> bytes -> option (bytes -> bool))
    (c : config) (files : list pending) (arc pre post : bytes),
  lossless L -> built34_at L md5 c files arc pre post -> no_mistake c files -> c_listfile c = LGenerate ->
  no_collision (special_listfile :: map pf_name files) ->
  hashes_apart special_attributes (special_listfile :: map pf_name files) ->
  (forall f, In f files ->
     is_text (pf_name f) /\ listable (pf_name f) /\ ~ name_equiv special_listfile (pf_name f)) ->
  reads_back L c (c_default c) (listfile_content (map pf_name files)) ->
  forall pattern regex hashes m,
  (match pattern with None => Some (fun _ => true) | Some p => compile regex p end) = Some m ->
  exists out, list_cmd L compile (pre ++ arc ++ post) false pattern regex hashes = Ok out /\
    in_order fe_name out /\
    Permutation (map fe_name out) (filter m (map pf_name files ++ [special_listfile])).
Proof. exact list_cmd34. Qed.
Print Assumptions C44_v3_v4_sure_partial.

Theorem C44_v3_v4_find_partial :
  forall (L : codecs) (md5 : bytes -> bytes) (compile : bool -> bytes -> option (bytes -> bool))
    (lower : bytes -> bytes) (c : config) (files : list pending) (arc pre post : bytes),
  lossless L -> built34_at L md5 c files arc pre post -> no_mistake c files -> c_listfile c = LGenerate ->
  no_collision (special_listfile :: map pf_name files) ->
  hashes_apart special_attributes (special_listfile :: map pf_name files) ->
  (forall f, In f files ->
     is_text (pf_name f) /\ listable (pf_name f) /\ ~ name_equiv special_listfile (pf_name f)) ->
  reads_back L c (c_default c) (listfile_content (map pf_name files)) ->
  forall pattern regex m, compile regex pattern = Some m ->
  find_cmd L compile lower (pre ++ arc ++ post) pattern regex false =
    Ok (filter m (map pf_name files ++ [special_listfile])).
Proof. exact find_cmd34. Qed.
Print Assumptions C44_v3_v4_find_partial.

(** Eight files and the list, in version 4; a pattern that is the name itself *)
Example C44_v3_v4_sure_example :
  exists arc, build toy no_md5 eight_cfg eight_files = Ok arc /\
    find_cmd toy (fun _ p => Some (bytes_eqb p)) (fun n => n) (arc ++ []) (lit "i.txt") false false = Ok [lit "i.txt"] /\
    exists out, list_cmd toy (fun _ p => Some (bytes_eqb p)) (arc ++ []) false (Some (lit "i.txt")) false false = Ok out /\
      map fe_name out = [lit "i.txt"].
Proof.
  destruct eight_arc as (arc & E & B). exists arc. split; [exact E|]. split.
  - apply (C44_v3_v4_find_partial toy no_md5 (fun _ p => Some (bytes_eqb p)) (fun n => n) eight_cfg eight_files arc [] [] toy_lossless B
      eight_no_mistake eq_refl eight_no_collision (eight_apart _ (or_introl eq_refl)) eight_names
      (eight_reads _ (or_introl eq_refl)) (lit "i.txt") false _ eq_refl).
  - destruct (C44_v3_v4_sure_partial toy no_md5 (fun _ p => Some (bytes_eqb p)) eight_cfg eight_files arc [] [] toy_lossless B
      eight_no_mistake eq_refl eight_no_collision (eight_apart _ (or_introl eq_refl)) eight_names
      (eight_reads _ (or_introl eq_refl)) (Some (lit "i.txt")) false false _ eq_refl) as (out & Ho & _ & Hp).
    exists out. split; [exact Ho|]. apply Permutation_length_1_inv. symmetry. exact Hp.
Qed.
