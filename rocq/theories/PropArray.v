(** * C86: tables made and changed by a caller. *)
From Verif Require Import Bytes Crypto SpecNames HashTable BlockTable SpecTables TableApi SpecArray ArrayFacts.
Open Scope N_scope.

(** C86: whatever is written, each of the tables is an array of the size asked
    for: every place holds what was written to it last, or is blank. *)
Theorem C86_hash_array : forall (n : N) (t0 : list hentry) (cs : list (tchange hentry)), ht_new_mut n = Ok t0 ->
  array_of (mkHE 0 0 0 0 0xFFFFFFFF) n cs (table_changes he_empty t0 cs).
Proof. exact hash_array. Qed.
Print Assumptions C86_hash_array.
Theorem C86_block_array : forall (n : N) (cs : list (tchange bentry)),
  exists t0, bt_new_mut n = Ok t0 /\ array_of (mkBE 0 0 0 0) n cs (table_changes be_blank t0 cs).
Proof. exact block_array. Qed.
Print Assumptions C86_block_array.
Theorem C86_hi_array : forall (n : N) (cs : list (tchange N)), array_of 0 n cs (table_changes 0 (hi_new n) cs).
Proof. exact hi_array. Qed.
Print Assumptions C86_hi_array.
Theorem C86_hi_outside : forall (n : N) (cs : list (tchange N)) (i : N), n <= i ->
  hi_get (table_changes 0 (hi_new n) cs) i = 0.
Proof. exact hi_outside. Qed.
Print Assumptions C86_hi_outside.
Theorem C86_hi_needed : forall (t : list N), hi_is_needed t = true <-> exists i v, nthN t i = Some v /\ v <> 0.
Proof. exact needed_iff. Qed.
Print Assumptions C86_hi_needed.

Example C86_example :
  let cs := [TPut 1 (mkBE 1 2 3 4); TClear; TPut 0 (mkBE 5 6 7 8); TPut 9 (mkBE 1 1 1 1)] in
  exists t0, bt_new_mut 3 = Ok t0 /\
  table_changes be_blank t0 cs = [mkBE 5 6 7 8; mkBE 0 0 0 0; mkBE 0 0 0 0] /\ last_put cs 0 (mkBE 5 6 7 8) /\ not_put cs 1.
Proof.
  eexists. split; [reflexivity|]. split; [reflexivity|]. split.
  - exists [TPut 1 (mkBE 1 2 3 4); TClear], [TPut 9 (mkBE 1 1 1 1)]. split; [reflexivity|].
    split; [intros [C|[]]; discriminate|intros x [C|[]]; discriminate].
  - exists [TPut 1 (mkBE 1 2 3 4)], [TPut 0 (mkBE 5 6 7 8); TPut 9 (mkBE 1 1 1 1)]. split; [now right|].
    intros x [C|[C|[]]]; discriminate.
Qed.

(** Hash tables of fewer than 2^32 places are made exactly if their number is a power
    of two ... *)
Theorem C86_hash_sizes_partial : forall (size : N), size < 2 ^ 32 ->
  (forall t, ht_new_mut size = Ok t <->
     (exists k, size = 2 ^ k) /\ t = repeat (mkHE 0 0 0 0 0xFFFFFFFF) (N.to_nat size)) /\
  (~ (exists k, size = 2 ^ k) -> ht_new_mut size = Err EHashTable).
Proof. exact new_mut_small. Qed.
Print Assumptions C86_hash_sizes_partial.

(** ... and then every lookup ends, with the first entry on its way that answers. *)
Theorem C86_lookup_partial : forall (size : N) (t0 : list hentry) (cs : list (tchange hentry)) (name : bytes) (loc : N),
  size < 2 ^ 32 -> ht_new_mut size = Ok t0 ->
  exists r, ht_find_file (table_changes he_empty t0 cs) name loc = Ok r /\
    lookup_spec (table_changes he_empty t0 cs) (hash_string name HT_TABLE_OFFSET) (hash_string name HT_NAME_A)
      (hash_string name HT_NAME_B) loc r.
Proof. exact changed_lookup. Qed.
Print Assumptions C86_lookup_partial.

Example C86_lookup_example : exists t0, ht_new_mut 4 = Ok t0 /\
  let e := mkHE (hash_string (lit "a.txt") HT_NAME_A) (hash_string (lit "a.txt") HT_NAME_B) 0 0 7 in
  let i := hash_string (lit "a.txt") HT_TABLE_OFFSET mod 4 in
  ht_find_file (table_changes he_empty t0 [TPut i e]) (lit "A.TXT") 0 = Ok (Some (i, e)) /\
  ht_find_file (table_changes he_empty t0 [TPut i e; TClear]) (lit "A.TXT") 0 = Ok None /\
  ht_new_mut 6 = Err EHashTable.
Proof. eexists. split; [reflexivity|]. vm_compute. repeat split. Qed.

(** Larger sizes are checked by their lower 32 bits only: some tables are made with a
    number of places that is no power of two, and of their entries only the one in
    place 0 can be found. *)
Theorem C86_hash_sizes_refuted : exists size t, ht_new_mut size = Ok t /\ (forall k, lenN t <> 2 ^ k) /\
  forall cs name loc i e, ht_find_file (table_changes he_empty t cs) name loc = Ok (Some (i, e)) -> i = 0.
Proof. exact huge_wrong. Qed.
Print Assumptions C86_hash_sizes_refuted.
