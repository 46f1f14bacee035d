(** * Properties C05, C06, C07, C35: name table, block table, positions. *)
From Verif Require Import Bytes Crypto SpecNames HashTable BlockTable HashTableFacts
  SpecTables TableMap SlotFacts.
Open Scope N_scope.

(** C05: for a table of any contents whose size is a power of two the lookup
    ends and yields the first live slot on the probe path that answers. *)
Theorem C05_lookup_first_match : forall (t : list hentry) (k : N) (name : bytes) (loc : N),
  lenN t = 2 ^ k ->
  exists r, ht_find_file t name loc = Ok r /\
    lookup_spec t (hash_string name HT_TABLE_OFFSET) (hash_string name HT_NAME_A)
      (hash_string name HT_NAME_B) loc r.
Proof. exact ht_find_lookup. Qed.
Print Assumptions C05_lookup_first_match.

(** A full table of deleted slots with the wanted entry last on the path. *)
Example C05_example :
  let a := hash_string (lit "x.txt") HT_NAME_A in
  let b := hash_string (lit "x.txt") HT_NAME_B in
  let h := hash_string (lit "x.txt") HT_TABLE_OFFSET mod 4 in
  let t := upd (repeat (mkHE a b 0 0 DELETED) 4) (N.to_nat ((h + 3) mod 4)) (mkHE a b 7 0 9) in
  lenN t = 2 ^ 2 /\
  ht_find_file t (lit "X.TXT") 0 = Ok (Some ((h + 3) mod 4, mkHE a b 7 0 9)) /\
  ht_find_file t (lit "x.txt") 8 = Ok None /\
  ht_find_file t (lit "y.txt") 0 = Ok None.
Proof. vm_compute. repeat split; reflexivity. Qed.

(** C06: filling the builder's table with any list of files.  Either two of
    them are the same file and the duplicate is reported, or all are distinct
    and the table answers every request like the map from the list. *)
Theorem C06_name_table_is_a_map : forall (count : N) (files : list key),
  lenN files <= count -> count < 2 ^ 30 -> no_collision (map fst files) ->
  exists t0, ht_new (calculate_hash_table_size count) = Ok t0 /\
   ((exists t, add_all t0 files 0 = Ok t /\ distinct_files files /\
       forall req, no_collision (fst req :: map fst files) ->
         exists r, ht_find_file t (fst req) (snd req) = Ok r /\
           map_lookup files req (option_map (fun p => he_block (snd p)) r)) \/
    (add_all t0 files 0 = Err EInvalidFormat /\ ~ distinct_files files)).
Proof. exact builder_table_map. Qed.
Print Assumptions C06_name_table_is_a_map.

(** C06, without any assumption on hash collisions: the duplicate error is
    given only for equal hashes and locale; every added name is found under
    every spelling and leads to a file with the same hashes; a name whose
    hashes were never added is absent. *)
Theorem C06_name_table_by_hashes : forall (count : N) (files : list key),
  lenN files <= count -> count < 2 ^ 30 ->
  exists t0, ht_new (calculate_hash_table_size count) = Ok t0 /\
   ((exists t, add_all t0 files 0 = Ok t /\
       (forall name loc, In (name, loc) files -> forall spelling, name_equiv spelling name ->
          forall req, req = 0 \/ req = loc ->
          exists s e y, ht_find_file t spelling req = Ok (Some (s, e)) /\
            nth_error files (N.to_nat (he_block e)) = Some y /\ same_hashes (fst y) name) /\
       (forall name req, (forall y, In y files -> ~ same_hashes (fst y) name) ->
          ht_find_file t name req = Ok None)) \/
    (add_all t0 files 0 = Err EInvalidFormat /\
     exists l1 x l2 y l3, files = l1 ++ x :: l2 ++ y :: l3 /\
       same_hashes (fst x) (fst y) /\ snd x = snd y)).
Proof. exact builder_table_hashes. Qed.
Print Assumptions C06_name_table_by_hashes.

(** What is in the table: every slot that no file needs is as the format says it
    was never used, with nothing else in it, and every other one has the hashes,
    the locale and the number of one of the files. *)
Theorem C06_slots : forall (count : N) (files : list key) (t0 t : list hentry),
  ht_new (calculate_hash_table_size count) = Ok t0 -> add_all t0 files 0 = Ok t ->
  forall e, In e t -> e = mkHE 0 0 0 0 0xFFFFFFFF \/
    exists i name loc, nth_error files i = Some (name, loc) /\ e = mkHE (hash_string name 1) (hash_string name 2) loc 0 (N.of_nat i).
Proof. exact slots_fine. Qed.
Print Assumptions C06_slots.
Example C06_slots_example : exists t0 t, ht_new (calculate_hash_table_size 2) = Ok t0 /\
  add_all t0 [(lit "a.txt", 0); (lit "A.TXT", 5)] 0 = Ok t /\ lenN t = 16 /\
  lenN (filter (fun e => he_block e =? 0xFFFFFFFF) t) = 14 /\
  existsb (fun e => (he_name1 e =? hash_string (lit "a.txt") 1) && (he_locale e =? 5) && (he_block e =? 1)) t = true.
Proof.
  eexists. eexists. split; [vm_compute; reflexivity|]. split; [vm_compute; reflexivity|].
  split; [vm_compute; reflexivity|]. split; vm_compute; reflexivity.
Qed.

Example C06_example :
  let files := [(lit "a.txt", 0); (lit "dir\b.txt", 0); (lit "A.TXT", 5); (lit "c", 9)] in
  match ht_new (calculate_hash_table_size 5) with
  | Ok t0 =>
      match add_all t0 files 0 with
      | Ok t =>
          option_map (fun p => he_block (snd p))
            (match ht_find_file t (lit "DIR/B.TXT") 0 with Ok r => r | _ => None end) = Some 1 /\
          option_map (fun p => he_block (snd p))
            (match ht_find_file t (lit "c") 9 with Ok r => r | _ => None end) = Some 3 /\
          ht_find_file t (lit "c") 8 = Ok None /\
          add_all t0 (files ++ [(lit "Dir/B.txt", 0)]) 0 = Err EInvalidFormat
      | _ => False
      end
  | _ => False
  end.
Proof. vm_compute. repeat split; reflexivity. Qed.

(** C07: hash table, at any place in a file. *)
Theorem C07_hash_table_round_trip : forall (pre post : bytes) (t : list hentry) (k : N),
  lenN t = 2 ^ k -> Forall he_ok t ->
  ht_read (pre ++ write_hash_table t ++ post) (lenN pre) (lenN t) = Ok t.
Proof. exact hash_table_round_trip. Qed.
Print Assumptions C07_hash_table_round_trip.

(** C07: block table, at any place in a file. *)
Theorem C07_block_table_round_trip : forall (pre post : bytes) (t : list bentry),
  Forall be_ok t ->
  bt_read (pre ++ write_block_table t ++ post) (lenN pre) (lenN t) = Ok t.
Proof. exact block_table_round_trip. Qed.
Print Assumptions C07_block_table_round_trip.

Example C07_example :
  let t := [mkHE 1 2 3 4 5; he_empty; mkHE 0xFFFFFFFF 0xFFFFFFFE 0xFFFF 0xFFFF 0; he_empty] in
  let b := [mkBE 1 2 3 4; mkBE 0xFFFFFFFF 0 0x80000000 0x80010200; mkBE 0 0 0 0] in
  ht_read (lit "MPQ" ++ write_hash_table t ++ lit "z") 3 4 = Ok t /\
  write_hash_table t <> concat (map he_bytes t) /\
  bt_read (lit "MPQ" ++ write_block_table b ++ lit "z") 3 3 = Ok b.
Proof. vm_compute. repeat split; try reflexivity. discriminate. Qed.

(** C35: a position below 2^48, split and recombined through the hi-block
    table as written (or through its absence). *)
Theorem C35_large_positions : forall (pre post : bytes) (positions : list N) (i pos : N),
  Forall (fun p => p < 2 ^ 48) positions -> nthN positions i = Some pos ->
  match hi_written true positions with
  | Some w => exists t,
      hi_read (pre ++ w ++ post) (lenN pre) (lenN positions) = Ok t /\
      pos_full (Some t) i (pos_low pos) = pos
  | None => pos_full None i (pos_low pos) = pos
  end.
Proof. exact hi_positions. Qed.
Print Assumptions C35_large_positions.

(** The hi-block table is omitted only if every position fits 32 bits. *)
Theorem C35_omitted_only_when_small : forall (positions : list N),
  Forall (fun p => p < 2 ^ 48) positions -> hi_written true positions = None ->
  Forall (fun p => p < 2 ^ 32) positions.
Proof. exact hi_omitted. Qed.
Print Assumptions C35_omitted_only_when_small.

Example C35_example :
  let positions := [32; 0x123456789ABC; 0x100000000] in
  match hi_written true positions with
  | Some w =>
      match hi_read w 0 3 with
      | Ok t => pos_full (Some t) 1 (pos_low 0x123456789ABC) = 0x123456789ABC
      | _ => False
      end
  | None => False
  end /\ hi_written true [32; 0xFFFFFFFF] = None.
Proof. vm_compute. split; reflexivity. Qed.
