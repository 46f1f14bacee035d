(** * Model of the hash table (mopaq/src/tables/hash.rs and the builder's
    insertion, mopaq/src/builder.rs). *)
From Verif Require Import Bytes Crypto.
Open Scope N_scope.

(** hash.rs:10-22 *)
Record hentry := mkHE {
  he_name1 : N; he_name2 : N; he_locale : N; he_platform : N; he_block : N }.

(** hash.rs:26, 28 *)
Definition NEVER_USED : N := 0xFFFFFFFF.
Definition DELETED : N := 0xFFFFFFFE.

(** hash.rs:31-39 *)
Definition he_empty : hentry := mkHE 0 0 0 0 NEVER_USED.
(** hash.rs:42-44, 47-49, 52-54 *)
Definition is_empty (e : hentry) : bool := he_block e =? NEVER_USED.
Definition is_deleted (e : hentry) : bool := he_block e =? DELETED.
Definition is_valid (e : hentry) : bool := he_block e <? DELETED.

(** mopaq/src/lib.rs:105-107 *)
Definition is_power_of_two (v : N) : bool :=
  negb (v =? 0) && (N.land v (v - 1) =? 0).

(** hash.rs:81-89 [HashTable::new]: the check looks at the size truncated to
    32 bits. *)
Definition ht_new (size : N) : res (list hentry) :=
  if is_power_of_two (w32 size) then Ok (repeat he_empty (N.to_nat size))
  else Err EHashTable.

(** hash.rs:164-171: is this slot the file asked for? *)
Definition he_matches (a b loc : N) (e : hentry) : bool :=
  (he_name1 e =? a) && (he_name2 e =? b) &&
  ((loc =? 0) || (he_locale e =? 0) || (he_locale e =? loc)) && is_valid e.

(** hash.rs:159-183, the probe loop.  [fuel] bounds the iterations (the table
    length is enough, see HashTableFacts); running out of fuel would be an
    endless loop and is reported as [Panic], as is an index outside the table. *)
Fixpoint find_loop (fuel : nat) (t : list hentry) (a b loc start idx : N)
  : res (option (N * hentry)) :=
  match fuel with
  | O => Panic
  | S f =>
      match nthN t idx with
      | None => Panic
      | Some e =>
          if he_matches a b loc e then Ok (Some (idx, e))
          else if is_empty e then Ok None
          else
            let idx' := N.land (idx + 1) (lenN t - 1) in
            if idx' =? start then Ok None else find_loop f t a b loc start idx'
      end
  end.

(** hash.rs:149-184 [HashTable::find_file]; an empty table underflows
    [table_size - 1]. *)
Definition ht_find_file (t : list hentry) (name : bytes) (loc : N)
  : res (option (N * hentry)) :=
  let a := hash_string name HT_NAME_A in
  let b := hash_string name HT_NAME_B in
  let off := hash_string name HT_TABLE_OFFSET in
  if lenN t =? 0 then Panic
  else
    let start := N.land off (lenN t - 1) in
    find_loop (length t) t a b loc start start.

(** builder.rs:1129-1155: the insertion loop (no wrap-around check: a full
    table without a duplicate loops for ever, reported as [Panic]). *)
Fixpoint add_loop (fuel : nat) (t : list hentry) (a b loc blk idx : N)
  : res (list hentry) :=
  match fuel with
  | O => Panic
  | S f =>
      match nthN t idx with
      | None => Err EInvalidFormat
      | Some e =>
          if is_empty e then Ok (upd t (N.to_nat idx) (mkHE a b loc 0 blk))
          else if (he_name1 e =? a) && (he_name2 e =? b) && (he_locale e =? loc)
          then Err EInvalidFormat
          else add_loop f t a b loc blk (N.land (idx + 1) (lenN t - 1))
      end
  end.

(** builder.rs:1113-1158 [add_to_hash_table] *)
Definition add_to_hash_table (t : list hentry) (name : bytes) (blk loc : N)
  : res (list hentry) :=
  let off := hash_string name HT_TABLE_OFFSET in
  let a := hash_string name HT_NAME_A in
  let b := hash_string name HT_NAME_B in
  if lenN t =? 0 then Panic
  else add_loop (length t) t a b loc blk (N.land off (lenN t - 1)).

(** [u32::next_power_of_two] (overflow of the result is a panic). *)
Definition next_power_of_two (n : N) : N := 2 ^ N.log2_up n.

(** builder.rs:510-522 [calculate_hash_table_size]; [count] is the number of
    pending files plus one when a list file is configured. *)
Definition calculate_hash_table_size (count : N) : N :=
  next_power_of_two (w32 (N.max (count * 2) 16)).

(** ** Serialisation *)
(** builder.rs:1167-1174 *)
Definition he_bytes (e : hentry) : bytes :=
  le32 (he_name1 e) ++ le32 (he_name2 e) ++ le16 (he_locale e)
  ++ le16 (he_platform e) ++ le32 (he_block e).

(** hash.rs:57-70 [HashEntry::from_bytes] *)
Definition he_from_bytes (d : bytes) : res hentry :=
  if lenN d <? 16 then Err EInvalidFormat
  else Ok (mkHE (le_dec (firstn 4 d)) (le_dec (firstn 4 (skipn 4 d)))
             (le_dec (firstn 2 (skipn 8 d))) (le_dec (firstn 2 (skipn 10 d)))
             (le_dec (firstn 4 (skipn 12 d)))).

(** builder.rs:1161-1187 [write_hash_table]: the bytes written *)
Definition ht_key : N := hash_string (lit "(hash table)") HT_FILE_KEY.
Definition write_hash_table (t : list hentry) : bytes :=
  encrypt_data (concat (map he_bytes t)) ht_key.

(** Parse [n] consecutive 16-byte entries (hash.rs:122-128, block.rs:136-142). *)
Fixpoint parse_entries {A} (p : bytes -> res A) (n : nat) (d : bytes) : res (list A) :=
  match n with
  | O => Ok []
  | S n' =>
      e <- p (firstn 16 d) ;;
      r <- parse_entries p n' (skipn 16 d) ;;
      Ok (e :: r)
  end.

(** hash.rs:92-131 [HashTable::read]; reading past the end of the file is an
    I/O error. *)
Definition ht_read (file : bytes) (offset size : N) : res (list hentry) :=
  if is_power_of_two size then
    raw <- of_option EIo (slice offset (size * 16) file) ;;
    parse_entries he_from_bytes (N.to_nat size) (decrypt_table_data raw ht_key)
  else Err EHashTable.
