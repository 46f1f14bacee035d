(** * Vocabulary for statements about hostile archives of versions 3 and 4. *)
From Verif Require Import Bytes Crypto Header HashTable BlockTable HetBet Compress Archive SpecHostile.
Open Scope N_scope.

(** A BET table whose entries, or some field of them, have 64 bits or more, or
    start at bit 64 or later. *)
Definition wide_entries (b : bet) : Prop :=
  64 <= bet_entry_bits b \/
  Exists (fun n => 64 <= n) [ix_pos b; ix_size b; ix_csize b; ix_flag b; ct_pos b; ct_size b; ct_csize b; ct_flag b].

(** What in the extended tables can stop a lookup with a panic. *)
Inductive lookup_trap (a : archive) : Prop :=
| lookup_size : forall h,                   (* the number of bits does not fit a word *)
    a_het a = Some h -> 2 ^ 32 <= 8 * het_table_bytes h -> lookup_trap a
| lookup_bits : forall h,                   (* entries without bits, or too wide *)
    a_het a = Some h -> het_hash_bits h = 0 \/ 64 <= het_hash_bits h -> lookup_trap a
| lookup_none : forall h,                   (* no entry fits the table *)
    a_het a = Some h -> 8 * het_table_bytes h < het_hash_bits h -> lookup_trap a
| lookup_wide : forall b, a_bet a = Some b -> wide_entries b -> lookup_trap a.

(** Several methods on top of each other: the room for the intermediate result is
    a multiple of the size, which for sizes that only a BET table can hold is too
    much. *)
Inductive scale_trap (L : codecs) (a : archive) (fi : finfo) (key : N) : Prop :=
| scale_whole : forall m c,
    compressed fi -> in_one_piece fi -> whole_piece a fi key (m :: c) ->
    2 ^ 61 <= fi_size fi \/ 2 ^ 62 <= lenN c ->
    decompress L c (bN m) (fi_size fi) = Panic -> scale_trap L a fi key
| scale_sector : forall i m c size,
    compressed fi -> ~ in_one_piece fi -> i < sectors a fi ->
    sector_piece a fi key i (m :: c) ->
    size <= full_sector a -> size <= fi_size fi -> 2 ^ 61 <= size ->
    decompress L c (bN m) size = Panic -> scale_trap L a fi key.

(** An archive of any version with its tables in memory, before its attributes
    are looked at: every table present was read from the place the header names. *)
Definition loaded (L : codecs) (file : bytes) (a : archive) : Prop :=
  a_file a = file /\ find_header file = Ok (a_off a, a_user a, a_header a) /\ a_attrs a = None /\
  (forall t, a_hash a = Some t ->
     ht_read file (a_off a + get_hash_table_pos (a_header a)) (h_hash_count (a_header a)) = Ok t) /\
  (forall t, a_block a = Some t ->
     bt_read file (a_off a + get_block_table_pos (a_header a)) (h_block_count (a_header a)) = Ok t) /\
  (forall t, a_hi a = Some t -> exists p, h_hi_pos (a_header a) = Some p /\
     hi_read file (a_off a + p) (h_block_count (a_header a)) = Ok t) /\
  (forall t, a_het a = Some t -> exists p size, h_het_pos (a_header a) = Some p /\
     het_read L file (a_off a + p) size ht_key = Ok t) /\
  (forall t, a_bet a = Some t -> exists p size, h_bet_pos (a_header a) = Some p /\
     bet_read L file (a_off a + p) size bt_key = Ok t).

(** What can stop the opening of any file with a panic. *)
Inductive opening_trap (L : codecs) (file : bytes) : Prop :=
| opening_far : forall off ud h p,          (* a table position too large *)
    find_header file = Ok (off, ud, h) -> In (Some p) [h_hi_pos h; h_het_pos h; h_bet_pos h] ->
    2 ^ 64 <= off + p -> opening_trap L file
| opening_late : forall off ud h p,         (* version 3: an extended table behind the hash table *)
    find_header file = Ok (off, ud, h) -> h_version h = V3 -> In (Some p) [h_het_pos h; h_bet_pos h] ->
    get_hash_table_pos h < p -> opening_trap L file
| opening_huge : forall off ud h n,         (* an extended table of 2^62 bytes or more *)
    find_header file = Ok (off, ud, h) ->
    (exists v, h_v4 h = Some v /\ (n = v4_het_size v \/ n = v4_bet_size v)) \/ h_bet_pos h = Some n ->
    2 ^ 62 <= n -> opening_trap L file
| opening_table : forall off ud h p size raw key m c ds, (* an extended table packed with an audio method *)
    find_header file = Ok (off, ud, h) -> In (Some p) [h_het_pos h; h_bet_pos h] ->
    slice (off + p) size file = Some raw -> In key [ht_key; bt_key] ->
    decrypt_table_data (skipn 12 raw) key = m :: c ->
    audio (bN m) -> decompress L c (bN m) ds = Panic -> opening_trap L file
| opening_lookup : forall a, loaded L file a -> lookup_trap a -> opening_trap L file
| opening_attributes : forall a fi,         (* a trap in the file (attributes) *)
    loaded L file a -> find_file a (lit "(attributes)") = Ok (Some fi) ->
    trap L a fi (reading_key a (lit "(attributes)") fi) \/
    scale_trap L a fi (reading_key a (lit "(attributes)") fi) -> opening_trap L file
| opening_unwrap : forall a m c size,       (* its content taken for a compressed piece *)
    loaded L file a -> read_file L a (lit "(attributes)") = Ok (m :: c) ->
    audio (bN m) \/ 2 ^ 62 <= lenN c ->
    decompress L c (bN m) size = Panic -> opening_trap L file.
