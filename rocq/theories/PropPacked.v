(** * Properties C03 (lookups) and C36: names in tables, bit-packed tables. *)
From Verif Require Import Bytes Crypto SpecNames NameFacts HashTable BlockTable Header Compress SpecTables HetBet SpecBits
  HashTableFacts HetBetFacts ToyCodec Listfile Adler Builder Attributes Archive LookupFacts PackedFacts DemoArchive Demo34.
Open Scope N_scope.

(** C03: spellings that differ in case and separators are looked up and read
    alike in every table and every archive, with the same key. *)
Theorem C03_lookups_insensitive :
  forall (L : codecs) (x y : bytes), name_equiv x y ->
  (forall t loc, ht_find_file t x loc = ht_find_file t y loc) /\
  (forall h, het_find h x = het_find h y) /\
  (forall a, find_file a x = find_file a y) /\
  (forall a, read_file L a x = read_file L a y) /\
  (forall pos size flags, calculate_file_key x pos size flags = calculate_file_key y pos size flags).
Proof. exact lookups_equiv. Qed.
Print Assumptions C03_lookups_insensitive.

Example C03_lookups_example :
  name_equiv (lit "A.Txt") (lit "a.TXT") /\ read_file toy five_open (lit "A.Txt") = Ok (lit "AA") /\
  read_file toy five_open (lit "a.TXT") = Ok (lit "AA").
Proof. split; [apply name_equivb_sound; vm_compute; reflexivity|]. vm_compute. split; reflexivity. Qed.

(** C36: an entry written into a packed table spells its value if it ends within
    eight bytes, and nothing else changes. *)
Theorem C36_entry_written :
  forall (data : bytes) (i v b : N) (data' : bytes),
  b <= 64 -> write_bit_entry data i v b = Ok data' ->
  lenN data' = lenN data /\
  (v < 2 ^ b -> i * b mod 8 + b <= 64 -> spells data' (i * b) b v) /\
  forall k, k < i * b \/ i * b + b <= k -> bit_of data' k = bit_of data k.
Proof. exact one_entry. Qed.
Print Assumptions C36_entry_written.

Example C36_entry_example :
  exists d, write_bit_entry (zeros 8) 3 0x155 11 = Ok d /\ spells d 33 11 0x155.
Proof.
  eexists. split; [vm_compute; reflexivity|].
  refine (proj1 (proj2 (C36_entry_written (zeros 8) 3 0x155 11 _ ltac:(lia) _)) _ _);
    [vm_compute; reflexivity|reflexivity|vm_compute; discriminate].
Qed.

(** An entry that does not end within eight bytes loses bits... *)
Theorem C36_long_entry_refuted : exists data i v b data',
  b <= 64 /\ v < 2 ^ b /\ write_bit_entry data i v b = Ok data' /\ ~ spells data' (i * b) b v.
Proof. exact entry_cut_witness. Qed.
Print Assumptions C36_long_entry_refuted.

(** ... always: the bits past the eighth byte stay as they were. *)
Theorem C36_long_entry_cut :
  forall (data : bytes) (i v b : N) (data' : bytes) (k : N),
  b <= 64 -> write_bit_entry data i v b = Ok data' -> 8 * (i * b / 8) + 64 <= k ->
  bit_of data' k = bit_of data k.
Proof. exact entry_cut. Qed.
Print Assumptions C36_long_entry_cut.

(** The table of block entries as built, written and read: an entry of at most
    57 bits is read back if eight bytes of table are left from where it starts,
    and not at all otherwise. *)
Theorem C36_block_entries_partial :
  forall (L : codecs) (m : N) (names : list bytes) (bt : list bentry) (d out file : bytes) (off : N),
  create_bet_table names bt = Ok d -> write_ext_table L false m d bt_key = Ok out ->
  slice off (lenN out) file = Some out ->
  lenN names = lenN bt -> lenN names < M32 -> Forall be_ok bt ->
  exists b, bet_read L file off (lenN out) bt_key = Ok b /\ bet_count b = lenN bt /\
    let w := bet_entry_bits b in
    (forall i e, nth_error bt i = Some e -> w <= 57 ->
       N.of_nat i * w / 8 + 8 <= div_ceil (lenN bt * w) 8 ->
       bet_get b (N.of_nat i) = Ok (Some (mkBI (be_pos e) (be_size e) (be_csize e) (be_flags e)))) /\
    (forall i, div_ceil (lenN bt * w) 8 < i * w / 8 + 8 -> bet_get b i = Ok None).
Proof. exact bet_round_trip. Qed.
Print Assumptions C36_block_entries_partial.

(** The last entry of fewer than 50 bits is never read back. *)
Theorem C36_last_entry_refuted :
  forall (L : codecs) (m : N) (names : list bytes) (bt : list bentry) (d out file : bytes) (off : N),
  create_bet_table names bt = Ok d -> write_ext_table L false m d bt_key = Ok out ->
  slice off (lenN out) file = Some out ->
  lenN names = lenN bt -> lenN names < M32 -> Forall be_ok bt -> bt <> [] ->
  exists b, bet_read L file off (lenN out) bt_key = Ok b /\
    (bet_entry_bits b < 50 -> bet_get b (lenN bt - 1) = Ok None).
Proof. exact bet_last_unreadable. Qed.
Print Assumptions C36_last_entry_refuted.

Example C36_block_entries_example :
  create_bet_table thr_names thr_bt = Ok thr_data /\ write_ext_table toy false ZLIB thr_data bt_key = Ok thr_out /\
  Forall be_ok thr_bt /\
  exists b, bet_read toy thr_out 0 (lenN thr_out) bt_key = Ok b /\ bet_entry_bits b = 38 /\
    bet_get b 5 = Ok (Some (mkBI 0xF005 0x123 0xABC 0x80000200)) /\ bet_get b 7 = Ok None.
Proof.
  split; [exact thr_created|]. split; [exact thr_written|]. split; [exact thr_ok|].
  eexists. split; [vm_compute; reflexivity|]. vm_compute. repeat split.
Qed.

(** Entries of 64 bits and more crash the builder. *)
Theorem C36_wide_entries_refuted :
  forall (names : list bytes) (bt : list bentry) (p s z : N) (ep es ez : bentry),
  In ep bt -> 2 ^ p <= be_pos ep -> In es bt -> 2 ^ s <= be_size es -> In ez bt -> 2 ^ z <= be_csize ez ->
  61 <= p + s + z -> create_bet_table names bt = Panic.
Proof. exact bet_too_wide. Qed.
Print Assumptions C36_wide_entries_refuted.

Example C36_wide_entries_example :
  create_bet_table [lit "a"] [mkBE 0xFFFF0000 0xABCDEF 0x123456 0x80000200] = Panic.
Proof.
  apply (C36_wide_entries_refuted _ _ 31 20 23 (mkBE 0xFFFF0000 0xABCDEF 0x123456 0x80000200)
    (mkBE 0xFFFF0000 0xABCDEF 0x123456 0x80000200) (mkBE 0xFFFF0000 0xABCDEF 0x123456 0x80000200));
  try (left; reflexivity); vm_compute; discriminate.
Qed.

(** The name table of packed hashes is written with one entry width and read with
    another: the only file number it ever gives is 0. *)
Theorem C36_name_entries_refuted :
  forall (h : het) (name : bytes) (i : N), het_find h name = Ok (Some i) -> i = 0.
Proof. exact het_find_zero. Qed.
Print Assumptions C36_name_entries_refuted.

(** Extended tables written with compression may not be readable. *)
Theorem C36_compressed_tables_refuted : exists L c files arc a,
  c_version c = V3 /\ c_ctables c = true /\ build L no_md5 c files = Ok arc /\ open_archive L arc = Ok a /\
  (exists p q, h_het_pos (a_header a) = Some p /\ h_bet_pos (a_header a) = Some q /\ 0 < p /\ 0 < q) /\
  a_het a = None /\ a_bet a = None.
Proof. exact packed_unreadable. Qed.
Print Assumptions C36_compressed_tables_refuted.
