(** * C66: extended tables that other tools wrote, and lookups in any archive that has some. *)
From Verif Require Import Bytes HashTable BlockTable Header Compress SpecCompress ToyCodec SpecBits SpecStored SpecCipher Listfile HetBet Attributes Archive
  SpecExtended ExtendedFacts DemoExtended.
Open Scope N_scope.

(** Every entry of a table of the format is read, if entries have less than 64 bits and
    the one in question is within eight bytes of the table, from the byte it starts in. *)
Theorem C66_block_entries_partial : forall L stored body file off key ws flags table hashes,
  table_stored L 0x1A544542 key stored body -> lenN body < 2 ^ 32 -> slice off (lenN stored) file = Some stored ->
  block_layout body ws flags table hashes ->
  exists b, bet_read L file off (lenN stored) key = Ok b /\ bet_count b = b_count ws /\
    (forall i pos size csize fl, block_entry_is ws flags table i pos size csize fl -> b_width ws < 64 ->
       i * b_width ws mod 8 + b_width ws <= 64 -> i * b_width ws / 8 + 8 <= lenN table ->
       bet_get b i = Ok (Some (mkBI pos size csize fl))) /\
    (forall i, lenN table < i * b_width ws / 8 + 8 -> bet_get b i = Ok None) /\
    (forall i, i < b_count ws -> 64 <= b_width ws -> i * b_width ws / 8 + 8 <= lenN table -> bet_get b i = Panic).
Proof. exact blocks_read. Qed.
Print Assumptions C66_block_entries_partial.

(** The third of four files *)
Example C66_block_entries_example : exists b,
  bet_read toy ext_file (84 + lenN ext_het) (lenN ext_bet) bt_key = Ok b /\ bet_count b = 4 /\
  bet_get b 2 = Ok (Some (mkBI 76 4 4 0x81000000)).
Proof.
  destruct (C66_block_entries_partial toy ext_bet ext_block_body ext_file (84 + lenN ext_het) bt_key ext_block_words ext_flags
    ext_block_table [] ext_bet_stored eq_refl ext_bet_there ext_block_layout) as (b & B & C & H & _).
  exists b. split; [exact B|]. split; [exact C|]. apply H; [exact (ext_entries 2 (Nb 76) eq_refl)|reflexivity|discriminate|discriminate].
Qed.

(** An entry that reaches into a ninth byte is cut: a file of 49156 bytes is taken for one of four. *)
Theorem C66_cut_entry_refuted : exists L stored body key ws flags table hashes i pos size csize fl b size',
  table_stored L 0x1A544542 key stored body /\ block_layout body ws flags table hashes /\
  block_entry_is ws flags table i pos size csize fl /\
  bet_read L stored 0 (lenN stored) key = Ok b /\ bet_get b i = Ok (Some (mkBI pos size' csize fl)) /\ size' <> size.
Proof. exact cut_read. Qed.
Print Assumptions C66_cut_entry_refuted.

(** The last file of the archive is described, but there is no entry for it. *)
Theorem C66_last_entry_refuted : exists L stored body key ws flags table hashes i pos size csize fl b,
  table_stored L 0x1A544542 key stored body /\ block_layout body ws flags table hashes /\
  block_entry_is ws flags table i pos size csize fl /\
  bet_read L stored 0 (lenN stored) key = Ok b /\ bet_get b i = Ok None.
Proof. exact last_lost. Qed.
Print Assumptions C66_last_entry_refuted.

(** What the search for a name gives: it looks at one hash, and the answer is number 0,
    whatever number the table has there. *)
Theorem C66_names_partial : forall L stored body file off key ws table numbers,
  table_stored L 0x1A544548 key stored body -> lenN body < 2 ^ 32 -> slice off (lenN stored) file = Some stored ->
  name_layout body ws table numbers -> 8 * lenN table < 2 ^ 32 -> 0 < n_bits ws <= 64 -> 0 < n_slots ws -> 0 < n_max ws ->
  exists h, het_read L file off (lenN stored) key = Ok h /\ het_max h = n_max ws /\
    forall name, slot_of ws name * n_bits ws mod 8 + n_bits ws <= 64 ->
    let hit := slot_of ws name * n_bits ws / 8 + 8 <= lenN table /\
               spells table (slot_of ws name * n_bits ws) (n_bits ws) (extended_hash name mod 2 ^ n_bits ws) in
    (hit -> het_find h name = if n_bits ws =? 64 then Panic else Ok (Some 0)) /\ (~ hit -> het_find h name = Ok None).
Proof. exact names_read. Qed.
Print Assumptions C66_names_partial.

Example C66_names_example : exists h,
  het_read toy ext_file 84 (lenN ext_het) ht_key = Ok h /\ het_find h (lit "b.txt") = Ok (Some 0) /\
  numbered ext_name_words ext_name_table ext_numbers (lit "b.txt") 1.
Proof.
  destruct (C66_names_partial toy ext_het ext_name_body ext_file 84 ht_key ext_name_words ext_name_table ext_numbers
    ext_het_stored) as (h & Hh & _ & F);
    [reflexivity|exact ext_het_there|exact ext_name_layout|reflexivity|now split|reflexivity|reflexivity|].
  exists h. split; [exact Hh|]. pose proof (ext_numbered 1 (lit "b.txt") eq_refl) as N. split; [|exact N].
  specialize (F (lit "b.txt")). destruct N as [N _]. rewrite ext_slot in F, N. destruct F as [F _]; [discriminate|].
  apply F. split; [discriminate|exact N].
Qed.

(** So every file that such a table lists, and whose hash is not in the last bytes of
    it, is found as the first one, ... *)
Theorem C66_all_first_refuted : forall L a stored body off key ws table numbers h b name i bi pos,
  table_stored L 0x1A544548 key stored body -> lenN body < 2 ^ 32 -> slice off (lenN stored) (a_file a) = Some stored ->
  name_layout body ws table numbers -> 8 * lenN table < 2 ^ 32 -> 0 < n_bits ws < 64 -> 0 < n_max ws ->
  het_read L (a_file a) off (lenN stored) key = Ok h -> a_het a = Some h -> a_bet a = Some b -> 0 < bet_count b ->
  numbered ws table numbers name i ->
  slot_of ws name * n_bits ws mod 8 + n_bits ws <= 64 -> slot_of ws name * n_bits ws / 8 + 8 <= lenN table ->
  bet_get b 0 = Ok (Some bi) -> add64 (a_off a) (bi_pos bi) = Ok pos ->
  find_file a name = Ok (Some (mkFI 0 0 pos (bi_csize bi) (bi_size bi) (bi_flags bi) 0)).
Proof. exact all_first. Qed.
Print Assumptions C66_all_first_refuted.

(** ... and the content of another file is read without an error. *)
Theorem C66_wrong_file_refuted : exists L a h b stored body off key ws table numbers stored' body' off' key' ws' flags' table' hashes' i name pos size csize fl d,
  open_archive L (a_file a) = Ok a /\ a_het a = Some h /\ a_bet a = Some b /\
  table_stored L 0x1A544548 key stored body /\ slice off (lenN stored) (a_file a) = Some stored /\ name_layout body ws table numbers /\
  table_stored L 0x1A544542 key' stored' body' /\ slice off' (lenN stored') (a_file a) = Some stored' /\ block_layout body' ws' flags' table' hashes' /\
  het_read L (a_file a) off (lenN stored) key = Ok h /\ bet_read L (a_file a) off' (lenN stored') key' = Ok b /\
  numbered ws table numbers name i /\ block_entry_is ws' flags' table' i pos size csize fl /\
  stored_as L true (a_file a) (a_off a) (512 * 2 ^ h_block_size (a_header a)) name (a_off a + pos) csize fl d /\ size = lenN d /\
  exists d', read_file L a name = Ok d' /\ d' <> d.
Proof. exact wrong_file. Qed.
Print Assumptions C66_wrong_file_refuted.

(** In any archive with extended tables that are not empty, however they came about:
    the search for a name fails badly, or gives what the other tables say, or gives
    the first entry. *)
Theorem C66_any_lookup : forall a name h b, valid_het_bet a = Some (h, b) ->
  find_file a name = Panic \/
  (find_file a name = find_file_classic a name /\ a_hash a <> None /\ a_block a <> None) \/
  (find_file a name = Ok None /\ (a_hash a = None \/ a_block a = None)) \/
  exists bi pos, bet_get b 0 = Ok (Some bi) /\ add64 (a_off a) (bi_pos bi) = Ok pos /\
    find_file a name = Ok (Some (mkFI 0 0 pos (bi_csize bi) (bi_size bi) (bi_flags bi) 0)).
Proof. exact any_lookup. Qed.
Print Assumptions C66_any_lookup.

(** All four files of the archive read as the first, and other names not at all. *)
Example C66_any_lookup_example : valid_het_bet ext_arc <> None /\
  map (read_file toy ext_arc) ext_names = repeat (Ok (lit "AAAA")) 4 /\
  find_file ext_arc (lit "other.txt") = Ok None.
Proof. split; [discriminate|]. split; vm_compute; reflexivity. Qed.
