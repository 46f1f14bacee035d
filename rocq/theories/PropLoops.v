(** * C75: every loop ends. *)
From Verif Require Import Bytes Crypto HashTable Header HetBet Archive CliList Builder Sparse Adpcm Huffman Signature Percent
  SpecSignature HuffmanFacts Loops SpecLoops LoopFacts ToyCodec DemoArchive DemoLoops.
Open Scope N_scope.

(** Looking for a name in the table of any archive that opened *)
Theorem C75_lookup : forall L file a t name loc, open_archive L file = Ok a -> a_hash a = Some t ->
  let start := N.land (hash_string name HT_TABLE_OFFSET) (lenN t - 1) in
  ends (find_round t (hash_string name HT_NAME_A) (hash_string name HT_NAME_B) loc start) start (lenN t) (ht_find_file t name loc).
Proof. exact opened_lookup_ends. Qed.
Print Assumptions C75_lookup.
Example C75_lookup_example :
  (exists a t, open_archive toy demo_file = Ok a /\ a_hash a = Some t /\ lenN t = 16) /\
  rounds (find_round taken 5 6 0 1) 1 2 (Ok None).
Proof. exact (conj demo_searched taken_search). Qed.

(** Entering a name into the table of an archive being built *)
Theorem C75_entering : forall c fs before f after t0 t, table_count c fs < 2 ^ 30 -> fs = before ++ f :: after ->
  ht_new (calculate_hash_table_size (table_count c fs)) = Ok t0 -> add_files t0 before 0 = Ok t ->
  ends (add_round t (hash_string (pf_name f) HT_NAME_A) (hash_string (pf_name f) HT_NAME_B) (pf_locale f) (w32 (lenN before)))
       (N.land (hash_string (pf_name f) HT_TABLE_OFFSET) (lenN t - 1)) (lenN t)
       (add_to_hash_table t (pf_name f) (w32 (lenN before)) (pf_locale f)).
Proof. exact builder_entering_ends. Qed.
Print Assumptions C75_entering.
Example C75_entering_example : exists t0 t, demo_files = [file_a] ++ file_b :: [file_c; file_d] /\ table_count demo_cfg demo_files < 2 ^ 30 /\
  ht_new (calculate_hash_table_size (table_count demo_cfg demo_files)) = Ok t0 /\ add_files t0 [file_a] 0 = Ok t.
Proof. exact demo_entered. Qed.

(** The loop itself never ends on a full table without the name: only the size the builder picks keeps it from that. *)
Theorem C75_full_table_refuted : forall t k a b loc blk idx, lenN t = 2 ^ k -> idx < lenN t ->
  (forall e, In e t -> is_empty e = false /\ ~ (he_name1 e = a /\ he_name2 e = b /\ he_locale e = loc)) ->
  endless (add_round t a b loc blk) idx.
Proof. exact full_endless. Qed.
Print Assumptions C75_full_table_refuted.
Example C75_full_table_refuted_example : endless (add_round taken 5 6 0 2) 1.
Proof. exact taken_endless. Qed.

(** Finding a free slot when the table of name hashes is built *)
Theorem C75_slots : forall used start, start < lenN used ->
  ends (slot_round used (lenN used) start) start (lenN used) (het_slot (length used) used (lenN used) start start).
Proof. exact slots_end. Qed.
Print Assumptions C75_slots.
Example C75_slots_example :
  het_slot 3 [true; false; true] 3 2 2 = Ok 1 /\ het_slot 2 [true; true] 2 1 1 = Err EInvalidFormat.
Proof. split; reflexivity. Qed.

(** Looking for the header *)
Theorem C75_header : forall file, ends (header_round file) 0 (lenN file / 512 + 2) (find_header file).
Proof. exact header_ends. Qed.
Print Assumptions C75_header.
Example C75_header_example : exists r, find_header demo_file = Ok r /\ rounds (header_round demo_file) 0 2 (Ok r).
Proof. exact demo_header. Qed.

(** What is signed, however little each read gives *)
Theorem C75_weak_digest : forall rd file si, reader_of file rd ->
  ends (digest_round rd file si) (si_begin si, []) (lenN file - si_begin si + 1) (digest_data rd file si).
Proof. exact weak_digest_ends. Qed.
Print Assumptions C75_weak_digest.
Theorem C75_strong_digest : forall rd file pos n, reader_of file rd ->
  ends (stream_round rd file) (pos, n, []) (N.min n (lenN file - pos) + 1) (stream_data rd file pos n).
Proof. exact strong_digest_ends. Qed.
Print Assumptions C75_strong_digest.
Example C75_digest_example : (forall file, reader_of file (drop_by_drop file)) /\
  rounds (stream_round (drop_by_drop (lit "abc")) (lit "abc")) (1, 10, []) 3 (Ok (lit "bc")).
Proof. exact (conj drop_reader drops). Qed.

(** Sparse, both ways *)
Theorem C75_unsparse : forall data expected, exists r,
  ends (unsparse_round expected) (data, []) (lenN data + 1) r /\
  sparse_decompress data expected = (out <- r ;; Ok (out ++ zeros (expected - lenN out))).
Proof. exact unsparse_all. Qed.
Print Assumptions C75_unsparse.
Theorem C75_sparse :
  (forall d, ends sparse_round (d, []) (lenN d + 1) (sparse_enc_loop (length d) d)) /\
  (forall d, ends zeros_round (0%nat, d) (lenN d + 1) (zero_run d)) /\
  (forall z, ends chunk_round (N.of_nat z, []) (div_ceil (N.of_nat z) 127 + 1) (zero_chunks (S z) (N.of_nat z))) /\
  (forall d, ends literal_round ([], d) 128 (lit_run 127 d)).
Proof. exact (conj sparse_all (conj zeros_all (conj chunks_all literals_all))). Qed.
Print Assumptions C75_sparse.
Example C75_sparse_example : rounds chunk_round (300, []) 4 [Nb 255; Nb 255; Nb 174].
Proof. exact three_chunks. Qed.

(** Audio, both ways *)
Theorem C75_audio : forall level shift cc samples sts ch, exists r,
  ends (audio_round level shift cc) (sts, ch, samples, []) (lenN samples + 1) r /\
  r = (' (o, _) <- enc_loop level shift cc sts ch samples ;; Ok o).
Proof. exact audio_all. Qed.
Print Assumptions C75_audio.
Theorem C75_one_sample :
  (forall difference idx, idx <= 88 -> ends (grow_round difference) (idx, []) 13 (grow 13 difference idx)) /\
  (forall difference step shift max enc, max_bit_mask shift = Ok max ->
     ends (bits_round difference max) (step, 0%Z, 1, enc) 8 (enc_bits 8 difference step 0 1 max enc)).
Proof. exact (conj grow_all bits_all). Qed.
Print Assumptions C75_one_sample.
Example C75_one_sample_example : max_bit_mask 4 = Ok 8 /\ grow 13 60000 0 = Ok (repeat (Nb 129) 11, 88).
Proof. split; vm_compute; reflexivity. Qed.
Theorem C75_unaudio : forall shift cc size input sts ch,
  ends (unaudio_round shift cc size) (sts, ch, input, []) (lenN input + 1) (dec_loop shift cc sts ch input 0 size).
Proof. exact unaudio_all. Qed.
Print Assumptions C75_unaudio.

(** Huffman: the tree, a symbol, the symbols *)
Theorem C75_huffman :
  (forall r, ends peek_round r 2 (peek_7_bits r)) /\
  (forall work items, ends parent_round (items, work) (N.max 1 (N.of_nat work)) (items ++ parents work)) /\
  (forall k r, k < 3 -> exists items v, build_tree k = Ok items /\ first_value k = Some v /\
     ends (tree_round items) (Some 0, r) 1 (Ok (v, r)) /\ decode_one items r = Ok (v, snd (peek_7_bits r))) /\
  (* whatever the tree, even one that runs in a circle: a round more than there are bits *)
  (forall items cur r, exists v, ends (tree_round items) (cur, r) (8 * lenN (rd_rest r) + rd_count r + 1) v /\ v <> Panic /\
     forall m, 8 * lenN (rd_rest r) + rd_count r < N.of_nat m -> tree_walk m items cur r = v) /\
  (forall t rest expected items, build_tree (bN t) = Ok items ->
     exists n, rounds (huff_round items expected) (mkReader rest 0 0, []) n (huffman_decompress (t :: rest) expected) /\
               n = (if N.land (bN t) 15 =? 0 then 1 else N.max 1 expected)).
Proof. exact (conj peek_ends (conj parents_end (conj walk_ends (conj walks_end huffman_ends)))). Qed.
Print Assumptions C75_huffman.

(** A single stored byte keeps the reader busy for as long as the stated size says. *)
Theorem C75_huffman_refuted : forall n, 1 <= n -> exists items, build_tree 1 = Ok items /\
  rounds (huff_round items n) (mkReader [] 0 0, []) n (huffman_decompress [Nb 1] n).
Proof. exact one_byte_many. Qed.
Print Assumptions C75_huffman_refuted.
Example C75_huffman_refuted_example : huffman_decompress [Nb 1] 5 = Ok (repeat (Nb 89) 5).
Proof. vm_compute. reflexivity. Qed.

(** Sizes as they are printed *)
Theorem C75_sizes : forall n, exists y u,
  ends size_round (of_u64 n, [lit "B"; lit "KB"; lit "MB"; lit "GB"; lit "TB"]) 5 (y, u) /\
  (u = lit "B" /\ format_size n = decimal n \/ u <> lit "B" /\ format_size n = fixed2 y ++ lit " " ++ u).
Proof. exact size_ends. Qed.
Print Assumptions C75_sizes.
