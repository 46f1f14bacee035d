(** * Properties of compression: C12 to C15, C38, C40. *)
From Verif Require Import Bytes Sparse SparseFacts Adpcm AdpcmBits AdpcmFacts Huffman HuffmanFacts
  Compress SpecCompress CompressFacts ToyCodec DemoCompress.
Open Scope N_scope.

(** ** C12 *)
Theorem C12_container_lossless : forall L d m r,
  lossless L -> In m [ZLIB; BZIP2; LZMA; PKWARE] ->
  compress L d m = Ok r -> r <> d ->
  exists c, r = Nb m :: c /\ decompress L c m (lenN d) = Ok d.
Proof. exact container_single. Qed.
Print Assumptions C12_container_lossless.

Theorem C12_never_longer : forall L d m r, compress L d m = Ok r -> lenN r <= lenN d.
Proof. exact compress_never_longer. Qed.
Print Assumptions C12_never_longer.

Theorem C12_no_gain_is_stored : forall L d m r,
  compress L d m = Ok r ->
  r = d \/ exists c, r = Nb m :: c /\ compress_internal L d m = Ok c /\ lenN c < lenN d.
Proof. exact compress_result. Qed.
Print Assumptions C12_no_gain_is_stored.

Example C12_example :
  let d := repeat (Nb 7) 40 in
  compress toy d ZLIB = Ok [Nb 2; x00; Nb 40; Nb 7] /\
  decompress toy [x00; Nb 40; Nb 7] ZLIB (lenN d) = Ok d /\
  compress toy (lit "abc") ZLIB = Ok (lit "abc") /\ lossless toy.
Proof. split; [|split; [|split]]; try (vm_compute; reflexivity). exact toy_lossless. Qed.

(** ** C13 *)
Theorem C13_sparse_lossless_refuted :
  exists d, sparse_decompress (sparse_compress d) (lenN d) <> Ok d.
Proof. exists (repeat x00 127 ++ lit "A"). vm_compute. discriminate. Qed.
Print Assumptions C13_sparse_lossless_refuted.

(** Exactly when it is lossless. *)
Theorem C13_sparse_lossless_iff : forall d,
  sparse_decompress (sparse_compress d) (lenN d) = Ok d <-> long_zeros_only_at_end d.
Proof. exact sparse_lossless. Qed.
Print Assumptions C13_sparse_lossless_iff.

(** The stream itself says everything; it is the reader that takes the control
    byte for 127 zeros as the end. *)
Theorem C13_stream_stands_for_data : forall d, runs 127 (sparse_compress d) d.
Proof. exact sparse_runs. Qed.
Print Assumptions C13_stream_stands_for_data.

(** Whatever wrote the stream: with runs of up to 126 zeros it is read exactly. *)
Theorem C13_reader_follows_runs : forall c d,
  runs 126 c d -> sparse_decompress c (lenN d) = Ok d.
Proof. exact sparse_reads_runs. Qed.
Print Assumptions C13_reader_follows_runs.

(** 126 zeros in the middle, 500 at the end: still exact. *)
Example C13_example :
  let d := lit "head" ++ repeat x00 126 ++ lit "tail" ++ repeat x00 500 in
  sparse_decompress (sparse_compress d) (lenN d) = Ok d /\
  (lenN (sparse_compress d) < 20).
Proof. vm_compute. auto. Qed.

Example C13_runs_example :
  runs 126 [Nb 0x83; Nb 2; Nb 65; Nb 66; Nb 0x80; Nb 0xFF] (repeat x00 3 ++ lit "AB") /\
  runs 127 [Nb 0xFF; Nb 1; Nb 65; Nb 0xFF] (repeat x00 127 ++ lit "A").
Proof.
  split.
  - apply (runs_zeros 126 3); [lia|]. apply (runs_bytes 126 (lit "AB") _ []); [vm_compute; discriminate|].
    apply (runs_zeros 126 0 _ []); [lia|]. apply runs_end.
  - apply (runs_zeros 127 127); [lia|]. apply (runs_bytes 127 (lit "A") _ []); [vm_compute; discriminate|].
    apply runs_end.
Qed.

(** ** C14 *)
Theorem C14_decoder_follows_encoder : forall input level cc out preds,
  adpcm_encode input level cc = Ok (out, preds) -> level < 256 ->
  adpcm_decompress out (lenN input) cc = Ok (concat (map write_sample preds)) /\
  length preds = length (samples_of input) /\
  firstn cc preds = firstn cc (samples_of input) /\
  Forall i16 preds /\ lenN input = 2 * N.of_nat (length preds).
Proof. exact adpcm_sync. Qed.
Print Assumptions C14_decoder_follows_encoder.

Theorem C14_encoder_accepts : forall input level cc,
  level <= 9 -> (1 <= cc <= 2)%nat -> lenN input mod (2 * N.of_nat cc) = 0 ->
  exists out preds, adpcm_encode input level cc = Ok (out, preds).
Proof. exact adpcm_encode_total. Qed.
Print Assumptions C14_encoder_accepts.

(** At the level the crate uses, no sample is ever off by more than 2052. *)
Theorem C14_accuracy : forall input cc out preds,
  adpcm_encode input 5 cc = Ok (out, preds) ->
  Forall2 (fun p s => (Z.abs (p - s) <= 2052)%Z) preds (samples_of input).
Proof. exact adpcm_accuracy. Qed.
Print Assumptions C14_accuracy.

Definition wave : list Z := [0; 1000; -1000; 5000; -5000; 32767; -32768; 12; 13; 14]%Z.
Example C14_example :
  exists out preds,
    adpcm_encode (concat (map write_sample wave)) 5 2 = Ok (out, preds) /\
    samples_of (concat (map write_sample wave)) = wave /\
    out <> [] /\ firstn 2 preds = [0; 1000]%Z /\ nth_error preds 5 <> nth_error preds 6.
Proof.
  do 2 eexists. split; [vm_compute; reflexivity|].
  split; [vm_compute; reflexivity|]. split; [discriminate|]. split; [reflexivity|discriminate].
Qed.

(** ** C15 *)
(** Both ADPCM bits: the compressor encodes one channel, the decompressor
    decodes two. *)
Theorem C15_combination_refuted :
  exists L f d c out,
    lossless L /\ compress L d f = Ok (Nb f :: c) /\
    lossy_image f d = Ok out /\ decompress L c f (lenN d) <> Ok out.
Proof.
  exists toy, 0xC0, (concat (map write_sample [0; 1000; 2000; 3000; 4000; 5000; 6000; 7000; 8000; 9000]%Z)).
  do 2 eexists. split; [exact toy_lossless|].
  split; [vm_compute; reflexivity|]. split; [vm_compute; reflexivity|].
  vm_compute. discriminate.
Qed.
Print Assumptions C15_combination_refuted.

(** No combination containing bzip2 can be undone (the intermediate size is
    guessed and then insisted on). *)
Theorem C15_bzip2_refuted : forall L f (d a c : bytes),
  lossless L -> lenN d < 2 ^ 61 -> bit f BZIP2 = true -> bit f HUFFMAN = false -> bit f ZLIB = false ->
  from_flags f = MMultiple f -> bz_enc L a = Ok c -> lenN a <> 4 * lenN d ->
  decompress L c f (lenN d) = Err ECompression.
Proof. exact combos_bzip2. Qed.
Print Assumptions C15_bzip2_refuted.

Example C15_bzip2_example :
  exists c, compress toy (repeat x00 40) 0x14 = Ok (Nb 0x14 :: c) /\
            decompress toy c 0x14 40 = Err ECompression.
Proof. eexists. split; vm_compute; reflexivity. Qed.

(** Every combination the compressor accepts is one of three kinds: undone for
    every input, sparse (undone when no long zero run is inside), or lost. *)
Theorem C15_every_method_classified : forall L d f r,
  f < 256 -> compress L d f = Ok r -> r <> d ->
  In f (lone_methods ++ undone_combinations ++ sparse_combinations ++ lost_combinations).
Proof. exact accepted_listed. Qed.
Print Assumptions C15_every_method_classified.

(** Each of the lost ones is accepted, and not undone. *)
Theorem C15_lost_refuted : forall f, In f lost_combinations ->
  exists L d c out,
    lossless L /\ compress L d f = Ok (Nb f :: c) /\ Nb f :: c <> d /\
    lossy_image f d = Ok out /\ decompress L c f (lenN d) <> Ok out.
Proof. exact lost_lost. Qed.
Print Assumptions C15_lost_refuted.

(** The combinations that are undone, for every input; C15 as worded fails for
    the lost ones above. *)
Theorem C15_undone_partial : forall L f d r,
  lossless L -> lenN d < 2 ^ 61 -> In f undone_combinations ->
  compress L d f = Ok r -> r <> d ->
  exists c, r = Nb f :: c /\ decompress L c f (lenN d) = lossy_image f d.
Proof. exact combos_undone. Qed.
Print Assumptions C15_undone_partial.

Example C15_undone_example :
  let d := concat (map write_sample (repeat 500%Z 40)) in
  exists c, compress toy d 0x42 = Ok (Nb 0x42 :: c) /\ Nb 0x42 :: c <> d /\
    In 0x42 undone_combinations /\ decompress toy c 0x42 (lenN d) = lossy_image 0x42 d.
Proof.
  eexists. split; [vm_compute; reflexivity|]. split; [discriminate|]. split; [cbn; tauto|].
  vm_compute. reflexivity.
Qed.

Theorem C15_sparse_undone_partial : forall L f d r,
  lenN d < 2 ^ 61 -> In f sparse_combinations ->
  (forall a, first_step f d = Ok a -> long_zeros_only_at_end a) ->
  compress L d f = Ok r -> r <> d ->
  exists c, r = Nb f :: c /\ decompress L c f (lenN d) = lossy_image f d.
Proof. exact combos_sparse. Qed.
Print Assumptions C15_sparse_undone_partial.

Example C15_sparse_example :
  let d := concat (map write_sample (repeat 0%Z 40)) in
  exists c, compress toy d 0x60 = Ok (Nb 0x60 :: c) /\ Nb 0x60 :: c <> d /\
    decompress toy c 0x60 (lenN d) = lossy_image 0x60 d.
Proof.
  eexists. split; [vm_compute; reflexivity|]. split; [discriminate|].
  vm_compute. reflexivity.
Qed.

(** ** C38 *)
(** What is decoded never depends on anything but the first byte. *)
Theorem C38_payload_ignored_refuted : forall t rest1 rest2 size,
  huffman_decompress (t :: rest1) size = huffman_decompress (t :: rest2) size.
Proof. intros. rewrite !huffman_const. reflexivity. Qed.
Print Assumptions C38_payload_ignored_refuted.

Theorem C38_constant_output_refuted : forall t rest size,
  huffman_decompress (t :: rest) size =
  match N.land (bN t) 15 with
  | 0 => Ok []
  | 1 => Ok (repeat (Nb 89) (N.to_nat (N.max 1 size)))
  | 2 => Ok (repeat (Nb 33) (N.to_nat (N.max 1 size)))
  | _ => Err ECompression
  end.
Proof. exact huffman_const. Qed.
Print Assumptions C38_constant_output_refuted.

Example C38_example :
  huffman_decompress [Nb 1; Nb 0xAA; Nb 0x55] 3 = Ok [Nb 89; Nb 89; Nb 89] /\
  huffman_decompress [Nb 0; Nb 0xAA; Nb 0x55] 3 = Ok [].
Proof. vm_compute. auto. Qed.

(** ** C40 *)
Theorem C40_sparse_robust : forall data size,
  sparse_decompress data size <> Panic /\
  (forall out, sparse_decompress data size = Ok out -> size <= lenN out <= size + 126).
Proof. exact sparse_decompress_total. Qed.
Print Assumptions C40_sparse_robust.

Theorem C40_sparse_prefix : forall data size1 size2 out1 out2,
  size1 <= size2 -> sparse_decompress data size1 = Ok out1 -> sparse_decompress data size2 = Ok out2 ->
  firstn (N.to_nat size1) out1 = firstn (N.to_nat size1) out2.
Proof. exact sparse_prefix. Qed.
Print Assumptions C40_sparse_prefix.

Example C40_example :
  sparse_decompress [Nb 0xFE] 1 = Ok (repeat x00 126) /\
  sparse_decompress [Nb 3; Nb 1] 5 = Err ECompression /\
  sparse_decompress [] 4 = Ok (repeat x00 4).
Proof. vm_compute. auto. Qed.
