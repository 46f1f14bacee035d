(** * Property C62: data packed in several steps. *)
From Verif Require Import Bytes Adpcm Compress SpecCompress CompressFacts SpecNested NestedFacts ToyCodec.
Open Scope N_scope.

(** C62 for zlib over PKWare, over audio coding or not; as worded it fails for
    the combinations below. *)
Theorem C62_zlib_over_pkware_partial : forall L f d c,
  lossless L -> lenN d < 2 ^ 61 -> In f zlib_over_pkware ->
  packed_thrice L f d c -> decompress L c f (lenN d) = lossy_image f d.
Proof. exact thrice_undone. Qed.
Print Assumptions C62_zlib_over_pkware_partial.

(** Three steps that all change the data, undone to what the first of them left
    of it. *)
Example C62_zlib_over_pkware_example :
  let d := concat (map write_sample (repeat 500%Z 40)) in
  exists c out, packed_thrice toy 0x4A d c /\ c <> d /\
    decompress toy c 0x4A (lenN d) = Ok out /\ lenN out = lenN d.
Proof.
  do 2 eexists. split; [do 2 eexists; split; [|split]; vm_compute; reflexivity|].
  split; [discriminate|]. split; vm_compute; reflexivity.
Qed.

(** Without an audio bit the data themselves come back. *)
Theorem C62_plain_partial : forall L d c,
  lossless L -> lenN d < 2 ^ 61 -> packed_thrice L 0x0A d c -> decompress L c 0x0A (lenN d) = Ok d.
Proof. exact (fun L d c HL Hs H => thrice_undone L 0x0A d c HL Hs (or_introl eq_refl) H). Qed.
Print Assumptions C62_plain_partial.

Example C62_plain_example :
  exists c, packed_thrice toy 0x0A (lit "abc") c /\ decompress toy c 0x0A 3 = Ok (lit "abc").
Proof.
  eexists. split; [do 2 eexists; split; [|split]; vm_compute; reflexivity|]. vm_compute. reflexivity.
Qed.

(** Of two general methods one step is undone, and what is left is handed out
    as the data; flag byte 0x22. *)
Theorem C62_inner_step_left_refuted : forall L s c n,
  lossless L -> n < 2 ^ 61 -> zlib_enc L s = Ok c -> decompress L c 0x22 n = Ok s.
Proof. exact inner_left. Qed.
Print Assumptions C62_inner_step_left_refuted.

Theorem C62_two_general_refuted :
  exists L d c out, lossless L /\ sparse_in_zlib L d c /\
    decompress L c 0x22 (lenN d) = Ok out /\ out <> d.
Proof. exact sparse_zlib_lost. Qed.
Print Assumptions C62_two_general_refuted.

(** Sparse over PKWare, over audio coding or not: the PKWare decoder gets its stream
    with zero bytes behind it, so all depends on whether it takes notice of them. *)
Theorem C62_sparse_over_pkware_partial : forall L f d c,
  lossless L -> pkware_stops L -> lenN d < 2 ^ 61 -> In f sparse_over_pkware ->
  sparse_after_pkware L f d c -> decompress L c f (lenN d) = lossy_image f d.
Proof. exact sparse_pkware_undone. Qed.
Print Assumptions C62_sparse_over_pkware_partial.

Example C62_sparse_over_pkware_example :
  lossless sized /\ pkware_stops sized /\
  exists c, sparse_after_pkware sized 0x28 (lit "abcdefgh") c /\ decompress sized c 0x28 8 = Ok (lit "abcdefgh").
Proof.
  split; [apply sized_stops|]. split; [apply sized_stops|].
  assert (H : sparse_after_pkware sized 0x28 (lit "abcdefgh")
    (Nb 1 :: [Nb 8] ++ Nb (0x80 + 3) :: Nb 8 :: lit "abcdefgh" ++ [Nb 0xFF])).
  { exists (lit "abcdefgh"), ([Nb 8] ++ repeat x00 (N.to_nat 3) ++ lit "abcdefgh" ++ []).
    split; [reflexivity|]. split; [vm_compute; reflexivity|]. split; [vm_compute; discriminate|].
    apply (runs_bytes 126 [Nb 8]); [vm_compute; discriminate|]. apply (runs_zeros 126 3); [vm_compute; discriminate|].
    apply (runs_bytes 126 (lit "abcdefgh") [Nb 0xFF] []); [vm_compute; discriminate|]. constructor. }
  eexists. split; [exact H|].
  exact (C62_sparse_over_pkware_partial sized 0x28 (lit "abcdefgh") _ (proj1 sized_stops) (proj2 sized_stops) eq_refl (or_introl eq_refl) H).
Qed.

Theorem C62_sparse_over_pkware_refuted :
  exists L d c out, lossless L /\ sparse_after_pkware L 0x28 d c /\
    decompress L c 0x28 (lenN d) = Ok out /\ out <> d.
Proof. exact sparse_pkware_lost. Qed.
Print Assumptions C62_sparse_over_pkware_refuted.

(** bzip2 over PKWare: never undone, unless the PKWare stream happens to be exactly
    four times as long as the data. *)
Theorem C62_bzip2_over_pkware_refuted : forall L f d p c,
  lossless L -> lenN d < 2 ^ 61 -> In f bzip2_over_pkware ->
  bzip2_after_pkware L f d p c -> lenN p <> 4 * lenN d -> decompress L c f (lenN d) = Err ECompression.
Proof. exact bzip2_pkware_refused. Qed.
Print Assumptions C62_bzip2_over_pkware_refuted.

Example C62_bzip2_over_pkware_example : exists p c,
  bzip2_after_pkware toy 0x18 (lit "abc") p c /\ lenN p <> 4 * 3 /\ decompress toy c 0x18 3 = Err ECompression.
Proof.
  do 2 eexists. split; [eexists; split; [|split]; vm_compute; reflexivity|]. split; vm_compute; [discriminate|reflexivity].
Qed.

(** bzip2 beside sparse or implode: nothing whatever is unpacked. *)
Theorem C62_bzip2_refuted : forall L f c n out,
  bit f BZIP2 = true -> bit f HUFFMAN = false -> bit f ZLIB = false -> bit f PKWARE = false ->
  bit f ADPCM_MONO || bit f ADPCM_STEREO = false -> from_flags f = MMultiple f -> n <> 0 ->
  decompress L c f n <> Ok out.
Proof. exact bzip2_refused. Qed.
Print Assumptions C62_bzip2_refuted.

Example C62_bzip2_example :
  exists s c, runs 126 s (lit "a" ++ repeat x00 9) /\ bz_enc toy s = Ok c /\
    bit 0x30 BZIP2 = true /\ from_flags 0x30 = MMultiple 0x30 /\
    decompress toy c 0x30 10 = Err ECompression.
Proof.
  exists ([x01; Nb 97] ++ [Nb 0x89; Nb 0xFF]). eexists.
  split; [|repeat split; vm_compute; reflexivity].
  apply (runs_bytes 126 [Nb 97] [Nb 0x89; Nb 0xFF] (repeat x00 9)); [vm_compute; discriminate|].
  apply (runs_zeros 126 9 [Nb 0xFF] []); [vm_compute; discriminate|]. constructor.
Qed.
