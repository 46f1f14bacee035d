(** * Vocabulary for statements about compression. *)
From Verif Require Import Bytes Compress.
Open Scope N_scope.

(** What is expected of a third party codec: whatever it encodes it decodes to
    the same bytes, and an encoding has at least one byte. *)
Definition faithful (enc dec : bytes -> res bytes) : Prop :=
  forall d c, enc d = Ok c -> c <> [] /\ dec c = Ok d.

Definition lossless (L : codecs) : Prop :=
  faithful (zlib_enc L) (zlib_dec L) /\ faithful (bz_enc L) (bz_dec L) /\
  faithful (lzma_enc L) (lzma_dec L) /\ faithful (pk_enc L) (pk_dec L).

(** The byte strings on which sparse coding is exact: a stretch of 127 zero
    bytes is followed by nothing but zero bytes. *)
Definition long_zeros_only_at_end (d : bytes) : Prop :=
  forall p q, d = p ++ repeat x00 127 ++ q -> Forall (fun b => b = x00) q.

(** The combinations that are undone exactly: zlib with the (ignored) implode
    bit, and one ADPCM bit together with zlib (implode bit or not) or PKWare. *)
Definition undone_combinations : list N := [0x06; 0x42; 0x82; 0x46; 0x86; 0x48; 0x88].
(** Sparse with the implode bit, one ADPCM bit with sparse (implode bit or not). *)
Definition sparse_combinations : list N := [0x24; 0x60; 0xA0; 0x64; 0xA4].
(** A single method other than none. *)
Definition lone_methods : list N := [ZLIB; BZIP2; LZMA; PKWARE; SPARSE; ADPCM_MONO; ADPCM_STEREO].
(** The combinations that are accepted but lost: both ADPCM bits, bzip2 with
    anything, the implode bit with PKWare or with nothing but ADPCM. *)
Definition lost_combinations : list N :=
  [0xC0; 0xC2; 0xC4; 0xC6; 0xC8; 0xCC; 0xE0; 0xE4;
   0x14; 0x50; 0x54; 0x90; 0x94; 0xD0; 0xD4;
   0x0C; 0x44; 0x84; 0x4C; 0x8C].

(** What a sparse stream stands for: control bytes from 0x80 on are runs of
    zeros (of up to [limit] bytes), those below are followed by that many bytes
    of the data, and 0xFF closes the stream. *)
Inductive runs (limit : N) : bytes -> bytes -> Prop :=
| runs_end : runs limit [Nb 0xFF] []
| runs_zeros n c d : n <= limit -> runs limit c d ->
    runs limit (Nb (0x80 + n) :: c) (repeat x00 (N.to_nat n) ++ d)
| runs_bytes l c d : lenN l <= 0x7F -> runs limit c d ->
    runs limit (Nb (lenN l) :: l ++ c) (l ++ d).
