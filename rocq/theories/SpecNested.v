(** * Vocabulary for statements about data packed in several steps. *)
From Verif Require Import Bytes Compress SpecCompress CompressFacts.
Open Scope N_scope.

(** Data packed by another tool in the order that decompress.rs:86-89 documents:
    audio coding (if its bit is set), then PKWare, then one of the general
    methods, here zlib. *)
Definition packed_thrice (L : codecs) (f : N) (d c : bytes) : Prop :=
  exists a p, first_step f d = Ok a /\ pk_enc L a = Ok p /\ zlib_enc L p = Ok c.

(** zlib over PKWare, alone or over audio coding of one or two channels, with
    the implode bit or without. *)
Definition zlib_over_pkware : list N := [0x0A; 0x4A; 0x8A; 0x0E; 0x4E; 0x8E].

(** Data coded sparsely and then packed with zlib, flag byte 0x22. *)
Definition sparse_in_zlib (L : codecs) (d c : bytes) : Prop :=
  exists s, runs 126 s d /\ zlib_enc L s = Ok c.

(** Data packed in that order with the sparse coding as the general method; the
    PKWare stream is no longer than four times the data, which is what the sparse
    decoder is asked for. *)
Definition sparse_after_pkware (L : codecs) (f : N) (d c : bytes) : Prop :=
  exists a p, first_step f d = Ok a /\ pk_enc L a = Ok p /\ lenN p <= 4 * lenN d /\ runs 126 c p.
Definition sparse_over_pkware : list N := [0x28; 0x68; 0xA8; 0x2C; 0x6C; 0xAC].
(** The PKWare decoder takes no notice of zero bytes behind the end of its stream. *)
Definition pkware_stops (L : codecs) : Prop :=
  forall d p n, pk_enc L d = Ok p -> pk_dec L (p ++ repeat x00 n) = Ok d.

(** The same with bzip2 as the general method *)
Definition bzip2_after_pkware (L : codecs) (f : N) (d p c : bytes) : Prop :=
  exists a, first_step f d = Ok a /\ pk_enc L a = Ok p /\ bz_enc L p = Ok c.
Definition bzip2_over_pkware : list N := [0x18; 0x58; 0x98; 0x1C; 0x5C; 0x9C; 0x38; 0x78; 0xB8; 0x3C; 0x7C; 0xBC].
