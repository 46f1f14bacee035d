(** * Adler-32 as RFC 1950 defines it, and the six guesses at the head of an imploded
    stream. *)
From Verif Require Import Bytes Compress.
Open Scope N_scope.

(** 1 and the sum of all bytes *)
Fixpoint byte_sum (d : bytes) : N := match d with [] => 0 | b :: r => bN b + byte_sum r end.
(** The sum of these sums after each byte: the byte at place [i] of [n] counts [n - i] times,
    the 1 in front [n] times. *)
Fixpoint weighted_sum (d : bytes) : N := match d with [] => 0 | b :: r => (1 + lenN r) * bN b + weighted_sum r end.
Definition rfc1950 (d : bytes) : N :=
  ((lenN d + weighted_sum d) mod 65521) * 65536 + (1 + byte_sum d) mod 65521.

(** Binary or ASCII, dictionaries of 1, 2 and 4 kilobytes *)
Definition imploded_heads : list (N * N) := list_prod [0; 1] [4; 5; 6].
Definition first_head (L : codecs) (d r : bytes) : Prop :=
  exists before h later, imploded_heads = before ++ h :: later /\
    (forall g, In g before -> exists e, pk_dec L (Nb (fst g) :: Nb (snd g) :: d) = Err e) /\
    pk_dec L (Nb (fst h) :: Nb (snd h) :: d) = Ok r.
