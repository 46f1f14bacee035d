(** * Vocabulary for statements about digital signatures. *)
From Verif Require Import Bytes Signature.
Open Scope N_scope.

(** [file[b..e]], as far as the file goes. *)
Definition portion (b e : N) (file : bytes) : bytes :=
  firstn (N.to_nat (e - b)) (skipn (N.to_nat b) file).

(** [d], which starts at position [pos], with the bytes at [xb..xe] read as zero. *)
Fixpoint blanked (xb xe pos : N) (d : bytes) : bytes :=
  match d with
  | [] => []
  | c :: t => (if (xb <=? pos) && (pos <? xe) then x00 else c) :: blanked xb xe (pos + 1) t
  end.

(** Two files of the same length that agree at every position of a set. *)
Definition agree_at (P : N -> Prop) (f g : bytes) : Prop :=
  lenN f = lenN g /\ forall p, P p -> nthN f p = nthN g p.

(** A reader of [file]: at the end it gives nothing, else between one byte and
    as many as asked for. *)
Definition reader_of (file : bytes) (rd : N -> N -> N) : Prop :=
  forall pos n, (lenN file <= pos -> rd pos n = 0) /\
    (pos < lenN file -> 0 < n -> 1 <= rd pos n /\ rd pos n <= n /\ pos + rd pos n <= lenN file).

(** The number a byte string stands for, most significant byte first or last. *)
Definition big_endian (d : bytes) : N := fold_left (fun acc b => acc * 256 + bN b) d 0.
Definition little_endian (d : bytes) : N := big_endian (rev d).

(** The signed text of a strong signature: 0x0B, 235 times 0xBB, the digest. *)
Definition strong_text (digest : bytes) : bytes := x0b :: repeat xbb 235 ++ digest.

(** The signed text of a weak signature: PKCS#1 v1.5 in 64 bytes with the MD5
    prefix of RFC 8017. *)
Definition weak_text (digest : bytes) : bytes :=
  x00 :: x01 :: repeat xff 27 ++ x00 ::
  [x30; x20; x30; x0c; x06; x08; x2a; x86; x48; x86; xf7; x0d; x02; x05; x05; x00; x04; x10] ++ digest.

(** The same with [n] bytes of padding. *)
Definition padded_text (n : nat) (digest : bytes) : bytes :=
  x00 :: x01 :: repeat xff n ++ x00 ::
  [x30; x20; x30; x0c; x06; x08; x2a; x86; x48; x86; xf7; x0d; x02; x05; x05; x00; x04; x10] ++ digest.

(** [s] is a signature of [text] for key [k]. *)
Definition signs (k : rsa_key) (s text : bytes) : Prop :=
  little_endian s ^ N.pos (k_e k) mod k_n k = big_endian text.

(** A key as it is used in practice: of so many bits, exponent 65537, no small factor. *)
Definition usual_key (bits : N) (k : rsa_key) : Prop :=
  k_e k = 65537%positive /\ 2 ^ (bits - 1) <= k_n k < 2 ^ bits /\ forall d, 1 < d <= 1000 -> ~ N.divide d (k_n k).
