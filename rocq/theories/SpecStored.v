(** * Specification: how the format stores a file (docs/mopaq-format.md, "File Data
    Storage" and the tables of flags), whichever tool wrote it.

    Bits of the flags: 8 imploded, 9 compressed, 16 encrypted, 17 key altered by
    the position, 24 in a single unit, 26 with checksums. *)
From Verif Require Import Bytes Crypto Adler Compress SpecCompress.
Open Scope N_scope.

Definition on (flags k : N) : bool := N.testbit flags k.

(** The cipher works on words; what is left over at the end stays as it is.  With
    [whole] nothing is left over. *)
Definition enciphered (whole : bool) (key : N) (p s : bytes) : Prop :=
  exists ws r, words_ok ws /\ (length r < 4)%nat /\ (whole = true -> r = []) /\
    p = bytes_of_words ws ++ r /\ s = bytes_of_words (encrypt_block ws key) ++ r.
Definition kept (whole : bool) (flags key : N) (p s : bytes) : Prop :=
  if on flags 16 then enciphered whole key p s else s = p.

(** What a method byte and the bytes after it stand for *)
Definition meant (L : codecs) (m : N) (c s : bytes) : Prop :=
  c <> [] /\
  (m = 0x02 /\ zlib_dec L c = Ok s \/
   m = 0x08 /\ pk_dec L c = Ok s \/
   m = 0x10 /\ bz_dec L c = Ok s \/
   m = 0x12 /\ lzma_dec L c = Ok s \/
   m = 0x20 /\ runs 126 c s \/
   m = 0x0A /\ exists p, zlib_dec L c = Ok p /\ p <> [] /\ pk_dec L p = Ok s).

(** A sector, or a file in a single unit: packed if that makes it shorter.
    Compressed data begin with a method byte, imploded data do not. *)
Definition piece (L : codecs) (flags : N) (p s : bytes) : Prop :=
  p = s \/
  lenN p < lenN s /\
    (on flags 9 = true /\ (exists m c, p = m :: c /\ meant L (bN m) c s) \/
     on flags 8 = true /\ pk_dec L p = Ok s).

(** Sectors of [ss] bytes, the last one with what is left *)
Fixpoint sectors (ss : N) (d : bytes) (secs : list bytes) : Prop :=
  match secs with
  | [] => d = []
  | s :: t => exists r, d = s ++ r /\ s <> [] /\ (lenN s = ss \/ (lenN s < ss /\ r = [])) /\ sectors ss r t
  end.

Definition file_key (name : bytes) (flags pos size : N) : N :=
  let k := hash_string name 3 in
  if on flags 17 then N.lxor ((k + pos) mod 2 ^ 32) size else k.

Definition in_one_piece (form : bytes -> bytes -> Prop) (whole : bool) (file : bytes) (start flags csize key : N)
    (d : bytes) : Prop :=
  exists p s, slice start csize file = Some s /\ kept whole flags key p s /\ form p d /\
    (on flags 26 = true -> slice (start + csize) 4 file = Some (le32 (adler32 d))).

(** Sectors without a table: one after the other, each with its own key *)
Definition in_a_row (whole : bool) (file : bytes) (start flags csize key ss : N) (d : bytes) : Prop :=
  csize = lenN d /\
  exists secs, sectors ss d secs /\
    forall i s, nth_error secs i = Some s -> exists q,
      slice (start + ss * N.of_nat i) (lenN s) file = Some q /\
      kept whole flags ((key + N.of_nat i) mod 2 ^ 32) s q.

(** Sectors with a table of the places where they begin, and where the last one
    ends, counted from the start of the file *)
Definition in_sectors (form : bytes -> bytes -> Prop) (whole : bool) (file : bytes) (start flags key ss : N)
    (d : bytes) : Prop :=
  exists secs offs t, sectors ss d secs /\ length offs = S (length secs) /\ words_ok offs /\
    slice start (4 * lenN offs) file = Some t /\
    kept whole flags ((key + (2 ^ 32 - 1)) mod 2 ^ 32) (bytes_of_words offs) t /\
    forall i s, nth_error secs i = Some s -> exists o e p q,
      nth_error offs i = Some o /\ nth_error offs (S i) = Some e /\ o <= e /\
      slice (start + o) (e - o) file = Some q /\ kept whole flags ((key + N.of_nat i) mod 2 ^ 32) p q /\
      form p s.

(** [d] is stored in [file], in an archive that begins at [base], under [name]. *)
Definition stored_as (L : codecs) (whole : bool) (file : bytes) (base ss : N) (name : bytes)
    (start csize flags : N) (d : bytes) : Prop :=
  let key := file_key name flags (start - base) (lenN d) in
  if on flags 24 then in_one_piece (piece L flags) whole file start flags csize key d
  else if on flags 8 || on flags 9 then in_sectors (piece L flags) whole file start flags key ss d
  else in_a_row whole file start flags csize key ss d.

(** A piece packed by PKWare's library in binary mode, as its first byte tells *)
Definition binary_stream (L : codecs) (p s : bytes) : Prop :=
  lenN p < lenN s /\ pk_dec L p = Ok s /\ exists c, p = x00 :: c /\ c <> [].

(** [d] is stored imploded throughout, not encrypted, without checksums. *)
Definition imploded (L : codecs) (file : bytes) (ss start csize flags : N) (d : bytes) : Prop :=
  on flags 8 = true /\ on flags 9 = false /\ on flags 16 = false /\ on flags 26 = false /\
  if on flags 24 then in_one_piece (binary_stream L) true file start flags csize 0 d
  else in_sectors (binary_stream L) true file start flags 0 ss d.

(** The first two bytes of a PKWare stream: binary or text mode, and the size of the
    dictionary.  Method 0x04 leaves them out. *)
Definition heads : list bytes := [[x00; x04]; [x00; x05]; [x00; x06]; [x01; x04]; [x01; x05]; [x01; x06]].
