(** * Specification: an archive with classic tables, whichever tool wrote it
    (docs/mopaq-format.md, "Locating MPQ Headers" to "Hi-Block Table"). *)
From Verif Require Import Bytes Header Compress SpecHeader SpecDigest SpecFields SpecCipher SpecStored SpecAttributes.
Open Scope N_scope.

(** A table of [n] entries of 16 bytes, enciphered *)
Definition table_in (file : bytes) (pos n key : N) (t : bytes) : Prop :=
  lenN t = 16 * n /\ exists s, slice pos (16 * n) file = Some s /\ enciphered true key t s.

(** The same packed: fewer bytes, which begin with the method (versions 3 and 4) *)
Definition table_packed (L : codecs) (file : bytes) (size pos n key : N) (t : bytes) : Prop :=
  lenN t = 16 * n /\ size < 16 * n /\
  exists s p m c, slice pos size file = Some s /\ enciphered false key p s /\ p = m :: c /\ meant L (bN m) c t.

(** [file] holds an archive that begins at [base], with the hash table [ht], stored in
    some form, the block table [bt] and the upper halves of positions [hi]. *)
Definition laid_out_with (form : version -> N -> N -> N -> bytes -> Prop) (file : bytes) (base : N) (ht bt hi : bytes) : Prop :=
  (exists k, (forall j, (j < k)%nat -> passes file (512 * N.of_nat j)) /\ leads_to file (512 * N.of_nat k) base) /\
  exists v, begins_with_header (skipn (N.to_nat base) file) v /\
  let at_ p n := field file (base + p) n in
  let upper p := match v with V1 => 0 | _ => at_ p 2 * 2 ^ 32 end in
  (exists k, at_ 24 4 = 2 ^ k) /\
  form v (base + (upper 40 + at_ 16 4)) (at_ 24 4) (name_hash 3 (lit "(hash table)")) ht /\
  table_in file (base + (upper 42 + at_ 20 4)) (at_ 28 4) (name_hash 3 (lit "(block table)")) bt /\
  (match v with
   | V1 => hi = []
   | _ => if at_ 32 8 =? 0 then hi = [] else slice (base + at_ 32 8) (2 * at_ 28 4) file = Some hi
   end) /\
  match v with V1 | V2 => True | _ => at_ 52 8 = 0 /\ at_ 60 8 = 0 end.
Definition laid_out (file : bytes) (base : N) (ht bt hi : bytes) : Prop :=
  laid_out_with (fun _ => table_in file) file base ht bt hi.
(** The header of version 4 has the size of the packed hash table. *)
Definition laid_out_packed (L : codecs) (file : bytes) (base : N) (ht bt hi : bytes) : Prop :=
  laid_out_with (fun v pos n key t => v = V4 /\ table_packed L file (field file (base + 68) 8) pos n key t) file base ht bt hi.

(** ** Names.  An entry: two hashes, the language, the platform, the block *)
Definition slot_block (ht : bytes) (i : N) : N := field ht (16 * i + 12) 4.
Definition slot_locale (ht : bytes) (i : N) : N := field ht (16 * i + 8) 2.
Definition holds (ht : bytes) (name : bytes) (i : N) : Prop :=
  field ht (16 * i) 4 = name_hash 1 name /\ field ht (16 * i + 4) 4 = name_hash 2 name /\ slot_block ht i < 0xFFFFFFFE.
(** The entry number [k] on the way of a name through the table *)
Definition on_way (ht : bytes) (name : bytes) (k : N) : N := (name_hash 0 name + k) mod (lenN ht / 16).
(** The first entry on the way that holds the name and is one of those [wanted], if no
    entry before it was never used *)
Definition first_slot (wanted : N -> Prop) (ht : bytes) (name : bytes) (i : N) : Prop :=
  exists k, k < lenN ht / 16 /\ i = on_way ht name k /\ holds ht name i /\ wanted i /\
    forall j, j < k -> ~ (holds ht name (on_way ht name j) /\ wanted (on_way ht name j)) /\
      slot_block ht (on_way ht name j) <> 0xFFFFFFFF.

(** What the tables have for a block: position, stored size, size, flags *)
Definition block_is (bt hi : bytes) (b pos csize size flags : N) : Prop :=
  16 * b < lenN bt /\ pos = field hi (2 * b) 2 * 2 ^ 32 + field bt (16 * b) 4 /\
  csize = field bt (16 * b + 4) 4 /\ size = field bt (16 * b + 8) 4 /\ flags = field bt (16 * b + 12) 4.

(** The archive has a file of this name, in whichever language comes first. *)
Definition listed (ht bt hi name : bytes) (pos csize size flags : N) : Prop :=
  exists i, first_slot (fun _ => True) ht name i /\ block_is bt hi (slot_block ht i) pos csize size flags.
(** It has one that is for no language in particular. *)
Definition listed_neutral (ht bt hi name : bytes) (pos csize size flags : N) : Prop :=
  exists i, first_slot (fun i => slot_locale ht i = 0) ht name i /\ block_is bt hi (slot_block ht i) pos csize size flags.

(** The size of sectors *)
Definition sector_bytes (file : bytes) (base : N) : N := 512 * 2 ^ field file (base + 14) 2.

(** [d] is what the archive has under [name], in one of the forms that are read (C63). *)
Definition has_file (L : codecs) (file : bytes) (base : N) (ht bt hi name d : bytes) : Prop :=
  exists pos csize flags, listed ht bt hi name pos csize (lenN d) flags /\
    stored_as L true file base (sector_bytes file base) name (base + pos) csize flags d /\
    on flags 8 = false /\ base + pos <= lenN file /\ field file (base + 14) 2 < 55 /\
    (on flags 24 = true -> on flags 9 = true -> csize < lenN d) /\
    (on flags 24 = false -> on flags 9 = false -> on flags 16 = true -> lenN d <= sector_bytes file base).
Definition has_no_file (ht name : bytes) : Prop := forall i, ~ first_slot (fun _ => True) ht name i.

(** Attributes as they are, or packed once more (zlib, PKWare, LZMA) behind the number of the method *)
Definition unpacked_attributes (L : codecs) (x d : bytes) : Prop :=
  slice 0 4 x = Some (le32 100) /\ d = x \/
  exists m c, x = m :: c /\ 4 <= lenN x /\
    (bN m = 0x02 /\ zlib_dec L c = Ok d \/ bN m = 0x08 /\ pk_dec L c = Ok d \/ bN m = 0x12 /\ lzma_dec L c = Ok d).
(** Behind the number of a method there is nothing it could unpack. *)
Definition not_unpacked (L : codecs) (m : byte) (c : bytes) : Prop :=
  exists e, bN m = 0x02 /\ zlib_dec L c = Err e \/ bN m = 0x08 /\ pk_dec L c = Err e \/ bN m = 0x12 /\ lzma_dec L c = Err e.

(** There are no attributes, or they are of version 100 and enough for all blocks. *)
Definition attributes_good (L : codecs) (file : bytes) (base : N) (ht bt hi : bytes) : Prop :=
  has_no_file ht (lit "(attributes)") \/
  exists d s, has_file L file base ht bt hi (lit "(attributes)") d /\ slice 0 4 d = Some (le32 100) /\ slice 4 4 d = Some s /\
    whole_size (le_dec s) (lenN bt / 16) <= lenN d.
