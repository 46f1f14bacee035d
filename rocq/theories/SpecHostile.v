(** * Vocabulary for statements about hostile archives. *)
From Verif Require Import Bytes Crypto Header HashTable BlockTable Compress Archive.
Open Scope N_scope.

(** The third-party decoders never panic. *)
Definition calm (L : codecs) : Prop :=
  (forall d, zlib_dec L d <> Panic) /\ (forall d, bz_dec L d <> Panic) /\
  (forall d, lzma_dec L d <> Panic) /\ (forall d, pk_dec L d <> Panic).

(** A method byte that involves one of the two audio methods. *)
Definition audio (m : N) : Prop := N.testbit m 6 = true \/ N.testbit m 7 = true.

(** The bytes of a file as they lie in the archive, decrypted where the flags ask
    for it. *)
Definition deciphered (flags key : N) (raw : bytes) : bytes :=
  if negb (N.land flags 0x00010000 =? 0) then decrypt_file_data raw key else raw.
(** The file in one piece. *)
Definition whole_piece (a : archive) (fi : finfo) (key : N) (data : bytes) : Prop :=
  exists raw, slice (fi_pos fi) (fi_csize fi) (a_file a) = Some raw /\
    data = deciphered (fi_flags fi) key raw.
(** The size of a full sector and the number of sectors of a file. *)
Definition full_sector (a : archive) : N := 512 * 2 ^ h_block_size (a_header a).
Definition sectors (a : archive) (fi : finfo) : N := (fi_size fi + full_sector a - 1) / full_sector a.
(** Sector number [i] of a file in several sectors; the table of their places
    comes first. *)
Definition sector_piece (a : archive) (fi : finfo) (key i : N) (data : bytes) : Prop :=
  exists tab s e raw,
    slice (fi_pos fi) (4 * (sectors a fi + 1)) (a_file a) = Some tab /\
    let table := deciphered (fi_flags fi) (dec32 key) tab in
    (exists x, slice (4 * i) 4 table = Some x /\ le_dec x = s) /\
    (exists x, slice (4 * (i + 1)) 4 table = Some x /\ le_dec x = e) /\
    slice (fi_pos fi + s) (e - s) (a_file a) = Some raw /\
    data = deciphered (fi_flags fi) (w32 (key + w32 i)) raw.

Definition compressed (fi : finfo) : Prop := N.land (fi_flags fi) 0x00000300 <> 0.
Definition in_one_piece (fi : finfo) : Prop := N.land (fi_flags fi) 0x01000000 <> 0.
Definition checked (fi : finfo) : Prop := N.land (fi_flags fi) 0x04000000 <> 0.

(** What in an archive can stop the reading of a file with a panic. *)
Inductive trap (L : codecs) (a : archive) (fi : finfo) (key : N) : Prop :=
| trap_exponent :                                      (* 512 shifted by 55 or more *)
    compressed fi -> ~ in_one_piece fi -> 55 <= h_block_size (a_header a) -> trap L a fi key
| trap_empty :                                         (* checked, compressed, but nothing there *)
    compressed fi -> in_one_piece fi -> checked fi -> fi_csize fi = 0 -> trap L a fi key
| trap_audio_whole : forall m c,                       (* the audio decoder panics *)
    compressed fi -> in_one_piece fi ->
    whole_piece a fi key (m :: c) -> audio (bN m) -> decompress L c (bN m) (fi_size fi) = Panic ->
    trap L a fi key
| trap_audio_sector : forall i m c size,
    compressed fi -> ~ in_one_piece fi -> i < sectors a fi ->
    sector_piece a fi key i (m :: c) -> audio (bN m) ->
    size <= full_sector a -> size <= fi_size fi ->
    decompress L c (bN m) size = Panic -> trap L a fi key
| trap_overrun : forall i m c size out,                (* a sector expands beyond its size *)
    compressed fi -> ~ in_one_piece fi -> i + 1 < sectors a fi ->
    sector_piece a fi key i (m :: c) ->
    size <= full_sector a -> size <= fi_size fi ->
    decompress L c (bN m) size = Ok out -> size < lenN out -> trap L a fi key.

(** The key a file is read with: nothing if it is not encrypted, otherwise made
    from its name and, if the flags ask for it, its place and size. *)
Definition reading_key (a : archive) (name : bytes) (fi : finfo) : N :=
  if negb (N.land (fi_flags fi) 0x00010000 =? 0) then
    let base := hash_string name HT_FILE_KEY in
    if negb (N.land (fi_flags fi) 0x00020000 =? 0)
    then N.lxor (w32 (base + w32 (fi_pos fi - a_off a))) (w32 (fi_size fi))
    else base
  else 0.

(** An archive of version 1 or 2 with its three tables in memory, before its
    attributes are looked at. *)
Definition with_tables (file : bytes) (a : archive) : Prop :=
  a_file a = file /\ find_header file = Ok (a_off a, a_user a, a_header a) /\
  (exists ht, a_hash a = Some ht /\
     ht_read file (a_off a + get_hash_table_pos (a_header a)) (h_hash_count (a_header a)) = Ok ht) /\
  (exists bt, a_block a = Some bt /\
     bt_read file (a_off a + get_block_table_pos (a_header a)) (h_block_count (a_header a)) = Ok bt) /\
  match h_hi_pos (a_header a) with
  | None | Some 0 => a_hi a = None
  | Some p => exists hi, a_hi a = Some hi /\ hi_read file (a_off a + p) (h_block_count (a_header a)) = Ok hi
  end /\
  a_het a = None /\ a_bet a = None /\ a_attrs a = None.

(** What can stop the opening of a file of version 1 or 2 with a panic. *)
Inductive open_trap (L : codecs) (file : bytes) : Prop :=
| open_hi : forall off ud h p,              (* position of the third table too large *)
    find_header file = Ok (off, ud, h) -> h_hi_pos h = Some p -> 2 ^ 64 <= off + p -> open_trap L file
| open_attributes : forall a fi,            (* a trap in the file (attributes) *)
    with_tables file a -> find_file a (lit "(attributes)") = Ok (Some fi) ->
    trap L a fi (reading_key a (lit "(attributes)") fi) -> open_trap L file
| open_unwrap : forall a m c size,          (* its content taken for a compressed piece *)
    with_tables file a -> read_file L a (lit "(attributes)") = Ok (m :: c) ->
    audio (bN m) \/ 2 ^ 62 <= lenN c ->
    decompress L c (bN m) size = Panic -> open_trap L file.
