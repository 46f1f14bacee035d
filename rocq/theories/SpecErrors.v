(** * What an error may be taken to mean. *)
From Verif Require Import Bytes Crypto Header HashTable BlockTable Compress Adler Archive SpecAttributes SpecHostile SpecHostile34 SpecHeader SpecFields HetBet.
Open Scope N_scope.

(** The third-party decoders fail with compression errors only. *)
Definition plain_failures (L : codecs) : Prop :=
  forall d e, zlib_dec L d = Err e \/ bz_dec L d = Err e \/ lzma_dec L d = Err e \/ pk_dec L d = Err e -> e = ECompression.

(** The number at place [i] of the table of sectors. *)
Definition sector_mark (a : archive) (fi : finfo) (key i v : N) : Prop :=
  exists tab x, slice (fi_pos fi) (4 * (sectors a fi + 1)) (a_file a) = Some tab /\
    slice (4 * i) 4 (deciphered (fi_flags fi) (dec32 key) tab) = Some x /\ le_dec x = v.

(** Positions up to which the archive has to reach for the file to be all there. *)
Inductive needed (a : archive) (fi : finfo) (key : N) : N -> Prop :=
| needed_content : in_one_piece fi \/ ~ compressed fi -> needed a fi key (fi_pos fi + fi_csize fi)
| needed_checksum : checked fi -> in_one_piece fi -> needed a fi key (fi_pos fi + fi_csize fi + 4)
| needed_table : compressed fi -> ~ in_one_piece fi -> needed a fi key (fi_pos fi + 4 * (sectors a fi + 1))
| needed_checksums : compressed fi -> ~ in_one_piece fi -> checked fi ->
    needed a fi key (fi_pos fi + 4 * (sectors a fi + 1) + 4 * sectors a fi)
| needed_sector i v : compressed fi -> ~ in_one_piece fi -> sector_mark a fi key i v -> needed a fi key (fi_pos fi + v).

(** What is wrong with a file that is there *)
Inductive fault (L : codecs) (a : archive) (fi : finfo) (key : N) : error -> Prop :=
| fault_cut_off : forall p, needed a fi key p -> lenN (a_file a) < p -> fault L a fi key EIo
| fault_disorder : forall i s e, compressed fi -> ~ in_one_piece fi -> i < sectors a fi ->
    sector_mark a fi key i s -> sector_mark a fi key (i + 1) e -> e < s -> fault L a fi key EInvalidFormat
| fault_whole : forall m c, compressed fi -> in_one_piece fi -> whole_piece a fi key (m :: c) ->
    decompress L c (bN m) (fi_size fi) = Err ECompression -> fault L a fi key ECompression
| fault_nothing : compressed fi -> in_one_piece fi -> fi_csize fi = 0 -> fault L a fi key ECompression
| fault_sector : forall i m c size, compressed fi -> ~ in_one_piece fi -> sector_piece a fi key i (m :: c) ->
    decompress L c (bN m) size = Err ECompression -> fault L a fi key ECompression
| fault_empty_sector : forall i v, compressed fi -> ~ in_one_piece fi ->
    sector_mark a fi key i v -> sector_mark a fi key (i + 1) v -> fault L a fi key ECompression
| fault_checksum : forall data plain crc, checked fi -> in_one_piece fi ->
    (data <> [] -> whole_piece a fi key data) -> lenN data = fi_csize fi ->
    (if negb (N.land (fi_flags fi) 0x00000300 =? 0)
     then exists m c, data = m :: c /\ decompress L c (bN m) (fi_size fi) = Ok plain else plain = data) ->
    slice (fi_pos fi + fi_csize fi) 4 (a_file a) = Some crc -> adler32 plain <> le_dec crc ->
    fault L a fi key EChecksum.

(** Why a name cannot be read *)
Inductive reason (L : codecs) (a : archive) (name : bytes) : error -> Prop :=
| reason_absent : find_file a name = Ok None -> reason L a name EFileNotFound
| reason_entry : forall ht bt i e, a_hash a = Some ht -> a_block a = Some bt ->
    ht_find_file ht name 0 = Ok (Some (i, e)) -> lenN bt <= he_block e -> reason L a name EBlockTable
| reason_fault : forall fi e, find_file a name = Ok (Some fi) -> fault L a fi (reading_key a name fi) e -> reason L a name e.

(** Bytes that are not attributes of [n] blocks *)
Definition not_attributes (d : bytes) (n : N) : Prop :=
  lenN d < 8 \/ slice 0 4 d <> Some (le32 100) \/ exists s, slice 4 4 d = Some s /\ lenN d < whole_size (le_dec s) n.

(** The header of the archive is looked for at every 512th byte (see SpecHeader); the
    first one found is at [pos]. *)
Definition first_header (file : bytes) (pos : N) : Prop :=
  exists k, (forall j, (j < k)%nat -> passes file (512 * N.of_nat j)) /\ leads_to file (512 * N.of_nat k) pos.
Definition states_version (file : bytes) (pos : N) (v : version) : Prop :=
  field file (pos + 12) 2 = match v with V1 => 0 | V2 => 1 | V3 => 2 | V4 => 3 end.
Inductive header_reason (file : bytes) : error -> Prop :=
| no_archive : (forall j, 512 * N.of_nat j < lenN file -> passes file (512 * N.of_nat j)) -> header_reason file EInvalidFormat
| too_short_stated : forall pos v, first_header file pos -> states_version file pos v ->
    field file (pos + 4) 4 < header_length v -> header_reason file EInvalidFormat
| other_version : forall pos, first_header file pos -> 4 <= field file (pos + 12) 2 -> header_reason file EUnsupportedVersion
| cut_off_header : forall pos, first_header file pos -> lenN file < pos + 32 -> header_reason file EIo
| cut_off_long_header : forall pos v, first_header file pos -> states_version file pos v ->
    lenN file < pos + header_length v -> header_reason file EIo
| cut_off_user_data : forall k, (forall j, (j < k)%nat -> passes file (512 * N.of_nat j)) ->
    magic_at file (512 * N.of_nat k) user_magic -> lenN file < 512 * N.of_nat k + 16 -> header_reason file EIo
| cut_off_signature : forall k dist, (forall j, (j < k)%nat -> passes file (512 * N.of_nat j)) ->
    user_block file (512 * N.of_nat k) dist -> lenN file < 512 * N.of_nat k + dist + 4 -> header_reason file EIo.

(** Why an archive cannot be opened; [half_open] is the archive with its tables in memory, before
    its attributes are looked at. *)
Definition half_open (L : codecs) (file : bytes) (a : archive) : Prop :=
  loaded L file a /\ open_archive L file = load_attributes L a.
Definition count_of (a : archive) (n : N) : Prop :=
  match a_block a, a_bet a with
  | Some bt, _ => n = lenN bt
  | None, Some b => n = bet_count b
  | None, None => False
  end.
Inductive open_reason (L : codecs) (file : bytes) : error -> Prop :=
| open_header : forall e, header_reason file e -> open_reason L file e
| open_count : forall off ud h, find_header file = Ok (off, ud, h) -> (forall k, h_hash_count h <> 2 ^ k) -> open_reason L file EHashTable
| open_hash : forall off ud h, find_header file = Ok (off, ud, h) ->
    lenN file < off + get_hash_table_pos h + 16 * h_hash_count h -> open_reason L file EIo
| open_block : forall off ud h, find_header file = Ok (off, ud, h) ->
    lenN file < off + get_block_table_pos h + 16 * h_block_count h -> open_reason L file EIo
| open_high : forall off ud h p, find_header file = Ok (off, ud, h) -> h_hi_pos h = Some p -> p <> 0 ->
    lenN file < off + p + 2 * h_block_count h -> open_reason L file EIo
| open_attrs : forall a e, half_open L file a -> reason L a (lit "(attributes)") e -> e <> EFileNotFound -> open_reason L file e
| open_attrs_content : forall a n d d', half_open L file a -> count_of a n -> read_file L a (lit "(attributes)") = Ok d ->
    (d' = d \/ exists m c, d = m :: c /\ decompress L c (bN m) (n * 100) = Ok d') ->
    not_attributes d' n -> open_reason L file EInvalidFormat.

(** Errors that say that something stored and the same thing computed differ. *)
Inductive disagreement : error -> Prop :=
| by_checksum : disagreement EChecksum
| by_md5 : disagreement EMd5
| by_signature : disagreement ESignature.
(** Errors that say that a request was refused and nothing in the archive is at fault. *)
Inductive refusal : error -> Prop :=
| no_such_file : refusal EFileNotFound
| not_writable : refusal EReadOnly
| not_offered : refusal ENotSupported.
