(** * Properties: hostile archives (C21). *)
From Verif Require Import Bytes Crypto Header HashTable BlockTable Adpcm Compress Listfile Archive
  ToyCodec SpecHostile SpecHostile34 HostileFacts Hostile34Facts DemoHostile DemoHostile34.
Open Scope N_scope.

(** ** C21: opening an arbitrary byte string as an archive and looking up or
    reading any name never aborts.

    False as worded.  Proved: the search for the header never aborts; for files
    with a version 1 or 2 header, lookup never aborts, and reading, listing and
    opening abort only at one of the causes listed in SpecHostile ([trap],
    [open_trap]).  The causes are real, see [C21_reading_refuted] and
    [C21_opening_refuted].  For all versions the same is proved with the further
    causes in the extended tables and for sizes that only they can hold
    ([lookup_trap], [scale_trap], [opening_trap] in SpecHostile34). *)
Theorem C21_header_search_never_panics : forall L file, open_with_options L file false <> Panic.
Proof. exact deferred_calm. Qed.
Print Assumptions C21_header_search_never_panics.

Theorem C21_lookup_never_panics_partial : forall L file off ud h a name,
  lenN file < 2 ^ 63 -> find_header file = Ok (off, ud, h) -> h_version h = V1 \/ h_version h = V2 ->
  open_archive L file = Ok a -> find_file a name <> Panic.
Proof. exact lookup_calm. Qed.
Print Assumptions C21_lookup_never_panics_partial.

Theorem C21_reading_partial : forall L file off ud h a name,
  calm L -> lenN file < 2 ^ 63 -> find_header file = Ok (off, ud, h) -> h_version h = V1 \/ h_version h = V2 ->
  open_archive L file = Ok a -> read_file L a name = Panic ->
  exists fi, find_file a name = Ok (Some fi) /\ trap L a fi (reading_key a name fi).
Proof. exact reading_panics. Qed.
Print Assumptions C21_reading_partial.

Theorem C21_uncompressed_never_panics_partial : forall L file off ud h a name,
  calm L -> lenN file < 2 ^ 63 -> find_header file = Ok (off, ud, h) -> h_version h = V1 \/ h_version h = V2 ->
  open_archive L file = Ok a ->
  (forall fi, find_file a name = Ok (Some fi) -> ~ compressed fi) -> read_file L a name <> Panic.
Proof. exact uncompressed_reading. Qed.
Print Assumptions C21_uncompressed_never_panics_partial.

Theorem C21_listing_partial : forall L file off ud h a,
  calm L -> lenN file < 2 ^ 63 -> find_header file = Ok (off, ud, h) -> h_version h = V1 \/ h_version h = V2 ->
  open_archive L file = Ok a ->
  list_all a <> Panic /\ list_all_with_hashes a <> Panic /\
  (list_files L a = Panic \/ list_with_hashes L a = Panic ->
   exists fi, find_file a (lit "(listfile)") = Ok (Some fi) /\ trap L a fi (reading_key a (lit "(listfile)") fi)).
Proof. exact listing_panics. Qed.
Print Assumptions C21_listing_partial.

Theorem C21_opening_partial : forall L file off ud h,
  calm L -> lenN file < 2 ^ 63 -> find_header file = Ok (off, ud, h) -> h_version h = V1 \/ h_version h = V2 ->
  open_archive L file = Panic -> open_trap L file.
Proof. exact opening_panics. Qed.
Print Assumptions C21_opening_partial.

(** The same for every version. *)
Theorem C21_lookup_all_versions_partial : forall L file a name,
  calm L -> lenN file < 2 ^ 63 -> open_archive L file = Ok a -> find_file a name = Panic -> lookup_trap a.
Proof. exact lookup_panics34. Qed.
Print Assumptions C21_lookup_all_versions_partial.

Theorem C21_reading_all_versions_partial : forall L file a name,
  calm L -> lenN file < 2 ^ 63 -> open_archive L file = Ok a -> read_file L a name = Panic ->
  lookup_trap a \/ exists fi, find_file a name = Ok (Some fi) /\
    (trap L a fi (reading_key a name fi) \/ scale_trap L a fi (reading_key a name fi)).
Proof. exact reading_panics34. Qed.
Print Assumptions C21_reading_all_versions_partial.

Theorem C21_listing_all_versions_partial : forall L file a,
  calm L -> lenN file < 2 ^ 63 -> open_archive L file = Ok a ->
  (list_all a = Panic \/ list_all_with_hashes a = Panic -> lookup_trap a) /\
  (list_files L a = Panic \/ list_with_hashes L a = Panic ->
   lookup_trap a \/ exists fi, find_file a (lit "(listfile)") = Ok (Some fi) /\
     (trap L a fi (reading_key a (lit "(listfile)") fi) \/
      scale_trap L a fi (reading_key a (lit "(listfile)") fi))).
Proof. exact listing_panics34. Qed.
Print Assumptions C21_listing_all_versions_partial.

Theorem C21_opening_all_versions_partial : forall L file,
  calm L -> lenN file < 2 ^ 63 -> open_archive L file = Panic -> opening_trap L file.
Proof. exact opening_panics34. Qed.
Print Assumptions C21_opening_all_versions_partial.

(** Version 3 files: two that open but in which looking up "f" panics (entries of
    64 bits, a field from bit 64 on), two that cannot be opened (hash entries of
    no bits, of more bits than the table has). *)
Theorem C21_lookup_refuted : forall L,
  Forall (fun file => exists a, open_archive L file = Ok a /\ find_file a (lit "f") = Panic) [wide_bet; late_field] /\
  Forall (fun file => open_archive L file = Panic) [no_bits; more_bits].
Proof. exact lookup_witnesses. Qed.
Print Assumptions C21_lookup_refuted.

(** A version 3 file that opens and whose file "f", of 2^61 bytes or more and
    packed with several methods, cannot be read without a panic. *)
Theorem C21_vast_file_refuted : forall L,
  exists a fi, open_archive L vast = Ok a /\ find_file a (lit "f") = Ok (Some fi) /\
  fi_pos fi = 3 /\ fi_csize fi = 2 /\ 2 ^ 61 <= fi_size fi /\ read_file L a (lit "f") = Panic.
Proof. exact vast_read. Qed.
Print Assumptions C21_vast_file_refuted.

Example C21_all_versions_example :
  calm toy /\ exists a fi b, open_archive toy sound34 = Ok a /\ find_file a (lit "f") = Ok (Some fi) /\
    fi_flags fi = 0x81000200 /\ read_file toy a (lit "f") = Err ECompression /\
    a_bet a = Some b /\ HetBet.bet_entry_bits b = 60 /\ list_all a <> Panic.
Proof. exact sound_example. Qed.

(** A file without a usable header is an error. *)
Theorem C21_no_header : forall L file load, (forall x, find_header file <> Ok x) ->
  exists e, open_with_options L file load = Err e.
Proof. exact no_header. Qed.
Print Assumptions C21_no_header.

(** Expanding a piece: up to sizes no memory has, only the audio methods can
    panic, and only for a shift of 32 or more. *)
Theorem C21_expanding : forall L d m size, calm L -> decompress L d m size = Panic ->
  audio m \/ 2 ^ 61 <= size \/ 2 ^ 62 <= lenN d.
Proof. exact expanding_panics. Qed.
Print Assumptions C21_expanding.
Theorem C21_audio : forall d size cc, adpcm_decompress d size cc = Panic ->
  exists x s rest, d = x :: s :: rest /\ 32 <= bN s.
Proof. exact adpcm_panics. Qed.
Print Assumptions C21_audio.

(** The causes are real.  Five files that open but whose file "f" cannot be read
    without a panic, whatever the codecs: a sector size exponent of 64, one of
    55, a checked compressed file of no bytes, a sector that expands to more
    than the file has, an audio piece with a shift of 40. *)
Theorem C21_reading_refuted : forall L,
  Forall (fun file => exists a, open_archive L file = Ok a /\ read_file L a (lit "f") = Panic)
    [exponent64; exponent55; nothing; overrun; shift40].
Proof. exact reading_witnesses. Qed.
Print Assumptions C21_reading_refuted.
(** Three files that cannot be opened without a panic: a trap in the attributes,
    a third table behind the end of the address space (version 2), a HET table
    behind the hash table (version 3); and one whose attributes, stored as they
    are, are taken for a compressed piece. *)
Theorem C21_opening_refuted :
  (forall L, Forall (fun file => open_archive L file = Panic) [bad_attributes; far_table; late_het]) /\
  (calm toy /\ open_archive toy odd_attributes = Panic).
Proof. exact opening_witnesses. Qed.
Print Assumptions C21_opening_refuted.

Example C21_example :
  calm toy /\ lenN shift40 = 71 /\
  (exists off ud h a fi, find_header shift40 = Ok (off, ud, h) /\ h_version h = V1 /\
     open_archive toy shift40 = Ok a /\ find_file a f = Ok (Some fi) /\ fi_pos fi = 64 /\ compressed fi) /\
  (exists a, open_archive toy (crafted f 3 0x81000000 3 3 f) = Ok a /\ read_file toy a f = Err EIo) /\
  adpcm_decompress (map Nb [0; 40; 0; 0; 1; 1]) 10 1 = Panic.
Proof. exact hostile_example. Qed.
