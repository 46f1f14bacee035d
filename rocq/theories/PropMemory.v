(** * Properties: memory (C72). *)
From Verif Require Import Bytes Crypto HashTable BlockTable Header Compress Archive ToyCodec SpecHostile
  Memory SpecMemory MemoryFacts MemoryExact Memory34Facts DemoHostile SpecErrors DemoExtended DemoMemory DemoMemory34.
Open Scope N_scope.

(** ** C72: opening an archive and reading a file ask for an amount of memory proportional to the
    size of the archive.

    False as worded; [open_asks] and [read_asks] list the sizes of the single requests.  Proved:
    an opening that succeeds asks for at most the size of the archive at a time (versions 1 and 2,
    no attributes), one that fails for at most 2^36 bytes; reading an uncompressed file
    successfully asks for at most the size of the archive, a compressed one for at most four times
    its declared size or twice the archive.  For all versions, each request of an opening that
    succeeds has one of the reasons of [opening_request]. *)
Theorem C72_open_partial : forall L file a, of_version_1_or_2 file -> open_archive L file = Ok a ->
  (find_file a (lit "(attributes)") = Ok None -> none_above (lenN file) (open_asks L file)) /\
  (forall fi d, find_file a (lit "(attributes)") = Ok (Some fi) -> read_file L a (lit "(attributes)") = Ok d ->
     none_above (N.max (25 * lenN file) (N.max (4 * fi_size fi) (2 * lenN d))) (open_asks L file)).
Proof. exact opening_asks. Qed.
Print Assumptions C72_open_partial.
Example C72_open_example :
  (exists a, open_archive toy usual_file = Ok a /\ of_version_1_or_2 usual_file /\
     find_file a (lit "(attributes)") = Ok None /\
     read_file toy a f = Ok (repeat (Nb 7) 255) /\ read_asks toy a f = [8; 8; 344; 4; 344] /\ open_asks toy usual_file = [16; 16; 16; 16]) /\
  (exists a fi, open_archive toy attributed = Ok a /\ of_version_1_or_2 attributed /\
     find_file a (lit "(attributes)") = Ok (Some fi) /\ fi_size fi = 12 /\
     read_file toy a (lit "(attributes)") = Ok (le32 100 ++ le32 1 ++ le32 77) /\
     open_asks toy attributed = [16; 16; 16; 16; 12; 48; 4]).
Proof. exact (conj usual_asks attributed_asks). Qed.

(** Whether it succeeds or not *)
Theorem C72_open_any_partial : forall L file n, of_version_1_or_2 file -> In n (open_asks L file) ->
  n <= 2 ^ 36 \/ n <= 25 * lenN file \/
  exists a d, with_tables file a /\ read_file L a (lit "(attributes)") = Ok d /\ n <= 2 * lenN d.
Proof. exact opening_asks_any. Qed.
Print Assumptions C72_open_any_partial.

(** 32 bytes that ask for 2^35, 48 bytes that ask for 2^36 - 16 *)
Theorem C72_open_refuted : forall L,
  (lenN tiny = 32 /\ of_version_1_or_2 tiny /\ open_asks L tiny = [2 ^ 35] /\ open_archive L tiny = Err EIo) /\
  (lenN tiny_blocks = 48 /\ open_asks L tiny_blocks = [16; 16; 2 ^ 36 - 16] /\ open_archive L tiny_blocks = Err EIo).
Proof. exact (fun L => conj (tiny_asks L) (tiny_blocks_asks L)). Qed.
Print Assumptions C72_open_refuted.

(** Version 4: 260 bytes that ask for 2^62, though nothing is wrong but the size of a table that
    would not be missed. *)
Theorem C72_open34_refuted : forall L,
  lenN vast_het = 260 /\ open_asks L vast_het = [2 ^ 62; 16; 16; 16; 16] /\
  exists a, open_archive L vast_het = Ok a /\ read_file L a f = Ok (zeros 20).
Proof. exact vast_het_asks. Qed.
Print Assumptions C72_open34_refuted.

(** All versions: every request when opening succeeds has one of these reasons. *)
Theorem C72_open_all_versions_partial : forall L file a n, plain_failures L -> open_archive L file = Ok a ->
  In n (open_asks L file) -> opening_request L file a n.
Proof. exact opening_requests. Qed.
Print Assumptions C72_open_all_versions_partial.
Example C72_open_all_versions_example :
  plain_failures toy /\ (open_archive toy ext_file = Ok ext_arc /\ open_asks toy ext_file = [76; 108; 4; 16; 0]) /\
  (lenN packed_tables = 760 /\ open_asks toy packed_tables = [53; 134; 3072; 256; 256; 48; 48]) /\
  open_asks toy twice_packed = [16; 16; 16; 16; 14; 100; 48; 4] /\
  exists a, open_archive toy two_steps = Ok a /\ read_asks toy a f = [9; 40; 20].
Proof. exact (conj toy_plain (conj ext_asks_list (conj packed_asks_list (conj (proj1 twice_packed_asks) two_steps_asks)))). Qed.

(** Reading, all versions *)
Theorem C72_read_partial : forall L a name d, read_file L a name = Ok d ->
  exists fi, find_file a name = Ok (Some fi) /\
    none_above (N.max (2 * lenN (a_file a)) (4 * fi_size fi)) (read_asks L a name) /\
    (~ compressed fi -> none_above (lenN (a_file a)) (read_asks L a name)).
Proof. exact reading_asks. Qed.
Print Assumptions C72_read_partial.

Theorem C72_read_any_partial : forall L file a name, of_version_1_or_2 file -> open_archive L file = Ok a ->
  none_above (2 ^ 34) (read_asks L a name).
Proof. exact reading_asks_any. Qed.
Print Assumptions C72_read_any_partial.

(** A file of three bytes in an archive of 69, read without an error: 2^32 - 1 bytes are asked
    for.  As many for an uncompressed file of which only the beginning is there. *)
Theorem C72_read_refuted :
  (exists a, lenN boast = 69 /\ of_version_1_or_2 boast /\ open_archive toy boast = Ok a /\
     read_file toy a f = Ok (map Nb [7; 8; 9]) /\ read_asks toy a f = [5; 2 ^ 32 - 1]) /\
  (forall L, exists a, lenN short = 67 /\ open_archive L short = Ok a /\
     read_file L a f = Err EIo /\ read_asks L a f = [2 ^ 32 - 1]).
Proof. exact (conj boast_asks short_asks). Qed.
Print Assumptions C72_read_refuted.

(** Exactly what is asked for: a file kept in one piece, and attributes that are packed once more *)
Theorem C72_whole : forall L a name fi m c l, find_file a name = Ok (Some fi) -> in_one_piece fi -> compressed fi ->
  N.land (fi_flags fi) 0x00010000 = 0 -> fi_pos fi < 2 ^ 63 ->
  slice (fi_pos fi) (fi_csize fi) (a_file a) = Some (m :: c) -> c <> [] -> steps_ask (fi_size fi) (lenN c) (bN m) l ->
  read_asks L a name = fi_csize fi :: l.
Proof. exact whole_exact. Qed.
Print Assumptions C72_whole.
Example C72_whole_example : exists a fi, open_archive toy two_steps = Ok a /\ find_file a f = Ok (Some fi) /\ in_one_piece fi /\ compressed fi /\
  N.land (fi_flags fi) 0x00010000 = 0 /\ fi_pos fi < 2 ^ 63 /\ fi_size fi = 20 /\ fi_csize fi = 9 /\
  slice (fi_pos fi) (fi_csize fi) (a_file a) = Some (map Nb [0x41; 1; 7; 8; 9; 1; 2; 3; 4]) /\
  steps_ask 20 8 0x41 [40; 20].
Proof. exact two_steps_how. Qed.

Theorem C72_packed_again : forall L file a bt m rest l, of_version_1_or_2 file -> open_archive L file = Ok a -> a_block a = Some bt ->
  read_file L a (lit "(attributes)") = Ok (m :: rest) -> (3 <= length rest)%nat ->
  le_dec (firstn 4 (m :: rest)) <> 100 -> bN m <> 100 -> N.land (bN m) 15 <> 0 ->
  steps_ask (100 * lenN bt) (lenN rest) (bN m) l ->
  exists before behind, open_asks L file = before ++ read_asks L a (lit "(attributes)") ++ l ++ behind.
Proof. exact again_exact. Qed.
Print Assumptions C72_packed_again.
Example C72_packed_again_example : exists a bt, of_version_1_or_2 twice_packed /\ open_archive toy twice_packed = Ok a /\ a_block a = Some bt /\ lenN bt = 1 /\
  read_file toy a (lit "(attributes)") = Ok (map Nb [2; 1] ++ le32 100 ++ le32 1 ++ le32 77) /\ steps_ask 100 13 2 [100].
Proof. exact twice_packed_how. Qed.
