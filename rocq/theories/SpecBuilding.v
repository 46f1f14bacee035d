(** * Vocabulary for statements about the builder giving up. *)
From Verif Require Import Bytes SpecNames Compress Header Listfile Builder SpecArchive.
Open Scope N_scope.

(** The third-party encoders never panic. *)
Definition calm_encoders (L : codecs) : Prop :=
  (forall d, zlib_enc L d <> Panic) /\ (forall d, bz_enc L d <> Panic) /\
  (forall d, lzma_enc L d <> Panic) /\ (forall d, pk_enc L d <> Panic).

(** The contents of all files that go into the archive, the list included. *)
Definition all_contents (c : config) (files : list pending) : list bytes :=
  map pf_data files ++
  match c_listfile c with
  | LGenerate => [listfile_content (map pf_name files)]
  | LExternal d => [d]
  | LNone => []
  end.

(** A bound on the room that some content takes: the content itself, four bytes
    of place and four of checksum for every sector of at least 512 bytes. *)
Definition room (d : bytes) : N := lenN d + lenN d / 64 + 16.
Definition total_room (l : list bytes) : N := fold_right (fun d n => room d + n) 0 l.
(** What can be stored in versions 3 and 4: the position of the last content has
    [p] bits and every size [s] of them, and [p + 2 * s] is less than 64; the
    archive stays below two gigabytes. *)
Definition narrow (l : list bytes) : Prop :=
  lenN l <= 2 ^ 17 /\
  exists p s, 1 <= s /\ p <= 31 /\ p + 2 * s < 64 /\ 208 + total_room l <= 2 ^ p /\
    forall d, In d l -> room d < 2 ^ s.
(** A bound on the size of an archive of version 1 or 2: its contents, header and
    tables. *)
Definition archive_room (c : config) (files : list pending) : N :=
  total_room (all_contents c files) + 82 * lenN files + 610.
(** Position, size and stored size of each file (the low 32 bits of them) when the
    files are stored one behind the other from [p] on. *)
Inductive placed (L : codecs) (c : config) : N -> list pending -> list (N * N * N) -> Prop :=
| placed_nil p : placed L c p [] []
| placed_cons p f r out z flags l : write_file L c (sector_bytes c) f p = Ok (out, z, flags) ->
    placed L c (p + lenN out) r l ->
    placed L c p (f :: r) ((p mod 2 ^ 32, lenN (pf_data f) mod 2 ^ 32, z mod 2 ^ 32) :: l).
(** There are three widths, together at most [bits], that hold the positions, the
    sizes and the stored sizes. *)
Definition held (bits : N) (l : list (N * N * N)) : Prop :=
  exists p s z, 1 <= p /\ 1 <= s /\ 1 <= z /\ p + s + z <= bits /\
    forall a b d, In (a, b, d) l -> a < 2 ^ p /\ b < 2 ^ s /\ d < 2 ^ z.
(** The length of the header. *)
Definition header_room (v : version) : N := match v with V1 => 32 | V2 => 44 | V3 => 68 | V4 => 208 end.
(** What can be stored: every content is short enough for its size and its places to
    have 32 bits, and the archive is short enough for the positions of its version. *)
Definition within_limits (c : config) (files : list pending) : Prop :=
  lenN files < 2 ^ 30 - 2 /\
  (forall d, In d (all_contents c files) -> lenN d <= 4000000000) /\
  archive_room c files < match c_version c with V1 => 2 ^ 32 | _ => 2 ^ 48 end.

(** ** When building succeeds *)
(** The names, with their locales, of all files that go into the archive, the
    list included. *)
Definition all_names (c : config) (files : list pending) : list (bytes * N) :=
  map (fun f => (pf_name f, pf_locale f)) files ++
  match c_listfile c with LNone => [] | _ => [(lit "(listfile)", 0)] end.

(** All contents, each with the compression method asked for. *)
Definition all_stored (c : config) (files : list pending) : list (bytes * N) :=
  map (fun f => (pf_data f, pf_comp f)) files ++
  match c_listfile c with
  | LGenerate => [(listfile_content (map pf_name files), c_default c)]
  | LExternal d => [(d, c_default c)]
  | LNone => []
  end.

(** Every piece of the content that is one sector long (the last one may be
    shorter) is accepted by the method. *)
Definition packable (L : codecs) (c : config) (x : bytes * N) : Prop :=
  snd x = 0 \/ forall s, is_sector (sector_bytes c) (fst x) s -> exists r, compress L s (snd x) = Ok r.

(** No two names that differ only in case or separators have the same locale. *)
Definition all_distinct (l : list (bytes * N)) : Prop :=
  forall l1 x l2 y l3, l = l1 ++ x :: l2 ++ y :: l3 -> ~ (name_equiv (fst x) (fst y) /\ snd x = snd y).

(** The third-party encoders never refuse. *)
Definition willing_encoders (L : codecs) : Prop :=
  (forall d, exists r, zlib_enc L d = Ok r) /\ (forall d, exists r, bz_enc L d = Ok r) /\
  (forall d, exists r, lzma_enc L d = Ok r) /\ (forall d, exists r, pk_enc L d = Ok r).

(** Methods that take every content when the encoders do; methods that take none
    but the empty one. *)
Definition open_methods : list N := [0; ZLIB; BZIP2; LZMA; PKWARE; SPARSE].
Definition closed_methods : list N := [HUFFMAN; IMPLODE].
