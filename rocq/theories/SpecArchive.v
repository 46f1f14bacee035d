(** * Vocabulary for statements about whole archives. *)
From Verif Require Import Bytes Crypto SpecNames Header SpecHeader Compress SpecCompress SpecTables Listfile Builder.
Open Scope N_scope.

(** The types of the Rust fields: a byte for a compression method, 16 bits for a
    locale and for the sector size exponent. *)
Definition well_typed (c : config) (files : list pending) : Prop :=
  c_block_size c < 2 ^ 16 /\ c_default c < 256 /\
  forall f, In f files -> pf_comp f < 256 /\ pf_locale f < 2 ^ 16.

(** The limits of the formats: 32-bit positions, or 48-bit ones. *)
Definition fits (v : version) (arc : bytes) : Prop :=
  match v with V1 => lenN arc < 2 ^ 32 | _ => lenN arc < 2 ^ 48 end.

(** The file a name means: the first one added under that name, in whatever
    spelling. *)
Definition means (files : list pending) (name : bytes) (f : pending) : Prop :=
  exists before after, files = before ++ f :: after /\ name_equiv name (pf_name f) /\
    forall g, In g before -> ~ name_equiv name (pf_name g).

(** The hashes of a name differ from those of all given names. *)
Definition hashes_apart (name : bytes) (names : list bytes) : Prop :=
  forall x, In x names -> ~ (hash_string x HT_NAME_A = hash_string name HT_NAME_A /\
                             hash_string x HT_NAME_B = hash_string name HT_NAME_B).

Definition special_attributes : bytes := lit "(attributes)".
Definition special_listfile : bytes := lit "(listfile)".

(** The compression methods that lose nothing: none, the four codecs, zlib with
    the (ignored) implode bit, and sparse where the data suits it. *)
Definition exact_on (m : N) (d : bytes) : Prop :=
  m = 0 \/ In m [0x02; 0x10; 0x12; 0x08; 0x06] \/
  (In m [0x20; 0x24] /\ long_zeros_only_at_end d).

(** Bytes in a sector. *)
Definition sector_bytes (c : config) : N := 512 * 2 ^ c_block_size c.

(** [s] is one of the sectors of [d]. *)
Definition is_sector (ss : N) (d s : bytes) : Prop :=
  exists a b, d = a ++ s ++ b /\ lenN a mod ss = 0 /\ s <> [] /\
    (lenN s = ss \/ (lenN s < ss /\ b = [])).

(** Compression helps a sector by more than the method byte, or not at all. *)
Definition clear_cut (L : codecs) (m : N) (s : bytes) : Prop :=
  forall r, compress L s m = Ok r -> r <> s -> lenN r < lenN s.
(** Compression helps a sector. *)
Definition shrinks (L : codecs) (m : N) (s : bytes) : Prop :=
  exists r, compress L s m = Ok r /\ r <> s.

(** Content that the archive theorems show to be read back under method [m]: one
    sector, or several of which compression helps at least one and none by
    exactly one byte (see C11). *)
Definition reads_back (L : codecs) (c : config) (m : N) (d : bytes) : Prop :=
  (lenN d <= sector_bytes c /\ lenN d < 2 ^ 32 /\ exact_on m d) \/
  (sector_bytes c < lenN d /\ lenN d <= 4000000000 /\ m <> 0 /\
   (forall s, is_sector (sector_bytes c) d s -> exact_on m s /\ clear_cut L m s) /\
   exists s, is_sector (sector_bytes c) d s /\ shrinks L m s).

(** ** Byte ranges *)
Definition range := (N * N)%type. (* start, length *)
Definition apart (x y : range) : Prop := fst x + snd x <= fst y \/ fst y + snd y <= fst x.
Definition inside (n : N) (x : range) : Prop := fst x + snd x <= n.
Fixpoint pairwise_apart (l : list range) : Prop :=
  match l with
  | [] => True
  | x :: t => Forall (apart x) t /\ pairwise_apart t
  end.

(** Ranges that follow each other without gap from one position to another. *)
Fixpoint back_to_back (start : N) (rs : list range) (fin : N) : Prop :=
  match rs with
  | [] => start = fin
  | r :: t => fst r = start /\ back_to_back (start + snd r) t fin
  end.

(** Checksum bytes stored with a file: four for each sector, at least one. *)
Definition checksum_bytes (c : config) (f : pending) : N :=
  if c_crcs c then 4 * N.max 1 (div_ceil (lenN (pf_data f)) (sector_bytes c)) else 0.

(** [arc] is what the builder makes of [files] in version 1 or 2, and it lies in
    a file behind [pre] where the header search gets to: the boundaries before
    carry nothing usable, and the next one is where the archive starts or has
    a user-data block pointing there.  With [pre = []] that is always so. *)
Definition reached_at (file : bytes) (pos : N) : Prop :=
  exists k, (forall j, (j < k)%nat -> passes file (512 * N.of_nat j)) /\
    leads_to file (512 * N.of_nat k) pos.
Definition built_at (L : codecs) (md5 : bytes -> bytes)
    (c : config) (files : list pending) (arc pre post : bytes) : Prop :=
  (c_version c = V1 \/ c_version c = V2) /\ well_typed c files /\ lenN files < 2 ^ 30 - 2 /\
  build L md5 c files = Ok arc /\ fits (c_version c) arc /\ lenN (pre ++ arc ++ post) < 2 ^ 63 /\
  reached_at (pre ++ arc ++ post) (lenN pre).
