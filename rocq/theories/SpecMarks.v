(** * Specification: what an archive tells about how a file is stored. *)
From Verif Require Import Bytes Compress Builder Archive SpecArchive SpecConform.
Open Scope N_scope.

(** Compression makes the file, or one of its sectors, shorter. *)
Definition helped (L : codecs) (c : config) (f : pending) : Prop :=
  pf_comp f <> 0 /\
  exists s, s <> [] /\ unit_of (sector_bytes c) (pf_data f) s /\ shrinks L (pf_comp f) s.

(** What the record found for a file tells, through the questions a caller can
    ask: whether it is encrypted, with an altered key, in a single unit, with
    checksums, and compressed; its size and language. *)
Definition flags_told (L : codecs) (c : config) (f : pending) (flags : N) : Prop :=
  is_encrypted flags = pf_encrypt f /\
  has_fix_key flags = pf_encrypt f && pf_fix f /\
  (is_single_unit flags = true <-> lenN (pf_data f) <= sector_bytes c) /\
  has_sector_crc flags = c_crcs c /\
  (is_compressed flags = true <-> helped L c f).
Definition told (L : codecs) (c : config) (f : pending) (fi : finfo) : Prop :=
  flags_told L c f (fi_flags fi) /\
  fi_size fi = lenN (pf_data f) mod 2 ^ 32 /\ fi_locale fi = pf_locale f.

(** The flags hold nothing else: bit 31 is always there, and of the others only
    bits 9, 16, 17, 24 and 26 may be. *)
Definition nothing_else (flags : N) : Prop :=
  N.testbit flags 31 = true /\
  forall i, N.testbit flags i = true -> In i [9; 16; 17; 24; 26; 31].
