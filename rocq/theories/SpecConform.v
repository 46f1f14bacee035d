(** * Specification: when what the builder stores is stored as the format says. *)
From Verif Require Import Bytes Compress SpecArchive SpecStored.
Open Scope N_scope.

(** The methods whose data other tools know by the same byte *)
Definition common_methods : list N := [0x00; 0x02; 0x08; 0x10; 0x12].

(** The file itself if it fits in a sector, otherwise its sectors *)
Definition unit_of (ss : N) (d s : bytes) : Prop :=
  (lenN d <= ss /\ s = d) \/ (ss < lenN d /\ is_sector ss d s).

(** What is stored for [s] consists of whole words. *)
Definition in_words (L : codecs) (m : N) (s : bytes) : Prop :=
  forall r, compress L s m = Ok r -> lenN r mod 4 = 0.

(** What the flags of a stored file say about how it was added *)
Definition flags_tell (crcs several enc fix_ : bool) (flags : N) : Prop :=
  N.testbit flags 16 = enc /\ N.testbit flags 17 = enc && fix_ /\ N.testbit flags 26 = crcs /\
  N.testbit flags 24 = negb several /\ N.testbit flags 31 = true.

(** The size a block entry gives for the stored form of [d]: the packed file, or the table of
    [n + 1] words and the packed sectors; checksums are not counted. *)
Definition takes (L : codecs) (ss m : N) (d : bytes) (csize : N) : Prop :=
  exists secs ps, (if ss <? lenN d then sectors ss d secs else secs = [d]) /\
    Forall2 (fun s p => s = [] /\ p = [] \/ compress L s m = Ok p) secs ps /\
    csize = (if ss <? lenN d then 4 * (lenN secs + 1) else 0) + lenN (concat ps).
