(** * Vocabulary for statements about archives of version 3 and 4. *)
From Verif Require Import Bytes BlockTable Header Compress Builder Archive SpecArchive.
Open Scope N_scope.

(** [arc] is what the builder makes of [files] in version 3 or 4 (extended tables
    not compressed), and it lies in a file behind [pre] where the header search
    gets to.  A digest has 16 bytes. *)
Definition built34_at (L : codecs) (md5 : bytes -> bytes)
    (c : config) (files : list pending) (arc pre post : bytes) : Prop :=
  (c_version c = V3 \/ c_version c = V4) /\ c_ctables c = false /\
  (forall x, lenN (md5 x) = 16) /\ well_typed c files /\ lenN files < 2 ^ 30 - 2 /\
  build L md5 c files = Ok arc /\ lenN arc < 2 ^ 48 /\ lenN (pre ++ arc ++ post) < 2 ^ 63 /\
  reached_at (pre ++ arc ++ post) (lenN pre).

(** The record found points at the bytes the builder stored for [f], with the
    sizes and flags it gave them. *)
Definition points_to (L : codecs) (c : config) (a : archive) (f : pending) (fi : finfo) : Prop :=
  exists ss p out csize flags,
    sector_size (c_block_size c) = Ok ss /\ write_file L c ss f p = Ok (out, csize, flags) /\
    fi_pos fi = a_off a + p /\ slice (fi_pos fi) (lenN out) (a_file a) = Some out /\
    fi_size fi = w32 (lenN (pf_data f)) /\ fi_csize fi = w32 csize /\
    fi_flags fi = N.lor flags FLAG_EXISTS.

(** The entries of an archive: the files added, and a list file of the builder. *)
Definition entry_count (c : config) (files : list pending) : N :=
  lenN files + match c_listfile c with LNone => 0 | _ => 1 end.
