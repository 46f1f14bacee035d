(** * Where an archive lies in a file: specification of the header search. *)
From Verif Require Import Bytes.
Open Scope N_scope.

(** The four bytes [MPQ\x1A] and [MPQ\x1B]. *)
Definition archive_magic : bytes := lit "MPQ" ++ [x1a].
Definition user_magic : bytes := lit "MPQ" ++ [x1b].

Definition magic_at (file : bytes) (off : N) (m : bytes) : Prop := slice off 4 file = Some m.

(** A user-data block at [off]: 16 bytes long, holding at offset 8 the distance
    of the archive header. *)
Definition user_block (file : bytes) (off dist : N) : Prop :=
  magic_at file off user_magic /\ off + 16 <= lenN file /\
  exists b, slice (off + 8) 4 file = Some b /\ dist = le_dec b.

(** The boundary [off] leads to an archive at [pos]. *)
Definition leads_to (file : bytes) (off pos : N) : Prop :=
  (magic_at file off archive_magic /\ pos = off) \/
  (exists dist, user_block file off dist /\ pos = off + dist /\ magic_at file pos archive_magic).

(** The boundary [off] carries nothing usable: no signature, or a user-data
    block pointing outside the file or at something else. *)
Definition passes (file : bytes) (off : N) : Prop :=
  ~ magic_at file off archive_magic /\
  (magic_at file off user_magic ->
     exists dist, user_block file off dist /\
       (lenN file <= off + dist \/
        exists b, slice (off + dist) 4 file = Some b /\ b <> archive_magic)).
