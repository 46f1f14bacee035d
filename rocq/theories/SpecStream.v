(** * Specification: a part of some content *)
From Verif Require Import Bytes.
Open Scope N_scope.

(** [x] is what stands in [d] from [off], [n] bytes of it. *)
Definition part (d : bytes) (off n : N) (x : bytes) : Prop :=
  exists a b, d = a ++ x ++ b /\ lenN a = off /\ lenN x = n.
