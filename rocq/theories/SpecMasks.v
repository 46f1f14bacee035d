(** * Specification: masks that mean what masks commonly mean. *)
From Verif Require Import Bytes.
Open Scope N_scope.

(** A text without stars and question marks with stars on both sides; only stars *)
Definition between_stars (p : bytes) : Prop :=
  (exists i, p = repeat "*"%byte (S i)) \/
  exists i x j, p = repeat "*"%byte (S i) ++ x ++ repeat "*"%byte (S j) /\ forall b, In b x -> b <> "*"%byte /\ b <> "?"%byte.
