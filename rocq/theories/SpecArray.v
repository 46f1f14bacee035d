(** * Specification: a table as an array of places. *)
From Verif Require Import Bytes TableApi.
Open Scope N_scope.

(** [e] was the last thing written to place [i], and the table was not cleared
    since. *)
Definition last_put {A} (cs : list (tchange A)) (i : N) (e : A) : Prop :=
  exists before after, cs = before ++ TPut i e :: after /\ ~ In TClear after /\ forall x, ~ In (TPut i x) after.

(** Nothing was written to place [i] since the table was made, or cleared. *)
Definition not_put {A} (cs : list (tchange A)) (i : N) : Prop :=
  exists before after, (cs = after \/ cs = before ++ TClear :: after) /\ forall x, ~ In (TPut i x) after.

(** A table of [n] places, blank when made, after some changes *)
Definition array_of {A} (blank : A) (n : N) (cs : list (tchange A)) (t : list A) : Prop :=
  lenN t = n /\
  (forall i, n <= i -> nthN t i = None) /\
  forall i, i < n -> exists e, nthN t i = Some e /\
    (forall x, last_put cs i x -> x = e) /\ (not_put cs i -> e = blank) /\ (last_put cs i e \/ not_put cs i).
