(** * Vocabulary for statements about loops. *)
From Verif Require Import Bytes Loops.
Open Scope N_scope.

(** From the state [s] the loop ends with [r] in its [n]-th round. *)
Inductive rounds {S R : Type} (body : S -> outcome S R) : S -> N -> R -> Prop :=
| last_round s r : body s = Done r -> rounds body s 1 r
| one_more s s' n r : body s = Again s' -> rounds body s' n r -> rounds body s (n + 1) r.

(** It ends with [r], in at most [k] rounds. *)
Definition ends {S R : Type} (body : S -> outcome S R) (s : S) (k : N) (r : R) : Prop :=
  exists n, n <= k /\ rounds body s n r.
Definition endless {S R : Type} (body : S -> outcome S R) (s : S) : Prop := forall n r, ~ rounds body s n r.
