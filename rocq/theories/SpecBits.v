(** * Vocabulary for statements about bit-packed tables. *)
From Verif Require Import Bytes.
Open Scope N_scope.

(** Bit [k] of a byte string: bit [k mod 8] of byte [k / 8]; no bits past the
    end. *)
Definition bit_of (d : bytes) (k : N) : bool :=
  match nth_error d (N.to_nat (k / 8)) with
  | Some b => N.testbit (bN b) (k mod 8)
  | None => false
  end.

(** The [w] bits at bit position [at_] spell the number [v]. *)
Definition spells (d : bytes) (at_ w v : N) : Prop :=
  v < 2 ^ w /\ forall j, j < w -> bit_of d (at_ + j) = N.testbit v j.

(** The number of bits of a field that can hold every number up to [m]. *)
Definition holds_up_to (w m : N) : Prop := m < 2 ^ w.
