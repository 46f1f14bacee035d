(** * A table with rounding, and the arithmetic beside the standard library's. *)
From Coq Require Import SpecFloat.
From Verif Require Import Bytes BlockTable Archive CliList Percent CliVerbose.
Open Scope N_scope.

(** [n as f64] and the units of a result of [Coq.Floats.SpecFloat] *)
Definition float_of (n : N) : spec_float := match n with 0 => S754_zero false | Npos p => binary_normalize 53 1024 (Zpos p) 0 false end.
Definition units_of (x : spec_float) : option N :=
  match x with
  | S754_zero false => Some 0
  | S754_finite false m e => if (e <? -128)%Z then None else Some (Npos m * 2 ^ Z.to_N (e + 128))
  | _ => None
  end.
Definition float_per_hundred (c s : N) : option N :=
  units_of (SFmul 53 1024 (SFdiv 53 1024 (float_of c) (float_of s)) (float_of 100)).
Definition first (n : nat) : list N := map N.of_nat (seq 0 n).

Definition v_plain : fentry := mkFE (lit "war3map.j") 100 29 (FLAG_EXISTS + FLAG_COMPRESS + FLAG_ENCRYPTED) None.
Definition v_big : fentry := mkFE (lit "units\textures\a very long name of a texture.blp") 1048575 1536 (FLAG_EXISTS + FLAG_IMPLODE + FLAG_SINGLE_UNIT) (Some (2748, 0)).
Definition v_empty : fentry := mkFE (lit "empty") 0 0 FLAG_EXISTS None.
Definition v_list : list fentry := [v_plain; v_big; v_empty].
