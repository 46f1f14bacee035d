(** * Percentages and sizes as the command line tool prints them (storm-cli/src/output.rs:189-204, 377-560;
    storm-cli/src/commands/archive.rs:684, 823, 843, 877, 892)

    An [f64] that is not negative is the natural number of its multiples of [2^-128].  All
    numbers here are 0 or lie between [2^-64] and [2^71], where an [f64] has 53 significant
    bits, and no bit of them is below [2^-117]. *)
From Verif Require Import Bytes Compress BlockTable Archive CliList.
Open Scope N_scope.

Definition UNIT : N := 2 ^ 128.
(** IEEE 754: the nearest integer to [a / b], the even one of two *)
Definition nearest (a b : N) : N :=
  let q := a / b in
  let r := a mod b in
  if 2 * r <? b then q else if b <? 2 * r then q + 1 else if N.even q then q else q + 1.
(** IEEE 754: the nearest [f64] to [p / q] units *)
Definition rnd (p q : N) : N :=
  let ulp := 2 ^ (N.log2 (p / q) - 52) in
  nearest p (q * ulp) * ulp.
(** [n as f64], [/], [*] and [x as u32], which saturates *)
Definition of_u64 (n : N) : N := rnd (n * UNIT) 1.
Definition fdiv (x y : N) : N := rnd (x * UNIT) y.
Definition fmul (x y : N) : N := rnd (x * y) UNIT.
Definition to_u32 (x : N) : N := N.min (2 ^ 32 - 1) (x / UNIT).

(** [c as f64 / s as f64 * 100.0] *)
Definition per_hundred (c s : N) : N := fmul (fdiv (of_u64 c) (of_u64 s)) (100 * UNIT).
(** output.rs:417-421, 490-494; archive.rs:683-688, 842-847 *)
Definition ratio (c s : N) : N := if 0 <? s then to_u32 (per_hundred c s) else 100.

(** [{:.1}] and [{:.2}]: [x] to the nearest tenth or hundredth; the digits *)
Definition tenths (x : N) : N := nearest (10 * x) UNIT.
Definition hundredths (x : N) : N := nearest (100 * x) UNIT.
Definition fixed1 (x : N) : bytes := let h := tenths x in decimal (h / 10) ++ lit "." ++ decimal (h mod 10).
Definition fixed2 (x : N) : bytes :=
  let h := hundredths x in decimal (h / 100) ++ lit "." ++ decimal (h / 10 mod 10) ++ decimal (h mod 10).

(** output.rs:189-204 [format_size] *)
Fixpoint shrink (units : list bytes) (x : N) : N * bytes :=
  match units with
  | [] => (x, [])
  | [u] => (x, u)
  | u :: t => if 1024 * UNIT <=? x then shrink t (fdiv x (1024 * UNIT)) else (x, u)
  end.
Definition format_size (n : N) : bytes :=
  let x := of_u64 n in
  if 1024 * UNIT <=? x
  then let (y, u) := shrink [lit "KB"; lit "MB"; lit "GB"; lit "TB"] (fdiv x (1024 * UNIT)) in fixed2 y ++ lit " " ++ u
  else decimal n.
