(** * Adler-32, the checksum of sectors (crate [adler], function
    [adler32_slice], as called at builder.rs:973, 1025 and archive.rs:1291,
    1457). *)
From Verif Require Import Bytes.
Open Scope N_scope.

Definition ADLER_MOD : N := 65521.

Definition adler_step (st : N * N) (x : byte) : N * N :=
  let a := (fst st + bN x) mod ADLER_MOD in (a, (snd st + a) mod ADLER_MOD).

Definition adler_state (d : bytes) : N * N := fold_left adler_step d (1, 0).

Definition adler32 (d : bytes) : N :=
  let '(a, b) := adler_state d in N.lor (N.shiftl b 16) a.
