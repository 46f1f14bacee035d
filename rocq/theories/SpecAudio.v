(** * Specification: the audio format (adaptive differential coding of 16-bit
    samples with the step sizes of the IMA recommendation). *)
From Verif Require Import Bytes.
Open Scope Z_scope.

Definition ima_steps : list Z :=
  [7; 8; 9; 10; 11; 12; 13; 14; 16; 17; 19; 21; 23; 25; 28; 31; 34; 37; 41; 45; 50; 55; 60; 66; 73; 80; 88; 97; 107; 118;
   130; 143; 157; 173; 190; 209; 230; 253; 279; 307; 337; 371; 408; 449; 494; 544; 598; 658; 724; 796; 876; 963; 1060;
   1166; 1282; 1411; 1552; 1707; 1878; 2066; 2272; 2499; 2749; 3024; 3327; 3660; 4026; 4428; 4871; 5358; 5894; 6484;
   7132; 7845; 8630; 9493; 10442; 11487; 12635; 13899; 15289; 16818; 18500; 20350; 22385; 24623; 27086; 29794; 32767].
(** Where the step size goes after a code with a lowest bit, by the next four bits;
    without, it goes down by one. *)
Definition rises : list Z := [0; 4; 2; 6; 1; 5; 3; 7; 1; 5; 3; 7; 2; 4; 6; 8].

Definition between (lo hi x : Z) : Z := Z.max lo (Z.min hi x).
Definition step_size (i : Z) : Z := nth (Z.to_nat i) ima_steps 0.
Definition change (code : Z) : Z := if Z.even code then -1 else nth (Z.to_nat (code / 2 mod 16)) rises 0.

(** A unit of the stream: so many times 0x81, then another byte.  It stands for one
    sample of one channel. *)
Definition audio_unit : Type := nat * Z.
Definition unit_ok (u : audio_unit) : Prop := 0 <= snd u < 256 /\ snd u <> 0x81.
Definition unit_bytes (u : audio_unit) : bytes := repeat x81 (fst u) ++ [Nb (Z.to_N (snd u))].

(** A channel has a last sample and an index of a step size.  [shift] is from the header. *)
Definition play_unit (shift : Z) (ch : Z * Z) (u : audio_unit) : Z * Z :=
  let (last, i) := ch in
  let code := snd u in
  let i := Z.min 88 (i + 8 * Z.of_nat (fst u)) in
  if code =? 0x80 then (last, Z.max 0 (i - 1))
  else
    let s := step_size i in
    let part k := if Z.testbit code k then s / 2 ^ k else 0 in
    let diff := s / 2 ^ shift + (part 0 + part 1 + part 2 + part 3 + part 4 + part 5) in
    (between (-32768) 32767 (if Z.testbit code 6 then last - diff else last + diff), between 0 88 (i + change code)).
Fixpoint play (shift : Z) (ch : Z * Z) (us : list audio_unit) : list Z :=
  match us with
  | [] => []
  | u :: r => let ch' := play_unit shift ch u in fst ch' :: play shift ch' r
  end.

(** Every [cc]th element, after [k] others *)
Fixpoint every {A} (cc k : nat) (l : list A) : list A :=
  match l with
  | [] => []
  | x :: t => match k with O => x :: every cc (cc - 1) t | S k => every cc k t end
  end.

Definition word16 (s : Z) : bytes := [Nb (Z.to_N (s mod 256)); Nb (Z.to_N (s / 256 mod 256))].
(** A stream: a byte that is not used, the shift, the first sample of each channel, and
    units for one channel after the other. *)
Definition stream (unused : byte) (shift : Z) (first : list Z) (us : list audio_unit) : bytes :=
  [unused; Nb (Z.to_N shift)] ++ concat (map word16 first) ++ concat (map unit_bytes us).
(** The samples of each channel are what its own units say, from index 44 on. *)
Definition sounds (shift : Z) (first : list Z) (us : list audio_unit) (out : list Z) : Prop :=
  length out = (length first + length us)%nat /\
  forall k f, nth_error first k = Some f ->
    every (length first) k out = f :: play shift (f, 44) (every (length first) k us).
