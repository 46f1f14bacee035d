(** * Model of the ADPCM audio codec
    (mopaq/src/compression/algorithms/adpcm.rs).
    Samples and step sizes are mathematical integers; every intermediate value
    stays far inside [i32] (see [AdpcmFacts]).  A shift by at least the width
    of the shifted type is [Panic] (arithmetic checks on). *)
From Verif Require Import Bytes.
Open Scope Z_scope.

(** adpcm.rs:13 *)
Definition INITIAL_STEP_INDEX : N := 0x2C%N.
(** adpcm.rs:16-19 *)
Definition NEXT_STEP_TABLE : list Z :=
  [-1; 0; -1; 4; -1; 2; -1; 6; -1; 1; -1; 5; -1; 3; -1; 7; -1; 1; -1; 5; -1; 3; -1; 7; -1; 2; -1;
    4; -1; 6; -1; 8].
(** adpcm.rs:22-28 *)
Definition STEP_SIZE_TABLE : list Z :=
  [7; 8; 9; 10; 11; 12; 13; 14; 16; 17; 19; 21; 23; 25; 28; 31; 34; 37; 41; 45; 50; 55; 60; 66;
    73; 80; 88; 97; 107; 118; 130; 143; 157; 173; 190; 209; 230; 253; 279; 307; 337; 371; 408; 449;
    494; 544; 598; 658; 724; 796; 876; 963; 1060; 1166; 1282; 1411; 1552; 1707; 1878; 2066; 2272;
    2499; 2749; 3024; 3327; 3660; 4026; 4428; 4871; 5358; 5894; 6484; 7132; 7845; 8630; 9493;
    10442; 11487; 12635; 13899; 15289; 16818; 18500; 20350; 22385; 24623; 27086; 29794; 32767].

(** Table access; out of range is a panic. *)
Definition step_at (i : N) : res Z :=
  match nthN STEP_SIZE_TABLE i with Some s => Ok s | None => Panic end.

(** [>>] on i32 *)
Definition sar32 (x : Z) (k : N) : res Z :=
  if (k <? 32)%N then Ok (Z.shiftr x (Z.of_N k)) else Panic.

(** adpcm.rs:283-291 [read_sample]: little endian signed 16 bit.  The encoder
    reads samples 0, 1, 2, ... in order, so the model turns the (even length)
    input into the list of its samples once. *)
Definition sample_of (lo hi : byte) : Z :=
  let n := Z.of_N (bN lo + 256 * bN hi) in
  if n <? 32768 then n else n - 65536.
Fixpoint samples_of (d : bytes) : list Z :=
  match d with
  | lo :: hi :: t => sample_of lo hi :: samples_of t
  | _ => []
  end.

(** adpcm.rs:294-297 [write_sample] *)
Definition write_sample (s : Z) : bytes :=
  le_enc 2 (Z.to_N (s mod 65536)).

(** adpcm.rs:300-311 [get_next_step_index] *)
Definition next_step_index (idx : N) (enc : N) : res N :=
  match nthN NEXT_STEP_TABLE (N.land enc 0x1F) with
  | None => Panic
  | Some change =>
      let n := Z.of_N idx + change in
      Ok (if n <? 0 then 0%N else if 88 <? n then 88%N else Z.to_N n)
  end.

(** adpcm.rs:314-323 [update_predicted_sample] *)
Definition update_predicted (pred : Z) (enc : N) (difference : Z) : Z :=
  let n := if negb (N.land enc 0x40 =? 0)%N then pred - difference else pred + difference in
  Z.max (-32768) (Z.min 32767 n).

(** adpcm.rs:326-354 [decode_sample] *)
Definition decode_sample (pred : Z) (enc : N) (step base : Z) : Z :=
  let bit m := negb (N.land enc m =? 0)%N in
  let d := base in
  let d := if bit 0x01%N then d + step else d in
  let d := if bit 0x02%N then d + Z.shiftr step 1 else d in
  let d := if bit 0x04%N then d + Z.shiftr step 2 else d in
  let d := if bit 0x08%N then d + Z.shiftr step 3 else d in
  let d := if bit 0x10%N then d + Z.shiftr step 4 else d in
  let d := if bit 0x20%N then d + Z.shiftr step 5 else d in
  update_predicted pred enc d.

(** ** Encoder *)

(** adpcm.rs:120-133: the "difference is too large" loop; emits a 0x81 for
    every rise of the index.  Twelve rounds reach index 0x58 from anywhere. *)
Fixpoint grow (fuel : nat) (difference : Z) (idx : N) : res (bytes * N) :=
  match fuel with
  | O => Panic
  | S f =>
      step <- step_at idx ;;
      if difference >? step * 2 then
        if (0x58 <=? idx)%N then Ok ([], idx)
        else
          let idx' := N.min (idx + 8) 0x58 in
          ' (out, i) <- grow f difference idx' ;;
          Ok (Nb 0x81 :: out, i)
      else Ok ([], idx)
  end.

(** adpcm.rs:146-157: the bits of the encoded sample, lowest first. *)
Fixpoint enc_bits (fuel : nat) (difference step_work total : Z) (bit_val max enc : N) : Z * N :=
  match fuel with
  | O => (total, enc)
  | S f =>
      if (bit_val <=? max)%N then
        if total + step_work <=? difference then
          enc_bits f difference (Z.shiftr step_work 1) (total + step_work)
                   (N.shiftl bit_val 1) max (N.lor enc bit_val)
        else enc_bits f difference (Z.shiftr step_work 1) total (N.shiftl bit_val 1) max enc
      else (total, enc)
  end.

(** adpcm.rs:136-141: the highest bit used ([u8] shift) *)
Definition max_bit_mask (bit_shift : N) : res N :=
  if (0 <? bit_shift)%N then
    if (bit_shift - 1 <? 8)%N then Ok (N.min (N.shiftl 1 (bit_shift - 1)) 0x20) else Panic
  else Ok 0%N.

(** adpcm.rs:98-172: one sample on one channel with state (prediction, step
    index); the bytes written and the new state. *)
Definition enc_one (level bit_shift : N) (st : Z * N) (sample : Z) : res (bytes * (Z * N)) :=
  let (pred, idx) := st in
  let diff0 := sample - pred in
  let enc0 := if diff0 <? 0 then 0x40%N else 0%N in
  let difference := Z.abs diff0 in
  step <- step_at idx ;;
  threshold <- sar32 step level ;;
  if difference <? threshold then
    Ok ([Nb 0x80], (pred, (idx - 1)%N))
  else
    ' (pre, idx1) <- grow 13 difference idx ;;
    step1 <- step_at idx1 ;;
    mask <- max_bit_mask bit_shift ;;
    base <- sar32 step1 bit_shift ;;
    let (total, enc) :=
      if (0 <? mask)%N then enc_bits 8 difference step1 0 1 mask enc0 else (0, enc0) in
    idx2 <- next_step_index idx1 enc ;;
    Ok (pre ++ [Nb enc], (update_predicted pred enc (base + total), idx2)).

(** adpcm.rs:91-175: the loop over the remaining samples.  The second
    component is no output of the code: it records the encoder's prediction
    after every sample. *)
Fixpoint enc_loop (level bit_shift : N) (cc : nat) (sts : list (Z * N)) (ch : nat)
    (samples : list Z) : res (bytes * list Z) :=
  match samples with
  | [] => Ok ([], [])
  | s :: rest =>
      let ch' := ((ch + 1) mod cc)%nat in
      match nth_error sts ch' with
      | None => Panic
      | Some st =>
          ' (out, st') <- enc_one level bit_shift st s ;;
          ' (outs, preds) <- enc_loop level bit_shift cc (upd sts ch' st') ch' rest ;;
          Ok (out ++ outs, fst st' :: preds)
      end
  end.

(** adpcm.rs:41-178 [compress_internal] together with the ghost predictions;
    channel counts other than 1 and 2 are refused. *)
Definition adpcm_encode (input : bytes) (level : N) (cc : nat) : res (bytes * list Z) :=
  if ((cc =? 0) || (2 <? cc))%nat then Err ECompression
  else if negb (lenN input mod 2 =? 0)%N then Err ECompression
  else
    let samples := samples_of input in
    match samples with
    | [] => Ok ([], [])
    | _ =>
        if negb ((length samples) mod cc =? 0)%nat then Err ECompression
        else
          let bit_shift := (if level =? 0 then 0 else level - 1)%N in
          let first := firstn cc samples in
          ' (out, preds) <- enc_loop level bit_shift cc
              (map (fun s => (s, INITIAL_STEP_INDEX)) first) (cc - 1) (skipn cc samples) ;;
          Ok ([Nb 0; Nb bit_shift] ++ concat (map write_sample first) ++ out, first ++ preds)
    end.

(** adpcm.rs:31-38 *)
Definition adpcm_compress (input : bytes) (level : N) (cc : nat) : res bytes :=
  ' (out, _) <- adpcm_encode input level cc ;; Ok out.

(** ** Decoder *)

(** adpcm.rs:237-277: the loop; [out] counts the bytes written so far. *)
Fixpoint dec_loop (bit_shift : N) (cc : nat) (sts : list (Z * N)) (ch : nat)
    (input : bytes) (out output_size : N) : res bytes :=
  match input with
  | [] => Ok []
  | b :: rest =>
      if (out <? output_size)%N then
        let enc := bN b in
        let ch' := ((ch + 1) mod cc)%nat in
        match nth_error sts ch' with
        | None => Panic
        | Some (pred, idx) =>
            if (enc =? 0x80)%N then
              r <- dec_loop bit_shift cc (upd sts ch' (pred, (idx - 1)%N)) ch' rest (out + 2) output_size ;;
              Ok (write_sample pred ++ r)
            else if (enc =? 0x81)%N then
              dec_loop bit_shift cc (upd sts ch' (pred, N.min (idx + 8) 0x58))
                       ((ch' + cc - 1) mod cc)%nat rest out output_size
            else
              step <- step_at idx ;;
              base <- sar32 step bit_shift ;;
              let pred' := decode_sample pred enc step base in
              idx' <- next_step_index idx enc ;;
              r <- dec_loop bit_shift cc (upd sts ch' (pred', idx')) ch' rest (out + 2) output_size ;;
              Ok (write_sample pred' ++ r)
        end
      else Ok []
  end.

(** adpcm.rs:191-280 [decompress_internal].  The initial samples are at byte
    offsets 2, 4, ...; a missing one is an error. *)
Definition adpcm_decompress (input : bytes) (output_size : N) (cc : nat) : res bytes :=
  if ((cc =? 0) || (2 <? cc))%nat then Err ECompression
  else match input with
  | [] => if (output_size =? 0)%N then Ok [] else Err ECompression
  | _ =>
      if (lenN input <? 4)%N then Err ECompression
      else if (lenN input <? 2 + 2 * N.of_nat cc)%N then Err ECompression
      else
        match input with
        | _ :: bs :: rest =>
            let first := samples_of (firstn (2 * cc) rest) in
            r <- dec_loop (bN bs) cc (map (fun s => (s, INITIAL_STEP_INDEX)) first) (cc - 1)
                   (skipn (2 * cc) rest) (2 * N.of_nat cc) output_size ;;
            Ok (concat (map write_sample first) ++ r)
        | _ => Panic
        end
  end.

(** Agreement with the test module (adpcm.rs:378-387). *)
Example step_index_bounds :
  next_step_index 0 0 = Ok 0%N /\ next_step_index 88 0x1F = Ok 88%N /\ next_step_index 44 1 = Ok 44%N.
Proof. vm_compute. auto. Qed.
Example predicted_clamping :
  update_predicted 30000 0 5000 = 32767 /\ update_predicted (-30000) 0x40 5000 = -32768.
Proof. vm_compute. auto. Qed.
