(** * Model of sparse (run length) compression
    (mopaq/src/compression/algorithms/sparse.rs).
    [Vec::with_capacity(expected_size)] may abort the process on absurd sizes;
    memory exhaustion is not modelled. *)
From Verif Require Import Bytes.
Open Scope N_scope.

(** sparse.rs:11-35: the loop; [out] is the number of bytes produced so far,
    the result is what is appended.  Every round consumes a control byte, so
    recursion on a bound of the remaining length is enough (running out would
    be [Panic]). *)
Fixpoint sparse_dec_loop (fuel : nat) (data : bytes) (out expected : N) : res bytes :=
  match fuel with
  | O => Panic
  | S f =>
      match data with
      | [] => Ok []
      | control :: rest =>
          if out <? expected then
            if bN control =? 0xFF then Ok []
            else if negb (N.land (bN control) 0x80 =? 0) then
              let count := N.land (bN control) 0x7F in
              r <- sparse_dec_loop f rest (out + count) expected ;;
              Ok (zeros count ++ r)
            else
              let count := bN control in
              if lenN rest <? count then Err ECompression
              else
                r <- sparse_dec_loop f (skipn (N.to_nat count) rest) (out + count) expected ;;
                Ok (firstn (N.to_nat count) rest ++ r)
          else Ok []
      end
  end.

(** sparse.rs:6-43 [decompress]; the end pads with zeros. *)
Definition sparse_decompress (data : bytes) (expected : N) : res bytes :=
  out <- sparse_dec_loop (S (length data)) data 0 expected ;;
  Ok (out ++ (if lenN out <? expected then zeros (expected - lenN out) else [])).

(** sparse.rs:52-55: number of leading zero bytes and what follows them *)
Fixpoint zero_run (d : bytes) : nat * bytes :=
  match d with
  | c :: d' => if bN c =? 0 then let (n, r) := zero_run d' in (S n, r) else (O, d)
  | [] => (O, [])
  end.

(** sparse.rs:57-65: control bytes for a run of zeros; [fuel] bounds the number
    of chunks. *)
Fixpoint zero_chunks (fuel : nat) (count : N) : bytes :=
  match fuel with
  | O => []
  | S f =>
      if count =? 0 then []
      else let chunk := N.min count 0x7F in
           Nb (N.lor 0x80 chunk) :: zero_chunks f (count - chunk)
  end.

(** sparse.rs:68-71: up to [limit] leading non-zero bytes and what follows *)
Fixpoint lit_run (limit : nat) (d : bytes) : bytes * bytes :=
  match limit, d with
  | S l, c :: d' => if bN c =? 0 then ([], d) else let (a, r) := lit_run l d' in (c :: a, r)
  | _, _ => ([], d)
  end.

(** sparse.rs:46-84 [compress]: the loop, then the end marker. *)
Fixpoint sparse_enc_loop (fuel : nat) (d : bytes) : bytes :=
  match fuel with
  | O => []
  | S f =>
      match d with
      | [] => []
      | _ =>
          let (z, r) := zero_run d in
          let (l, r') := lit_run 127 r in
          zero_chunks (S z) (N.of_nat z)
          ++ (match l with [] => [] | _ => Nb (lenN l) :: l end)
          ++ sparse_enc_loop f r'
      end
  end.
Definition sparse_compress (d : bytes) : bytes :=
  sparse_enc_loop (length d) d ++ [Nb 0xFF].

(** The cases of the test module, sparse.rs:91-127. *)
Example sparse_test_decompress :
  sparse_decompress ([Nb 5] ++ lit "Hello" ++ [Nb 0x85; Nb 5] ++ lit "World" ++ [Nb 0xFF]) 15
  = Ok (lit "Hello" ++ zeros 5 ++ lit "World").
Proof. vm_compute. reflexivity. Qed.
Example sparse_test_round_trip :
  let d := lit "Hello" ++ zeros 5 ++ lit "World" ++ zeros 3 ++ lit "!!!" in
  sparse_decompress (sparse_compress d) (lenN d) = Ok d.
Proof. vm_compute. reflexivity. Qed.
Example sparse_test_zeros :
  sparse_decompress (sparse_compress (zeros 100)) 100 = Ok (zeros 100).
Proof. vm_compute. reflexivity. Qed.
