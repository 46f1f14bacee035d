(** * C60: reading at a place *)
From Verif Require Import Bytes Stream SpecStream StreamFacts.
From Coq Require Import ZArith.
Open Scope N_scope.

(** However many bytes single reads return, [read_at] gives exactly the bytes of that
    place if they are all there, an error if not, and stops behind them. *)
Theorem C60_read_at :
  forall (picks : nat -> N) (s : stream) (off n : N),
  let '(r, s') := s_read_at picks s off n in
  s_data s' = s_data s /\ r <> Panic /\
  (forall x, r = Ok x <-> (n = 0 /\ x = []) \/ (n <> 0 /\ part (s_data s) off n x)) /\
  (forall x, r = Ok x -> s_pos s' = off + n).
Proof. exact read_at_spec. Qed.
Print Assumptions C60_read_at.

(** What was done before makes no difference. *)
Theorem C60_whatever_before :
  forall (picks : nat -> N) (s : stream) (l : list scall) (off n : N),
  fst (s_read_at picks (snd (s_runs picks s l)) off n) = fst (s_read_at picks s off n).
Proof. exact history. Qed.
Print Assumptions C60_whatever_before.

(** Reading on and on gives the content from the position on, without gap and overlap;
    nothing is returned only at the end. *)
Theorem C60_reading_on :
  forall (picks : nat -> N) (ns : list N) (s : stream) (rs : list (res bytes)) (s' : stream),
  s_runs picks s (map SRead ns) = (rs, s') ->
  exists xs, rs = map Ok xs /\ s_pos s' = s_pos s + lenN (concat xs) /\
    (concat xs = [] \/ part (s_data s) (s_pos s) (lenN (concat xs)) (concat xs)) /\
    Forall2 (fun n x => lenN x <= n /\ (n <> 0 -> x = [] -> lenN (s_data s) <= s_pos s')) ns xs.
Proof. exact reads_on. Qed.
Print Assumptions C60_reading_on.

(** Seeking goes to the place computed, or fails and stays. *)
Theorem C60_seek :
  forall (s : stream) (w : whence) (r : res N) (s' : stream), s_seek s w = (r, s') ->
  let z := match w with FromStart o => Z.of_N o | FromCurrent o => (Z.of_N (s_pos s) + o)%Z
           | FromEnd o => (Z.of_N (lenN (s_data s)) + o)%Z end in
  (match w with FromStart o => o < 2 ^ 64 | _ => True end) ->
  ((0 <= z < 2 ^ 64)%Z -> r = Ok (Z.to_N z) /\ s_pos s' = Z.to_N z) /\
  (~ (0 <= z < 2 ^ 64)%Z -> (exists e, r = Err e) /\ s_pos s' = s_pos s).
Proof. exact seek_spec. Qed.
Print Assumptions C60_seek.

(** Reads of at most two bytes at a time *)
Example C60_example :
  let picks := fun _ => 2 in let s := mkS (lit "0123456789") 7 0 in
  part (lit "0123456789") 2 5 (lit "23456") /\
  fst (s_runs picks s [SRead 5; SReadAt 2 5; SRead 1; SSeek (FromCurrent (-20)); SRead 9; SReadAt 8 3; SReadAt 40 0]) =
    [Ok (lit "78"); Ok (lit "23456"); Ok (lit "7"); Err EIo; Ok (lit "89"); Err EIo; Ok []].
Proof.
  split; [|vm_compute; reflexivity]. exists (lit "01"), (lit "789"). repeat split.
Qed.
