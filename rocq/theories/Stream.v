(** * The reader of io.rs: a source of bytes with a position *)
From Verif Require Import Bytes.
From Coq Require Import ZArith.
Open Scope N_scope.

(** What [R: Read + Seek] is, as [std::io::Cursor] and [std::fs::File] are: content, position.
    A read may return fewer bytes than asked for and than there are, but not none as long
    as there are some: [picks k] says how many the [k]-th read returns at most. *)
Record stream := mkS { s_data : bytes; s_pos : N; s_calls : nat }.

(** io.rs:33-37 [read] *)
Definition s_read (picks : nat -> N) (s : stream) (n : N) : bytes * stream :=
  let left := skipn (N.to_nat (s_pos s)) (s_data s) in
  let got := firstn (N.to_nat (N.min n (N.max 1 (picks (s_calls s))))) left in
  (got, mkS (s_data s) (s_pos s + lenN got) (S (s_calls s))).

(** [std::io::SeekFrom] *)
Inductive whence := FromStart (o : N) | FromCurrent (o : Z) | FromEnd (o : Z).
(** io.rs:39-43 [seek]: a place before the start, or not representable, is an error and
    the position stays *)
Definition s_seek (s : stream) (w : whence) : res N * stream :=
  let goto z := if ((z <? 0) || (2 ^ 64 <=? z))%Z then (Err EIo, s)
                else (Ok (Z.to_N z), mkS (s_data s) (Z.to_N z) (s_calls s)) in
  match w with
  | FromStart o => (Ok o, mkS (s_data s) o (s_calls s))
  | FromCurrent o => goto (Z.of_N (s_pos s) + o)%Z
  | FromEnd o => goto (Z.of_N (lenN (s_data s)) + o)%Z
  end.

(** [Read::read_exact]: read until there is enough; none read means the end was reached *)
Fixpoint s_exact (picks : nat -> N) (fuel : nat) (s : stream) (n : N) : res bytes * stream :=
  if n =? 0 then (Ok [], s)
  else match fuel with
       | O => (Panic, s)
       | S fuel =>
           let '(got, s') := s_read picks s n in
           match got with
           | [] => (Err EIo, s')
           | _ => match s_exact picks fuel s' (n - lenN got) with
                  | (Ok rest, s'') => (Ok (got ++ rest), s'')
                  | (Err e, s'') => (Err e, s'')
                  | (Panic, s'') => (Panic, s'')
                  end
           end
       end.

(** io.rs:25-31 [read_at] *)
Definition s_read_at (picks : nat -> N) (s : stream) (off n : N) : res bytes * stream :=
  match s_seek s (FromStart off) with
  | (Ok _, s') => s_exact picks (S (length (s_data s))) s' n
  | (Err e, s') => (Err e, s')
  | (Panic, s') => (Panic, s')
  end.

(** The calls a program can make *)
Inductive scall := SRead (n : N) | SSeek (w : whence) | SExact (n : N) | SReadAt (off n : N).
Definition s_run (picks : nat -> N) (s : stream) (x : scall) : res bytes * stream :=
  match x with
  | SRead n => let '(d, s') := s_read picks s n in (Ok d, s')
  | SSeek w => let '(r, s') := s_seek s w in (match r with Ok _ => Ok [] | Err e => Err e | Panic => Panic end, s')
  | SExact n => s_exact picks (S (length (s_data s))) s n
  | SReadAt off n => s_read_at picks s off n
  end.
Fixpoint s_runs (picks : nat -> N) (s : stream) (l : list scall) : list (res bytes) * stream :=
  match l with
  | [] => ([], s)
  | x :: t => let '(r, s') := s_run picks s x in let '(rs, s'') := s_runs picks s' t in (r :: rs, s'')
  end.
