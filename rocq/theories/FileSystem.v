(** * A file system and programs that act on it.

    What [std::fs] and the [tempfile] crate offer, as far as the builder uses
    them.  A program is a tree of system calls; every call may fail, and a
    [write] may write only part of its buffer.  A program that is killed stops
    at one of the states it passes through.

    Simplifications: one open file at a time, addressed by its path; nobody else
    changes the file system meanwhile; permissions and directories are not
    represented; what the operating system has accepted is not lost (a power
    failure before the data reaches the disk is outside this model). *)
From Verif Require Import Bytes.
Open Scope N_scope.

(** A path, split into its directory and its last component. *)
Record path := mkPath { p_dir : bytes; p_name : bytes }.

(** [w_pos] is the position of the open file; [w_fault] records that some call
    has failed without cause (disk full, no permission, ...). *)
Record world := mkW { w_files : path -> option bytes; w_pos : N; w_fault : bool }.

Definition path_eqb (a b : path) : bool :=
  bytes_eqb (p_dir a) (p_dir b) && bytes_eqb (p_name a) (p_name b).
Definition set_file (f : path -> option bytes) (p : path) (v : option bytes) : path -> option bytes :=
  fun q => if path_eqb q p then v else f q.

(** The contents after writing [b] at [pos]: a gap is filled with zeros. *)
Definition put (d : bytes) (pos : N) (b : bytes) : bytes :=
  match b with
  | [] => d
  | _ => firstn (N.to_nat pos) (d ++ zeros (pos - lenN d)) ++ b ++ skipn (N.to_nat (pos + lenN b)) d
  end.

(** Names [tempfile] gives to new files: [.tmp] and six letters or digits. *)
Definition alnum (b : byte) : Prop :=
  48 <= bN b <= 57 \/ 65 <= bN b <= 90 \/ 97 <= bN b <= 122.
Definition temp_name (n : bytes) : Prop :=
  exists r, n = lit ".tmp" ++ r /\ lenN r = 6 /\ Forall alnum r.

Inductive op :=
| OTemp (dir : bytes)               (* [NamedTempFile::new_in] *)
| ORead (p : path)                  (* [fs::read] *)
| OSeek (n : N)                     (* [seek(SeekFrom::Start(n))] *)
| OTell                             (* [stream_position] *)
| OWrite (t : path) (b : bytes)     (* one [write] call on the open file [t] *)
| OFlush                            (* [flush] *)
| ORename (p q : path)              (* [NamedTempFile::persist] *)
| OUnlink (p : path).               (* dropping a [NamedTempFile] *)

Inductive reply := RDone | RFail | RPath (p : path) | RNum (n : N) | RBytes (b : bytes).

Definition failed (w : world) : world := mkW (w_files w) (w_pos w) true.
Definition moved (w : world) (n : N) : world := mkW (w_files w) n (w_fault w).
Definition with_file (w : world) (p : path) (v : option bytes) (pos : N) : world :=
  mkW (set_file (w_files w) p v) pos (w_fault w).

(** [sem o w r w']: call [o] in [w] may answer [r] and lead to [w']. *)
Inductive sem : op -> world -> reply -> world -> Prop :=
| SFault o w : sem o w RFail (failed w)
| STemp d n w : temp_name n -> w_files w (mkPath d n) = None ->
    sem (OTemp d) w (RPath (mkPath d n)) (with_file w (mkPath d n) (Some []) 0)
| SRead p b w : w_files w p = Some b -> sem (ORead p) w (RBytes b) w
| SAbsent p w : w_files w p = None -> sem (ORead p) w RFail w
| SSeek n w : sem (OSeek n) w RDone (moved w n)
| STell w : sem OTell w (RNum (w_pos w)) w
| SWrite t b b1 b2 d w : b = b1 ++ b2 -> b1 <> [] -> w_files w t = Some d ->
    sem (OWrite t b) w (RNum (lenN b1)) (with_file w t (Some (put d (w_pos w) b1)) (w_pos w + lenN b1))
| SFlush w : sem OFlush w RDone w
| SRename p q d w : p_dir p = p_dir q -> w_files w p = Some d ->
    sem (ORename p q) w RDone
        (mkW (set_file (set_file (w_files w) p None) q (Some d)) (w_pos w) (w_fault w))
| SUnlink p w : sem (OUnlink p) w RDone (with_file w p None (w_pos w)).

(** Programs. *)
Inductive io (A : Type) : Type :=
| Ret (r : res A)
| Do (o : op) (k : reply -> io A).
Arguments Ret {A} r.
Arguments Do {A} o k.

(** Run [m], then go on with its outcome, whatever it is. *)
Fixpoint after {A B} (m : io A) (f : res A -> io B) : io B :=
  match m with Ret r => f r | Do o k => Do o (fun r => after (k r) f) end.
(** Run [m], go on with its value; errors ([?]) and panics are passed on. *)
Definition iobind {A B} (m : io A) (f : A -> io B) : io B :=
  after m (fun r => match r with Ok a => f a | Err e => Ret (Err e) | Panic => Ret Panic end).
Notation "x <~ r ;; k" := (iobind r (fun x => k))
  (at level 61, r at next level, right associativity).
Notation "' p <~ r ;; k" := (iobind r (fun p => k))
  (at level 61, p pattern, r at next level, right associativity).

Definition done_or_fail (o : op) : io unit :=
  Do o (fun r => match r with RDone => Ret (Ok tt) | _ => Ret (Err EIo) end).
Definition io_seek (n : N) : io unit := done_or_fail (OSeek n).
Definition io_flush : io unit := done_or_fail OFlush.
Definition io_tell : io N :=
  Do OTell (fun r => match r with RNum n => Ret (Ok n) | _ => Ret (Err EIo) end).
Definition io_read (p : path) : io bytes :=
  Do (ORead p) (fun r => match r with RBytes b => Ret (Ok b) | _ => Ret (Err EIo) end).

(** [write_all]: write calls until everything is written; the first argument
    only bounds their number. *)
Fixpoint write_loop (fuel : nat) (t : path) (b : bytes) : io unit :=
  match fuel, b with
  | _, [] => Ret (Ok tt)
  | O, _ => Ret (Err EIo)
  | S f, _ => Do (OWrite t b) (fun r =>
      match r with
      | RNum n => if n =? 0 then Ret (Err EIo) else write_loop f t (skipn (N.to_nat n) b)
      | _ => Ret (Err EIo)
      end)
  end.
Definition write_all (t : path) (b : bytes) : io unit := write_loop (length b) t b.

(** Execution: one call at a time. *)
Inductive step {A} : io A * world -> io A * world -> Prop :=
| Step o k w r w' : sem o w r w' -> step (Do o k, w) (k r, w').
Inductive steps {A} : io A * world -> io A * world -> Prop :=
| steps_refl s : steps s s
| steps_next s1 s2 s3 : step s1 s2 -> steps s2 s3 -> steps s1 s3.
