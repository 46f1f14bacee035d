(** * Vocabulary for what the C API writes to disk. *)
From Verif Require Import Bytes Header Compress Archive Builder Create Ffi SpecFfi SpecAnswers.
Open Scope N_scope.

(** An action and its result. *)
Inductive deed := | Did {A : Type} (a : act A) (x : A).

(** An execution and what its threads have done, the latest first. *)
Inductive journal (c : state) : list (nat * deed) -> state -> Prop :=
| j_start : journal c [] c
| j_more j c' t A (a : act A) k x s : journal c j c' ->
    nth_error (snd c') t = Some (Act a k) -> can a t (fst c') x s ->
    journal c ((t, Did a x) :: j) (s, set_nth (snd c') t (k x)).

(** What one thread has done. *)
Definition deeds (t : nat) (j : list (nat * deed)) : list deed :=
  map snd (filter (fun d => Nat.eqb (fst d) t) j).

(** The calls a thread is in, the innermost first. *)
Fixpoint open_calls (l : list deed) : list call :=
  match l with
  | [] => []
  | Did a _ :: r =>
      match a with
      | ABegin c => c :: open_calls r
      | AEnd _ _ _ => tl (open_calls r)
      | _ => open_calls r
      end
  end.
(** What was done since a call began last. *)
Fixpoint lately (l : list deed) : list deed :=
  match l with
  | [] => []
  | Did a x :: r => match a with ABegin _ => [] | _ => Did a x :: lately r end
  end.

(** The creation dispositions (1 new, 2 always, 4 open always, 5 truncate existing)
    under which a file is written, given whether it exists. *)
Definition to_be_written (disposition : N) (exists_already : bool) : Prop :=
  match disposition with
  | 1 | 4 => exists_already = false
  | 2 => True
  | 5 => exists_already = true
  | _ => False
  end.
Definition is_table_size (n : N) : Prop := exists k, 2 <= k /\ n = 2 ^ k.

(** What is on the disk after an execution, and executions whose answers from the
    disk agree with what was there at first and with what was written since. *)
Fixpoint on_disk (first : bytes -> option bytes) (j : list (nat * deed)) (p : bytes) : option bytes :=
  match j with
  | [] => first p
  | (_, Did a x) :: r =>
      match a in act A return A -> option bytes with
      | AWriteDisk p' d => fun ok => if bytes_eqb p' p && ok then Some d else on_disk first r p
      | _ => fun _ => on_disk first r p
      end x
  end.
Fixpoint agrees (first : bytes -> option bytes) (j : list (nat * deed)) : Prop :=
  match j with
  | [] => True
  | (_, Did a x) :: r =>
      match a in act A return A -> Prop with
      | AExists p => fun ex => ex = true <-> on_disk first r p <> None
      | AReadDisk p => fun o => o = on_disk first r p
      | _ => fun _ => True
      end x /\ agrees first r
  end.

Section Writes.
Variable L : codecs.
Variable md5 : bytes -> bytes.

(** The archive of a handle is what an earlier call read from the disk. *)
Definition loaded (j : list (nat * deed)) (h : N) (ah : ahandle) : Prop :=
  exists t file, In (t, Did (AArchIns h ah) tt) j /\ In (t, Did (AReadDisk (ah_path ah)) (Some file)) j /\
    open_archive L file = Ok (ah_archive ah).

(** [c] may write [data] to [path]; [now] is what it has done before. *)
Definition may_write (j : list (nat * deed)) (now : list deed) (c : call) (path data : bytes) : Prop :=
  match c with
  | CCreateArchive (Some n) disposition table_size out =>
      is_name n path /\ out = true /\ is_table_size table_size /\
      build L md5 (create_config (Some V2)) [] = Ok data /\
      exists ex, now = [Did (AExists path) ex] /\ to_be_written disposition ex
  | CExtract h (Some n) (Some d) =>
      is_name d path /\ exists name ah f, is_name n name /\
      now = [Did (AArchMod h f) (Some ah); Did (ALock ARCHIVES) tt] /\
      loaded j h ah /\ read_file L (ah_archive ah) name = Ok data
  | _ => False
  end.

Definition wrote (now : list deed) : Prop := exists path data, In (Did (AWriteDisk path data) true) now.
(** The result of [c] says what became of the write; [now] is what it has done. *)
Definition reports (now : list deed) (c : call) (r : ret) : Prop :=
  match c with
  | CCreateArchive _ disposition _ _ =>
      (failed r \/ exists h, r = RHandle h) /\
      ((exists h, r = RHandle h) ->
         wrote now \/ (disposition = 4 /\ exists path, In (Did (AExists path) true) now)) /\
      (disposition = 1 -> (exists path, In (Did (AExists path) true) now) ->
         failed r /\ hd_error now = Some (Did (ASetErr 183) tt) /\ ~ wrote now) /\
      (disposition = 5 -> (exists path, In (Did (AExists path) false) now) ->
         failed r /\ hd_error now = Some (Did (ASetErr 2) tt) /\ ~ wrote now)
  | CExtract _ _ _ => (r = RBool true /\ wrote now) \/ (r = RBool false /\ ~ wrote now)
  | _ => True
  end.
End Writes.
