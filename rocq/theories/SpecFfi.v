(** * Vocabulary for statements about histories of C API calls.
    A history is the list of finished calls, the latest first; each comes with
    the list of the calls that had finished when it began ([e_past]). *)
From Verif Require Import Bytes SpecListfile Ffi.
Open Scope N_scope.

(** The handle that a call is asked to work on, by kind. *)
Definition on_archive (c : call) (h : N) : Prop :=
  match c with
  | CCloseArchive a | COpenFile a _ _ | CHasFile a _ | CArchiveName a _ _ | CEnumFiles a _ _ _
  | CExtract a _ _ | CVerifyFile a _ _ | CVerifyArchive a _ => a = h
  | _ => False
  end.
Definition on_file (c : call) (h : N) : Prop :=
  match c with
  | CCloseFile f | CReadFile f _ _ | CFileSize f _ | CSeek f _ _ _ | CFileName f _ => f = h
  | _ => False
  end.
Definition on_either (c : call) (h : N) : Prop :=
  match c with CFileInfo x _ _ _ => x = h | _ => False end.

(** The other arguments of the call are usable. *)
Definition good_name (f : cstr) : Prop :=
  exists d, f = Some d /\ is_text d /\ ~ In x00 d.
Definition good_arguments (c : call) : Prop :=
  match c with
  | COpenFile _ f out => good_name f /\ out = true
  | CReadFile _ buffer _ | CFileName _ buffer => buffer = true
  | CFileInfo _ _ buffer size => buffer = true \/ size = 0
  | CArchiveName _ buffer size => buffer = true /\ size <> 0
  | CEnumFiles _ m null _ => null = false /\ (m = None \/ good_name m)
  | CExtract _ f d => good_name f /\ good_name d
  | CVerifyFile _ f _ => good_name f
  | _ => True
  end.

(** The call failed; the failure is reported as an invalid handle (6) if nothing
    else was wrong.  [SFileHasFile] reports no reasons. *)
Definition failed (r : ret) : Prop := r = RBool false \/ r = RNum 0xFFFFFFFF None.
Definition refused (e : event) : Prop :=
  failed (e_ret e) /\
  (good_arguments (e_call e) -> (forall a f, e_call e <> CHasFile a f) -> e_err e = 6).

(** A call that gave out a handle. *)
Definition opened_archive (e : event) (h : N) : Prop :=
  e_ret e = RHandle h /\
  match e_call e with COpenArchive _ _ | CCreateArchive _ _ _ _ => True | _ => False end.
Definition opened_file (e : event) (a h : N) : Prop :=
  e_ret e = RHandle h /\ match e_call e with COpenFile x _ _ => x = a | _ => False end.
(** A successful close. *)
Definition closed_archive (e : event) (h : N) : Prop := e_call e = CCloseArchive h /\ e_ret e = RBool true.
Definition closed_file (e : event) (h : N) : Prop := e_call e = CCloseFile h /\ e_ret e = RBool true.

(** All handles given out. *)
Definition handle_of (e : event) : list N := match e_ret e with RHandle h => [h] | _ => [] end.
Definition handles (l : list event) : list N := flat_map handle_of l.

(** A thread's last error code and locale, from its own calls. *)
Fixpoint last_error (t : nat) (l : list event) : N :=
  match l with
  | [] => 0
  | e :: r => if Nat.eqb (e_thread e) t then e_err e else last_error t r
  end.
Fixpoint last_locale (t : nat) (l : list event) : N :=
  match l with
  | [] => 0
  | e :: r => match e_call e with
              | CSetLocale v => if Nat.eqb (e_thread e) t then v else last_locale t r
              | _ => last_locale t r
              end
  end.
(** Calls that leave the last error alone, calls that say whether they succeeded. *)
Definition silent (c : call) : Prop :=
  match c with CSetLocale _ | CGetLocale | CGetLastError | CHasFile _ _ => True | _ => False end.
Definition succeeded (r : ret) : Prop :=
  match r with RBool b => b = true | RNeed _ => False | RNum n hi => n <> 0xFFFFFFFF \/ hi <> None | _ => True end.
(** What the error and locale functions give, and what a call leaves as the
    thread's last error, said by the thread's own calls before it. *)
Definition cells_ok (e : event) : Prop :=
  let err0 := last_error (e_thread e) (e_past e) in
  let loc0 := last_locale (e_thread e) (e_past e) in
  match e_call e with
  | CGetLastError => e_ret e = RNum err0 None /\ e_err e = err0
  | CSetLastError v => e_err e = v
  | CSetLocale _ | CGetLocale => e_ret e = RNum loc0 None /\ e_err e = err0
  | CHasFile _ _ => e_err e = err0
  | _ => (succeeded (e_ret e) -> e_err e = 0) /\ (e_ret e = RBool false -> e_err e <> 0)
  end.

(** The pieces that a thread's successful reads from a handle gave, the first one
    first, with the sizes asked for. *)
Definition read_piece (t : nat) (h : N) (e : event) : list (N * bytes) :=
  match e_call e, e_ret e with
  | CReadFile f _ n, RData x => if Nat.eqb (e_thread e) t && (f =? h) then [(n, x)] else []
  | _, _ => []
  end.
Definition pieces (t : nat) (h : N) (l : list event) : list (N * bytes) := flat_map (read_piece t h) (rev l).
(** They are what a file with content [d] has from position [p] on. *)
Fixpoint in_order (d : bytes) (p : N) (l : list (N * bytes)) : Prop :=
  match l with
  | [] => True
  | (n, x) :: r => x = firstn (N.to_nat (N.min n (lenN d - p))) (skipn (N.to_nat p) d) /\ in_order d (p + lenN x) r
  end.

(** Where a seek is asked to go: the offset is a signed number, or its high and
    (unsigned) low half; the origin is the start, the position [p] or the end. *)
Definition i32 (z : Z) : Prop := (- 2 ^ 31 <= z < 2 ^ 31)%Z.
Definition seek_goal (d : bytes) (p : N) (pos : Z) (high : option Z) (method : N) : option Z :=
  let offset := match high with None => pos | Some h => h * 2 ^ 32 + pos mod 2 ^ 32 end%Z in
  match method with
  | 0 => Some offset
  | 1 => Some (Z.of_N p + offset)%Z
  | 2 => Some (Z.of_N (lenN d) + offset)%Z
  | _ => None
  end.
(** The calls of a thread, the first one first. *)
Definition calls_of (t : nat) (l : list event) : list event := filter (fun e => Nat.eqb (e_thread e) t) (rev l).
(** A call works on handle [h] as on a file with content [d], from position [p] to
    [p'].  About seeks to places before the start, and about halved offsets whose
    low half is 2^31 or more, only that the position stays inside the file. *)
Definition works (d : bytes) (h p : N) (e : event) (p' : N) : Prop :=
  match e_call e, e_ret e with
  | CReadFile f _ n, RData x =>
      if f =? h then x = firstn (N.to_nat (N.min n (lenN d - p))) (skipn (N.to_nat p) d) /\ p' = p + lenN x
      else p' = p
  | CSeek f pos high m, RNum lo hi =>
      if f =? h
      then p' <= lenN d /\
           (lo <> 0xFFFFFFFF \/ hi <> None ->
              lo = p' mod 2 ^ 32 /\ (high <> None -> hi = Some (Z.of_N (p' / 2 ^ 32))) /\
              exists z, seek_goal d p pos high m = Some z /\
                ((0 <= z)%Z -> (0 <= pos)%Z \/ high = None -> p' = N.min (Z.to_N z) (lenN d))) /\
           (lo = 0xFFFFFFFF /\ hi = None -> p' = p \/ p' mod 2 ^ 32 = 0xFFFFFFFF)
      else p' = p
  | _, _ => p' = p
  end.
Fixpoint follows (d : bytes) (h p : N) (l : list event) : Prop :=
  match l with
  | [] => True
  | e :: r => exists p', works d h p e p' /\ follows d h p' r
  end.
(** The same with all that is asked of the seeks that [P] picks (by the offset, its
    high half and the place they should go to): they arrive, stopping at the start
    and at the end. *)
Definition works_as_asked (P : Z -> option Z -> Z -> Prop) (d : bytes) (h p : N) (e : event) (p' : N) : Prop :=
  works d h p e p' /\
  match e_call e, e_ret e with
  | CSeek f pos high m, RNum lo hi =>
      f = h -> lo <> 0xFFFFFFFF \/ hi <> None ->
      forall z, seek_goal d p pos high m = Some z -> P pos high z -> p' = N.min (Z.to_N z) (lenN d)
  | _, _ => True
  end.
Fixpoint follows_as_asked (P : Z -> option Z -> Z -> Prop) (d : bytes) (h p : N) (l : list event) : Prop :=
  match l with
  | [] => True
  | e :: r => exists p', works_as_asked P d h p e p' /\ follows_as_asked P d h p' r
  end.

(** The string that a C string holds: what comes before the first zero byte. *)
Definition holds (d s : bytes) : Prop := ~ In x00 s /\ (d = s \/ exists r, d = s ++ x00 :: r).
(** An archive read from some file. *)
Definition from_disk (L : Compress.codecs) (y : Archive.archive) : Prop :=
  exists file, Archive.open_archive L file = Ok y.

(** Everything a number of threads can do, started when the library is loaded. *)
Section Runs.
Variable L : Compress.codecs.
Variable md5 sha1 : bytes -> bytes.
Variable crc32 : bytes -> N.
Variable rd : Archive.archive -> N -> N -> N.
Definition reachable (clients : list client) (c : state) : Prop :=
  steps (initial, map (run L md5 sha1 crc32 rd) clients) c.
End Runs.
Definition finished (c : state) : Prop := Forall (fun p => p = Ret tt) (snd c).

(** Calls that are free of the two deadlocks: archives are not verified file by
    file, and callbacks of an enumeration only use file handles. *)
Definition in_callback (c : call) : Prop :=
  match c with
  | CCloseFile _ | CReadFile _ _ _ | CFileSize _ _ | CSeek _ _ _ _ | CFileName _ _
  | CSetLocale _ | CGetLocale | CGetLastError | CSetLastError _ => True
  | _ => False
  end.
Definition safe_call (c : call) : Prop :=
  match c with
  | CVerifyArchive _ flags => N.land flags 0x20 = 0
  | CEnumFiles _ _ _ cb => forall n, Forall in_callback (fst (cb n))
  | _ => True
  end.
Fixpoint safe_client (cl : client) : Prop :=
  match cl with Done => True | Call c k => safe_call c /\ forall r, safe_client (k r) end.
(** Nothing more can happen. *)
Definition stuck (c : state) : Prop := forall c', ~ step c c'.
(** The process has ended by a panic. *)
Definition aborted (c : state) : Prop := In Abort (snd c).
(** Some thread waits, and nothing can ever wake it. *)
Definition deadlocked (c : state) : Prop := stuck c /\ ~ finished c /\ ~ aborted c.
