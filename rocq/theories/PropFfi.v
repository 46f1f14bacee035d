(** * Properties C28-C33: the C API, for any number of threads and any schedule. *)
From Verif Require Import Bytes Compress ToyCodec Archive DemoArchive Ffi SpecFfi FfiMain FfiLock FfiDemo.
Open Scope N_scope.

(** ** C28 *)
(** Every handle given out is new and not 0; a handle that was closed before the
    call began, one of the other kind, and 0 are refused. *)
Theorem C28_handles_never_confused (L : codecs) (md5 sha1 : bytes -> bytes) (crc32 : bytes -> N)
    (rd : archive -> N -> N -> N) (clients : list client) (c : state) :
  reachable L md5 sha1 crc32 rd clients c ->
  (NoDup (handles (s_log (fst c))) /\ ~ In 0 (handles (s_log (fst c)))) /\
  (forall e h, In e (s_log (fst c)) ->
     (on_file (e_call e) h \/ on_archive (e_call e) h \/ on_either (e_call e) h) ->
     (exists e0, In e0 (e_past e) /\ (closed_file e0 h \/ closed_archive e0 h)) -> refused e) /\
  (forall e h, In e (s_log (fst c)) ->
     (on_file (e_call e) h /\ (exists e0, In e0 (e_past e) /\ opened_archive e0 h)) \/
     (on_archive (e_call e) h /\ (exists e0 a, In e0 (e_past e) /\ opened_file e0 a h)) -> refused e) /\
  (forall e, In e (s_log (fst c)) ->
     (on_file (e_call e) 0 \/ on_archive (e_call e) 0 \/ on_either (e_call e) 0) -> refused e).
Proof.
  exact (fun H => conj (handles_new L md5 sha1 crc32 rd clients c H)
          (conj (fun e h => closed_refused L md5 sha1 crc32 rd clients c e h H)
          (conj (fun e h => kind_refused L md5 sha1 crc32 rd clients c e h H)
                (fun e => zero_refused L md5 sha1 crc32 rd clients c e H)))).
Qed.
Print Assumptions C28_handles_never_confused.

(** Two archives and a file: handles 1, 2, 3; a closed handle and one of the wrong
    kind are refused. *)
Example C28_example :
  exists c, reachable toy no_md5 no_md5 zero_crc full
    [open_then (fun a => open_then (fun b => file_then a (lit "d.txt") (fun h =>
       calls [CReadFile b true 3; CCloseArchive b; CArchiveName b true 100; CFileSize h true; CCloseFile h; CCloseFile h])))] c /\
  finished c /\
  rev (map (fun e => (e_ret e, e_err e)) (s_log (fst c))) =
    [(RHandle 1, 0); (RHandle 2, 0); (RHandle 3, 0); (RBool false, 6); (RBool true, 0); (RBool false, 6);
     (RNum 5 (Some 0%Z), 0); (RBool true, 0); (RBool false, 6)].
Proof.
  exists (demo_run [(0, 200)]%nat [open_then (fun a => open_then (fun b => file_then a (lit "d.txt") (fun h =>
       calls [CReadFile b true 3; CCloseArchive b; CArchiveName b true 100; CFileSize h true; CCloseFile h; CCloseFile h])))]).
  split; [apply demo_run_reachable|]. split; [apply finishedb_sound; vm_compute; reflexivity|]. vm_compute. reflexivity.
Qed.

(** ** C29 *)
(** The reads of a thread that is the only one to use a handle, and does not seek:
    consecutive pieces of the content of the file that was opened, from its start. *)
Theorem C29_sequential_reads (L : codecs) (md5 sha1 : bytes -> bytes) (crc32 : bytes -> N)
    (rd : archive -> N -> N -> N) (clients : list client) (c : state) :
  reachable L md5 sha1 crc32 rd clients c -> finished c ->
  exists arcs : N -> option archive, (forall a y, arcs a = Some y -> from_disk L y) /\
  forall e0 a h t, In e0 (s_log (fst c)) -> opened_file e0 a h ->
  (forall e, In e (s_log (fst c)) -> on_file (e_call e) h \/ on_either (e_call e) h -> e_thread e = t) ->
  (forall e p hi m, In e (s_log (fst c)) -> e_call e <> CSeek h p hi m) ->
  exists y n out name d, e_call e0 = COpenFile a (Some n) out /\ holds n name /\
    arcs a = Some y /\ read_file L y name = Ok d /\ in_order d 0 (pieces t h (s_log (fst c))).
Proof. exact (reads L md5 sha1 crc32 rd clients c). Qed.
Print Assumptions C29_sequential_reads.

(** They do succeed, also at the end of the file. *)
Theorem C29_reads_succeed (L : codecs) (md5 sha1 : bytes -> bytes) (crc32 : bytes -> N)
    (rd : archive -> N -> N -> N) (clients : list client) (c : state) :
  reachable L md5 sha1 crc32 rd clients c -> finished c ->
  forall e e1 a h n, In e (s_log (fst c)) -> e_call e = CReadFile h true n -> In e1 (e_past e) -> opened_file e1 a h ->
  (forall e2, In e2 (s_log (fst c)) -> e_call e2 <> CCloseFile h /\ e_call e2 <> CCloseArchive a) ->
  exists x, e_ret e = RData x.
Proof. exact (reads_succeed L md5 sha1 crc32 rd clients c). Qed.
Print Assumptions C29_reads_succeed.

(** Two threads, one archive, the same file: each reads its own handle. *)
Definition reader (n : N) : client := file_then 1 (lit "dir/A.txt") (fun h => calls [CReadFile h true n; CReadFile h true 100; CReadFile h true 1]).
Example C29_example :
  exists c, reachable toy no_md5 no_md5 zero_crc full [open_then (fun _ => reader 4); reader 6] c /\ finished c /\
  pieces 0 2 (s_log (fst c)) = [(4, lit "hell"); (100, lit "o world"); (1, [])] /\
  pieces 1 3 (s_log (fst c)) = [(6, lit "hello "); (100, lit "world"); (1, [])].
Proof.
  exists (demo_run [(0, 25); (1, 15); (0, 8); (1, 200); (0, 200)]%nat [open_then (fun _ => reader 4); reader 6]).
  split; [apply demo_run_reachable|]. split; [apply finishedb_sound; vm_compute; reflexivity|]. vm_compute. split; reflexivity.
Qed.

(** ** C30 *)
(** Missing: seeks to places before the start and halved offsets whose low half is
    2^31 or more ([works] says little about them, see the next two theorems), and
    seeks whose 64-bit sum overflows (they end the process). *)
Theorem C30_seeking_partial (L : codecs) (md5 sha1 : bytes -> bytes) (crc32 : bytes -> N)
    (rd : archive -> N -> N -> N) (clients : list client) (c : state) :
  reachable L md5 sha1 crc32 rd clients c -> finished c ->
  exists arcs : N -> option archive, (forall a y, arcs a = Some y -> from_disk L y) /\
  forall e0 a h t, In e0 (s_log (fst c)) -> opened_file e0 a h ->
  (forall e, In e (s_log (fst c)) -> on_file (e_call e) h \/ on_either (e_call e) h -> e_thread e = t) ->
  (forall e p hi m, In e (s_log (fst c)) -> e_call e = CSeek h p hi m -> i32 p /\ (forall z, hi = Some z -> i32 z)) ->
  exists y n out name d, e_call e0 = COpenFile a (Some n) out /\ holds n name /\
    arcs a = Some y /\ read_file L y name = Ok d /\ follows d h 0 (calls_of t (s_log (fst c))).
Proof. exact (reads_and_seeks L md5 sha1 crc32 rd clients c). Qed.
Print Assumptions C30_seeking_partial.

(** In full the claim is false: a seek to a place before the start goes to the end
    of the file. *)
Theorem C30_before_start_refuted :
  exists L md5 sha1 crc32 rd clients c h, reachable L md5 sha1 crc32 rd clients c /\ finished c /\
  (exists e0 a, In e0 (s_log (fst c)) /\ opened_file e0 a h) /\
  (forall e p hi m, In e (s_log (fst c)) -> e_call e = CSeek h p hi m -> i32 p /\ hi = None) /\
  forall d, ~ follows_as_asked (fun _ high _ => high = None) d h 0 (calls_of 0 (s_log (fst c))).
Proof. exact before_start. Qed.
Print Assumptions C30_before_start_refuted.

(** And a halved offset whose low half is 2^31 or more loses its high half. *)
Theorem C30_halved_offset_refuted :
  exists L md5 sha1 crc32 rd clients c h, reachable L md5 sha1 crc32 rd clients c /\ finished c /\
  (exists e0 a, In e0 (s_log (fst c)) /\ opened_file e0 a h) /\
  (forall e p hi m, In e (s_log (fst c)) -> e_call e = CSeek h p hi m -> i32 p /\ (forall z, hi = Some z -> i32 z)) /\
  forall d, ~ follows_as_asked (fun _ _ z => (0 <= z)%Z) d h 0 (calls_of 0 (s_log (fst c))).
Proof. exact halved_offset. Qed.
Print Assumptions C30_halved_offset_refuted.

Example C30_example :
  exists c, reachable toy no_md5 no_md5 zero_crc full
    [open_then (fun a => file_then a (lit "dir\a.txt") (fun h =>
       calls [CReadFile h true 4; CSeek h 2 None 1; CReadFile h true 3; CSeek h (-4) None 2; CReadFile h true 2;
              CSeek h 1 (Some 0%Z) 0; CReadFile h true 2; CSeek h 5 (Some 7%Z) 0; CSeek h 0 None 3; CReadFile h true 2]))] c /\
  finished c /\
  map e_ret (skipn 2 (rev (s_log (fst c)))) =
    [RData (lit "hell"); RNum 6 None; RData (lit "wor"); RNum 7 None; RData (lit "or");
     RNum 1 (Some 0%Z); RData (lit "el"); RNum 11 (Some 0%Z); RNum 0xFFFFFFFF None; RData []].
Proof.
  exists (demo_run [(0, 200)]%nat
    [open_then (fun a => file_then a (lit "dir\a.txt") (fun h =>
       calls [CReadFile h true 4; CSeek h 2 None 1; CReadFile h true 3; CSeek h (-4) None 2; CReadFile h true 2;
              CSeek h 1 (Some 0%Z) 0; CReadFile h true 2; CSeek h 5 (Some 7%Z) 0; CSeek h 0 None 3; CReadFile h true 2]))]).
  split; [apply demo_run_reachable|]. split; [apply finishedb_sound; vm_compute; reflexivity|]. vm_compute. reflexivity.
Qed.

(** ** C31 *)
(** Missing: files that were opened while the archive was being closed. *)
Theorem C31_closed_archive_partial (L : codecs) (md5 sha1 : bytes -> bytes) (crc32 : bytes -> N)
    (rd : archive -> N -> N -> N) (clients : list client) (c : state) (e e1 e2 : event) (a h : N) :
  reachable L md5 sha1 crc32 rd clients c -> In e (s_log (fst c)) ->
  In e2 (e_past e) -> closed_archive e2 a -> In e1 (e_past e2) -> opened_file e1 a h ->
  (on_file (e_call e) h \/ on_archive (e_call e) h \/ on_either (e_call e) h) -> refused e.
Proof. exact (closed_archive_refuses L md5 sha1 crc32 rd clients c e e1 e2 a h). Qed.
Print Assumptions C31_closed_archive_partial.

(** In full the claim is false: a file that is opened while its archive is being
    closed stays readable after the close has succeeded. *)
Theorem C31_race_refuted :
  exists L md5 sha1 crc32 rd clients c e e1 e2 a h, reachable L md5 sha1 crc32 rd clients c /\ In e (s_log (fst c)) /\
  In e2 (e_past e) /\ closed_archive e2 a /\ In e1 (e_past e) /\ opened_file e1 a h /\
  (exists n x, e_call e = CReadFile h true n /\ e_ret e = RData x /\ x <> []).
Proof. exact race. Qed.
Print Assumptions C31_race_refuted.

Example C31_example :
  exists c, reachable toy no_md5 no_md5 zero_crc full
    [open_then (fun a => file_then a (lit "d.txt") (fun h => calls [CReadFile h true 2; CCloseArchive a; CReadFile h true 2; CFileInfo h 7 true 8]))] c /\
  finished c /\
  map (fun e => (e_ret e, e_err e)) (skipn 2 (rev (s_log (fst c)))) =
    [(RData (lit "pl"), 0); (RBool true, 0); (RBool false, 6); (RBool false, 6)].
Proof.
  exists (demo_run [(0, 200)]%nat [open_then (fun a => file_then a (lit "d.txt") (fun h => calls [CReadFile h true 2; CCloseArchive a; CReadFile h true 2; CFileInfo h 7 true 8]))]).
  split; [apply demo_run_reachable|]. split; [apply finishedb_sound; vm_compute; reflexivity|]. vm_compute. reflexivity.
Qed.

(** ** C32 *)
(** Missing: clients that verify all files of an archive, and callbacks that work
    on archives. *)
Theorem C32_no_deadlock_partial (L : codecs) (md5 sha1 : bytes -> bytes) (crc32 : bytes -> N)
    (rd : archive -> N -> N -> N) (clients : list client) :
  Forall safe_client clients ->
  (forall f : nat -> state, ~ (forall n, step (f n) (f (S n)))) /\
  (forall c, reachable L md5 sha1 crc32 rd clients c -> stuck c -> finished c \/ aborted c).
Proof. exact (fun H => conj no_infinite_run (fun c => progress L md5 sha1 crc32 rd clients c H)). Qed.
Print Assumptions C32_no_deadlock_partial.

(** In full the claim is false: one thread that verifies all files waits for itself. *)
Theorem C32_verify_refuted :
  exists L md5 sha1 crc32 rd path c,
  reachable L md5 sha1 crc32 rd
    [Call (COpenArchive (Some path) true) (fun r =>
       match r with RHandle a => Call (CVerifyArchive a 0x20) (fun _ => Done) | _ => Done end)] c /\
  deadlocked c.
Proof. exact verify_deadlock. Qed.
Print Assumptions C32_verify_refuted.
(** So does one whose callback asks whether the file it is given exists. *)
Theorem C32_enum_refuted :
  exists L md5 sha1 crc32 rd path c,
  reachable L md5 sha1 crc32 rd
    [Call (COpenArchive (Some path) true) (fun r =>
       match r with
       | RHandle a => Call (CEnumFiles a None false (fun n => ([CHasFile a (Some n)], true))) (fun _ => Done)
       | _ => Done
       end)] c /\
  deadlocked c.
Proof. exact enum_deadlock. Qed.
Print Assumptions C32_enum_refuted.

(** Clients that meet the hypothesis: a callback that reads from a file. *)
Example C32_example :
  Forall safe_client
    [open_then (fun a => file_then a (lit "d.txt") (fun h => calls [CEnumFiles a None false (fun n => ([CReadFile h true 1], true)); CVerifyArchive a 0]));
     calls [COpenFile 1 (Some (lit "c.bin")) true; CVerifyFile 1 (Some (lit "d.txt")) 0; CCloseArchive 1]].
Proof.
  assert (K : forall r k, (forall h, safe_client (k h)) -> safe_client (on_handle r k)) by (intros [] k H; cbn; auto).
  repeat constructor; intros; repeat (apply K; intros); repeat constructor; intros; repeat (apply K; intros); repeat constructor; intros; repeat constructor.
Qed.

(** ** C33 *)
Theorem C33_per_thread (L : codecs) (md5 sha1 : bytes -> bytes) (crc32 : bytes -> N)
    (rd : archive -> N -> N -> N) (clients : list client) (c : state) (e : event) :
  reachable L md5 sha1 crc32 rd clients c -> In e (s_log (fst c)) -> cells_ok e.
Proof. exact (cells L md5 sha1 crc32 rd clients c e). Qed.
Print Assumptions C33_per_thread.

(** A failing call in one thread between a call and the question in another. *)
Example C33_example :
  exists c, reachable toy no_md5 no_md5 zero_crc full
    [calls [CSetLastError 5; CSetLocale 1033; CGetLastError; CGetLocale]; calls [CCloseFile 99; CGetLastError; CGetLocale]] c /\
  finished c /\
  map (fun e => (e_thread e, e_ret e)) (rev (s_log (fst c))) =
    [(0%nat, RBool true); (0%nat, RNum 0 None); (1%nat, RBool false); (0%nat, RNum 5 None);
     (1%nat, RNum 6 None); (0%nat, RNum 1033 None); (1%nat, RNum 0 None)].
Proof.
  exists (demo_run [(0, 7); (1, 7); (0, 3); (1, 3); (0, 9); (1, 9)]%nat
    [calls [CSetLastError 5; CSetLocale 1033; CGetLastError; CGetLocale]; calls [CCloseFile 99; CGetLastError; CGetLocale]]).
  split; [apply demo_run_reachable|]. split; [apply finishedb_sound; vm_compute; reflexivity|]. vm_compute. reflexivity.
Qed.
