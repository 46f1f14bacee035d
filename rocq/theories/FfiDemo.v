(** * Runs by computation: the examples and counterexamples of [PropFfi].
    A schedule is a list of (thread, number of actions); the disk is fixed. *)
From Verif Require Import Bytes Compress SpecCompress ToyCodec Builder Archive DemoArchive Listfile Signature Ffi SpecFfi FfiMain FfiLock.
Open Scope N_scope.

Section Exec.
Variable disk : bytes -> option bytes.

Definition exec {A} (a : act A) (t : nat) (s : shared) : option (A * shared) :=
  match a in act A return option (A * shared) with
  | ALock l => match s_lock s l with
               | None => Some (tt, set_lock s (upd_lock (s_lock s) l (Some t)))
               | Some _ => None
               end
  | AUnlock l => Some (tt, set_lock s (upd_lock (s_lock s) l None))
  | ANewId => if s_next s + 1 <? M64 then Some (Some (s_next s), set_next s (s_next s + 1)) else Some (None, s)
  | AArchIns id h => Some (tt, set_archs s (upd (s_archs s) id (Some h)))
  | AArchMod id f => Some (s_archs s id, set_archs s (upd (s_archs s) id (option_map f (s_archs s id))))
  | AArchDel id => Some (some (s_archs s id), set_archs s (upd (s_archs s) id None))
  | AFileIns id f => Some (tt, set_files s (upd (s_files s) id (Some f)))
  | AFileMod id f => Some (s_files s id, set_files s (upd (s_files s) id (option_map f (s_files s id))))
  | AFileDel id => Some (some (s_files s id), set_files s (upd (s_files s) id None))
  | ARetain a => Some (tt, set_files s (fun i => match s_files s i with
                                 | Some f => if fh_archive f =? a then None else Some f
                                 | None => None
                                 end))
  | ASetErr e => Some (tt, set_err s (updn (s_err s) t e))
  | AGetErr => Some (s_err s t, s)
  | ASetLocale l => Some (tt, set_locale s (updn (s_locale s) t l))
  | AGetLocale => Some (s_locale s t, s)
  | AReadDisk p => Some (disk p, s)
  | AExists p => Some (some (disk p), s)
  | AWriteDisk _ _ => Some (true, s)
  | ABegin _ => Some (s_log s, s)
  | AEnd c past r => Some (tt, set_log s (mkE t c r (s_err s t) past :: s_log s))
  end.
Lemma exec_sound {A} (a : act A) t s x s' : exec a t s = Some (x, s') -> can a t s x s'.
Proof.
  destruct a; cbn; intros H; try (injection H as <- <-; auto).
  - destruct (s_lock s l) eqn:E; [discriminate|]. injection H as <- <-. auto.
  - destruct (s_next s + 1 <? M64); injection H as <- <-; auto.
Qed.

Definition exec_step (t : nat) (c : state) : option state :=
  match nth_error (snd c) t with
  | Some (Act a k) => match exec a t (fst c) with
                      | Some (x, s') => Some (s', set_nth (snd c) t (k x))
                      | None => None
                      end
  | _ => None
  end.
Fixpoint exec_many (n : nat) (t : nat) (c : state) : state :=
  match n with
  | O => c
  | S n => match exec_step t c with Some c' => exec_many n t c' | None => c end
  end.
Fixpoint exec_all (sched : list (nat * nat)) (c : state) : state :=
  match sched with
  | [] => c
  | (t, n) :: r => exec_all r (exec_many n t c)
  end.

Lemma steps_trans a b c : steps a b -> steps b c -> steps a c.
Proof. intros H K. induction K as [|? ? ? K IH S]; [exact H|]. eapply steps_more; [exact (IH H)|exact S]. Qed.
Lemma exec_step_sound t c c' : exec_step t c = Some c' -> step c c'.
Proof.
  unfold exec_step. destruct (nth_error (snd c) t) as [[r| |A a k]|] eqn:E; try discriminate.
  destruct (exec a t (fst c)) as [[x s']|] eqn:Ex; [|discriminate]. intros H. injection H as <-.
  exists t, (Act a k), (k x). split; [exact E|]. split; [|reflexivity]. exists x. split; [now apply exec_sound|reflexivity].
Qed.
Lemma exec_many_sound t n : forall c, steps c (exec_many n t c).
Proof.
  induction n as [|n IH]; intros c; cbn [exec_many]; [constructor|].
  destruct (exec_step t c) as [c'|] eqn:E; [|constructor].
  eapply steps_trans; [|apply IH]. eapply steps_more; [constructor|]. now apply (exec_step_sound t).
Qed.
Lemma exec_all_sound sched : forall c, steps c (exec_all sched c).
Proof.
  induction sched as [|[t n] r IH]; intros c; cbn [exec_all]; [constructor|].
  eapply steps_trans; [apply exec_many_sound|apply IH].
Qed.
End Exec.

(** ** Decisions about states *)
Definition waiting (s : shared) (p : prog unit) : bool :=
  match p with
  | Ret _ => true
  | Abort => false
  | Act a _ => match a with ALock l => some (s_lock s l) | _ => false end
  end.
Definition running (p : prog unit) : bool := match p with Act _ _ => true | _ => false end.
Definition is_done (p : prog unit) : bool := match p with Ret _ => true | _ => false end.
Definition deadlockedb (c : state) : bool := forallb (waiting (fst c)) (snd c) && existsb running (snd c).
Lemma deadlockedb_sound c : deadlockedb c = true -> deadlocked c.
Proof.
  unfold deadlockedb. rewrite andb_true_iff, forallb_forall, existsb_exists. intros (H & p & Hp & Hr). split; [|split].
  - intros c' (t & q & q' & E & K & _). apply nth_error_In in E. specialize (H q E). destruct q as [r| |A a k]; try contradiction.
    destruct K as (x & K & _). destruct a; cbn in H; try discriminate. cbn in K. destruct K as [K _]. rewrite K in H. discriminate.
  - intros F. unfold finished in F. rewrite Forall_forall in F. rewrite (F p Hp) in Hr. discriminate.
  - intros F. specialize (H _ F). discriminate.
Qed.
Definition finishedb (c : state) : bool := forallb is_done (snd c).
Lemma finishedb_sound c : finishedb c = true -> finished c.
Proof.
  unfold finishedb. rewrite forallb_forall. intros H. apply Forall_forall. intros p Hp. specialize (H p Hp).
  destruct p as [[]| |]; try discriminate. reflexivity.
Qed.
Definition abortedb (c : state) : bool := existsb is_abort (snd c).
Lemma abortedb_sound c : abortedb c = true -> aborted c.
Proof.
  unfold abortedb. rewrite existsb_exists. intros (p & Hp & Hr). destruct p; try discriminate. exact Hp.
Qed.

(** ** The demonstration: the archive of [DemoArchive] in the file [x.mpq] *)
Definition mpq : bytes := lit "x.mpq".
Definition disk (p : bytes) : option bytes := if bytes_eqb p mpq then Some demo_file else None.
Definition zero_crc (_ : bytes) : N := 0.
Definition full (_ : archive) (_ n : N) : N := n.
Definition demo_run (sched : list (nat * nat)) (clients : list client) : state :=
  exec_all disk sched (initial, map (run toy no_md5 no_md5 zero_crc full) clients).
Lemma demo_run_reachable sched clients : reachable toy no_md5 no_md5 zero_crc full clients (demo_run sched clients).
Proof. apply exec_all_sound. Qed.

Definition on_handle (r : ret) (k : N -> client) : client := match r with RHandle h => k h | _ => Done end.
Definition open_then (k : N -> client) : client := Call (COpenArchive (Some mpq) true) (fun r => on_handle r k).
Definition file_then (a : N) (name : bytes) (k : N -> client) : client :=
  Call (COpenFile a (Some name) true) (fun r => on_handle r k).
Fixpoint calls (l : list call) : client := match l with [] => Done | c :: t => Call c (fun _ => calls t) end.

(** ** Seeks that go astray *)
Definition seeker (l : N -> list call) : client := open_then (fun a => file_then a (lit "dir/a.txt") (fun h => calls (l h))).
Definition back_calls (h : N) := [CReadFile h true 100; CSeek h (-1) None 0].
Definition low_calls (h : N) := [CReadFile h true 100; CSeek h 9 None 0; CSeek h (-4) (Some 0%Z) 1].
Definition back_end : state := demo_run [(0, 200)]%nat [seeker back_calls].
Definition low_end : state := demo_run [(0, 200)]%nat [seeker low_calls].

Lemma whole (d : bytes) : lit "hello world" = firstn (N.to_nat (N.min 100 (lenN d - 0))) (skipn (N.to_nat 0) d) -> lenN d = 11.
Proof.
  intros H. apply (f_equal (@length byte)) in H. rewrite firstn_length, skipn_length in H.
  change (length (lit "hello world")) with 11%nat in H. unfold lenN in *. change (N.to_nat 0) with 0%nat in H. lia.
Qed.
Definition log_of (c : state) := map (fun e => (e_thread e, e_call e, e_ret e)) (rev (s_log (fst c))).
Lemma log_in c e l : log_of c = l -> In e (s_log (fst c)) -> In (e_thread e, e_call e, e_ret e) l.
Proof. intros <- H. unfold log_of. apply (in_map (fun e => (e_thread e, e_call e, e_ret e))). now apply in_rev in H. Qed.
Definition back_list :=
  [(0%nat, COpenArchive (Some mpq) true, RHandle 1); (0%nat, COpenFile 1 (Some (lit "dir/a.txt")) true, RHandle 2);
   (0%nat, CReadFile 2 true 100, RData (lit "hello world")); (0%nat, CSeek 2 (-1) None 0, RNum 11 None)].
Lemma back_log : log_of back_end = back_list.
Proof. vm_compute. reflexivity. Qed.
Definition low_list :=
  [(0%nat, COpenArchive (Some mpq) true, RHandle 1); (0%nat, COpenFile 1 (Some (lit "dir/a.txt")) true, RHandle 2);
   (0%nat, CReadFile 2 true 100, RData (lit "hello world")); (0%nat, CSeek 2 9 None 0, RNum 9 None);
   (0%nat, CSeek 2 (-4) (Some 0%Z) 1, RNum 5 (Some 0%Z))].
Lemma low_log : log_of low_end = low_list.
Proof. vm_compute. reflexivity. Qed.

(** The calls of the only thread are the log. *)
Lemma only_thread c : Forall (fun x => fst (fst x) = 0%nat) (log_of c) -> calls_of 0 (s_log (fst c)) = rev (s_log (fst c)).
Proof.
  unfold calls_of, log_of. generalize (rev (s_log (fst c))). intros l. induction l as [|e l IH]; cbn; intros H; [reflexivity|].
  inversion H as [|? ? He Hr]; subst. cbn in He. rewrite He. cbn. f_equal. auto.
Qed.
Lemma opened_2 c l : log_of c = l -> nth_error l 1 = Some (0%nat, COpenFile 1 (Some (lit "dir/a.txt")) true, RHandle 2) ->
  exists e0 a, In e0 (s_log (fst c)) /\ opened_file e0 a 2.
Proof.
  intros <-. unfold log_of. rewrite nth_error_map. destruct (nth_error (rev (s_log (fst c))) 1) as [e|] eqn:E; [|discriminate].
  intros H. injection H as _ Hc Hr. exists e, 1. apply nth_error_In in E. split; [now apply in_rev|].
  split; [exact Hr|]. rewrite Hc. reflexivity.
Qed.

Lemma before_start_seeks c e p hi m : log_of c = back_list -> In e (s_log (fst c)) -> e_call e = CSeek 2 p hi m -> i32 p /\ hi = None.
Proof.
  intros Hlog He Hc. apply (log_in _ _ _ Hlog) in He. rewrite Hc in He. cbn in He. unfold i32.
    repeat (destruct He as [He|He]; [first [discriminate He | injection He as _ <- <- _ _; split; [lia|reflexivity]]|]). destruct He.
Qed.
Lemma before_start_astray c d : log_of c = back_list -> ~ follows_as_asked (fun _ high _ => high = None) d 2 0 (calls_of 0 (s_log (fst c))).
Proof.
  intros Hlog. rewrite only_thread by (rewrite Hlog; repeat constructor).
  unfold log_of in Hlog. revert Hlog. generalize (rev (s_log (fst c))). intros l E.
  destruct l as [|e1 [|e2 [|e3 [|e4 [|]]]]]; try discriminate. injection E as _ C1 R1 _ C2 R2 _ C3 R3 _ C4 R4.
  cbn [follows_as_asked]. unfold works_as_asked, works. rewrite C1, C2, C3, C4; cbv iota; rewrite R3, R4.
  change (2 =? 2) with true. cbv iota.
  intros (p1 & [-> _] & p2 & [-> _] & p3 & [[W ->] _] & p4 & [(W1 & W2 & _) W3] & _).
  apply whole in W. specialize (W2 ltac:(left; discriminate)). destruct W2 as (W2 & _ & z & W4 & _).
  specialize (W3 eq_refl ltac:(left; discriminate) z W4 eq_refl). cbn [seek_goal] in W4. injection W4 as <-.
  rewrite W in W3. rewrite W3 in W2. vm_compute in W2. discriminate W2.
Qed.
Lemma before_start :
  exists L md5 sha1 crc32 rd clients c h, reachable L md5 sha1 crc32 rd clients c /\ finished c /\
  (exists e0 a, In e0 (s_log (fst c)) /\ opened_file e0 a h) /\
  (forall e p hi m, In e (s_log (fst c)) -> e_call e = CSeek h p hi m -> i32 p /\ hi = None) /\
  forall d, ~ follows_as_asked (fun _ high _ => high = None) d h 0 (calls_of 0 (s_log (fst c))).
Proof.
  exists toy, no_md5, no_md5, zero_crc, full, [seeker back_calls], back_end, 2.
  split; [apply demo_run_reachable|]. split; [apply finishedb_sound; vm_compute; reflexivity|].
  split; [exact (opened_2 _ _ back_log eq_refl)|].
  split; [intros e p hi m; exact (before_start_seeks _ e p hi m back_log)|]. intros d. exact (before_start_astray _ d back_log).
Qed.
Lemma halved_offset_seeks c e p hi m : log_of c = low_list -> In e (s_log (fst c)) -> e_call e = CSeek 2 p hi m -> i32 p /\ (forall z, hi = Some z -> i32 z).
Proof.
  intros Hlog He Hc. apply (log_in _ _ _ Hlog) in He. rewrite Hc in He. cbn in He. unfold i32.
    repeat (destruct He as [He|He]; [first [discriminate He|injection He as _ <- <- _ _; split; [lia|intros z K; first [discriminate K|injection K as <-; lia]]]|]). destruct He.
Qed.
Lemma halved_offset_astray c d : log_of c = low_list -> ~ follows_as_asked (fun _ _ z => (0 <= z)%Z) d 2 0 (calls_of 0 (s_log (fst c))).
Proof.
  intros Hlog. rewrite only_thread by (rewrite Hlog; repeat constructor).
  unfold log_of in Hlog. revert Hlog. generalize (rev (s_log (fst c))). intros l E.
  destruct l as [|e1 [|e2 [|e3 [|e4 [|e5 [|]]]]]]; try discriminate. injection E as _ C1 R1 _ C2 R2 _ C3 R3 _ C4 R4 _ C5 R5.
  cbn [follows_as_asked]. unfold works_as_asked, works. rewrite C1, C2, C3, C4, C5; cbv iota; rewrite R3, R4, R5.
  change (2 =? 2) with true. cbv iota.
  intros (p1 & [-> _] & p2 & [-> _] & p3 & [[W ->] _] & p4 & [(W1 & W2 & _) W3] & p5 & [(V1 & V2 & _) V3] & _).
  apply whole in W. specialize (W3 eq_refl ltac:(left; discriminate) 9%Z eq_refl ltac:(lia)).
  rewrite W in W3. change (p4 = 9) in W3. rewrite W3 in *.
  specialize (V2 ltac:(left; discriminate)). destruct V2 as (V2 & _ & z & V4 & _).
  cbn [seek_goal] in V4. injection V4 as <-.
  specialize (V3 eq_refl ltac:(left; discriminate) _ eq_refl ltac:(vm_compute; discriminate)).
  rewrite W in V3. rewrite V3 in V2. vm_compute in V2. discriminate V2.
Qed.
Lemma halved_offset :
  exists L md5 sha1 crc32 rd clients c h, reachable L md5 sha1 crc32 rd clients c /\ finished c /\
  (exists e0 a, In e0 (s_log (fst c)) /\ opened_file e0 a h) /\
  (forall e p hi m, In e (s_log (fst c)) -> e_call e = CSeek h p hi m -> i32 p /\ (forall z, hi = Some z -> i32 z)) /\
  forall d, ~ follows_as_asked (fun _ _ z => (0 <= z)%Z) d h 0 (calls_of 0 (s_log (fst c))).
Proof.
  exists toy, no_md5, no_md5, zero_crc, full, [seeker low_calls], low_end, 2.
  split; [apply demo_run_reachable|]. split; [apply finishedb_sound; vm_compute; reflexivity|].
  split; [exact (opened_2 _ _ low_log eq_refl)|].
  split; [intros e p hi m; exact (halved_offset_seeks _ e p hi m low_log)|]. intros d. exact (halved_offset_astray _ d low_log).
Qed.

(** ** Opening a file while its archive is being closed *)
Definition closer : client := open_then (fun a => calls [CCloseArchive a]).
Definition opener : client := file_then 1 (lit "d.txt") (fun h => calls [CReadFile h true 5]).
Definition race_end : state := demo_run [(0, 14); (1, 12); (0, 100); (1, 100)]%nat [closer; opener].
Lemma race :
  exists L md5 sha1 crc32 rd clients c e e1 e2 a h, reachable L md5 sha1 crc32 rd clients c /\ In e (s_log (fst c)) /\
  In e2 (e_past e) /\ closed_archive e2 a /\ In e1 (e_past e) /\ opened_file e1 a h /\
  (exists n x, e_call e = CReadFile h true n /\ e_ret e = RData x /\ x <> []).
Proof.
  assert (E : exists e0 e1 e2 e, s_log (fst race_end) = [e; e2; e1; e0] /\ e_past e = [e2; e1; e0] /\
    opened_file e1 1 2 /\ closed_archive e2 1 /\ e_call e = CReadFile 2 true 5 /\ e_ret e = RData (lit "plain")).
  { do 4 eexists. split; [vm_compute; reflexivity|]. vm_compute. repeat split; reflexivity. }
  destruct E as (e0 & e1 & e2 & e & E & P & O & C & K & R).
  exists toy, no_md5, no_md5, zero_crc, full, [closer; opener], race_end, e, e1, e2, 1, 2.
  split; [apply demo_run_reachable|]. rewrite E, P. split; [now left|]. split; [now left|]. split; [exact C|].
  split; [right; now left|]. split; [exact O|]. exists 5, (lit "plain"). split; [exact K|]. split; [exact R|discriminate].
Qed.

(** ** Deadlocks *)
Lemma verify_deadlock :
  exists L md5 sha1 crc32 rd path c,
  reachable L md5 sha1 crc32 rd
    [Call (COpenArchive (Some path) true) (fun r =>
       match r with RHandle a => Call (CVerifyArchive a 0x20) (fun _ => Done) | _ => Done end)] c /\
  deadlocked c.
Proof.
  exists toy, no_md5, no_md5, zero_crc, full, mpq.
  exists (demo_run [(0, 100)]%nat [open_then (fun a => calls [CVerifyArchive a 0x20])]).
  split; [apply demo_run_reachable|]. apply deadlockedb_sound. vm_compute. reflexivity.
Qed.
Lemma enum_deadlock :
  exists L md5 sha1 crc32 rd path c,
  reachable L md5 sha1 crc32 rd
    [Call (COpenArchive (Some path) true) (fun r =>
       match r with
       | RHandle a => Call (CEnumFiles a None false (fun n => ([CHasFile a (Some n)], true))) (fun _ => Done)
       | _ => Done
       end)] c /\
  deadlocked c.
Proof.
  exists toy, no_md5, no_md5, zero_crc, full, mpq.
  exists (demo_run [(0, 100)]%nat [open_then (fun a => calls [CEnumFiles a None false (fun n => ([CHasFile a (Some n)], true))])]).
  split; [apply demo_run_reachable|]. apply deadlockedb_sound. vm_compute. reflexivity.
Qed.
