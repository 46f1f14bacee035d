(** * Locks: order, progress, termination. *)
From Verif Require Import Bytes Compress Archive Listfile Signature Ffi SpecFfi FfiMain.
From Coq Require Import Wellfounded.
Open Scope N_scope.

Definition rank (l : lockid) : nat := match l with ARCHIVES => 0 | NEXT => 1 | FILES => 2 end.
Definition above (l : lockid) (held : list lockid) : Prop := Forall (fun k => (rank k < rank l)%nat) held.

(** The program takes locks in ascending order and gives the latest back first. *)
Fixpoint ord {R} (Q : list lockid -> Prop) (held : list lockid) (p : prog R) : Prop :=
  match p with
  | Ret _ => Q held
  | Abort => True
  | Act a k =>
      match a with
      | ALock l => above l held
      | AUnlock l => match held with x :: _ => x = l | [] => False end
      | _ => True
      end /\
      let held' := match a with ALock l => l :: held | AUnlock _ => tl held | _ => held end in
      forall x, ord Q held' (k x)
  end.

Lemma ord_pbind {R S} Q Q' (f : R -> prog S) : forall p held, ord Q' held p ->
  (forall h r, Q' h -> ord Q h (f r)) -> ord Q held (pbind p f).
Proof.
  intros p. induction p as [r| |A a k IH]; intros held; cbn [ord pbind]; auto.
  intros [H1 H2] Hf. split; [exact H1|]. intros x. apply IH; auto.
Qed.
Lemma ord_mono {R} (Q Q' : list lockid -> Prop) : (forall h, Q h -> Q' h) -> forall (p : prog R) held, ord Q held p -> ord Q' held p.
Proof.
  intros H p. induction p as [r| |A a k IH]; intros held; cbn [ord]; auto.
  intros [H1 H2]. split; [exact H1|]. intros x. apply IH; auto.
Qed.

Section Lock.
Variable L : codecs.
Variable md5 sha1 : bytes -> bytes.
Variable crc32 : bytes -> N.
Variable rd : archive -> N -> N -> N.

Definition back (held : list lockid) : list lockid -> Prop := eq held.

Lemma ord_locked {R} l held (p : prog R) : above l held -> ord (back (l :: held)) (l :: held) p -> ord (back held) held (locked l p).
Proof.
  intros H Hp. unfold locked. cbn [ord]. split; [auto|]. intros _. eapply ord_pbind; [exact Hp|].
  intros h r E. unfold back in E. subst h. cbn [ord tl]. split; [reflexivity|]. intros _. reflexivity.
Qed.
Lemma ord_act {R A} Q held (a : act A) (k : A -> prog R) :
  match a with ALock _ | AUnlock _ => False | _ => True end -> (forall x, ord Q held (k x)) -> ord Q held (Act a k).
Proof. intros H K. destruct a; try contradiction; cbn [ord]; auto. Qed.

Lemma ord_lock {R} Q held l (k : unit -> prog R) : above l held -> ord Q (l :: held) (k tt) -> ord Q held (Act (ALock l) k).
Proof. intros H K. split; [exact H|]. intros held' []. exact K. Qed.
Lemma ord_unlock {R} Q held l (k : unit -> prog R) : ord Q held (k tt) -> ord Q (l :: held) (Act (AUnlock l) k).
Proof. intros K. split; [reflexivity|]. intros held' []. exact K. Qed.

Ltac lock_order := unfold above; repeat (apply Forall_cons; [cbn; lia|]); apply Forall_nil.
Ltac ord_step :=
  match goal with
  | |- ord _ _ (match ?x with _ => _ end) => destruct x
  | |- ord _ _ Abort => exact I
  | |- ord _ _ (locked _ _) => apply ord_locked; [lock_order|]
  | |- ord _ _ (Act (ALock _) _) => apply ord_lock; [lock_order|]
  | |- ord _ _ (Act (AUnlock _) _) => apply ord_unlock
  | |- ord _ _ (Act _ _) => apply ord_act; [exact I|intros ?]
  | |- ord _ _ (Ret _) => reflexivity
  | |- ord _ _ (if ?x then _ else _) => destruct x
  end.
Ltac ord_all := unfold with_archive, with_file, new_id, Ffi.fail, finish, fail_num; repeat ord_step.

Lemma ord_open_archive f o : ord (back []) [] (open_archive_api L f o).
Proof. unfold open_archive_api. ord_all. 
Qed.
Lemma ord_create f d n o : ord (back []) [] (create_archive_api L md5 f d n o).
Proof. unfold create_archive_api. ord_all; apply ord_open_archive. Qed.
Lemma ord_close h : ord (back []) [] (close_archive_api h).
Proof. unfold close_archive_api. ord_all. Qed.
Lemma ord_open_file a f o : ord (back []) [] (open_file_api L a f o).
Proof. unfold open_file_api. ord_all. Qed.
Lemma ord_has_file a f : ord (back []) [] (has_file_api a f).
Proof. unfold has_file_api. ord_all. Qed.
Lemma ord_file_info h c b n : ord (back []) [] (file_info_api h c b n).
Proof. unfold file_info_api. ord_all. Qed.
Lemma ord_archive_name a b n : ord (back []) [] (archive_name_api a b n).
Proof. unfold archive_name_api. ord_all. Qed.
Lemma ord_extract a f d : ord (back []) [] (extract_api L a f d).
Proof. unfold extract_api. ord_all. Qed.
Lemma ord_verify_file a f fl : ord (back []) [] (verify_file_api L md5 crc32 a f fl).
Proof. unfold verify_file_api. ord_all. Qed.
Lemma ord_verify_archive a fl : N.land fl 0x20 = 0 -> ord (back []) [] (verify_archive_api L md5 sha1 crc32 rd a fl).
Proof.
  intros H. unfold verify_archive_api.
  assert (E : N.land (if fl =? 0 then VERIFY_SIGNATURE else fl) VERIFY_ALL_FILES = 0).
  { destruct (fl =? 0); [reflexivity|exact H]. }
  cbv zeta. rewrite E. change (0 =? 0) with true. ord_all.
Qed.
Lemma ord_enum a m z (run : bytes -> (bool -> prog ret) -> prog ret) :
  (forall n k, (forall b, ord (back [ARCHIVES]) [ARCHIVES] (k b)) -> ord (back [ARCHIVES]) [ARCHIVES] (run n k)) ->
  ord (back []) [] (enum_api L a m z run).
Proof.
  intros H. unfold enum_api. ord_all. 
  all: match goal with |- context [enum_loop _ _ ?l ?g] => generalize l, g end; intros ns; induction ns as [|nm ns IH]; intros given;
    cbn [enum_loop]; [unfold finish; repeat ord_step|].
  all: destruct (enumerated _ nm); [|apply IH]; apply H; intros []; [apply IH|unfold finish; repeat ord_step].
Qed.

(** Calls made by callbacks, with the archives locked. *)
Lemma ord_callback c : in_callback c -> forall held, above FILES held ->
  ord (back held) held (api L md5 sha1 crc32 rd c).
Proof.
  intros Hc held Ha. destruct c; try contradiction; cbn [api];
    unfold close_file_api, read_file_api, file_size_api, seek_api, file_name_api, set_locale_api, get_locale_api, get_error_api, set_error_api;
    unfold with_archive, with_file, new_id, Ffi.fail, finish, fail_num;
    repeat first [apply ord_locked; [exact Ha|] | apply ord_lock; [exact Ha|] | ord_step].
Qed.
Lemma ord_recorded {R} c p (k : ret -> prog R) Q held : ord (back held) held p -> (forall r, ord Q held (k r)) ->
  ord Q held (recorded c p k).
Proof.
  intros Hp Hk. unfold recorded. apply ord_act; [exact I|]. intros past. eapply ord_pbind; [exact Hp|].
  intros h r <-. apply ord_act; [exact I|]. intros _. apply Hk.
Qed.
Lemma ord_api c : safe_call c -> ord (back []) [] (api L md5 sha1 crc32 rd c).
Proof.
  intros Hs. destruct c; try (apply ord_callback; [exact I|apply Forall_nil]); cbn [api];
    auto using ord_open_archive, ord_create, ord_close, ord_open_file, ord_has_file, ord_file_info, ord_archive_name,
      ord_extract, ord_verify_file, ord_verify_archive.
  apply ord_enum. intros n k Hk. cbn [safe_call] in Hs. specialize (Hs n). destruct (cb n) as [cs b]. cbn [fst] in Hs.
  induction Hs as [|c cs Hc _ IH]; [apply Hk|]. apply ord_recorded; [|intros r; exact IH].
  apply ord_callback; [exact Hc|]. lock_order.
Qed.
Lemma ord_run cl : safe_client cl -> ord (back []) [] (run L md5 sha1 crc32 rd cl).
Proof.
  induction cl as [|c k IH]; cbn [safe_client run]; [reflexivity|]. intros [Hc Hk].
  apply ord_recorded; [now apply ord_api|]. intros r. apply IH. apply Hk.
Qed.

(** ** The locks held in reachable states *)
Definition lock_inv (s : shared) (ps : list (prog unit)) (held : nat -> list lockid) : Prop :=
  (forall t p, nth_error ps t = Some p -> ord (back []) (held t) p) /\
  (forall t, nth_error ps t = None -> held t = []) /\
  (forall t, NoDup (held t)) /\
  (forall l t, s_lock s l = Some t <-> In l (held t)).

Lemma lockid_eq_dec (a b : lockid) : {a = b} + {a <> b}.
Proof. decide equality. Qed.
Lemma upd_lock_same f l v : upd_lock f l v l = v.
Proof. now destruct l. Qed.
Lemma upd_lock_other f l v k : k <> l -> upd_lock f l v k = f k.
Proof. destruct l, k; cbn; congruence. Qed.
Lemma above_not_in l held : above l held -> ~ In l held.
Proof. intros H K. unfold above in H. rewrite Forall_forall in H. specialize (H _ K). lia. Qed.

Lemma lock_unchanged {A} (a : act A) t s x s' : match a with ALock _ | AUnlock _ => False | _ => True end ->
  can a t s x s' -> s_lock s' = s_lock s.
Proof.
  intros H Hc. destruct a; try contradiction; cbn [can] in Hc; try (subst s'; reflexivity); try (destruct Hc as [_ ->]; reflexivity).
  destruct (s_next s + 1 <? M64); destruct Hc as [_ ->]; reflexivity.
Qed.

Lemma reachable_lock clients c : Forall safe_client clients -> reachable L md5 sha1 crc32 rd clients c ->
  exists held, lock_inv (fst c) (snd c) held.
Proof.
  intros Hs. unfold reachable. remember (initial, map (run L md5 sha1 crc32 rd) clients) as c0 eqn:E0.
  intros H. induction H as [c|c c1 c2 H IH St]; subst.
  - exists (fun _ => []). split; [|split; [|split]]; cbn [fst snd].
    + intros t p E. rewrite nth_error_map in E. destruct (nth_error clients t) as [cl|] eqn:Ec; [|discriminate]. injection E as <-.
      apply ord_run. rewrite Forall_forall in Hs. apply Hs. eapply nth_error_In; exact Ec.
    + reflexivity.
    + constructor.
    + intros l t. cbn. split; [discriminate|contradiction].
  - destruct (IH eq_refl) as (held & I1 & I2 & I3 & I4). destruct St as (t & p & p' & E1 & E2 & E3).
    pose proof (I1 t p E1) as Op. unfold next in E2. destruct p as [r| |A a k]; try contradiction.
    destruct E2 as (x & Hc & ->). cbn [ord] in Op. destruct Op as [Ho Hk]. specialize (Hk x).
    exists (fun t' => if Nat.eqb t' t then match a with ALock l => l :: held t | AUnlock _ => tl (held t) | _ => held t end else held t').
    split; [|split; [|split]].
    + intros t' q Eq. rewrite E3, nth_set_nth in Eq. destruct (Nat.eqb t' t) eqn:Et; [|now apply I1].
      rewrite E1 in Eq. injection Eq as <-. exact Hk.
    + intros t' Eq. rewrite E3, nth_set_nth in Eq. destruct (Nat.eqb t' t) eqn:Et; [|now apply I2].
      rewrite E1 in Eq. discriminate.
    + intros t'. destruct (Nat.eqb t' t) eqn:Et; [|apply I3]. pose proof (I3 t) as D.
      destruct a; try exact D.
      * constructor; [now apply above_not_in|exact D].
      * destruct (held t); [constructor|]. now inversion D.
    + intros l t'. destruct a; try (apply lock_unchanged in Hc; [|exact I]; rewrite Hc; rewrite I4; destruct (Nat.eqb t' t) eqn:Et; [apply Nat.eqb_eq in Et; subst t'|]; reflexivity).
      * cbn in Hc. destruct Hc as [Hf ->]. cbn [s_lock set_lock].
        destruct (lockid_eq_dec l l0) as [->|Hl].
        -- rewrite upd_lock_same. destruct (Nat.eqb t' t) eqn:Et.
           ++ apply Nat.eqb_eq in Et. subst t'. split; [now left|reflexivity].
           ++ split; [intros E; injection E as ->; now rewrite Nat.eqb_refl in Et|]. intros K. apply I4 in K. congruence.
        -- rewrite upd_lock_other by exact Hl. rewrite I4. destruct (Nat.eqb t' t) eqn:Et; [|reflexivity].
           apply Nat.eqb_eq in Et. subst t'. split; [now right|]. intros [K|K]; [congruence|exact K].
      * cbn in Hc. subst. rewrite Hc. cbn [s_lock set_lock]. pose proof (I3 t) as D. destruct (held t) as [|y r] eqn:Eh; [contradiction|]. subst y.
        cbn [tl]. inversion D as [|? ? Hni _]; subst.
        destruct (lockid_eq_dec l l0) as [->|Hl].
        -- rewrite upd_lock_same. split; [discriminate|]. destruct (Nat.eqb t' t) eqn:Et; [contradiction|].
           intros K. apply I4 in K. assert (K' : s_lock (fst c1) l0 = Some t) by (apply I4; rewrite Eh; now left).
           rewrite K in K'. injection K' as ->. now rewrite Nat.eqb_refl in Et.
        -- rewrite upd_lock_other by exact Hl. rewrite I4. destruct (Nat.eqb t' t) eqn:Et; [|reflexivity].
           apply Nat.eqb_eq in Et. subst t'. rewrite Eh. split; [intros [K|K]; [congruence|exact K]|now right].
Qed.

(** ** Progress *)
Lemma can_always {A} (a : act A) t s : (forall l, s_lock s l <> None -> match a with ALock k => k <> l | _ => True end) ->
  exists x s', can a t s x s'.
Proof.
  intros H. destruct a; cbn [can];
    try (eexists; eexists; reflexivity); try (eexists; eexists; split; reflexivity); try (exists tt; eexists; reflexivity).
  - exists tt. eexists. split; [|reflexivity]. destruct (s_lock s l) eqn:E; [|reflexivity]. exfalso. apply (H l); congruence.
  - destruct (s_next s + 1 <? M64); eexists; eexists; split; reflexivity.
  - exists None. eexists. reflexivity.
  - exists true. eexists. reflexivity.
  - exists true. eexists. reflexivity.
Qed.

(** A thread that cannot go on waits for a lock above all that it holds. *)
Lemma waits s ps held t p : lock_inv s ps held -> stuck (s, ps) -> nth_error ps t = Some p ->
  p = Ret tt /\ held t = [] \/ p = Abort \/
  exists l t', above l (held t) /\ In l (held t').
Proof.
  intros (I1 & I2 & I3 & I4) St E. pose proof (I1 t p E) as O. destruct p as [[]| |A a k].
  - left. split; [reflexivity|]. cbn in O. now rewrite <- O.
  - right. now left.
  - right. right. cbn [ord] in O. destruct O as [O _].
    assert (B : exists l u, s_lock s l = Some u /\ match a with ALock k => k = l | _ => False end).
    { destruct a;
        try (exfalso; match goal with |- _ => idtac end;
             match type of E with nth_error _ _ = Some (Act ?a _) =>
               destruct (can_always a t s) as (x & s' & Hc); [intros; exact I|];
               apply (St (s', set_nth ps t (k x))); exists t; eexists; exists (k x); cbn [fst snd];
               split; [exact E|]; split; [|reflexivity]; cbn [next]; exists x; split; [exact Hc|reflexivity] end).
      destruct (s_lock s l) as [u|] eqn:El; [exists l, u; auto|].
      exfalso. destruct (can_always (ALock l) t s) as (x & s' & Hc); [intros; congruence|].
      apply (St (s', set_nth ps t (k x))). exists t. eexists. exists (k x). cbn [fst snd].
      split; [exact E|]. split; [|reflexivity]. cbn [next]. exists x. split; [exact Hc|reflexivity]. }
    destruct B as (l & u & Hl & Ha). destruct a; try contradiction. subst l0. exists l, u. split; [exact O|]. now apply I4.
Qed.

Lemma no_waiting s ps held : lock_inv s ps held -> stuck (s, ps) -> ~ In Abort ps ->
  forall n l t, (2 - rank l <= n)%nat -> In l (held t) -> False.
Proof.
  intros I St Na n. induction n as [|n IH]; intros l t Hn Hl.
  all: destruct (nth_error ps t) as [p|] eqn:E;
    [|destruct I as (_ & I2 & _); rewrite (I2 _ E) in Hl; contradiction].
  all: destruct (waits _ _ _ _ _ I St E) as [[_ K]|[K|(l' & t' & K1 & K2)]];
    [rewrite K in Hl; contradiction | apply Na; subst; now apply nth_error_In in E |].
  all: unfold above in K1; rewrite Forall_forall in K1; specialize (K1 _ Hl).
  - destruct l, l'; cbn in *; lia.
  - apply (IH l' t'); [|exact K2]. destruct l, l'; cbn in *; lia.
Qed.

Definition is_abort (p : prog unit) : bool := match p with Abort => true | _ => false end.
Lemma progress clients c : Forall safe_client clients -> reachable L md5 sha1 crc32 rd clients c ->
  stuck c -> finished c \/ aborted c.
Proof.
  intros Hs Hr St. destruct (reachable_lock _ _ Hs Hr) as (held & I). destruct c as [s ps]. cbn [fst snd] in I.
  destruct (existsb is_abort ps) eqn:Ea.
  - right. apply existsb_exists in Ea. destruct Ea as (p & Hp & E). destruct p; try discriminate. exact Hp.
  - left. assert (Na : ~ In Abort ps).
    { intros K. assert (existsb is_abort ps = true) by (apply existsb_exists; exists Abort; auto). congruence. }
    apply Forall_forall. intros p Hp. apply In_nth_error in Hp. destruct Hp as [t E].
    destruct (waits _ _ _ _ _ I St E) as [[K _]|[K|(l & t' & _ & K)]]; [exact K| |].
    + exfalso. apply Na. subst p. now apply nth_error_In in E.
    + exfalso. eapply (no_waiting _ _ _ I St Na 2 l t'); [lia|exact K].
Qed.
End Lock.

(** ** Termination *)
(** A program gets smaller with each step. *)
Inductive sub : prog unit -> prog unit -> Prop := sub_step A (a : act A) k x : sub (k x) (Act a k).
Lemma sub_wf : well_founded sub.
Proof.
  intros p. induction p as [r| |A a k IH]; constructor; intros q H.
  - inversion H.
  - inversion H.
  - remember (Act a k) as p eqn:E. destruct H as [A' a' k' x]. 
    assert (Ek : exists y, k' x = k y).
    { revert x. change (match Act a' k' with Act a'' k'' => forall x, exists y, k'' x = k y | _ => True end). rewrite E. intros x. now exists x. }
    destruct Ek as [y ->]. apply IH.
Qed.

Definition sub1 (l' l : list (prog unit)) : Prop :=
  exists t p p', nth_error l t = Some p /\ sub p' p /\ l' = set_nth l t p'.
Lemma sub1_wf : well_founded sub1.
Proof.
  intros l. induction l as [|p l IH].
  - constructor. intros l' (t & p & p' & E & _). destruct t; discriminate.
  - revert l IH. induction p as [p IHp] using (well_founded_induction sub_wf). intros l IH.
    induction IH as [l Hl IHl]. constructor. intros l' (t & q & q' & E & Hs & ->). destruct t as [|t]; cbn [nth_error set_nth] in *.
    + injection E as <-. apply IHp; [exact Hs|]. constructor. exact Hl.
    + apply IHl. exists t, q, q'. auto.
Qed.
Lemma later_wf : well_founded (fun c' c => step c c').
Proof.
  assert (H : well_founded (fun c' c : state => sub1 (snd c') (snd c))) by (apply wf_inverse_image, sub1_wf).
  intros c. induction c as [c IH] using (well_founded_induction H). constructor. intros c' (t & p & p' & E & K & E').
  apply IH. unfold sub1. exists t, p, p'. split; [exact E|]. split; [|exact E'].
  destruct p as [r| |A a k]; try contradiction. destruct K as (x & _ & ->). constructor.
Qed.
Lemma no_infinite_run (f : nat -> state) : ~ (forall n, step (f n) (f (S n))).
Proof.
  intros H. assert (K : forall c, forall n, f n = c -> False).
  { intros c. induction c as [c IH] using (well_founded_induction later_wf). intros n E.
    apply (IH (f (S n))) with (n := S n); [|reflexivity]. rewrite <- E. apply H. }
  exact (K (f O) O eq_refl).
Qed.
