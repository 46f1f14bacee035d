(** * Invariants of all executions of the C API. *)
From Verif Require Import Bytes Compress Archive Ffi SpecFfi FfiWf.
Open Scope N_scope.

(** ** Numbers given out and not yet used *)
Definition obs_new (b : obs) : list N := match b with BNew id => [id] | _ => [] end.
Definition news_of (fr : frame) : list N := flat_map obs_new (f_obs fr).
Definition news (st : list frame) : list N := flat_map news_of st.
Definition pending_in (fr : frame) (id : N) : Prop := In (BNew id) (f_obs fr) /\ ~ inserted id (f_obs fr).
Definition stacks := nat -> list frame.
Definition pending (st : stacks) (id : N) : Prop := exists t fr, In fr (st t) /\ pending_in fr id.

(** What the record of calls says about a handle: it is no file (archive) any
    more, or never was one. *)
Definition G_nofile (log : list event) (h : N) : Prop :=
  h = 0 \/
  (exists e, In e log /\ (closed_file e h \/ closed_archive e h \/ opened_archive e h)) \/
  (exists e a e1, In e log /\ closed_archive e a /\ In e1 (e_past e) /\ opened_file e1 a h).
Definition G_noarch (log : list event) (h : N) : Prop :=
  h = 0 \/
  exists e, In e log /\ (closed_archive e h \/ closed_file e h \/ exists a, opened_file e a h).
(** The same for a call in progress. *)
Definition F_nofile (fr : frame) (h : N) : Prop :=
  In (BFileDel h true) (f_obs fr) \/ In (BArchDel h true) (f_obs fr) \/
  (exists x, In (BArchIns h x) (f_obs fr)) \/
  (exists a e1, In (BRetain a) (f_obs fr) /\ In e1 (f_past fr) /\ opened_file e1 a h).
Definition F_noarch (fr : frame) (h : N) : Prop :=
  In (BArchDel h true) (f_obs fr) \/ In (BFileDel h true) (f_obs fr) \/
  (exists f, In (BFileIns h f) (f_obs fr)).

Definition none {A} (nx : N) (m : N -> option A) (st : stacks) (h : N) : Prop :=
  h < nx /\ ~ pending st h /\ m h = None.

Record core (nx : N) (ar : N -> option ahandle) (fi : N -> option fhandle) (log : list event) (st : stacks) : Prop := {
  c_next : 1 <= nx;
  c_new : forall t id, In id (news (st t)) -> 1 <= id < nx;
  c_nodup : forall t, NoDup (news (st t));
  c_disj : forall t t' id, t <> t' -> In id (news (st t)) -> ~ In id (news (st t'));
  c_ret : forall h, In h (handles log) -> 1 <= h < nx /\ forall t, ~ In h (news (st t));
  c_retnd : NoDup (handles log);
  c_arch : forall id, ar id <> None -> 1 <= id < nx /\ ~ pending st id;
  c_file : forall id, fi id <> None -> 1 <= id < nx /\ ~ pending st id;
  c_one : forall id, ar id = None \/ fi id = None;
  c_gone : forall h, (G_nofile log h -> none nx fi st h) /\ (G_noarch log h -> none nx ar st h);
  c_fgone : forall t fr h, In fr (st t) -> (F_nofile fr h -> none nx fi st h) /\ (F_noarch fr h -> none nx ar st h);
  c_past : forall t fr, In fr (st t) -> incl (f_past fr) log;
  c_saw : forall t fr h, In fr (st t) ->
    (saw_file (f_obs fr) h -> ~ G_nofile (f_past fr) h) /\ (saw_arch (f_obs fr) h -> ~ G_noarch (f_past fr) h);
  c_insnew : forall t fr id, In fr (st t) -> inserted id (f_obs fr) -> In (BNew id) (f_obs fr);
  c_own : forall h f, fi h = Some f ->
    (forall e a, In e log -> opened_file e a h -> fh_archive f = a) /\
    (forall t fr f0, In fr (st t) -> In (BFileIns h f0) (f_obs fr) -> fh_archive f = fh_archive f0) }.

(** ** Changes of the maps that only remove *)
Lemma none_weaken {A} nx (m m' : N -> option A) st h :
  (m h = None -> m' h = None) -> none nx m st h -> none nx m' st h.
Proof. intros H (H1 & H2 & H3). split; [exact H1|split; [exact H2|auto]]. Qed.

Lemma core_weaken nx ar fi log st ar' fi' :
  core nx ar fi log st ->
  (forall i, ar i = None -> ar' i = None) -> (forall i, fi i = None -> fi' i = None) ->
  (forall i f', fi' i = Some f' -> exists f, fi i = Some f /\ fh_archive f' = fh_archive f) ->
  core nx ar' fi' log st.
Proof.
  intros C Ha Hf Hs. destruct C. constructor; try assumption.
  - intros id H. apply c_arch0. intros E. apply H. auto.
  - intros id H. apply c_file0. intros E. apply H. auto.
  - intros id. destruct (c_one0 id); auto.
  - intros h. destruct (c_gone0 h) as [H1 H2]. split; intros G;
      (eapply none_weaken; [apply Hf || apply Ha|auto]).
  - intros t fr h Hi. destruct (c_fgone0 t fr h Hi) as [H1 H2]. split; intros G;
      (eapply none_weaken; [apply Hf || apply Ha|auto]).
  - intros h f' E. destruct (Hs _ _ E) as (f & E' & ->). now apply c_own0.
Qed.

(** ** Changes of the stacks *)
Lemma core_ext nx ar fi log st st' : (forall t, st' t = st t) ->
  core nx ar fi log st -> core nx ar fi log st'.
Proof.
  intros E C.
  assert (P : forall id, pending st' id <-> pending st id).
  { intros id. unfold pending. split; intros (t & fr & H); exists t, fr; rewrite E in *; exact H. }
  assert (Q : forall A nx (m : N -> option A) h, none nx m st h -> none nx m st' h).
  { intros A n m h (H1 & H2 & H3). split; [exact H1|]; split; [rewrite P; exact H2|exact H3]. }
  destruct C. constructor; try assumption.
  - intros t id. rewrite E. apply c_new0.
  - intros t. rewrite E. apply c_nodup0.
  - intros t t' id. rewrite !E. apply c_disj0.
  - intros h H. destruct (c_ret0 h H). split; [auto|]. intros t. rewrite E. auto.
  - intros id H. destruct (c_arch0 id H). rewrite P. auto.
  - intros id H. destruct (c_file0 id H). rewrite P. auto.
  - intros h. destruct (c_gone0 h). split; auto.
  - intros t fr h. rewrite E. intros H. destruct (c_fgone0 t fr h H). split; auto.
  - intros t fr. rewrite E. apply c_past0.
  - intros t fr h. rewrite E. apply c_saw0.
  - intros t fr id. rewrite E. apply c_insnew0.
  - intros h f H. destruct (c_own0 h f H) as [K1 K2]. split; [exact K1|]. intros t fr f0. rewrite E. apply K2.
Qed.

Definition add_obs (b : obs) (st : list frame) : list frame :=
  match st with
  | fr :: r => mkF (f_call fr) (f_past fr) (f_err0 fr) (f_loc0 fr) (b :: f_obs fr) :: r
  | [] => []
  end.
Lemma see_st b g : g_st (see b g) = add_obs b (g_st g).
Proof. reflexivity. Qed.

Lemma updn_same {A} (f : nat -> A) t v : updn f t v t = v.
Proof. unfold updn. now rewrite Nat.eqb_refl. Qed.
Lemma updn_other {A} (f : nat -> A) t v i : i <> t -> updn f t v i = f i.
Proof. unfold updn. intros H. destruct (Nat.eqb i t) eqn:E; [apply Nat.eqb_eq in E; contradiction|reflexivity]. Qed.
Lemma updn_cases {A} (f : nat -> A) t v i : (i = t /\ updn f t v i = v) \/ (i <> t /\ updn f t v i = f i).
Proof. destruct (Nat.eq_dec i t) as [->|H]; [left|right]; split; auto using updn_same, updn_other. Qed.
Lemma upd_cases {A} (f : N -> A) k v i : (i = k /\ upd f k v i = v) \/ (i <> k /\ upd f k v i = f i).
Proof. unfold upd. destruct (i =? k) eqn:E; [left|right]; split; auto; lia. Qed.

(** ** A further observation *)
Definition quiet (b : obs) : Prop :=
  match b with BNew _ | BArchIns _ _ | BFileIns _ _ => False | _ => True end.
Lemma news_quiet b st : quiet b -> news (add_obs b st) = news st.
Proof. intros H. destruct st as [|fr r]; [reflexivity|]. destruct b; try destruct H; reflexivity. Qed.
Lemma inserted_quiet b id l : quiet b -> (inserted id (b :: l) <-> inserted id l).
Proof.
  intros H. unfold inserted. split.
  - intros [[h [E|K]]|[f [E|K]]]; subst; try destruct H; eauto.
  - intros [[h K]|[f K]]; [left; exists h|right; exists f]; now right.
Qed.
Lemma In_add_obs b st fr : In fr (add_obs b st) ->
  (exists fr0 r, st = fr0 :: r /\ fr = mkF (f_call fr0) (f_past fr0) (f_err0 fr0) (f_loc0 fr0) (b :: f_obs fr0)) \/ In fr st.
Proof. destruct st as [|fr0 r]; cbn [add_obs In]; [auto|]. intros [<-|H]; [left; eauto|right; now right]. Qed.
Lemma pending_quiet st t b id : quiet b -> pending (updn st t (add_obs b (st t))) id <-> pending st id.
Proof.
  intros Hq. split.
  - intros (t' & fr & Hi & Hp). destruct (updn_cases st t (add_obs b (st t)) t') as [[-> E]|[Hn E]]; rewrite E in Hi.
    + destruct (In_add_obs _ _ _ Hi) as [(fr0 & r & Es & ->)|Hi'].
      * exists t, fr0. split; [rewrite Es; now left|]. destruct Hp as [H1 H2]. cbn [f_obs] in *. split.
        -- destruct H1 as [->|H1]; [destruct Hq|exact H1].
        -- intros K. apply H2. now apply inserted_quiet.
      * exists t, fr. auto.
    + exists t', fr. auto.
  - intros (t' & fr & Hi & Hp). destruct (updn_cases st t (add_obs b (st t)) t') as [[-> E]|[Hn E]].
    + destruct (st t) as [|fr0 r] eqn:Es; [destruct Hi|]. destruct Hi as [<-|Hi].
      * eexists t, _. rewrite updn_same. cbn [add_obs]. split; [now left|]. destruct Hp as [H1 H2]. split; cbn [f_obs].
        -- now right.
        -- intros K. apply H2. now apply (inserted_quiet b).
      * eexists t, fr. rewrite updn_same. cbn [add_obs]. split; [now right|exact Hp].
    + exists t', fr. rewrite E. auto.
Qed.
Lemma none_iff {A} nx (m : N -> option A) st st' h : (pending st' h -> pending st h) -> none nx m st h -> none nx m st' h.
Proof. intros P (H1 & H2 & H3). split; [exact H1|]. split; auto. Qed.

Lemma core_see nx ar fi log st t b fr r : core nx ar fi log st -> st t = fr :: r -> quiet b ->
  (forall h, (exists x, b = BFile h (Some x)) \/ b = BFileDel h true -> ~ G_nofile (f_past fr) h) ->
  (forall h, (exists x, b = BArch h (Some x)) \/ b = BArchDel h true -> ~ G_noarch (f_past fr) h) ->
  (forall h, b = BFileDel h true \/ b = BArchDel h true -> none nx fi st h /\ none nx ar st h) ->
  (forall a e h, b = BRetain a -> In e (f_past fr) -> opened_file e a h -> none nx fi st h) ->
  core nx ar fi log (updn st t (add_obs b (st t))).
Proof.
  intros C Est Hq S1 S2 D R. pose proof (fun id => pending_quiet st t b id Hq) as P.
  assert (NW : forall t', news (updn st t (add_obs b (st t)) t') = news (st t')).
  { intros t'. destruct (updn_cases st t (add_obs b (st t)) t') as [[-> ->]|[_ ->]]; [now apply news_quiet|reflexivity]. }
  assert (FR : forall t' f', In f' (updn st t (add_obs b (st t)) t') ->
    In f' (st t') \/ (t' = t /\ f' = mkF (f_call fr) (f_past fr) (f_err0 fr) (f_loc0 fr) (b :: f_obs fr))).
  { intros t' f' Hi. destruct (updn_cases st t (add_obs b (st t)) t') as [[-> E]|[_ E]]; rewrite E in Hi; [|now left].
    rewrite Est in Hi. cbn [add_obs] in Hi. destruct Hi as [<-|Hi]; [right; auto|left; rewrite Est; now right]. }
  assert (Hfr : In fr (st t)) by (rewrite Est; now left).
  destruct C. constructor; try assumption.
  - intros t' id. rewrite NW. apply c_new0.
  - intros t'. rewrite NW. apply c_nodup0.
  - intros t1 t2 id Hn. rewrite !NW. now apply c_disj0.
  - intros h Hh. destruct (c_ret0 h Hh). split; [auto|]. intros t'. rewrite NW. auto.
  - intros id H. destruct (c_arch0 id H). rewrite P. auto.
  - intros id H. destruct (c_file0 id H). rewrite P. auto.
  - intros h. destruct (c_gone0 h). split; intros; (eapply none_iff; [apply P|auto]).
  - intros t' f' h Hi.
    assert (G : (F_nofile f' h -> none nx fi st h) /\ (F_noarch f' h -> none nx ar st h)).
    { destruct (FR _ _ Hi) as [Hi'|[-> ->]]; [now apply (c_fgone0 t')|].
      destruct (c_fgone0 t fr h Hfr) as [K1 K2]. split.
      - intros [K|[K|[[x K]|(a & e1 & K & Hp & Ho)]]]; cbn [f_obs f_past] in *.
        + destruct K as [->|K]; [destruct (D h (or_introl eq_refl)) as [D1 _]; exact D1|apply K1; left; exact K].
        + destruct K as [->|K]; [destruct (D h (or_intror eq_refl)) as [D1 _]; exact D1|apply K1; right; left; exact K].
        + destruct K as [->|K]; [destruct Hq|]. apply K1. right. right. left. eauto.
        + destruct K as [->|K]; [eapply R; eauto|]. apply K1. right. right. right. eauto.
      - intros [K|[K|[f K]]]; cbn [f_obs] in *.
        + destruct K as [->|K]; [destruct (D h (or_intror eq_refl)) as [_ D1]; exact D1|apply K2; left; exact K].
        + destruct K as [->|K]; [destruct (D h (or_introl eq_refl)) as [_ D1]; exact D1|apply K2; right; left; exact K].
        + destruct K as [->|K]; [destruct Hq|]. apply K2. right. right. eauto. }
    destruct G as [G1 G2]. split; intros; (eapply none_iff; [apply P|auto]).
  - intros t' f' Hi. destruct (FR _ _ Hi) as [Hi'|[-> ->]]; [now apply (c_past0 t')|]. cbn [f_past]. now apply (c_past0 t).
  - intros t' f' h Hi. destruct (FR _ _ Hi) as [Hi'|[-> ->]]; [now apply (c_saw0 t')|]. cbn [f_past f_obs].
    destruct (c_saw0 t fr h Hfr) as [K1 K2]. split.
    + intros [[x [E|K]]|[E|K]]; [apply S1; left; eauto|apply K1; left; eauto|apply S1; now right|apply K1; now right].
    + intros [[x [E|K]]|[E|K]]; [apply S2; left; eauto|apply K2; left; eauto|apply S2; now right|apply K2; now right].
  - intros t' f' id Hi. destruct (FR _ _ Hi) as [Hi'|[-> ->]]; [now apply (c_insnew0 t')|]. cbn [f_obs].
    intros K. right. apply (c_insnew0 t fr id Hfr). now apply (inserted_quiet b).
  - intros h f E. destruct (c_own0 h f E) as [K1 K2]. split; [exact K1|]. intros t' f' f0 Hi Hb.
    destruct (FR _ _ Hi) as [Hi'|[-> ->]]; [now apply (K2 t' f')|]. cbn [f_obs] in Hb.
    destruct Hb as [->|Hb]; [destruct Hq|]. now apply (K2 t fr).
Qed.

(** ** A new number *)
Lemma in_news st fr id : In fr st -> In (BNew id) (f_obs fr) -> In id (news st).
Proof. intros H1 H2. apply in_flat_map. exists fr. split; [exact H1|]. apply in_flat_map. exists (BNew id). split; [exact H2|now left]. Qed.
Lemma pending_news st id : pending st id -> exists t, In id (news (st t)).
Proof. intros (t & fr & H1 & H2 & _). exists t. eapply in_news; eassumption. Qed.

Lemma top_frames st t b fr r t' f' : st t = fr :: r -> In f' (updn st t (add_obs b (st t)) t') ->
  In f' (st t') \/ (t' = t /\ f' = mkF (f_call fr) (f_past fr) (f_err0 fr) (f_loc0 fr) (b :: f_obs fr)).
Proof.
  intros Est Hi. destruct (updn_cases st t (add_obs b (st t)) t') as [[-> E]|[_ E]]; rewrite E in Hi; [|now left].
  rewrite Est in Hi. cbn [add_obs] in Hi. destruct Hi as [<-|Hi]; [right; auto|left; rewrite Est; now right].
Qed.

Lemma core_new nx ar fi log st t fr r : core nx ar fi log st -> st t = fr :: r ->
  core (nx + 1) ar fi log (updn st t (add_obs (BNew nx) (st t))).
Proof.
  intros C Est. assert (Hfr : In fr (st t)) by (rewrite Est; now left).
  pose proof (fun t' f' => top_frames st t (BNew nx) fr r t' f' Est) as FR.
  assert (NT : news (updn st t (add_obs (BNew nx) (st t)) t) = nx :: news (st t)).
  { rewrite updn_same, Est. reflexivity. }
  assert (NO : forall t', t' <> t -> news (updn st t (add_obs (BNew nx) (st t)) t') = news (st t')).
  { intros t' Hn. now rewrite updn_other. }
  assert (NI : forall t' id, In id (news (updn st t (add_obs (BNew nx) (st t)) t')) ->
    In id (news (st t')) \/ (t' = t /\ id = nx)).
  { intros t' id. destruct (Nat.eq_dec t' t) as [->|Hn]; [rewrite NT; intros [<-|H]; auto|rewrite NO by exact Hn; auto]. }
  assert (P : forall id, pending (updn st t (add_obs (BNew nx) (st t))) id -> pending st id \/ id = nx).
  { intros id (t' & f' & Hi & H1 & H2). destruct (FR _ _ Hi) as [Hi'|[-> ->]].
    - left. exists t', f'. repeat split; auto.
    - cbn [f_obs] in *. destruct H1 as [E|H1]; [injection E as E; right; congruence|]. left. exists t, fr. repeat split; auto.
      intros K. apply H2. destruct K as [[h K]|[f K]]; [left; exists h|right; exists f]; now right. }
  destruct C.
  assert (Q : forall A (m : N -> option A) h, none nx m st h -> none (nx + 1) m (updn st t (add_obs (BNew nx) (st t))) h).
  { intros A m h (H1 & H2 & H3). split; [lia|]. split; [|exact H3]. intros K. destruct (P _ K); [auto|lia]. }
  constructor; try assumption.
  - lia.
  - intros t' id Hi. destruct (NI _ _ Hi) as [H|[_ ->]]; [apply c_new0 in H; lia|lia].
  - intros t'. destruct (Nat.eq_dec t' t) as [->|Hn]; [|rewrite NO by exact Hn; apply c_nodup0].
    rewrite NT. constructor; [|apply c_nodup0]. intros K. apply c_new0 in K. lia.
  - intros t1 t2 id Hn H1 H2. destruct (NI _ _ H1) as [K1|[E1 E1']], (NI _ _ H2) as [K2|[E2 E2']].
    + exact (c_disj0 _ _ _ Hn K1 K2).
    + apply c_new0 in K1. lia.
    + apply c_new0 in K2. lia.
    + apply Hn. congruence.
  - intros h Hh. destruct (c_ret0 h Hh) as [K1 K2]. split; [lia|]. intros t' Hi.
    destruct (NI _ _ Hi) as [K|[_ ->]]; [exact (K2 _ K)|lia].
  - intros id H. destruct (c_arch0 id H) as [K1 K2]. split; [lia|]. intros K. destruct (P _ K); [auto|lia].
  - intros id H. destruct (c_file0 id H) as [K1 K2]. split; [lia|]. intros K. destruct (P _ K); [auto|lia].
  - intros h. destruct (c_gone0 h). split; auto.
  - intros t' f' h Hi. destruct (FR _ _ Hi) as [Hi'|[-> ->]].
    + destruct (c_fgone0 _ _ h Hi'). split; auto.
    + destruct (c_fgone0 _ _ h Hfr) as [K1 K2]. split.
      * intros [K|[K|[[x K]|(a & e1 & K & Hp & Ho)]]]; cbn [f_obs f_past] in *; destruct K as [K|K]; try discriminate;
          apply Q, K1; unfold F_nofile; eauto 10.
      * intros [K|[K|[f K]]]; cbn [f_obs] in *; destruct K as [K|K]; try discriminate; apply Q, K2; unfold F_noarch; eauto.
  - intros t' f' Hi. destruct (FR _ _ Hi) as [Hi'|[-> ->]]; [now apply (c_past0 t')|]. now apply (c_past0 t fr).
  - intros t' f' h Hi. destruct (FR _ _ Hi) as [Hi'|[-> ->]]; [now apply (c_saw0 t')|]. cbn [f_past f_obs].
    destruct (c_saw0 t fr h Hfr) as [K1 K2]. split.
    + intros [[x [E|K]]|[E|K]]; try discriminate; apply K1; [left|right]; eauto.
    + intros [[x [E|K]]|[E|K]]; try discriminate; apply K2; [left|right]; eauto.
  - intros t' f' id Hi. destruct (FR _ _ Hi) as [Hi'|[-> ->]]; [now apply (c_insnew0 t')|]. cbn [f_obs].
    intros [[h [E|K]]|[f [E|K]]]; try discriminate; right; apply (c_insnew0 t fr id Hfr); [left|right]; eauto.
  - intros h f E. destruct (c_own0 h f E) as [K1 K2]. split; [exact K1|]. intros t' f' f0 Hi Hb.
    destruct (FR _ _ Hi) as [Hi'|[-> ->]]; [now apply (K2 t' f')|]. cbn [f_obs] in Hb.
    destruct Hb as [E'|Hb]; [discriminate|]. now apply (K2 t fr).
Qed.

(** ** Insertion *)
Lemma NoDup_app_l {A} (l m : list A) : NoDup (l ++ m) -> forall x, In x l -> ~ In x m.
Proof.
  induction l as [|a l IH]; cbn [app]; intros H x Hx; [destruct Hx|].
  inversion H as [|? ? H1 H2]; subst. destruct Hx as [<-|Hx]; [|now apply IH].
  intros K. apply H1. apply in_or_app. now right.
Qed.
Definition is_ins (b : obs) (id : N) : Prop := (exists h, b = BArchIns id h) \/ (exists f, b = BFileIns id f).
Lemma is_ins_news b id st : is_ins b id -> news (add_obs b st) = news st.
Proof. intros [[h ->]|[f ->]]; destruct st; reflexivity. Qed.
Lemma pending_ins nx ar fi log st t b fr r id : core nx ar fi log st -> st t = fr :: r -> is_ins b id ->
  pending_in fr id ->
  (forall x, pending (updn st t (add_obs b (st t))) x -> pending st x /\ x <> id).
Proof.
  intros C Est Hb [Hp1 Hp2] x (t' & f' & Hi & H1 & H2).
  assert (Hfr : In fr (st t)) by (rewrite Est; now left).
  assert (Hid : In id (news (st t))) by (eapply in_news; eassumption).
  destruct (updn_cases st t (add_obs b (st t)) t') as [[-> E]|[Hn E]]; rewrite E in Hi.
  - rewrite Est in Hi. cbn [add_obs] in Hi. destruct Hi as [<-|Hi]; cbn [f_obs] in *.
    + split.
      * exists t, fr. split; [exact Hfr|]. split.
        -- destruct H1 as [->|H1]; [destruct Hb as [[h K]|[f K]]; discriminate|exact H1].
        -- intros K. apply H2. destruct K as [[h K]|[f K]]; [left; exists h|right; exists f]; now right.
      * intros ->. apply H2. destruct Hb as [[h ->]|[f ->]]; [left; exists h|right; exists f]; now left.
    + split.
      * exists t, f'. split; [rewrite Est; now right|]. split; auto.
      * intros ->. pose proof (c_nodup _ _ _ _ _ C t) as K. rewrite Est in K. unfold news in K. cbn [flat_map] in K.
        eapply (NoDup_app_l _ _ K id).
        -- apply in_flat_map. exists (BNew id). split; [exact Hp1|now left].
        -- apply in_flat_map. exists f'. split; [exact Hi|]. apply in_flat_map. exists (BNew id). split; [exact H1|now left].
  - split.
    + exists t', f'. split; [exact Hi|]. split; auto.
    + intros ->. eapply (c_disj _ _ _ _ _ C t' t id Hn); [|exact Hid]. eapply in_news; eassumption.
Qed.

Lemma core_ins nx ar fi log st t b fr r id ar' fi' : core nx ar fi log st -> st t = fr :: r -> pending_in fr id ->
  (exists h, b = BArchIns id h /\ ar' = upd ar id (Some h) /\ fi' = fi) \/
  (exists f, b = BFileIns id f /\ fi' = upd fi id (Some f) /\ ar' = ar) ->
  core nx ar' fi' log (updn st t (add_obs b (st t))).
Proof.
  intros C Est Hpi Hc.
  assert (Hb : is_ins b id). { destruct Hc as [(h & -> & _)|(f & -> & _)]; [left|right]; eauto. }
  assert (Hfr : In fr (st t)) by (rewrite Est; now left).
  pose proof (pending_ins _ _ _ _ _ _ _ _ _ _ C Est Hb Hpi) as P.
  pose proof (fun t' f' => top_frames st t b fr r t' f' Est) as FR.
  assert (Pid : pending st id) by (exists t, fr; auto).
  assert (Rid : 1 <= id < nx). { apply (c_new _ _ _ _ _ C t). eapply in_news; [exact Hfr|apply Hpi]. }
  assert (Aid : ar id = None). { destruct (ar id) eqn:E; [|reflexivity]. destruct (c_arch _ _ _ _ _ C id) as [_ K]; [congruence|contradiction]. }
  assert (Fid : fi id = None). { destruct (fi id) eqn:E; [|reflexivity]. destruct (c_file _ _ _ _ _ C id) as [_ K]; [congruence|contradiction]. }
  assert (Np : ~ pending (updn st t (add_obs b (st t))) id) by (intros K; now apply P in K).
  assert (HA : forall x, x <> id -> ar' x = ar x).
  { intros x Hx. destruct Hc as [(h & _ & -> & _)|(f & _ & _ & ->)]; [|reflexivity].
    destruct (upd_cases ar id (Some h) x) as [[K _]|[_ ->]]; [contradiction|reflexivity]. }
  assert (HF : forall x, x <> id -> fi' x = fi x).
  { intros x Hx. destruct Hc as [(h & _ & _ & ->)|(f & _ & -> & _)]; [reflexivity|].
    destruct (upd_cases fi id (Some f) x) as [[K _]|[_ ->]]; [contradiction|reflexivity]. }
  assert (QA : forall h, none nx ar st h -> none nx ar' (updn st t (add_obs b (st t))) h).
  { intros h (H1 & H2 & H3). split; [exact H1|]. split; [intros K; now apply P in K|]. rewrite HA; [exact H3|]. intros ->. contradiction. }
  assert (QF : forall h, none nx fi st h -> none nx fi' (updn st t (add_obs b (st t))) h).
  { intros h (H1 & H2 & H3). split; [exact H1|]. split; [intros K; now apply P in K|]. rewrite HF; [exact H3|]. intros ->. contradiction. }
  assert (NW : forall t', news (updn st t (add_obs b (st t)) t') = news (st t')).
  { intros t'. destruct (updn_cases st t (add_obs b (st t)) t') as [[-> ->]|[_ ->]]; [now apply (is_ins_news b id)|reflexivity]. }
  destruct C. constructor; try assumption.
  - intros t' x. rewrite NW. apply c_new0.
  - intros t'. rewrite NW. apply c_nodup0.
  - intros t1 t2 x. rewrite !NW. apply c_disj0.
  - intros h Hh. destruct (c_ret0 h Hh). split; [auto|]. intros t'. rewrite NW. auto.
  - intros x H. destruct (N.eq_dec x id) as [->|Hx]; [split; [exact Rid|exact Np]|].
    rewrite HA in H by exact Hx. destruct (c_arch0 x H) as [K1 K2]. split; [exact K1|]. intros K. now apply P in K.
  - intros x H. destruct (N.eq_dec x id) as [->|Hx]; [split; [exact Rid|exact Np]|].
    rewrite HF in H by exact Hx. destruct (c_file0 x H) as [K1 K2]. split; [exact K1|]. intros K. now apply P in K.
  - intros x. destruct (N.eq_dec x id) as [->|Hx]; [|rewrite HA, HF by exact Hx; auto].
    destruct Hc as [(h & _ & _ & ->)|(f & _ & _ & ->)]; auto.
  - intros h. destruct (c_gone0 h). split; auto.
  - intros t' f' h Hi. destruct (FR _ _ Hi) as [Hi'|[-> ->]].
    + destruct (c_fgone0 _ _ h Hi'). split; auto.
    + destruct (c_fgone0 _ _ h Hfr) as [K1 K2]. split.
      * intros [K|[K|[[x K]|(a & e1 & K & Hp & Ho)]]]; cbn [f_obs f_past] in *; destruct K as [K|K];
          try (subst b; destruct Hb as [[? Hb]|[? Hb]]; discriminate);
          try (apply QF, K1; unfold F_nofile; eauto 10; fail).
        subst b. destruct Hc as [(h' & E & _ & ->)|(f & E & _)]; [|discriminate]. injection E as -> ->.
        split; [apply Rid|]. split; [exact Np|exact Fid].
      * intros [K|[K|[f K]]]; cbn [f_obs] in *; destruct K as [K|K];
          try (subst b; destruct Hb as [[? Hb]|[? Hb]]; discriminate);
          try (apply QA, K2; unfold F_noarch; eauto; fail).
        subst b. destruct Hc as [(h' & E & _)|(f' & E & _ & ->)]; [discriminate|]. injection E as -> ->.
        split; [apply Rid|]. split; [exact Np|exact Aid].
  - intros t' f' Hi. destruct (FR _ _ Hi) as [Hi'|[-> ->]]; [now apply (c_past0 t')|]. now apply (c_past0 t fr).
  - intros t' f' h Hi. destruct (FR _ _ Hi) as [Hi'|[-> ->]]; [now apply (c_saw0 t')|]. cbn [f_past f_obs].
    destruct (c_saw0 t fr h Hfr) as [K1 K2]. split.
    + intros [[x [E|K]]|[E|K]]; try (subst b; destruct Hb as [[? Hb]|[? Hb]]; discriminate); apply K1; [left|right]; eauto.
    + intros [[x [E|K]]|[E|K]]; try (subst b; destruct Hb as [[? Hb]|[? Hb]]; discriminate); apply K2; [left|right]; eauto.
  - intros t' f' x Hi. destruct (FR _ _ Hi) as [Hi'|[-> ->]]; [now apply (c_insnew0 t')|]. cbn [f_obs].
    intros K. right. destruct (N.eq_dec x id) as [->|Hx]; [apply Hpi|]. apply (c_insnew0 t fr x Hfr).
    destruct K as [[h [E|K]]|[f [E|K]]]; [|left; eauto| |right; eauto];
      subst b; destruct Hb as [[? Hb]|[? Hb]]; try discriminate; injection Hb as -> _; contradiction.
  - intros h f E. destruct (N.eq_dec h id) as [->|Hx].
    + destruct Hc as [(h' & _ & _ & ->)|(f1 & Eb & Ef & _)]; [congruence|].
      assert (f1 = f). { subst fi'. unfold upd in E. rewrite N.eqb_refl in E. now injection E. }
      subst f1. split.
      * intros e a He [Ho _]. exfalso.
        destruct (c_ret0 id) as [_ K]; [|apply (K t); eapply in_news; [exact Hfr|apply Hpi]].
        apply in_flat_map. exists e. split; [exact He|]. unfold handle_of. rewrite Ho. now left.
      * intros t' f' f0 Hi Hb'. 
        assert (NO : forall t1 f2, In f2 (st t1) -> In (BFileIns id f0) (f_obs f2) -> False).
        { intros t1 f2 H1 H2. destruct (c_fgone0 t1 f2 id H1) as [_ K]. destruct K as (_ & K & _); [|contradiction].
          right. right. eauto. }
        destruct (FR _ _ Hi) as [Hi'|[-> ->]]; [exfalso; eapply NO; eassumption|]. cbn [f_obs] in Hb'.
        destruct Hb' as [K|K]; [rewrite Eb in K; injection K as ->; reflexivity|exfalso; eapply NO; eassumption].
    + rewrite HF in E by exact Hx. destruct (c_own0 h f E) as [K1 K2]. split; [exact K1|].
      intros t' f' f0 Hi Hb'. destruct (FR _ _ Hi) as [Hi'|[-> ->]]; [now apply (K2 t' f')|]. cbn [f_obs] in Hb'.
      destruct Hb' as [->|Hb']; [destruct Hb as [[? Hb]|[? Hb]]; [discriminate|injection Hb as -> _; contradiction]|].
      now apply (K2 t fr).
Qed.

(** ** Calls begin and end *)
Lemma core_begin nx ar fi log st t c e0 l0 : core nx ar fi log st ->
  core nx ar fi log (updn st t (mkF c log e0 l0 [] :: st t)).
Proof.
  intros C.
  assert (FR : forall t' f', In f' (updn st t (mkF c log e0 l0 [] :: st t) t') ->
    In f' (st t') \/ (t' = t /\ f' = mkF c log e0 l0 [])).
  { intros t' f' Hi. destruct (updn_cases st t (mkF c log e0 l0 [] :: st t) t') as [[-> E]|[_ E]]; rewrite E in Hi; [|now left].
    destruct Hi as [<-|Hi]; auto. }
  assert (NW : forall t', news (updn st t (mkF c log e0 l0 [] :: st t) t') = news (st t')).
  { intros t'. destruct (updn_cases st t (mkF c log e0 l0 [] :: st t) t') as [[-> ->]|[_ ->]]; reflexivity. }
  assert (P : forall x, pending (updn st t (mkF c log e0 l0 [] :: st t)) x -> pending st x).
  { intros x (t' & f' & Hi & H). destruct (FR _ _ Hi) as [Hi'|[-> ->]]; [exists t', f'; auto|]. destruct H as [[] _]. }
  assert (Q : forall A (m : N -> option A) h, none nx m st h -> none nx m (updn st t (mkF c log e0 l0 [] :: st t)) h).
  { intros A m h. apply none_iff. apply P. }
  destruct C. constructor; try assumption.
  - intros t' x. rewrite NW. apply c_new0.
  - intros t'. rewrite NW. apply c_nodup0.
  - intros t1 t2 x. rewrite !NW. apply c_disj0.
  - intros h Hh. destruct (c_ret0 h Hh). split; [auto|]. intros t'. rewrite NW. auto.
  - intros x H. destruct (c_arch0 x H). auto.
  - intros x H. destruct (c_file0 x H). auto.
  - intros h. destruct (c_gone0 h). split; auto.
  - intros t' f' h Hi. destruct (FR _ _ Hi) as [Hi'|[-> ->]].
    + destruct (c_fgone0 _ _ h Hi'). split; auto.
    + split; [intros [[]|[[]|[[? []]|(? & ? & [] & _)]]]|intros [[]|[[]|[? []]]]].
  - intros t' f' Hi. destruct (FR _ _ Hi) as [Hi'|[-> ->]]; [now apply (c_past0 t')|]. cbn [f_past]. apply incl_refl.
  - intros t' f' h Hi. destruct (FR _ _ Hi) as [Hi'|[-> ->]]; [now apply (c_saw0 t')|].
    split; intros [[? []]|[]].
  - intros t' f' x Hi. destruct (FR _ _ Hi) as [Hi'|[-> ->]]; [now apply (c_insnew0 t')|]. intros [[? []]|[? []]].
  - intros h f E. destruct (c_own0 h f E) as [K1 K2]. split; [exact K1|]. intros t' f' f0 Hi Hb.
    destruct (FR _ _ Hi) as [Hi'|[-> ->]]; [now apply (K2 t' f')|]. destruct Hb.
Qed.

Lemma core_end L md5 sha1 crc32 rd nx ar fi log st t fr r x err loc mloc e : core nx ar fi log st -> st t = fr :: r ->
  allowed L md5 sha1 crc32 rd fr x err loc mloc -> e_call e = f_call fr -> e_ret e = x -> e_past e = f_past fr ->
  core nx ar fi (e :: log) (updn st t r).
Proof.
  intros C Est (Hh & Hcl & _) Ec Er Ep. assert (Hfr : In fr (st t)) by (rewrite Est; now left).
  assert (FR : forall t' f', In f' (updn st t r t') -> In f' (st t')).
  { intros t' f' Hi. destruct (updn_cases st t r t') as [[-> E]|[_ E]]; rewrite E in Hi; [|exact Hi]. rewrite Est. now right. }
  assert (NI : forall t' id, In id (news (updn st t r t')) -> In id (news (st t'))).
  { intros t' id Hi. destruct (updn_cases st t r t') as [[-> E]|[_ E]]; rewrite E in Hi; [|exact Hi].
    rewrite Est. unfold news. cbn [flat_map]. apply in_or_app. now right. }
  assert (P : forall y, pending (updn st t r) y -> pending st y).
  { intros y (t' & f' & Hi & H). exists t', f'. split; auto. }
  assert (Q : forall A (m : N -> option A) h, none nx m st h -> none nx m (updn st t r) h).
  { intros A m h. apply none_iff. apply P. }
  assert (HN : forall h, x = RHandle h -> In (BNew h) (f_obs fr)).
  { intros h Eh. specialize (Hh h Eh). apply (c_insnew _ _ _ _ _ C t fr h Hfr).
    destruct (f_call fr); try (exfalso; exact Hh).
    - destruct Hh as (y & d & H & _). left. eauto.
    - destruct Hh as (y & d & H & _). left. eauto.
    - destruct Hh as (f & d & H & _). right. eauto. }
  assert (GF : forall h, (closed_file e h \/ closed_archive e h \/ opened_archive e h) \/
      (exists a e1, closed_archive e a /\ In e1 (e_past e) /\ opened_file e1 a h) -> F_nofile fr h).
  { intros h [[[K1 K2]|[[K1 K2]|[K1 K2]]]|(a & e1 & [K1 K2] & K3 & K4)].
    - unfold ok_close in Hcl. rewrite <- Ec, K1 in Hcl. left. apply Hcl. congruence.
    - unfold ok_close in Hcl. rewrite <- Ec, K1 in Hcl. right. left. apply Hcl. congruence.
    - specialize (Hh h). rewrite Er in K1. specialize (Hh K1). rewrite <- Ec in Hh.
      right. right. left. destruct (e_call e); try (exfalso; exact K2); destruct Hh as (y & d & H & _); eauto.
    - unfold ok_close in Hcl. rewrite <- Ec, K1 in Hcl. right. right. right. exists a, e1.
      split; [apply Hcl; congruence|]. split; [now rewrite <- Ep|exact K4]. }
  assert (GA : forall h, closed_archive e h \/ closed_file e h \/ (exists a, opened_file e a h) -> F_noarch fr h).
  { intros h [[K1 K2]|[[K1 K2]|[a [K1 K2]]]].
    - unfold ok_close in Hcl. rewrite <- Ec, K1 in Hcl. left. apply Hcl. congruence.
    - unfold ok_close in Hcl. rewrite <- Ec, K1 in Hcl. right. left. apply Hcl. congruence.
    - specialize (Hh h). rewrite Er in K1. specialize (Hh K1). rewrite <- Ec in Hh.
      right. right. destruct (e_call e); try (exfalso; exact K2). destruct Hh as (f & d & H & _). eauto. }
  destruct C. constructor; try assumption.
  - intros t' y Hi. apply (c_new0 t'). auto.
  - intros t'. destruct (updn_cases st t r t') as [[-> ->]|[_ ->]]; [|apply c_nodup0].
    specialize (c_nodup0 t). rewrite Est in c_nodup0. unfold news in c_nodup0. cbn [flat_map] in c_nodup0.
    induction (news_of fr) as [|y l IH]; [exact c_nodup0|]. apply IH. now inversion c_nodup0.
  - intros t1 t2 y Hn H1 H2. exact (c_disj0 _ _ _ Hn (NI _ _ H1) (NI _ _ H2)).
  - intros h Hi. unfold handles in Hi. cbn [flat_map] in Hi. apply in_app_or in Hi. destruct Hi as [Hi|Hi].
    + unfold handle_of in Hi. rewrite Er in Hi. destruct x as [| h' | | | | |]; try destruct Hi as [].
      * subst h'. pose proof (HN h eq_refl) as K. split; [apply (c_new0 t); eapply in_news; eassumption|].
        intros t' K'. destruct (updn_cases st t r t') as [[-> E]|[Hn E]]; rewrite E in K'.
        -- pose proof (c_nodup0 t) as D. rewrite Est in D. unfold news in D. cbn [flat_map] in D.
           eapply (NoDup_app_l _ _ D h); [|exact K']. apply in_flat_map. exists (BNew h). split; [exact K|now left].
        -- eapply (c_disj0 t' t h Hn); [exact K'|]. eapply in_news; eassumption.
      * destruct H.
    + destruct (c_ret0 h Hi) as [K1 K2]. split; [exact K1|]. intros t' K. exact (K2 t' (NI _ _ K)).
  - unfold handles. cbn [flat_map]. unfold handle_of at 1. rewrite Er. destruct x as [| h' | | | | |]; try exact c_retnd0.
    cbn [app]. constructor; [|exact c_retnd0]. intros K. destruct (c_ret0 h' K) as [_ K']. apply (K' t).
    eapply in_news; [exact Hfr|]. now apply HN.
  - intros y H. destruct (c_arch0 y H). auto.
  - intros y H. destruct (c_file0 y H). auto.
  - intros h. destruct (c_gone0 h) as [K1 K2], (c_fgone0 t fr h Hfr) as [K3 K4]. split.
    + intros [->|[(e' & [<-|Hi] & H)|(e' & a & e1 & [<-|Hi] & H)]]; apply Q.
      * apply K1. now left.
      * apply K3, GF. now left.
      * apply K1. right. left. eauto.
      * apply K3, GF. right. eauto.
      * apply K1. right. right. exists e', a, e1. split; auto.
    + intros [->|(e' & [<-|Hi] & H)]; apply Q; [apply K2; now left|apply K4, GA; exact H|]. apply K2. right. exists e'. auto.
  - intros t' f' h Hi. destruct (c_fgone0 _ _ h (FR _ _ Hi)). split; auto.
  - intros t' f' Hi y Hy. right. exact (c_past0 _ _ (FR _ _ Hi) y Hy).
  - intros t' f' h Hi. apply (c_saw0 t'). auto.
  - intros t' f' y Hi. apply (c_insnew0 t'). auto.
  - intros h f E. destruct (c_own0 h f E) as [K1 K2]. split.
    + intros e' a [<-|Hi]; [|now apply K1]. intros [K3 K4]. rewrite Er in K3. specialize (Hh h K3). rewrite <- Ec in Hh.
      destruct (e_call e); try (exfalso; exact K4). destruct Hh as (f0 & d & H & Hf & _).
      transitivity (fh_archive f0); [now apply (K2 t fr)|congruence].
    + intros t' f' f0 Hi. apply (K2 t'). auto.
Qed.
