(** * The answers of finished calls are about what the handles stand for. *)
From Verif Require Import Bytes Compress Archive Ffi SpecFfi SpecAnswers FfiWf FfiInv FfiFacts FfiLive FfiReads.
Open Scope N_scope.

Section Answers.
Variable L : codecs.
Variable md5 sha1 : bytes -> bytes.
Variable crc32 : bytes -> N.
Variable rd : archive -> N -> N -> N.

(** The archive has been closed, or is being closed. *)
Definition agone (s : shared) (G : nat -> ghost) (h : N) : Prop :=
  (exists e, In e (s_log s) /\ e_call e = CCloseArchive h) \/
  (exists t fr, In fr (g_st (G t)) /\ f_call fr = CCloseArchive h).
Definition amiss (s : shared) (G : nat -> ghost) (e : event) (h : N) : Prop :=
  forall e1, In e1 (e_past e) -> opened_archive e1 h -> agone s G h.
Definition fmiss (s : shared) (G : nat -> ghost) (e : event) (h : N) : Prop :=
  forall e1 a, In e1 (e_past e) -> opened_file e1 a h -> gone s G a h.
Definition aans (ops : list op) (e : event) (h : N) : Prop :=
  exists x, arc ops h = Some x /\
    archive_answer L md5 sha1 crc32 rd (e_call e) (ah_path x) (ah_archive x) (e_ret e) (e_err e).
Definition fans (ops : list op) (e : event) (h : N) : Prop :=
  exists f, born ops h = Some f /\ file_answer (e_call e) (fh_name f) (fh_size f) (e_ret e) (e_err e).
Definition answered (s : shared) (G : nat -> ghost) (ops : list op) (e : event) : Prop :=
  forall h, h <> 0 -> good_ask (e_call e) ->
  (asks_archive (e_call e) h -> (refused_handle (e_call e) (e_ret e) (e_err e) /\ amiss s G e h) \/ aans ops e h) /\
  (asks_file (e_call e) h -> (refused_handle (e_call e) (e_ret e) (e_err e) /\ fmiss s G e h) \/ fans ops e h) /\
  (on_either (e_call e) h -> fans ops e h \/ (fmiss s G e h /\ ((refused_handle (e_call e) (e_ret e) (e_err e) /\ amiss s G e h) \/ aans ops e h))).

Record answers (s : shared) (G : nat -> ghost) (ops : list op) : Prop := {
  n_ins : forall t fr h x, In fr (g_st (G t)) -> In (BArchIns h x) (f_obs fr) -> s_archs s h <> None \/ agone s G h;
  n_open : forall e h, In e (s_log s) -> opened_archive e h -> s_archs s h <> None \/ agone s G h;
  n_none : forall t fr h e, In fr (g_st (G t)) -> In (BArch h None) (f_obs fr) -> In e (f_past fr) -> opened_archive e h -> agone s G h;
  n_ans : forall e, In e (s_log s) -> answered s G ops e }.

Lemma answers_initial : answers initial start_ghost [].
Proof. constructor; try (intros; contradiction). Qed.

Lemma agone_mono s s' G G' h : incl (s_log s) (s_log s') ->
  (forall t fr, In fr (g_st (G t)) -> (exists t' fr', In fr' (g_st (G' t')) /\ f_call fr' = f_call fr) \/
     (exists e, In e (s_log s') /\ e_call e = f_call fr)) ->
  agone s G h -> agone s' G' h.
Proof.
  intros Hl Hf [(e & He & Ee)|(t & fr & Hi & Ec)].
  - left. exists e. auto.
  - destruct (Hf t fr Hi) as [(t' & fr' & Hi' & E)|(e & He & E)]; [right; exists t', fr'|left; exists e]; split; congruence.
Qed.
Lemma answered_mono s s' G G' ops ops' e :
  (forall h, agone s G h -> agone s' G' h) -> (forall a h, gone s G a h -> gone s' G' a h) -> grows ops ops' ->
  answered s G ops e -> answered s' G' ops' e.
Proof.
  intros Ha Hg [Gr1 Gr2] H h H0 Hk. destruct (H h H0 Hk) as (K1 & K2 & K3).
  assert (A : amiss s G e h -> amiss s' G' e h) by (intros M e1 I O; apply Ha; exact (M e1 I O)).
  assert (B : fmiss s G e h -> fmiss s' G' e h) by (intros M e1 a I O; apply Hg; exact (M e1 a I O)).
  assert (C : aans ops e h -> aans ops' e h) by (intros (x & E & K); exists x; auto).
  assert (D : fans ops e h -> fans ops' e h) by (intros (x & E & K); exists x; auto).
  split; [|split]; intros Hc.
  - destruct (K1 Hc) as [[F M]|K]; auto.
  - destruct (K2 Hc) as [[F M]|K]; auto.
  - destruct (K3 Hc) as [K|[M [[F M']|K]]]; [left; auto|right|right]; (split; [auto|]); [left|right]; auto.
Qed.

(** The log stays, the frames get at most one observation. *)
Lemma answers_keep s s' G t g ops ops' : answers s G ops -> s_log s' = s_log s -> grows ops ops' ->
  (g_st g = g_st (G t) \/ exists b, g_st g = add_obs b (g_st (G t)) /\
     (forall h x, b = BArchIns h x -> s_archs s' h <> None) /\
     (forall h fr r, b = BArch h None -> g_st (G t) = fr :: r -> s_archs s h = None /\ incl (f_past fr) (s_log s))) ->
  (forall h, s_archs s h <> None -> s_archs s' h <> None \/ agone s' (updn G t g) h) ->
  answers s' (updn G t g) ops'.
Proof.
  intros [L1 L2 L3 L4] El Gr Hg Hf.
  assert (Hg' : g_st g = g_st (G t) \/ exists b, g_st g = add_obs b (g_st (G t))).
  { destruct Hg as [Hg|(b & Hg & _)]; [now left|right; eauto]. }
  assert (CK : forall t' fr, In fr (g_st (G t')) -> (exists t'' fr', In fr' (g_st (updn G t g t'')) /\ f_call fr' = f_call fr) \/
     (exists e, In e (s_log s') /\ e_call e = f_call fr)).
  { intros t' fr Hi. left. now apply calls_kept with (t' := t'). }
  assert (M : forall h, agone s G h -> agone s' (updn G t g) h).
  { intros h. apply agone_mono; [rewrite El; apply incl_refl|exact CK]. }
  assert (M' : forall a h, gone s G a h -> gone s' (updn G t g) a h).
  { intros a h. apply gone_mono; [rewrite El; apply incl_refl|exact CK]. }
  assert (FR : forall t' fr, In fr (g_st (updn G t g t')) -> In fr (g_st (G t')) \/
     exists b f0 r, t' = t /\ g_st (G t) = f0 :: r /\ fr = mkF (f_call f0) (f_past f0) (f_err0 f0) (f_loc0 f0) (b :: f_obs f0) /\
      (forall h x, b = BArchIns h x -> s_archs s' h <> None) /\
      (forall h fr r, b = BArch h None -> g_st (G t) = fr :: r -> s_archs s h = None /\ incl (f_past fr) (s_log s))).
  { intros t' fr Hi. destruct (updn_cases G t g t') as [[-> E]|[_ E]]; rewrite E in Hi; [|now left].
    destruct Hg as [Eg|(b & Eg & K1 & K2)]; rewrite Eg in Hi; [now left|].
    destruct (In_add_obs _ _ _ Hi) as [(f0 & r & Es & ->)|Hi']; [|now left]. right. exists b, f0, r. auto. }
  assert (ST : forall h, s_archs s h <> None \/ agone s G h -> s_archs s' h <> None \/ agone s' (updn G t g) h).
  { intros h [K|K]; auto. }
  constructor; rewrite ?El; auto.
  - intros t' fr h x Hi Hb. destruct (FR _ _ Hi) as [Hi'|(b & f0 & r & -> & Es & -> & K1 & K2)]; [eauto|].
    cbn [f_obs] in Hb. destruct Hb as [Hb|Hb]; [left; eauto|].
    apply ST. apply (L1 t f0 h x); [rewrite Es; now left|exact Hb].
  - intros e h He Ho. eauto.
  - intros t' fr h e Hi Hb He Ho. destruct (FR _ _ Hi) as [Hi'|(b & f0 & r & -> & Es & -> & K1 & K2)]; [eauto|].
    cbn [f_obs f_past] in *. assert (Hi0 : In f0 (g_st (G t))) by (rewrite Es; now left).
    destruct Hb as [Hb|Hb]; [|eauto]. destruct (K2 _ _ _ Hb Es) as [K3 K4]. apply M.
    destruct (L2 e h (K4 _ He) Ho) as [K|K]; [contradiction|exact K].
  - intros e He. eapply answered_mono; eauto.
Qed.

Lemma answers_step {A} (a : act A) t s s' x G ops ops' : inv L s G -> hist L s G ops -> extra s G -> answers s G ops ->
  pre L md5 sha1 crc32 rd a (G t) -> can a t s x s' -> grows ops ops' ->
  answers s' (updn G t (gnext a x (G t))) ops'.
Proof.
  intros I J [P V] Q Hp Hc Gr.
  assert (same_ok : forall s', s_log s' = s_log s -> s_archs s' = s_archs s -> forall g, g_st g = g_st (G t) -> answers s' (updn G t g) ops').
  { intros s1 E1 E2 g Eg. eapply answers_keep; eauto. intros h K. left. now rewrite E2. }
  assert (quiet_ok : forall b, (forall h x, b <> BArchIns h x) -> (forall h, b <> BArch h None) -> forall s', s_log s' = s_log s -> s_archs s' = s_archs s -> answers s' (updn G t (see b (G t))) ops').
  { intros b B1 B2 s1 E1 E2. eapply answers_keep; eauto.
    - right. exists b. split; [apply see_st|]. split; [intros h f E; now apply B1 in E|intros h fr r E; now apply B2 in E].
    - intros h K. left. now rewrite E2. }
  destruct a; cbn [can pre gnext] in *.
  - destruct Hc as [_ ->]. now apply same_ok.
  - subst s'. now apply same_ok.
  - destruct (s_next s + 1 <? M64); destruct Hc as [-> ->]; [|now apply same_ok]. now apply quiet_ok.
  - (* archive inserted *)
    subst s'. eapply answers_keep; eauto.
    + right. eexists. split; [apply see_st|]. split; [|discriminate]. intros i y E. injection E as -> ->. cbn. unfold upd. rewrite N.eqb_refl. discriminate.
    + intros i K. left. cbn. unfold upd. destruct (i =? id); [discriminate|exact K].
  - (* archive looked up *)
    destruct Hc as [-> ->]. eapply answers_keep; eauto.
    + right. eexists. split; [apply see_st|]. split; [discriminate|]. intros i fr r E Es. injection E as -> E.
      split; [exact E|]. apply (p_fr _ _ P t). rewrite Es. now left.
    + intros i K. left. cbn. unfold upd. destruct (i =? id) eqn:E; [|exact K]. apply N.eqb_eq in E. subst i.
      destruct (s_archs s id); [discriminate|contradiction].
  - (* archive removed *)
    destruct Hc as [-> ->]. destruct (g_st (G t)) as [|fr r] eqn:Es; [contradiction|].
    eapply answers_keep; eauto.
    + right. eexists. split; [apply see_st|]. split; discriminate.
    + intros i K. cbn. unfold upd. destruct (i =? id) eqn:E; [|now left]. apply N.eqb_eq in E. subst i.
      right. right. rewrite <- Hp.
      destruct (calls_kept G t (see (BArchDel id (some (s_archs s id))) (G t))) with (t' := t) (fr := fr) as (t'' & fr' & K1 & K2).
      * right. eexists. apply see_st.
      * rewrite Es. now left.
      * exists t'', fr'. auto.
  - subst s'. now apply quiet_ok.
  - destruct Hc as [-> ->]. now apply quiet_ok.
  - destruct Hc as [-> ->]. now apply quiet_ok.
  - subst s'. now apply quiet_ok.
  - subst s'. now apply same_ok.
  - destruct Hc as [_ ->]. now apply same_ok.
  - subst s'. now apply same_ok.
  - destruct Hc as [_ ->]. now apply same_ok.
  - subst s'. now apply same_ok.
  - subst s'. now apply same_ok.
  - subst s'. now apply same_ok.
  - (* call begins *)
    destruct Hc as [-> ->].
    match goal with |- answers _ (updn G t ?g) _ => set (g' := g) end.
    assert (FR : forall t' fr, In fr (g_st (updn G t g' t')) -> In fr (g_st (G t')) \/ fr = mkF c (s_log s) (g_err (G t)) (g_loc (G t)) []).
    { intros t' fr Hi. destruct (updn_cases G t g' t') as [[-> E]|[_ E]]; rewrite E in Hi; [|now left].
      cbn in Hi. destruct Hi as [<-|Hi]; auto. }
    assert (CK : forall t' fr, In fr (g_st (G t')) -> (exists t'' fr', In fr' (g_st (updn G t g' t'')) /\ f_call fr' = f_call fr) \/
       (exists e, In e (s_log s) /\ e_call e = f_call fr)).
    { intros t' fr Hi. left. exists t', fr. split; [|reflexivity].
      destruct (updn_cases G t g' t') as [[-> E]|[_ E]]; rewrite E; [now right|exact Hi]. }
    assert (M : forall h, agone s G h -> agone s (updn G t g') h) by (intros h; apply agone_mono; [apply incl_refl|exact CK]).
    assert (M' : forall a h, gone s G a h -> gone s (updn G t g') a h) by (intros a h; apply gone_mono; [apply incl_refl|exact CK]).
    destruct Q as [L1 L2 L3 L4]. constructor.
    + intros t' fr h y Hi Hb. destruct (FR _ _ Hi) as [Hi'| ->]; [|destruct Hb]. destruct (L1 _ _ _ _ Hi' Hb); auto.
    + intros e h He Ho. destruct (L2 _ _ He Ho); auto.
    + intros t' fr h e Hi Hb He Ho. destruct (FR _ _ Hi) as [Hi'| ->]; [eauto|destruct Hb].
    + intros e He. eapply answered_mono; eauto.
  - (* call ends *)
    subst s'. destruct (g_st (G t)) as [|fr rs] eqn:Es; [contradiction|]. destruct Hp as (P1 & P2 & P3).
    assert (Hfr : In fr (g_st (G t))) by (rewrite Es; now left).
    match goal with |- answers ?s1 (updn G t ?g) _ => set (g' := g); set (s' := s1) end.
    assert (FR : forall t' f', In f' (g_st (updn G t g' t')) -> In f' (g_st (G t'))).
    { intros t' f' Hi. destruct (updn_cases G t g' t') as [[-> E]|[_ E]]; rewrite E in Hi; [|exact Hi]. rewrite Es. now right. }
    assert (CK : forall t' fr, In fr (g_st (G t')) -> (exists t'' fr', In fr' (g_st (updn G t g' t'')) /\ f_call fr' = f_call fr) \/
       (exists e, In e (s_log s') /\ e_call e = f_call fr)).
    { intros t' f' Hi. destruct (updn_cases G t g' t') as [[-> E]|[_ E]].
      - rewrite Es in Hi. destruct Hi as [<-|Hi].
        + right. eexists. split; [now left|]. cbn. congruence.
        + left. exists t, f'. rewrite E. auto.
      - left. exists t', f'. rewrite E. auto. }
    assert (IL : incl (s_log s) (s_log s')) by (intros e He; now right).
    assert (M : forall h, agone s G h -> agone s' (updn G t g') h) by (intros h; apply agone_mono; assumption).
    assert (M' : forall a h, gone s G a h -> gone s' (updn G t g') a h) by (intros a h; apply gone_mono; assumption).
    destruct Q as [L1 L2 L3 L4]. constructor.
    + intros t' f' h y Hi Hb. destruct (L1 _ _ _ _ (FR _ _ Hi) Hb); auto.
    + intros e h [<-|He] Ho; [|destruct (L2 _ _ He Ho); auto].
      destruct Ho as [Hr Hcall]. cbn in Hr, Hcall. destruct P3 as (A1 & _). specialize (A1 h Hr). rewrite P1 in A1.
      assert (K : exists y, In (BArchIns h y) (f_obs fr)).
      { destruct c; try contradiction; destruct A1 as (y & d & B1 & _); eauto. }
      destruct K as [y K]. destruct (L1 _ _ _ _ Hfr K); auto.
    + intros t' f' h e Hi Hb He Ho. apply M. exact (L3 t' f' h e (FR _ _ Hi) Hb He Ho).
    + intros e [<-|He]; [|eapply answered_mono; eauto].
      apply (answered_mono s s' G (updn G t g') ops ops' _ M M' Gr).
      destruct P3 as (_ & _ & _ & _ & _ & A6). intros h H0 Hk. cbn [e_call e_ret e_err e_past] in *.
      specialize (A6 h H0). rewrite P1 in A6. destruct (A6 Hk) as (K1 & K2 & K3). clear A6.
      destruct (j_frame _ _ _ _ J t fr Hfr) as (_ & _ & F3 & F4 & _).
      assert (EM : g_err (G t) = s_err s t) by (symmetry; apply (v_cells _ _ _ I t)).
      set (e := mkE _ _ _ _ _).
      assert (AM : In (BArch h None) (f_obs fr) -> amiss s G e h).
      { intros K e1 I1 O1. apply (L3 t fr h e1); auto. now rewrite P2. }
      assert (FM : In (BFile h None) (f_obs fr) -> fmiss s G e h).
      { intros K e1 a I1 O1. apply (l_none _ _ V t fr h e1); auto. now rewrite P2. }
      assert (AA : (exists ah, In (BArch h (Some ah)) (f_obs fr) /\
        archive_answer L md5 sha1 crc32 rd c (ah_path ah) (ah_archive ah) r (g_err (G t))) -> aans ops e h).
      { intros (ah & K & K'). exists ah. split; [auto|]. unfold e. cbn. now rewrite <- EM. }
      assert (FA : (exists f f', In (BFile h (Some (f, f'))) (f_obs fr) /\
        file_answer c (fh_name f) (fh_size f) r (g_err (G t))) -> fans ops e h).
      { intros (f & f' & K & K'). destruct (F4 _ _ _ K) as (f0 & B & (S1 & S2 & S3 & S4)). exists f0. split; [exact B|].
        unfold e. cbn. rewrite <- EM, <- S3, <- S4. exact K'. }
      assert (RH : refused_handle c r (g_err (G t)) -> refused_handle (e_call e) (e_ret e) (e_err e)).
      { intros K. unfold e. cbn [e_ret e_call e_err]. now rewrite <- EM. }
      split; [|split]; intros Hc.
      * destruct (K1 Hc) as [[M1 F1]|K]; auto.
      * destruct (K2 Hc) as [[M1 F1]|K]; auto.
      * destruct (K3 Hc) as [K|[M1 [[M2 F1]|K]]]; [left; auto|right|right]; (split; [auto|]); [left|right]; auto.
Qed.
End Answers.
