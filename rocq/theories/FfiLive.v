(** * Finished calls stay in the past, file handles live until they are closed. *)
From Verif Require Import Bytes Compress Archive Ffi SpecFfi FfiWf FfiInv FfiFacts.
Open Scope N_scope.

Section Live.
Variable L : codecs.
Variable md5 sha1 : bytes -> bytes.
Variable crc32 : bytes -> N.
Variable rd : archive -> N -> N -> N.

(** ** The past of a call contains the pasts of the calls in it *)
Definition closed (l : list event) : Prop := forall e, In e l -> incl (e_past e) l.
Record past_ok (s : shared) (G : nat -> ghost) : Prop := {
  p_log : closed (s_log s);
  p_ev : forall e, In e (s_log s) -> closed (e_past e);
  p_fr : forall t fr, In fr (g_st (G t)) -> closed (f_past fr) /\ incl (f_past fr) (s_log s) }.

(** ** File handles live until they are closed *)
Definition gone (s : shared) (G : nat -> ghost) (a h : N) : Prop :=
  exists c, (c = CCloseFile h \/ c = CCloseArchive a) /\
    ((exists e, In e (s_log s) /\ e_call e = c) \/ (exists t fr, In fr (g_st (G t)) /\ f_call fr = c)).
Record live (s : shared) (G : nat -> ghost) : Prop := {
  l_ins : forall t fr h f, In fr (g_st (G t)) -> In (BFileIns h f) (f_obs fr) -> s_files s h <> None \/ gone s G (fh_archive f) h;
  l_open : forall e a h, In e (s_log s) -> opened_file e a h -> s_files s h <> None \/ gone s G a h;
  l_none : forall t fr h e a, In fr (g_st (G t)) -> In (BFile h None) (f_obs fr) -> In e (f_past fr) -> opened_file e a h -> gone s G a h;
  l_read : forall e h n e1 a, In e (s_log s) -> e_call e = CReadFile h true n -> In e1 (e_past e) -> opened_file e1 a h ->
    (exists x, e_ret e = RData x) \/ gone s G a h }.

Definition extra (s : shared) (G : nat -> ghost) : Prop := past_ok s G /\ live s G.

Lemma extra_initial : extra initial start_ghost.
Proof. split; constructor; try (intros; contradiction); try (intros ? []). Qed.

Lemma past_keep s s' G t g : past_ok s G -> s_log s' = s_log s ->
  (g_st g = g_st (G t) \/ exists b, g_st g = add_obs b (g_st (G t))) -> past_ok s' (updn G t g).
Proof.
  intros [P1 P2 P3] El Hg. constructor; rewrite ?El; auto. intros t' fr Hi.
  destruct (updn_cases G t g t') as [[-> E]|[_ E]]; rewrite E in Hi; [|eauto].
  destruct Hg as [Hg|[b Hg]]; rewrite Hg in Hi; [eauto|].
  destruct (In_add_obs _ _ _ Hi) as [(f0 & r & Es & ->)|Hi']; [|eauto].
  cbn [f_past]. apply (P3 t). rewrite Es. now left.
Qed.

Lemma gone_mono s s' G G' a h : incl (s_log s) (s_log s') ->
  (forall t fr, In fr (g_st (G t)) -> (exists t' fr', In fr' (g_st (G' t')) /\ f_call fr' = f_call fr) \/
     (exists e, In e (s_log s') /\ e_call e = f_call fr)) ->
  gone s G a h -> gone s' G' a h.
Proof.
  intros Hl Hf (c & Hc & [(e & He & Ee)|(t & fr & Hi & Ec)]); exists c; (split; [exact Hc|]).
  - left. exists e. auto.
  - destruct (Hf t fr Hi) as [(t' & fr' & Hi' & E)|(e & He & E)]; [right; exists t', fr'|left; exists e]; split; congruence.
Qed.
Lemma calls_kept (G : nat -> ghost) t g : (g_st g = g_st (G t) \/ exists b, g_st g = add_obs b (g_st (G t))) ->
  forall t' fr, In fr (g_st (G t')) -> exists t'' fr', In fr' (g_st (updn G t g t'')) /\ f_call fr' = f_call fr.
Proof.
  intros Hg t' fr Hi. exists t'. destruct (updn_cases G t g t') as [[-> E]|[_ E]]; rewrite E.
  - destruct Hg as [->|[b ->]]; [exists fr; auto|].
    destruct (g_st (G t)) as [|f0 r]; [destruct Hi|]. cbn [add_obs]. destruct Hi as [<-|Hi].
    + eexists. split; [now left|reflexivity].
    + exists fr. split; [now right|reflexivity].
  - exists fr. auto.
Qed.

(** The log stays, the frames get at most one observation. *)
Lemma live_keep s s' G t g : live s G -> s_log s' = s_log s ->
  (g_st g = g_st (G t) \/ exists b, g_st g = add_obs b (g_st (G t)) /\
     (forall h f, b = BFileIns h f -> s_files s' h <> None \/ gone s' (updn G t g) (fh_archive f) h) /\
     (forall h fr r, b = BFile h None -> g_st (G t) = fr :: r -> s_files s h = None /\ incl (f_past fr) (s_log s))) ->
  (forall h a, s_files s h <> None -> s_files s' h <> None \/
     ((exists e, In e (s_log s) /\ opened_file e a h) \/
      (exists t fr f, In fr (g_st (G t)) /\ In (BFileIns h f) (f_obs fr) /\ fh_archive f = a) -> gone s' (updn G t g) a h)) ->
  live s' (updn G t g).
Proof.
  intros [L1 L2 L3 L4] El Hg Hf.
  assert (Hg' : g_st g = g_st (G t) \/ exists b, g_st g = add_obs b (g_st (G t))).
  { destruct Hg as [Hg|(b & Hg & _)]; [now left|right; eauto]. }
  assert (M : forall a h, gone s G a h -> gone s' (updn G t g) a h).
  { intros a h. apply gone_mono; [rewrite El; apply incl_refl|]. intros t' fr Hi. left. now apply calls_kept with (t' := t'). }
  assert (FR : forall t' fr, In fr (g_st (updn G t g t')) -> In fr (g_st (G t')) \/
     exists b f0 r, t' = t /\ g_st (G t) = f0 :: r /\ fr = mkF (f_call f0) (f_past f0) (f_err0 f0) (f_loc0 f0) (b :: f_obs f0) /\
      (forall h f, b = BFileIns h f -> s_files s' h <> None \/ gone s' (updn G t g) (fh_archive f) h) /\
      (forall h fr r, b = BFile h None -> g_st (G t) = fr :: r -> s_files s h = None /\ incl (f_past fr) (s_log s))).
  { intros t' fr Hi. destruct (updn_cases G t g t') as [[-> E]|[_ E]]; rewrite E in Hi; [|now left].
    destruct Hg as [Eg|(b & Eg & K1 & K2)]; rewrite Eg in Hi; [now left|].
    destruct (In_add_obs _ _ _ Hi) as [(f0 & r & Es & ->)|Hi']; [|now left]. right. exists b, f0, r. auto. }
  constructor; rewrite ?El; auto.
  - intros t' fr h f Hi Hb. 
    destruct (FR _ _ Hi) as [Hi'|(b & f0 & r & -> & Es & -> & K1 & K2)].
    + destruct (L1 _ _ _ _ Hi' Hb) as [K|K]; [|right; auto]. destruct (Hf h (fh_archive f) K) as [K'|K']; [now left|].
      right. apply K'. right. exists t', fr, f. auto.
    + cbn [f_obs] in Hb. destruct Hb as [Hb|Hb]; [now apply K1|].
      assert (Hi0 : In f0 (g_st (G t))) by (rewrite Es; now left).
      destruct (L1 _ _ _ _ Hi0 Hb) as [K|K]; [|right; auto]. destruct (Hf h (fh_archive f) K) as [K'|K']; [now left|].
      right. apply K'. right. exists t, f0, f. auto.
  - intros e a h He Ho. destruct (L2 _ _ _ He Ho) as [K|K]; [|right; auto]. destruct (Hf h a K) as [K'|K']; [now left|].
    right. apply K'. left. eauto.
  - intros t' fr h e a Hi Hb He Ho. destruct (FR _ _ Hi) as [Hi'|(b & f0 & r & -> & Es & -> & K1 & K2)]; [eauto|].
    cbn [f_obs f_past] in *. assert (Hi0 : In f0 (g_st (G t))) by (rewrite Es; now left).
    destruct Hb as [Hb|Hb]; [|eauto]. destruct (K2 _ _ _ Hb Es) as [K3 K4]. apply M.
    destruct (L2 e a h (K4 _ He) Ho) as [K|K]; [contradiction|exact K].
  - intros e h n e1 a He Hc H1 Ho. destruct (L4 _ _ _ _ _ He Hc H1 Ho) as [K|K]; auto.
Qed.

Lemma none_or {A} (P Q : Prop) (o : option A) : (o <> None -> Q) -> (o = None -> P) -> P \/ Q.
Proof. destruct o; intros H1 H2; [right; apply H1; discriminate|left; auto]. Qed.

Lemma extra_step {A} (a : act A) t s s' x G : inv L s G -> extra s G -> pre L md5 sha1 crc32 rd a (G t) -> can a t s x s' ->
  extra s' (updn G t (gnext a x (G t))).
Proof.
  intros I [P V] Hp Hc. pose proof (v_core _ _ _ I) as C.
  assert (same_ok : forall s', s_log s' = s_log s -> s_files s' = s_files s -> forall g, g_st g = g_st (G t) -> extra s' (updn G t g)).
  { intros s1 E1 E2 g Eg. split; [eapply past_keep; eauto|]. eapply live_keep; eauto. intros h a0 K. left. now rewrite E2. }
  assert (quiet_ok : forall b, (forall h f, b <> BFileIns h f) -> (forall h, b <> BFile h None) -> forall s', s_log s' = s_log s -> s_files s' = s_files s -> extra s' (updn G t (see b (G t)))).
  { intros b B1 B2 s1 E1 E2. split; [eapply past_keep; [exact P|exact E1|right; exists b; apply see_st]|].
    eapply live_keep; eauto.
    - right. exists b. split; [apply see_st|]. split; [intros h f E; now apply B1 in E|intros h fr r E; now apply B2 in E].
    - intros h a0 K. left. now rewrite E2. }
  destruct a; cbn [can pre gnext] in *.
  - destruct Hc as [_ ->]. now apply same_ok.
  - subst s'. now apply same_ok.
  - destruct (s_next s + 1 <? M64); destruct Hc as [-> ->]; [|now apply same_ok]. now apply quiet_ok.
  - subst s'. now apply quiet_ok.
  - destruct Hc as [-> ->]. now apply quiet_ok.
  - destruct Hc as [-> ->]. now apply quiet_ok.
  - (* file inserted *)
    subst s'. split; [eapply past_keep; [exact P|reflexivity|right; eexists; apply see_st]|]. eapply live_keep; eauto.
    + right. eexists. split; [apply see_st|]. split; [|discriminate]. intros h f0 E. injection E as -> ->. left. cbn. unfold upd. rewrite N.eqb_refl. discriminate.
    + intros h a0 K. left. cbn. unfold upd. destruct (h =? id); [discriminate|exact K].
  - (* file looked up *)
    destruct Hc as [-> ->]. split; [eapply past_keep; [exact P|reflexivity|right; eexists; apply see_st]|]. eapply live_keep; eauto.
    + right. eexists. split; [apply see_st|]. split; [discriminate|]. intros h fr r E Es. injection E as -> E.
      split; [now destruct (s_files s h)|]. apply (p_fr _ _ P t). rewrite Es. now left.
    + intros h a0 K. left. cbn. unfold upd. destruct (h =? id) eqn:E; [|exact K]. apply N.eqb_eq in E. subst h.
      destruct (s_files s id); [discriminate|contradiction].
  - (* file removed *)
    destruct Hc as [-> ->]. destruct (g_st (G t)) as [|fr r] eqn:Es; [contradiction|].
    split; [eapply past_keep; [exact P|reflexivity|right; eexists; apply see_st]|]. eapply live_keep; eauto.
    + right. eexists. split; [apply see_st|]. split; discriminate.
    + intros h a0 K. cbn. unfold upd. destruct (h =? id) eqn:E; [|now left]. apply N.eqb_eq in E. subst h.
      right. intros _. exists (CCloseFile id). split; [now left|]. right. rewrite <- Hp.
      destruct (calls_kept G t (see (BFileDel id (some (s_files s id))) (G t))) with (t' := t) (fr := fr) as (t'' & fr' & K1 & K2).
      * right. eexists. apply see_st.
      * rewrite Es. now left.
      * exists t'', fr'. auto.
  - (* files of an archive removed *)
    subst s'. destruct (g_st (G t)) as [|fr r] eqn:Es; [contradiction|].
    split; [eapply past_keep; [exact P|reflexivity|right; eexists; apply see_st]|]. eapply live_keep; eauto.
    + right. eexists. split; [apply see_st|]. split; discriminate.
    + intros h a0 K. cbn. destruct (s_files s h) as [f|] eqn:Ef; [|contradiction].
      destruct (fh_archive f =? a) eqn:Ea; [|left; discriminate]. apply N.eqb_eq in Ea. right. intros Hor.
      assert (a0 = a) as ->.
      { destruct (c_own _ _ _ _ _ C h f Ef) as [O1 O2]. destruct Hor as [(e & He & Ho)|(t' & fr' & f' & H1 & H2 & H3)].
        - rewrite <- Ea. symmetry. eauto.
        - rewrite <- Ea, <- H3. symmetry. eauto. }
      exists (CCloseArchive a). split; [now right|]. right. rewrite <- Hp.
      destruct (calls_kept G t (see (BRetain a) (G t))) with (t' := t) (fr := fr) as (t'' & fr' & K1 & K2).
      * right. eexists. apply see_st.
      * rewrite Es. now left.
      * exists t'', fr'. auto.
  - subst s'. now apply same_ok.
  - destruct Hc as [_ ->]. now apply same_ok.
  - subst s'. now apply same_ok.
  - destruct Hc as [_ ->]. now apply same_ok.
  - subst s'. now apply same_ok.
  - subst s'. now apply same_ok.
  - subst s'. now apply same_ok.
  - (* call begins *)
    destruct Hc as [-> ->].
    match goal with |- extra _ (updn G t ?g) => set (g' := g) end.
    assert (FR : forall t' fr, In fr (g_st (updn G t g' t')) -> In fr (g_st (G t')) \/ fr = mkF c (s_log s) (g_err (G t)) (g_loc (G t)) []).
    { intros t' fr Hi. destruct (updn_cases G t g' t') as [[-> E]|[_ E]]; rewrite E in Hi; [|now left].
      cbn in Hi. destruct Hi as [<-|Hi]; auto. }
    assert (M : forall a h, gone s G a h -> gone s (updn G t g') a h).
    { intros a h. apply gone_mono; [apply incl_refl|]. intros t' fr Hi. left. exists t', fr. split; [|reflexivity].
      destruct (updn_cases G t g' t') as [[-> E]|[_ E]]; rewrite E; [now right|exact Hi]. }
    destruct P as [P1 P2 P3], V as [L1 L2 L3 L4]. split; constructor; auto.
    + intros t' fr Hi. destruct (FR _ _ Hi) as [Hi'| ->]; [eauto|]. cbn [f_past]. split; [exact P1|apply incl_refl].
    + intros t' fr h f Hi Hb. destruct (FR _ _ Hi) as [Hi'| ->]; [|destruct Hb]. destruct (L1 _ _ _ _ Hi' Hb); auto.
    + intros e a h He Ho. destruct (L2 _ _ _ He Ho); auto.
    + intros t' fr h e a Hi Hb He Ho. destruct (FR _ _ Hi) as [Hi'| ->]; [eauto|destruct Hb].
    + intros e h n e1 a He Hcl H1 Ho. destruct (L4 _ _ _ _ _ He Hcl H1 Ho); auto.
  - (* call ends *)
    subst s'. destruct (g_st (G t)) as [|fr rs] eqn:Es; [contradiction|]. destruct Hp as (P1 & P2 & P3).
    assert (Hfr : In fr (g_st (G t))) by (rewrite Es; now left).
    match goal with |- extra ?s1 (updn G t ?g) => set (g' := g); set (s' := s1) end.
    assert (FR : forall t' f', In f' (g_st (updn G t g' t')) -> In f' (g_st (G t'))).
    { intros t' f' Hi. destruct (updn_cases G t g' t') as [[-> E]|[_ E]]; rewrite E in Hi; [|exact Hi]. rewrite Es. now right. }
    assert (M : forall a h, gone s G a h -> gone s' (updn G t g') a h).
    { intros a h. apply gone_mono; [intros e He; now right|]. intros t' f' Hi.
      destruct (updn_cases G t g' t') as [[-> E]|[_ E]].
      - rewrite Es in Hi. destruct Hi as [<-|Hi].
        + right. eexists. split; [now left|]. cbn. congruence.
        + left. exists t, f'. rewrite E. auto.
      - left. exists t', f'. rewrite E. auto. }
    destruct P as [Q1 Q2 Q3], V as [L1 L2 L3 L4]. destruct (Q3 _ _ Hfr) as [F1 F2]. split; constructor.
    + intros e [<-|He]; cbn [e_past].
      * rewrite <- P2. intros e He. right. auto.
      * intros e' He'. right. eapply Q1; eassumption.
    + intros e [<-|He]; cbn [e_past]; [now rewrite <- P2|auto].
    + intros t' f' Hi. destruct (Q3 _ _ (FR _ _ Hi)) as [K1 K2]. split; [exact K1|]. intros e He. right. auto.
    + intros t' f' h f Hi Hb. destruct (L1 _ _ _ _ (FR _ _ Hi) Hb); auto.
    + intros e a h [<-|He] Ho; [|destruct (L2 _ _ _ He Ho); auto].
      destruct Ho as [Hr Hcall]. cbn in Hr, Hcall. destruct P3 as (A1 & _). specialize (A1 h Hr). rewrite P1 in A1.
      destruct c; try contradiction. subst a0. destruct A1 as (f & d & B1 & B2 & _).
      destruct (L1 _ _ _ _ Hfr B1) as [K|K]; [now left|]. right. rewrite B2 in K. auto.
    + intros t' f' h e a Hi Hb He Ho. apply M. exact (L3 t' f' h e a (FR _ _ Hi) Hb He Ho).
    + intros e h n e1 a [<-|He] Hcl H1 Ho; [|destruct (L4 _ _ _ _ _ He Hcl H1 Ho); auto].
      cbn in Hcl, H1. destruct P3 as (_ & _ & _ & _ & A5 & _). unfold ok_read in A5. rewrite P1, Hcl in A5.
      destruct A5 as [(f & _ & Er)|(_ & _ & K)]; [left; eexists; exact Er|]. right. apply M.
      rewrite <- P2 in H1. apply (L3 t fr h e1 a Hfr); [|exact H1|exact Ho]. apply K; [reflexivity|].
      intros ->. assert (Hh : In 0 (handles (s_log s))).
      { apply in_flat_map. exists e1. split; [auto|]. unfold handle_of. destruct Ho as [-> _]. now left. }
      destruct (c_ret _ _ _ _ _ C 0 Hh). lia.
Qed.

End Live.
