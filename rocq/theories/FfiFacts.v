(** * Facts about all executions of the C API. *)
From Verif Require Import Bytes Compress Archive Ffi SpecFfi FfiWf FfiInv.
Open Scope N_scope.

(** What holds of every finished call. *)
Definition event_ok (e : event) : Prop :=
  (forall h, on_file (e_call e) h -> G_nofile (e_past e) h -> refused e) /\
  (forall h, on_archive (e_call e) h -> G_noarch (e_past e) h -> refused e) /\
  (forall h, on_either (e_call e) h -> G_nofile (e_past e) h -> G_noarch (e_past e) h -> refused e) /\
  cells_ok e.

Lemma G_nofile_mono l m h : incl l m -> G_nofile l h -> G_nofile m h.
Proof.
  intros I [H|[(e & Hi & H)|(e & a & e1 & Hi & H)]]; [now left|right; left|right; right].
  - exists e. auto.
  - exists e, a, e1. split; auto.
Qed.
Lemma G_noarch_mono l m h : incl l m -> G_noarch l h -> G_noarch m h.
Proof. intros I [H|(e & Hi & H)]; [now left|right; exists e; auto]. Qed.

Section Facts.
Variable L : codecs.
Variable md5 sha1 : bytes -> bytes.
Variable crc32 : bytes -> N.
Variable rd : archive -> N -> N -> N.

Definition stk (G : nat -> ghost) : stacks := fun t => g_st (G t).
Record inv (s : shared) (G : nat -> ghost) : Prop := {
  v_core : core (s_next s) (s_archs s) (s_files s) (s_log s) (stk G);
  v_gen : forall id a, s_archs s id = Some a -> genuine L a;
  v_named : forall id f, s_files s id = Some f -> named (fh_name f);
  v_cells : forall t, s_err s t = g_err (G t) /\ s_locale s t = g_loc (G t) /\
              g_merr (G t) = last_error t (s_log s) /\ g_mloc (G t) = last_locale t (s_log s);
  v_frames : forall t fr, In fr (g_st (G t)) ->
              f_err0 fr = last_error t (f_past fr) /\ f_loc0 fr = last_locale t (f_past fr);
  v_log : forall e, In e (s_log s) -> event_ok e }.

Definition start_ghost (_ : nat) : ghost := mkG [] 0 0 0 0.
Lemma inv_initial : inv initial start_ghost.
Proof.
  assert (P : forall h, ~ pending (stk start_ghost) h) by (intros h (t & fr & [] & _)).
  constructor.
  - constructor; try (intros; contradiction); try (intros; discriminate).
    + intros t. constructor.
    + constructor.
    + intros; auto.
    + intros h. split.
      * intros [->|[(e & [] & _)|(e & a & e1 & [] & _)]]. split; [reflexivity|split; auto].
      * intros [->|(e & [] & _)]. split; [reflexivity|split; auto].
  - discriminate.
  - discriminate.
  - intros t. repeat split.
  - contradiction.
  - contradiction.
Qed.

(** ** Possible results *)
Lemma inv_poss {A} (a : act A) t s s' x G : inv s G -> can a t s x s' -> poss L a x (G t).
Proof.
  intros V. destruct V as [_ V2 V2' V3 _ _]. destruct (V3 t) as (E1 & E2 & _).
  destruct a; cbn; auto.
  - intros [-> _]. destruct (s_archs s id) as [h|] eqn:E; [|exact I]. eapply V2. exact E.
  - intros [-> _]. destruct (s_files s id) as [h|] eqn:E; [|exact I]. eapply V2'. exact E.
  - intros [-> _]. exact E1.
  - intros [-> _]. exact E2.
Qed.

(** ** Steps *)
Lemma stk_updn G t g : forall t', stk (updn G t g) t' = updn (stk G) t (g_st g) t'.
Proof. intros t'. unfold stk, updn. now destruct (Nat.eqb t' t). Qed.

Lemma core_stk nx ar fi log G t g st : g_st g = st -> core nx ar fi log (updn (stk G) t st) ->
  core nx ar fi log (stk (updn G t g)).
Proof. intros <-. apply core_ext. intros t'. apply stk_updn. Qed.
Lemma core_stk_same nx ar fi log G t g : g_st g = g_st (G t) -> core nx ar fi log (stk G) ->
  core nx ar fi log (stk (updn G t g)).
Proof.
  intros E. apply core_ext. intros t'. rewrite stk_updn, E. destruct (updn_cases (stk G) t (g_st (G t)) t') as [[-> ->]|[_ ->]]; reflexivity.
Qed.

(** The other parts when only a frame of the thread is touched. *)
Lemma frames_see (G : nat -> ghost) t b :
  (forall t fr, In fr (g_st (G t)) -> f_err0 fr = last_error t (f_past fr) /\ f_loc0 fr = last_locale t (f_past fr)) ->
  forall t' fr, In fr (g_st (updn G t (see b (G t)) t')) -> f_err0 fr = last_error t' (f_past fr) /\ f_loc0 fr = last_locale t' (f_past fr).
Proof.
  intros V t' fr Hi. destruct (updn_cases G t (see b (G t)) t') as [[-> E]|[_ E]]; rewrite E in Hi; [|auto].
  rewrite see_st in Hi. destruct (In_add_obs _ _ _ Hi) as [(fr0 & r & Es & ->)|Hi']; [|auto].
  cbn [f_err0 f_loc0 f_past]. apply V. rewrite Es. now left.
Qed.
Lemma cells_see (G : nat -> ghost) t b s :
  (forall t, s_err s t = g_err (G t) /\ s_locale s t = g_loc (G t) /\
              g_merr (G t) = last_error t (s_log s) /\ g_mloc (G t) = last_locale t (s_log s)) ->
  forall t', s_err s t' = g_err (updn G t (see b (G t)) t') /\ s_locale s t' = g_loc (updn G t (see b (G t)) t') /\
      g_merr (updn G t (see b (G t)) t') = last_error t' (s_log s) /\ g_mloc (updn G t (see b (G t)) t') = last_locale t' (s_log s).
Proof. intros V t'. destruct (updn_cases G t (see b (G t)) t') as [[-> ->]|[_ ->]]; apply V. Qed.

Lemma inv_same s G t g : inv s G -> g = G t -> inv s (updn G t g).
Proof.
  intros V ->. assert (E : forall t', updn G t (G t) t' = G t').
  { intros t'. destruct (updn_cases G t (G t) t') as [[-> ->]|[_ ->]]; reflexivity. }
  destruct V as [V1 V2 V2' V3 V4 V5]. constructor; auto.
  - now apply core_stk_same.
  - intros t'. rewrite E. apply V3.
  - intros t' fr. rewrite E. apply V4.
Qed.
Lemma inv_lock s G l : inv s G -> inv (set_lock s l) G.
Proof. intros [V1 V2 V2' V3 V4 V5]. constructor; auto. Qed.

Lemma last_error_skip t t' e l : e_thread e = t -> t' <> t -> last_error t' (e :: l) = last_error t' l.
Proof. intros <- H. cbn. destruct (Nat.eqb (e_thread e) t') eqn:E; [apply Nat.eqb_eq in E; congruence|reflexivity]. Qed.
Lemma last_locale_skip t t' e l : e_thread e = t -> t' <> t -> last_locale t' (e :: l) = last_locale t' l.
Proof.
  intros <- H. cbn. destruct (e_call e); try reflexivity.
  destruct (Nat.eqb (e_thread e) t') eqn:E; [apply Nat.eqb_eq in E; congruence|reflexivity].
Qed.

Lemma inv_step {A} (a : act A) t s s' x G : inv s G -> pre L md5 sha1 crc32 rd a (G t) -> can a t s x s' ->
  inv s' (updn G t (gnext a x (G t))).
Proof.
  intros V Hp Hc. destruct a; cbn [can pre gnext] in *.
  - destruct Hc as [_ ->]. apply inv_lock. now apply inv_same.
  - subst s'. apply inv_lock. now apply inv_same.
  - (* new number *)
    destruct (s_next s + 1 <? M64); destruct Hc as [-> ->]; [|now apply inv_same].
    destruct (g_st (G t)) as [|fr r] eqn:Es; [contradiction|].
    destruct V as [V1 V2 V2' V3 V4 V5]. constructor; cbn; auto.
    + eapply core_stk; [apply see_st|]. eapply core_new; [exact V1|exact Es].
    + now apply cells_see.
    + now apply frames_see.
  - (* archive inserted *)
    destruct Hp as [Hp Hg]. unfold pend in Hp. destruct (g_st (G t)) as [|fr r] eqn:Es; [contradiction|]. subst s'.
    destruct V as [V1 V2 V2' V3 V4 V5]. constructor; cbn; auto.
    + eapply core_stk; [apply see_st|]. eapply core_ins; [exact V1|exact Es|exact Hp|]. left. exists h. auto.
    + intros i a E. destruct (upd_cases (s_archs s) id (Some h) i) as [[-> E']|[_ E']]; rewrite E' in E.
      * injection E as <-. exact Hg.
      * eauto.
    + apply (cells_see G t _ s). exact V3.
    + now apply frames_see.
  - (* archive looked up *)
    destruct Hc as [-> ->]. destruct Hp as [Hp Hg].
    destruct (g_st (G t)) as [|fr r] eqn:Es; [contradiction|]. assert (Hfr : In fr (stk G t)) by (unfold stk; rewrite Es; now left).
    destruct V as [V1 V2 V2' V3 V4 V5]. constructor; cbn; auto.
    + eapply core_stk; [apply see_st|]. eapply core_see; [|exact Es|exact I| | | |].
      * eapply core_weaken; [exact V1| |auto|eauto]. intros i E.
        destruct (upd_cases (s_archs s) id (option_map f (s_archs s id)) i) as [[-> ->]|[_ ->]]; [now rewrite E|exact E].
      * intros h [[y K]|K]; discriminate.
      * intros h [[y K]|K]; [|discriminate]. injection K as -> K. intros Gh.
        pose proof (G_noarch_mono _ _ _ (c_past _ _ _ _ _ V1 _ _ Hfr) Gh) as Gl.
        destruct (c_gone _ _ _ _ _ V1 h) as [_ N]. destruct (N Gl) as (_ & _ & N3). congruence.
      * intros h [K|K]; discriminate.
      * discriminate.
    + intros i a E. destruct (upd_cases (s_archs s) id (option_map f (s_archs s id)) i) as [[-> E']|[_ E']]; rewrite E' in E; [|eauto].
      destruct (s_archs s id) as [h|] eqn:Ei; [|discriminate]. injection E as <-. assert (Gh : genuine L h) by eauto. rewrite (Hg h Gh). exact Gh.
    + apply (cells_see G t _ s). exact V3.
    + now apply frames_see.
  - (* archive removed *)
    destruct Hc as [-> ->].
    destruct (g_st (G t)) as [|fr r] eqn:Es; [contradiction|]. assert (Hfr : In fr (stk G t)) by (unfold stk; rewrite Es; now left).
    destruct V as [V1 V2 V2' V3 V4 V5]. constructor; cbn; auto.
    + eapply core_stk; [apply see_st|]. eapply core_see; [|exact Es|exact I| | | |].
      * eapply core_weaken; [exact V1| |auto|eauto]. intros i E.
        destruct (upd_cases (s_archs s) id None i) as [[-> ->]|[_ ->]]; auto.
      * intros h [[y K]|K]; discriminate.
      * intros h [[y K]|K]; [discriminate|]. injection K as -> K. intros Gh.
        pose proof (G_noarch_mono _ _ _ (c_past _ _ _ _ _ V1 _ _ Hfr) Gh) as Gl.
        destruct (c_gone _ _ _ _ _ V1 h) as [_ N]. destruct (N Gl) as (_ & _ & N3). rewrite N3 in K. discriminate.
      * intros h [K|K]; [discriminate|]. injection K as -> K.
        assert (Hn : s_archs s h <> None) by (intros E; rewrite E in K; discriminate).
        destruct (c_arch _ _ _ _ _ V1 h Hn) as [B1 B2]. destruct (c_one _ _ _ _ _ V1 h) as [?|Hf]; [contradiction|].
        split; (split; [lia|split; [exact B2|]]); [exact Hf|]. unfold upd. now rewrite N.eqb_refl.
      * discriminate.
    + intros i a E. destruct (upd_cases (s_archs s) id None i) as [[-> E']|[_ E']]; rewrite E' in E; [discriminate|eauto].
    + apply (cells_see G t _ s). exact V3.
    + now apply frames_see.
  - (* file inserted *)
    destruct Hp as [Hp Hd]. unfold pend in Hp. destruct (g_st (G t)) as [|fr r] eqn:Es; [contradiction|]. subst s'.
    destruct Hd as (ah & _ & fi & _ & _ & _ & _ & Hname).
    destruct V as [V1 V2 V2' V3 V4 V5]. constructor; cbn; auto.
    + eapply core_stk; [apply see_st|]. eapply core_ins; [exact V1|exact Es|exact Hp|]. right. exists f. auto.
    + intros i y E. destruct (upd_cases (s_files s) id (Some f) i) as [[-> E']|[_ E']]; rewrite E' in E; [|eauto].
      injection E as <-. exact Hname.
    + apply (cells_see G t _ s). exact V3.
    + now apply frames_see.
  - (* file looked up *)
    destruct Hc as [-> ->]. destruct Hp as (Hp & _ & Hsame). unfold touches in Hp.
    destruct (g_st (G t)) as [|fr r] eqn:Es; [contradiction|]. assert (Hfr : In fr (stk G t)) by (unfold stk; rewrite Es; now left).
    destruct V as [V1 V2 V2' V3 V4 V5]. constructor; cbn; auto.
    + eapply core_stk; [apply see_st|]. eapply core_see; [|exact Es|exact I| | | |].
      * eapply core_weaken; [exact V1|auto| |].
        -- intros i E. destruct (upd_cases (s_files s) id (option_map f (s_files s id)) i) as [[-> ->]|[_ ->]]; [now rewrite E|exact E].
        -- intros i f' E. destruct (upd_cases (s_files s) id (option_map f (s_files s id)) i) as [[-> E']|[_ E']]; rewrite E' in E; [|eauto].
           destruct (s_files s id) as [y|] eqn:Ei; [|discriminate]. injection E as <-. exists y. split; [reflexivity|apply Hsame].
      * intros h [[y K]|K]; [|discriminate]. injection K as -> K. intros Gh.
        pose proof (G_nofile_mono _ _ _ (c_past _ _ _ _ _ V1 _ _ Hfr) Gh) as Gl.
        destruct (c_gone _ _ _ _ _ V1 h) as [N _]. destruct (N Gl) as (_ & _ & N3). rewrite N3 in K. discriminate.
      * intros h [[y K]|K]; discriminate.
      * intros h [K|K]; discriminate.
      * discriminate.
    + intros i y E. destruct (upd_cases (s_files s) id (option_map f (s_files s id)) i) as [[-> E']|[_ E']]; rewrite E' in E; [|eauto].
      destruct (s_files s id) as [z|] eqn:Ei; [|discriminate]. injection E as <-. destruct (Hsame z) as (_ & _ & -> & _). eauto.
    + apply (cells_see G t _ s). exact V3.
    + now apply frames_see.
  - (* file removed *)
    destruct Hc as [-> ->].
    destruct (g_st (G t)) as [|fr r] eqn:Es; [contradiction|]. assert (Hfr : In fr (stk G t)) by (unfold stk; rewrite Es; now left).
    destruct V as [V1 V2 V2' V3 V4 V5]. constructor; cbn; auto.
    + eapply core_stk; [apply see_st|]. eapply core_see; [|exact Es|exact I| | | |].
      * eapply core_weaken; [exact V1|auto| |].
        -- intros i E. destruct (upd_cases (s_files s) id None i) as [[-> ->]|[_ ->]]; auto.
        -- intros i f' E. destruct (upd_cases (s_files s) id None i) as [[-> E']|[_ E']]; rewrite E' in E; [discriminate|eauto].
      * intros h [[y K]|K]; [discriminate|]. injection K as -> K. intros Gh.
        pose proof (G_nofile_mono _ _ _ (c_past _ _ _ _ _ V1 _ _ Hfr) Gh) as Gl.
        destruct (c_gone _ _ _ _ _ V1 h) as [N _]. destruct (N Gl) as (_ & _ & N3). rewrite N3 in K. discriminate.
      * intros h [[y K]|K]; discriminate.
      * intros h [K|K]; [|discriminate]. injection K as -> K.
        assert (Hn : s_files s h <> None) by (intros E; rewrite E in K; discriminate).
        destruct (c_file _ _ _ _ _ V1 h Hn) as [B1 B2]. destruct (c_one _ _ _ _ _ V1 h) as [Hf|?]; [|contradiction].
        split; (split; [lia|split; [exact B2|]]); [|exact Hf]. unfold upd. now rewrite N.eqb_refl.
      * discriminate.
    + intros i y E. destruct (upd_cases (s_files s) id None i) as [[-> E']|[_ E']]; rewrite E' in E; [discriminate|eauto].
    + apply (cells_see G t _ s). exact V3.
    + now apply frames_see.
  - (* files of an archive removed *)
    subst s'. destruct (g_st (G t)) as [|fr r] eqn:Es; [contradiction|]. assert (Hfr : In fr (stk G t)) by (unfold stk; rewrite Es; now left).
    destruct V as [V1 V2 V2' V3 V4 V5]. constructor; cbn; auto.
    + eapply core_stk; [apply see_st|]. eapply core_see; [|exact Es|exact I| | | |].
      * eapply core_weaken; [exact V1|auto| |].
        -- intros i E. now rewrite E.
        -- intros i f' E. destruct (s_files s i) as [y|]; [|discriminate]. destruct (fh_archive y =? a); [discriminate|].
           injection E as <-. eauto.
      * intros h [[y K]|K]; discriminate.
      * intros h [[y K]|K]; discriminate.
      * intros h [K|K]; discriminate.
      * intros a' e h K He Ho. injection K as <-.
        pose proof (c_past _ _ _ _ _ V1 _ _ Hfr e He) as Hl.
        assert (Hh : In h (handles (s_log s))).
        { apply in_flat_map. exists e. split; [exact Hl|]. unfold handle_of. destruct Ho as [-> _]. now left. }
        destruct (c_ret _ _ _ _ _ V1 h Hh) as [B1 B2]. split; [lia|]. split.
        -- intros K. apply pending_news in K. destruct K as [t' K]. exact (B2 t' K).
        -- destruct (s_files s h) as [f|] eqn:Ef; [|reflexivity].
           destruct (c_own _ _ _ _ _ V1 h f Ef) as [O _]. rewrite (O e a Hl Ho). now rewrite N.eqb_refl.
    + intros i y E. destruct (s_files s i) as [z|] eqn:Ei; [|discriminate]. destruct (fh_archive z =? a); [discriminate|].
      injection E as <-. eauto.
    + apply (cells_see G t _ s). exact V3.
    + now apply frames_see.
  - (* last error set *)
    subst s'. destruct V as [V1 V2 V2' V3 V4 V5]. constructor; cbn; auto.
    + now apply core_stk_same.
    + intros t'. destruct (V3 t') as (B1 & B2 & B3 & B4).
      destruct (updn_cases G t (mkG (g_st (G t)) e (g_loc (G t)) (g_merr (G t)) (g_mloc (G t))) t') as [[-> ->]|[Hn ->]].
      * rewrite updn_same. auto.
      * rewrite updn_other by exact Hn. auto.
    + intros t' fr Hi. apply V4. 
      destruct (updn_cases G t (mkG (g_st (G t)) e (g_loc (G t)) (g_merr (G t)) (g_mloc (G t))) t') as [[-> E]|[_ E]]; rewrite E in Hi; exact Hi.
  - destruct Hc as [-> ->]. now apply inv_same.
  - subst s'. destruct V as [V1 V2 V2' V3 V4 V5]. constructor; cbn; auto.
    + now apply core_stk_same.
    + intros t'. destruct (V3 t') as (B1 & B2 & B3 & B4).
      destruct (updn_cases G t (mkG (g_st (G t)) (g_err (G t)) l (g_merr (G t)) (g_mloc (G t))) t') as [[-> ->]|[Hn ->]].
      * rewrite updn_same. auto.
      * rewrite updn_other by exact Hn. auto.
    + intros t' fr Hi. apply V4. 
      destruct (updn_cases G t (mkG (g_st (G t)) (g_err (G t)) l (g_merr (G t)) (g_mloc (G t))) t') as [[-> E]|[_ E]]; rewrite E in Hi; exact Hi.
  - destruct Hc as [-> ->]. now apply inv_same.
  - subst s'. now apply inv_same.
  - subst s'. now apply inv_same.
  - subst s'. now apply inv_same.
  - (* call begins *)
    destruct Hc as [-> ->]. destruct Hp as (P1 & P2 & _). destruct V as [V1 V2 V2' V3 V4 V5].
    destruct (V3 t) as (C1 & C2 & C3 & C4). constructor; auto.
    + eapply core_stk; [reflexivity|]. cbn [g_st]. apply core_begin. exact V1.
    + intros t'. destruct (V3 t') as (B1 & B2 & B3 & B4).
      match goal with |- context [updn G t ?g t'] => destruct (updn_cases G t g t') as [[-> ->]|[Hn ->]] end; auto.
    + intros t' fr Hi.
      match goal with _ : In fr (g_st (updn G t ?g t')) |- _ => destruct (updn_cases G t g t') as [[-> E]|[Hn E]] end; rewrite E in Hi; [|auto].
      cbn [g_st] in Hi. destruct Hi as [<-|Hi]; [|auto]. cbn [f_err0 f_loc0 f_past]. split; congruence.
  - (* call ends *)
    subst s'. destruct (g_st (G t)) as [|fr rs] eqn:Es; [contradiction|]. destruct Hp as (P1 & P2 & P3).
    assert (Hfr : In fr (g_st (G t))) by (rewrite Es; now left).
    destruct V as [V1 V2 V2' V3 V4 V5]. destruct (V3 t) as (C1 & C2 & C3 & C4).
    destruct (V4 t fr Hfr) as (D1 & D2). pose proof P3 as (A1 & A2 & A3 & A4 & A5).
    constructor; cbn; auto.
    + eapply core_stk; [reflexivity|]. cbn [tl g_st]. eapply core_end; [exact V1|exact Es|exact P3|auto|auto|auto].
    + intros t'. match goal with |- context [updn G t ?g t'] => destruct (updn_cases G t g t') as [[-> ->]|[Hn ->]] end.
      * cbn [g_err g_loc g_merr g_mloc]. rewrite Nat.eqb_refl. split; [exact C1|]. split; [exact C2|]. split; [symmetry; exact C1|].
        unfold ok_cells in A4. rewrite P1 in A4. rewrite C4 in A4. destruct c; try apply A4. 
      * destruct (V3 t') as (B1 & B2 & B3 & B4). split; [exact B1|]. split; [exact B2|].
        rewrite B3, B4. split.
        -- destruct (Nat.eqb t t') eqn:E; [apply Nat.eqb_eq in E; congruence|reflexivity].
        -- destruct c; try reflexivity. destruct (Nat.eqb t t') eqn:E; [apply Nat.eqb_eq in E; congruence|reflexivity].
    + intros t' fr' Hi. match goal with _ : In fr' (g_st (updn G t ?g t')) |- _ => destruct (updn_cases G t g t') as [[-> E]|[Hn E]] end; rewrite E in Hi; [|auto].
      cbn [g_st tl] in Hi. apply V4. rewrite Es. now right.
    + intros e [<-|Hi]; [|auto]. cbn. unfold event_ok. cbn [e_call e_past e_thread].
      assert (S := fun h => c_saw _ _ _ _ _ V1 t fr h Hfr). rewrite P2 in S.
      unfold ok_refused in A3. cbn zeta in A3. rewrite P1 in A3. unfold refused. cbn [e_call e_ret e_err]. rewrite C1.
      split; [|split; [|split]].
      * intros h Ho Hg. destruct (A3 h) as [K _]. destruct (K Ho) as [K'|K']; [exact K'|].
        destruct (S h) as [N _]. now apply N in K'.
      * intros h Ho Hg. destruct (A3 h) as [_ [K _]]. destruct (K Ho) as [K'|K']; [exact K'|].
        destruct (S h) as [_ N]. now apply N in K'.
      * intros h Ho Hg Hg'. destruct (A3 h) as [_ [_ K]]. destruct (K Ho) as [K'|[K'|K']]; [exact K'| |].
        -- destruct (S h) as [N _]. now apply N in K'.
        -- destruct (S h) as [_ N]. now apply N in K'.
      * unfold cells_ok. cbn [e_call e_past e_thread e_ret e_err]. rewrite <- P2, <- D1, <- D2.
        unfold ok_cells in A4. rewrite P1 in A4. destruct c; tauto.
Qed.
End Facts.
