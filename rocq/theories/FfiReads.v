(** * The history of every file handle, over all executions of the C API. *)
From Verif Require Import Bytes Compress Archive Ffi SpecFfi FfiWf FfiInv FfiFacts.
Open Scope N_scope.

(** What happened to the tables, the latest first. *)
Inductive op :=
| OIns (h : N) (f : fhandle)                       (* a file handle was entered *)
| OMod (t : nat) (h : N) (f f' : fhandle)          (* thread [t] used it *)
| OArch (a : N) (x : ahandle).                     (* an archive handle was entered *)

Fixpoint cur (ops : list op) (h : N) : option fhandle :=
  match ops with
  | [] => None
  | OIns i f :: r => if i =? h then Some f else cur r h
  | OMod _ i _ f :: r => if i =? h then Some f else cur r h
  | OArch _ _ :: r => cur r h
  end.
Fixpoint born (ops : list op) (h : N) : option fhandle :=
  match ops with
  | [] => None
  | OIns i f :: r => if i =? h then Some f else born r h
  | _ :: r => born r h
  end.
Fixpoint arc (ops : list op) (a : N) : option ahandle :=
  match ops with
  | [] => None
  | OArch i x :: r => if i =? a then Some x else arc r a
  | _ :: r => arc r a
  end.
Fixpoint chained (ops : list op) : Prop :=
  match ops with
  | [] => True
  | OIns h _ :: r => cur r h = None /\ chained r
  | OMod _ h f f' :: r => cur r h = Some f /\ same_file f f' /\ chained r
  | OArch a _ :: r => arc r a = None /\ chained r
  end.
Definition use := (N * fhandle * fhandle)%type.
Definition mine_op (t : nat) (o : op) : list use :=
  match o with OMod t' h f f' => if Nat.eqb t' t then [(h, f, f')] else [] | _ => [] end.
Definition mine (t : nat) (ops : list op) : list use := flat_map (mine_op t) ops.
Definition obs_use (b : obs) : list use := match b with BFile h (Some (f, f')) => [(h, f, f')] | _ => [] end.
Definition fops (fr : frame) : list use := flat_map obs_use (f_obs fr).

Definition names (c : call) (h : N) : Prop := on_file c h \/ on_either c h.
Definition explains (e : event) (l : list use) : Prop :=
  Forall (fun u => names (e_call e) (fst (fst u))) l /\
  match e_call e with
  | CReadFile h _ n => (exists f, l = [(h, f, moved n f)] /\ e_ret e = RData (given n f)) \/
                       (l = [] /\ forall x, e_ret e <> RData x)
  | CSeek h pos high m =>
      (exists f, l = [(h, f, set_pos f (seek_pos f pos high m))] /\
         match seek_target f pos high m with
         | None => e_ret e = RNum 0xFFFFFFFF None
         | Some (Ok _) => let p := seek_pos f pos high m in
                e_ret e = RNum (w32 p) (option_map (fun _ => Z.of_N (N.shiftr p 32)) high)
         | _ => False
         end) \/
      (l = [] /\ e_ret e = RNum 0xFFFFFFFF None)
  | _ => Forall (fun u => snd u = snd (fst u)) l
  end.
Fixpoint explained (t : nat) (log : list event) (l : list use) : Prop :=
  match log with
  | [] => l = []
  | e :: r => if Nat.eqb (e_thread e) t then exists l1 l2, l = l1 ++ l2 /\ explains e l1 /\ explained t r l2
              else explained t r l
  end.

Lemma born_cur ops h f : born ops h = Some f -> cur ops h <> None.
Proof.
  induction ops as [|[i g|t i g g'|a x] r IH]; cbn; [discriminate| | |exact IH].
  - destruct (i =? h); [discriminate|exact IH].
  - destruct (i =? h); [discriminate|exact IH].
Qed.

Lemma cur_born ops h f : chained ops -> cur ops h = Some f -> exists f0, born ops h = Some f0 /\ same_file f0 f.
Proof.
  assert (S : forall f, same_file f f) by (intros g; repeat split).
  revert f. induction ops as [|[i g|t i g g'|a x] r IH]; cbn; intros f Hc Hf; [discriminate| | |].
  - destruct (i =? h); [injection Hf as <-; eauto|apply IH; tauto].
  - destruct Hc as (H1 & H2 & H3). destruct (i =? h) eqn:E; [|auto]. injection Hf as <-. apply N.eqb_eq in E. subst i.
    destruct (IH g H3 H1) as (f0 & K1 & K2). exists f0. split; [exact K1|].
    destruct K2 as (A1 & A2 & A3 & A4), H2 as (B1 & B2 & B3 & B4). repeat split; congruence.
  - apply IH; tauto.
Qed.
(** Nothing is forgotten. *)
Definition grows (ops ops' : list op) : Prop :=
  (forall h f, born ops h = Some f -> born ops' h = Some f) /\ (forall a y, arc ops a = Some y -> arc ops' a = Some y).
Lemma grows_refl ops : grows ops ops.
Proof. split; auto. Qed.

Section Reads.
Variable L : codecs.
Variable md5 sha1 : bytes -> bytes.
Variable crc32 : bytes -> N.
Variable rd : archive -> N -> N -> N.

Definition frame_ok (ops : list op) (fr : frame) : Prop :=
  (forall h f, In (BFileIns h f) (f_obs fr) -> born ops h = Some f) /\
  (forall a x, In (BArchIns a x) (f_obs fr) -> arc ops a = Some x) /\
  (forall a x, In (BArch a (Some x)) (f_obs fr) -> arc ops a = Some x) /\
  (forall h f f', In (BFile h (Some (f, f'))) (f_obs fr) -> exists f0, born ops h = Some f0 /\ same_file f0 f) /\
  Forall (fun u => names (f_call fr) (fst (fst u))) (fops fr).
Lemma frame_grows ops ops' fr : grows ops ops' -> frame_ok ops fr -> frame_ok ops' fr.
Proof.
  intros [H1 H2] (K1 & K2 & K3 & K4 & K5). split; [|split; [|split; [|split]]]; auto.
  intros h f f' Hi. destruct (K4 h f f' Hi) as (f0 & E & S). eauto.
Qed.
Record hist (s : shared) (G : nat -> ghost) (ops : list op) : Prop := {
  j_chain : chained ops;
  j_cur : forall h f, s_files s h = Some f -> cur ops h = Some f;
  j_dom : forall h, cur ops h <> None -> h < s_next s /\ ~ pending (stk G) h;
  j_arc : forall a x, s_archs s a = Some x -> arc ops a = Some x;
  j_adom : forall a, arc ops a <> None -> a < s_next s /\ ~ pending (stk G) a;
  j_agen : forall a y, arc ops a = Some y -> genuine L y;
  j_born : forall h f, born ops h = Some f -> exists y, arc ops (fh_archive f) = Some y /\ drawn L f (ah_archive y);
  j_frame : forall t fr, In fr (g_st (G t)) -> frame_ok ops fr;
  j_thread : forall t, exists R, mine t ops = flat_map fops (g_st (G t)) ++ R /\ explained t (s_log s) R /\
    Forall (fun fr => fops fr = []) (tl (g_st (G t)));
  j_open : forall e a h, In e (s_log s) -> opened_file e a h ->
    exists f d out, born ops h = Some f /\ fh_archive f = a /\
      e_call e = COpenFile a (Some d) out /\ to_str d = Some (fh_name f);
  j_aopen : forall e a, In e (s_log s) -> opened_archive e a ->
    exists x d, arc ops a = Some x /\ to_str d = Some (ah_path x) /\
      match e_call e with COpenArchive f _ | CCreateArchive f _ _ _ => f = Some d | _ => False end }.

Lemma hist_initial : hist initial start_ghost [].
Proof.
  constructor; cbn; try (intros; contradiction); try (intros; discriminate); auto.
  intros t. exists []. auto.
Qed.

(** Nothing recorded changes. *)
Lemma hist_keep s s' G t g ops : hist s G ops ->
  s_next s' = s_next s -> s_log s' = s_log s -> s_archs s' = s_archs s -> s_files s' = s_files s ->
  g_st g = g_st (G t) -> hist s' (updn G t g) ops.
Proof.
  intros V E1 E2 E3 E4 E5.
  assert (E : forall t', g_st (updn G t g t') = g_st (G t')).
  { intros t'. destruct (updn_cases G t g t') as [[-> ->]|[_ ->]]; auto. }
  assert (P : forall i, pending (stk (updn G t g)) i -> pending (stk G) i).
  { intros i (t' & fr & Hi & H). exists t', fr. unfold stk in *. rewrite E in Hi. auto. }
  destruct V. constructor; try assumption; rewrite ?E1, ?E2, ?E3, ?E4; auto.
  - intros h H. destruct (j_dom0 h H). split; auto.
  - intros h H. destruct (j_adom0 h H). split; auto.
  - intros t' fr. rewrite E. apply j_frame0.
  - intros t'. rewrite E. apply j_thread0.
Qed.

(** A further observation that leaves the tables' history alone. *)
Lemma hist_see s s' G t b fr r ops ops' : hist s G ops -> g_st (G t) = fr :: r ->
  chained ops' -> grows ops ops' ->
  (forall a y, arc ops' a = Some y -> genuine L y) ->
  (forall h f, s_files s' h = Some f -> cur ops' h = Some f) ->
  (forall a x, s_archs s' a = Some x -> arc ops' a = Some x) ->
  (forall h, cur ops' h <> None -> h < s_next s' /\ ~ pending (stk (updn G t (see b (G t)))) h) ->
  (forall a, arc ops' a <> None -> a < s_next s' /\ ~ pending (stk (updn G t (see b (G t)))) a) ->
  s_log s' = s_log s ->
  (forall h f, born ops' h = Some f -> exists y, arc ops' (fh_archive f) = Some y /\ drawn L f (ah_archive y)) ->
  frame_ok ops' (mkF (f_call fr) (f_past fr) (f_err0 fr) (f_loc0 fr) [b]) ->
  (forall t', mine t' ops' = (if Nat.eqb t' t then obs_use b else []) ++ mine t' ops) ->
  hist s' (updn G t (see b (G t))) ops'.
Proof.
  intros V Es Hch Hgr Hg Hf Har Hd Had Hl Hbo (N1 & N2 & N3 & N4 & N5) Hm.
  set (fr' := mkF (f_call fr) (f_past fr) (f_err0 fr) (f_loc0 fr) (b :: f_obs fr)).
  assert (Est : g_st (see b (G t)) = fr' :: r) by (rewrite see_st, Es; reflexivity).
  cbn [f_obs f_call In] in N1, N2, N3, N4, N5. unfold fops in N5. cbn [f_obs flat_map] in N5. rewrite app_nil_r in N5.
  destruct V. constructor; try assumption.
  - intros t' f' Hi. destruct (updn_cases G t (see b (G t)) t') as [[-> E]|[_ E]]; rewrite E in Hi.
    + rewrite Est in Hi. destruct Hi as [<-|Hi].
      * destruct (frame_grows _ _ _ Hgr (j_frame0 t fr ltac:(rewrite Es; now left))) as (K1 & K2 & K3 & K4 & K5).
        unfold fr'. unfold frame_ok. cbn [f_obs f_call fops flat_map]. split; [|split; [|split; [|split]]].
        -- intros h f [E'|Hi]; auto.
        -- intros a x [E'|Hi]; auto.
        -- intros a x [E'|Hi]; auto.
        -- intros h f f' [E'|Hi]; [apply (N4 h f f'); auto|eauto].
        -- apply Forall_app. split; [exact N5|exact K5].
      * apply (frame_grows _ _ _ Hgr). apply (j_frame0 t). rewrite Es. now right.
    + apply (frame_grows _ _ _ Hgr). now apply (j_frame0 t').
  - intros t'. rewrite Hm, Hl. destruct (j_thread0 t') as (R & K1 & K2 & K3). exists R.
    destruct (updn_cases G t (see b (G t)) t') as [[-> E]|[Hne E]]; rewrite E.
    + rewrite Nat.eqb_refl, Est, K1, Es. cbn [flat_map tl]. split; [|split; [exact K2|now rewrite Es in K3]].
      change (fops fr') with (obs_use b ++ fops fr). now rewrite !app_assoc.
    + apply Nat.eqb_neq in Hne. rewrite Hne. auto.
  - intros e a h He Ho. rewrite Hl in He. destruct (j_open0 e a h He Ho) as (f & d & out & K1 & K).
    exists f, d, out. split; [now apply Hgr|exact K].
  - intros e a He Ho. rewrite Hl in He. destruct (j_aopen0 e a He Ho) as (x & d & K1 & K).
    exists x, d. split; [now apply Hgr|exact K].
Qed.

(** The common case: the history stays as it is. *)
Lemma hist_see_quiet s s' G t b fr r ops : hist s G ops -> g_st (G t) = fr :: r -> obs_use b = [] ->
  (forall h f, s_files s' h = Some f -> s_files s h = Some f) ->
  (forall a x, s_archs s' a = Some x -> s_archs s a = Some x) ->
  s_next s <= s_next s' ->
  (forall i, pending (stk (updn G t (see b (G t)))) i -> pending (stk G) i \/ s_next s <= i) ->
  s_log s' = s_log s ->
  (forall h f, b <> BFileIns h f) -> (forall a x, b <> BArchIns a x) ->
  (forall a x, b = BArch a (Some x) -> s_archs s a = Some x) ->
  hist s' (updn G t (see b (G t))) ops.
Proof.
  intros V Es Hu Hf Ha Hn Hp Hl Hb Hc Hb'. pose proof V as V0. destruct V.
  eapply hist_see with (ops := ops); eauto.
  - apply grows_refl.
  - intros h H. destruct (j_dom0 h H) as [K1 K2]. split; [lia|]. intros K. destruct (Hp h K); [auto|lia].
  - intros h H. destruct (j_adom0 h H) as [K1 K2]. split; [lia|]. intros K. destruct (Hp h K); [auto|lia].
  - split; [|split; [|split; [|split]]]; cbn [f_obs f_call In].
    + intros h f [E|[]]. now apply Hb in E.
    + intros a x [E|[]]. now apply Hc in E.
    + intros a x [E|[]]. auto.
    + intros h f f' [->|[]]. discriminate Hu.
    + unfold fops. cbn [f_obs flat_map]. rewrite Hu. constructor.
  - intros t'. rewrite Hu. now destruct (Nat.eqb t' t).
Qed.

Lemma stk_see G t b i : pending (stk (updn G t (see b (G t)))) i ->
  pending (updn (stk G) t (add_obs b (stk G t))) i.
Proof. intros (t' & fr & Hi & H). exists t', fr. rewrite stk_updn in Hi. auto. Qed.
Lemma pending_see_quiet G t b i : quiet b -> pending (stk (updn G t (see b (G t)))) i -> pending (stk G) i.
Proof. intros Hq H. apply stk_see in H. eapply pending_quiet; eassumption. Qed.

Lemma arc_after_none ops a x i y : arc ops a = None -> arc ops i = Some y -> arc (OArch a x :: ops) i = Some y.
Proof. intros H E. cbn. destruct (a =? i) eqn:K; [apply N.eqb_eq in K; congruence|exact E]. Qed.

Lemma explained_skip t e log R : e_thread e <> t -> explained t log R -> explained t (e :: log) R.
Proof. intros H E. cbn. apply Nat.eqb_neq in H. now rewrite H. Qed.

Lemma fops_none l : Forall (fun b => ~ is_file_op b) l -> flat_map obs_use l = [].
Proof.
  induction 1 as [|b l H _ IH]; [reflexivity|]. cbn [flat_map]. rewrite IH.
  destruct b as [| | | | |i [[? ?]|]| |]; try reflexivity. exfalso. now apply H.
Qed.

Lemma hist_step {A} (a : act A) t s s' x G ops : inv L s G -> hist s G ops -> pre L md5 sha1 crc32 rd a (G t) -> can a t s x s' ->
  exists ops', hist s' (updn G t (gnext a x (G t))) ops' /\ grows ops ops'.
Proof.
  intros I V Hp Hc. destruct a; cbn [can pre gnext] in *.
  - exists ops. split; [|apply grows_refl]. destruct Hc as [_ ->]. now apply (hist_keep s).
  - exists ops. split; [|apply grows_refl]. subst s'. now apply (hist_keep s).
  - exists ops. split; [|apply grows_refl]. destruct (s_next s + 1 <? M64); destruct Hc as [-> ->]; [|now apply (hist_keep s)].
    destruct (g_st (G t)) as [|fr r] eqn:Es; [contradiction|].
    eapply hist_see_quiet; eauto; try discriminate.
    + cbn. lia.
    + intros i (t' & f' & Hi & H1 & H2). rewrite stk_updn, see_st in Hi.
      destruct (top_frames (stk G) t (BNew (s_next s)) fr r t' f' Es Hi) as [Hi'|[-> ->]].
      * left. exists t', f'. repeat split; auto.
      * cbn [f_obs] in *. destruct H1 as [E|H1]; [injection E as <-; right; lia|]. left. exists t, fr.
        split; [unfold stk; rewrite Es; now left|]. split; [exact H1|].
        intros K. apply H2. destruct K as [[h K]|[f K]]; [left; exists h|right; exists f]; now right.
  - (* archive inserted *)
    destruct Hp as [Hp Hg]. unfold pend in Hp. destruct (g_st (G t)) as [|fr r] eqn:Es; [contradiction|]. subst s'.
    assert (P : forall i, pending (stk (updn G t (see (BArchIns id h) (G t)))) i -> pending (stk G) i /\ i <> id).
    { intros i K. apply stk_see in K. eapply pending_ins; [apply I|exact Es|left; eauto|exact Hp|exact K]. }
    assert (Pid : pending (stk G) id) by (exists t, fr; split; [unfold stk; rewrite Es; now left|exact Hp]).
    assert (Hid : id < s_next s).
    { apply (c_new _ _ _ _ _ (v_core _ _ _ I) t). eapply in_news; [unfold stk; rewrite Es; now left|apply Hp]. }
    assert (An : arc ops id = None).
    { destruct (arc ops id) eqn:E; [|reflexivity]. destruct (j_adom _ _ _ V id) as [_ K]; [congruence|contradiction]. }
    exists (OArch id h :: ops). pose proof V as V0. destruct V.
    assert (Gr : grows ops (OArch id h :: ops)) by (split; [intros i y E; exact E|intros i y E; now apply arc_after_none]).
    split; [|exact Gr].
    eapply hist_see with (ops := ops); eauto; try discriminate.
    + cbn. auto.
    + intros i y E. cbn in E. destruct (id =? i); [injection E as <-; exact Hg|eauto].
    + cbn. intros i y E. destruct (upd_cases (s_archs s) id (Some h) i) as [[-> E']|[Hi E']]; rewrite E' in E.
      * now rewrite N.eqb_refl.
      * assert ((id =? i) = false) as -> by (apply N.eqb_neq; congruence). auto.
    + intros i H. cbn in H. destruct (j_dom0 i H) as [K1 K2]. split; [exact K1|]. intros K. apply P in K. now destruct K.
    + intros i H. split; [|intros K; apply P in K; destruct K as [K Hne]].
      * cbn in *. destruct (id =? i) eqn:E; [apply N.eqb_eq in E; now subst i|]. now apply j_adom0.
      * cbn in H. assert (E : (id =? i) = false) by (apply N.eqb_neq; congruence). rewrite E in H. destruct (j_adom0 i H). contradiction.
    + intros i f E. destruct (j_born0 i f E) as (y & K1 & K2). exists y. split; [now apply arc_after_none|exact K2].
    + split; [|split; [|split; [|split]]]; cbn [f_obs In]; [intros i f [E|[]]; discriminate| |intros i f [E|[]]; discriminate|intros i f f' [E|[]]; discriminate|constructor].
      intros i y [E|[]]. injection E as <- <-. cbn. now rewrite N.eqb_refl.
    + intros t'. cbn. now destruct (Nat.eqb t' t).
  - (* archive looked up *)
    destruct Hc as [-> ->]. destruct Hp as [Hp Hg]. destruct (g_st (G t)) as [|fr r] eqn:Es; [contradiction|]. exists ops. split; [|apply grows_refl].
    eapply hist_see_quiet; eauto; try discriminate.
    + cbn. intros i y E. destruct (upd_cases (s_archs s) id (option_map f (s_archs s id)) i) as [[-> E']|[_ E']]; rewrite E' in E.
      * destruct (s_archs s id) as [z|] eqn:Ez; [|discriminate]. injection E as <-.
        rewrite Hg; [reflexivity|]. exact (j_agen _ _ _ V id z (j_arc _ _ _ V id z Ez)).
      * exact E.
    + apply N.le_refl.
    + intros i K. left. eapply pending_see_quiet; [|exact K]. exact Logic.I.
    + intros a y E. injection E as <- E. exact E.
  - (* archive removed *)
    destruct Hc as [-> ->]. destruct (g_st (G t)) as [|fr r] eqn:Es; [contradiction|]. exists ops. split; [|apply grows_refl].
    eapply hist_see_quiet; eauto; try discriminate.
    + cbn. intros i y E. destruct (upd_cases (s_archs s) id None i) as [[-> E']|[_ E']]; rewrite E' in E; [discriminate|exact E].
    + apply N.le_refl.
    + intros i K. left. eapply pending_see_quiet; [|exact K]. exact Logic.I.
  - (* file inserted *)
    destruct Hp as [Hp Hdr]. unfold pend in Hp. destruct (g_st (G t)) as [|fr r] eqn:Es; [contradiction|]. subst s'.
    assert (P : forall i, pending (stk (updn G t (see (BFileIns id f) (G t)))) i -> pending (stk G) i /\ i <> id).
    { intros i K. apply stk_see in K. eapply pending_ins; [apply I|exact Es|right; eauto|exact Hp|exact K]. }
    assert (Pid : pending (stk G) id) by (exists t, fr; split; [unfold stk; rewrite Es; now left|exact Hp]).
    assert (Hid : id < s_next s).
    { apply (c_new _ _ _ _ _ (v_core _ _ _ I) t). eapply in_news; [unfold stk; rewrite Es; now left|apply Hp]. }
    assert (An : cur ops id = None).
    { destruct (cur ops id) eqn:E; [|reflexivity]. destruct (j_dom _ _ _ V id) as [_ K]; [congruence|contradiction]. }
    exists (OIns id f :: ops). pose proof V as V0. destruct V.
    assert (Gr : grows ops (OIns id f :: ops)).
    { split; [|intros i y E; exact E]. intros i y E. cbn. destruct (id =? i) eqn:K; [|exact E].
      apply N.eqb_eq in K. subst i. apply born_cur in E. congruence. }
    split; [|exact Gr].
    eapply hist_see with (ops := ops); eauto; try discriminate.
    + cbn. auto.
    + cbn. intros i y E. destruct (upd_cases (s_files s) id (Some f) i) as [[-> E']|[Hi E']]; rewrite E' in E.
      * rewrite N.eqb_refl. exact E.
      * assert ((id =? i) = false) as -> by (apply N.eqb_neq; congruence). auto.
    + intros i H. split; [|intros K; apply P in K; destruct K as [K Hne]].
      * cbn in *. destruct (id =? i) eqn:E; [apply N.eqb_eq in E; now subst i|]. now apply j_dom0.
      * cbn in H. assert (E : (id =? i) = false) by (apply N.eqb_neq; congruence). rewrite E in H. destruct (j_dom0 i H). contradiction.
    + intros i H. cbn in H. destruct (j_adom0 i H) as [K1 K2]. split; [exact K1|]. intros K. apply P in K. now destruct K.
    + intros i y E. cbn in E. destruct (id =? i) eqn:K; [|exact (j_born0 i y E)]. injection E as <-.
      destruct Hdr as (ah & Hi & Hd). exists ah. split; [|exact Hd].
      destruct (j_frame0 t fr ltac:(rewrite Es; now left)) as (_ & _ & K3 & _). exact (K3 _ _ Hi).
    + split; [|split; [|split; [|split]]]; cbn [f_obs In]; [|intros i f0 [E|[]]; discriminate|intros i f0 [E|[]]; discriminate|intros i f0 f' [E|[]]; discriminate|constructor].
      intros i y [E|[]]. injection E as <- <-. cbn. now rewrite N.eqb_refl.
    + intros t'. cbn. now destruct (Nat.eqb t' t).
  - (* file looked up *)
    destruct Hc as [-> ->]. destruct Hp as (Hp & Ho & Hsame). unfold touches in Hp.
    destruct (g_st (G t)) as [|fr r] eqn:Es; [contradiction|].
    destruct (s_files s id) as [y|] eqn:Ei; cbn [option_map].
    + exists (OMod t id y (f y) :: ops). pose proof V as V0. destruct V.
      assert (Gr : grows ops (OMod t id y (f y) :: ops)) by (split; intros i z E; exact E).
      split; [|exact Gr].
      assert (PQ : forall i, pending (stk (updn G t (see (BFile id (Some (y, f y))) (G t)))) i -> pending (stk G) i).
      { intros i K. eapply pending_see_quiet; [|exact K]. exact Logic.I. }
      eapply hist_see with (ops := ops); eauto; try discriminate.
      * cbn. split; [auto|]. split; [apply Hsame|exact j_chain0].
      * cbn. intros i z E. destruct (upd_cases (s_files s) id (Some (f y)) i) as [[-> E']|[Hi E']]; rewrite E' in E.
        -- rewrite N.eqb_refl. exact E.
        -- assert ((id =? i) = false) as -> by (apply N.eqb_neq; congruence). auto.
      * intros i H. cbn in H. destruct (id =? i) eqn:E.
        -- apply N.eqb_eq in E. subst i. destruct (j_dom0 id) as [K1 K2]; [rewrite (j_cur0 _ _ Ei); discriminate|]. split; auto.
        -- destruct (j_dom0 i H). split; auto.
      * intros i H. cbn in H. destruct (j_adom0 i H). split; auto.
      * split; [|split; [|split; [|split]]]; cbn [f_obs In]; [intros i f0 [E|[]]; discriminate|intros i f0 [E|[]]; discriminate|intros i f0 [E|[]]; discriminate| |].
        -- intros i f0 f' [E|[]]. injection E as <- <- <-. destruct (cur_born ops id y j_chain0 (j_cur0 _ _ Ei)) as (g & K1 & K2). eauto.
        -- cbn. constructor; [exact Hp|constructor].
      * intros t'. cbn. rewrite (Nat.eqb_sym t t'). now destruct (Nat.eqb t' t).
    + exists ops. split; [|apply grows_refl]. eapply hist_see_quiet; eauto; try discriminate.
      * cbn. intros i z E. destruct (upd_cases (s_files s) id None i) as [[-> E']|[_ E']]; rewrite E' in E; [discriminate|exact E].
      * apply N.le_refl.
      * intros i K. left. eapply pending_see_quiet; [|exact K]. exact Logic.I.
  - (* file removed *)
    destruct Hc as [-> ->]. destruct (g_st (G t)) as [|fr r] eqn:Es; [contradiction|]. exists ops. split; [|apply grows_refl].
    eapply hist_see_quiet; eauto; try discriminate.
    + cbn. intros i y E. destruct (upd_cases (s_files s) id None i) as [[-> E']|[_ E']]; rewrite E' in E; [discriminate|exact E].
    + apply N.le_refl.
    + intros i K. left. eapply pending_see_quiet; [|exact K]. exact Logic.I.
  - (* files of an archive removed *)
    subst s'. destruct (g_st (G t)) as [|fr r] eqn:Es; [contradiction|]. exists ops. split; [|apply grows_refl].
    eapply hist_see_quiet; eauto; try discriminate.
    + cbn. intros i y E. destruct (s_files s i) as [z|]; [|discriminate]. destruct (fh_archive z =? a); [discriminate|exact E].
    + apply N.le_refl.
    + intros i K. left. eapply pending_see_quiet; [|exact K]. exact Logic.I.
  - exists ops. split; [|apply grows_refl]. subst s'. now apply (hist_keep s).
  - exists ops. split; [|apply grows_refl]. destruct Hc as [_ ->]. now apply (hist_keep s).
  - exists ops. split; [|apply grows_refl]. subst s'. now apply (hist_keep s).
  - exists ops. split; [|apply grows_refl]. destruct Hc as [_ ->]. now apply (hist_keep s).
  - exists ops. split; [|apply grows_refl]. subst s'. now apply (hist_keep s).
  - exists ops. split; [|apply grows_refl]. subst s'. now apply (hist_keep s).
  - exists ops. split; [|apply grows_refl]. subst s'. now apply (hist_keep s).
  - (* call begins *)
    destruct Hc as [-> ->]. destruct Hp as (_ & _ & Ho). exists ops. split; [|apply grows_refl].
    match goal with |- hist _ (updn G t ?g) _ => set (g' := g) end.
    assert (P : forall i, pending (stk (updn G t g')) i -> pending (stk G) i).
    { intros i (t' & f' & Hi & H). unfold stk in *. destruct (updn_cases G t g' t') as [[-> E]|[_ E]]; rewrite E in Hi.
      - cbn in Hi. destruct Hi as [<-|Hi]; [destruct H as [[] _]|]. exists t, f'. auto.
      - exists t', f'. auto. }
    destruct V. constructor; try assumption.
    + intros i H. destruct (j_dom0 i H). split; auto.
    + intros i H. destruct (j_adom0 i H). split; auto.
    + intros t' fr Hi. destruct (updn_cases G t g' t') as [[-> E]|[_ E]]; rewrite E in Hi; [|eauto].
      cbn in Hi. destruct Hi as [<-|Hi]; [|eauto]. unfold frame_ok. cbn. repeat split; try (intros; contradiction). constructor.
    + intros t'. destruct (j_thread0 t') as (R & K1 & K2 & K3). exists R.
      destruct (updn_cases G t g' t') as [[-> E]|[_ E]]; rewrite E; auto. cbn [g_st g' flat_map tl]. split; [exact K1|]. split; [exact K2|].
      unfold first_op in Ho. destruct (g_st (G t)) as [|fr r]; [constructor|]. constructor; [now apply fops_none|exact K3].
  - (* call ends *)
    subst s'. exists ops. split; [|apply grows_refl]. destruct (g_st (G t)) as [|fr rs] eqn:Es; [contradiction|]. destruct Hp as (P1 & P2 & P3).
    assert (Hfr : In fr (g_st (G t))) by (rewrite Es; now left).
    match goal with |- hist _ (updn G t ?g) _ => set (g' := g) end.
    assert (FR : forall t' f', In f' (g_st (updn G t g' t')) -> In f' (g_st (G t'))).
    { intros t' f' Hi. destruct (updn_cases G t g' t') as [[-> E]|[_ E]]; rewrite E in Hi; [|exact Hi]. rewrite Es. now right. }
    assert (P : forall i, pending (stk (updn G t g')) i -> pending (stk G) i).
    { intros i (t' & f' & Hi & H). exists t', f'. unfold stk in *. auto. }
    destruct V. constructor; try assumption.
    + intros i H. destruct (j_dom0 i H). split; auto.
    + intros i H. destruct (j_adom0 i H). split; auto.
    + intros t' f' Hi. apply (j_frame0 t'). auto.
    + intros t'. destruct (j_thread0 t') as (R & K1 & K2 & K3).
      destruct (updn_cases G t g' t') as [[-> E]|[Hn E]]; rewrite E.
      * rewrite Es in K1, K3. cbn [tl flat_map] in K1, K3. exists (fops fr ++ R). cbn [g_st g' tl s_log set_log].
        assert (Hrs : flat_map fops rs = []).
        { clear -K3. induction K3 as [|f l H _ IH]; [reflexivity|]. cbn [flat_map]. now rewrite H, IH. }
        rewrite Hrs in *. rewrite app_nil_r in K1. split; [exact K1|]. split.
        -- cbn. rewrite Nat.eqb_refl. exists (fops fr), R. split; [reflexivity|]. split; [|exact K2].
           destruct (j_frame0 t fr Hfr) as (_ & _ & _ & _ & K4). rewrite P1 in K4.
           destruct P3 as (_ & _ & _ & _ & A5 & _). unfold ok_read in A5. rewrite P1 in A5.
           unfold explains. cbn [e_call e_ret]. split; [exact K4|].
           assert (Hsame : (forall h f f', In (BFile h (Some (f, f'))) (f_obs fr) -> f' = f) -> Forall (fun u => snd u = snd (fst u)) (fops fr)).
           { intros K. apply Forall_forall. intros u Hu. apply in_flat_map in Hu. destruct Hu as (b & Hb & Hu).
             destruct b as [| | | | |i [[f0 f1]|]| |]; try (destruct Hu; fail). destruct Hu as [<-|[]]. cbn. eauto. }
           destruct c; try exact Logic.I; try (now apply Hsame).
           ++ destruct A5 as [(f & Ef & Er)|[Hno Hr]].
              ** left. exists f. split; [|exact Er]. unfold fops. now rewrite Ef.
              ** right. split; [now apply fops_none|apply Hr].
           ++ destruct A5 as [(f & Ef & Er)|[Hno Hr]].
              ** left. exists f. split; [|exact Er]. unfold fops. now rewrite Ef.
              ** right. split; [now apply fops_none|apply Hr].
        -- clear -K3. destruct rs; [constructor|]. now inversion K3.
      * exists R. split; [exact K1|]. split; [|exact K3]. apply explained_skip; [cbn; congruence|exact K2].
    + intros e a h He Hop. cbn in He. destruct He as [<-|He]; [|eauto].
      destruct Hop as [Hr Hcall]. cbn in Hr, Hcall. destruct P3 as (A1 & _). specialize (A1 h Hr). rewrite P1 in A1.
      destruct c; try contradiction. subst a0. destruct A1 as (f & d & B1 & B2 & B3 & B4). subst a.
      destruct (j_frame0 t fr Hfr) as (K1 & _). exists f, d, out. cbn. repeat split; auto; congruence.
    + intros e a He Hop. cbn in He. destruct He as [<-|He]; [|eauto].
      destruct Hop as [Hr Hcall]. cbn in Hr, Hcall. destruct P3 as (A1 & _). specialize (A1 a Hr). rewrite P1 in A1.
      destruct (j_frame0 t fr Hfr) as (_ & K2 & _).
      destruct c; try contradiction; destruct A1 as (y & d & B1 & B2 & B3); exists y, d; cbn; auto.
Qed.
End Reads.
