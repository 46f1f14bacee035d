(** * The calls that fill a builder *)
From Coq Require Import Lia.
From Verif Require Import Bytes Header Compress Builder FileSystem BuildIo SpecBuild SpecArchive BuildIoFacts BuilderApi SpecApi.
Open Scope N_scope.

Lemma builder_snoc ms m : builder_of (ms ++ [m]) = apply_method (builder_of ms) m.
Proof. unfold builder_of. now rewrite fold_left_app. Qed.

Lemma last_set_snoc {A} (pick : method -> option A) d ms m v w : last_set pick d ms v ->
  (match pick m with Some x => w = x | None => w = v end) -> last_set pick d (ms ++ [m]) w.
Proof.
  intros H Hw. destruct (pick m) as [x|] eqn:E.
  - subst w. left. exists ms, m, []. split; [reflexivity|]. split; [exact E|]. intros y [].
  - subst w. destruct H as [(l1 & x & l2 & -> & Hp & Hn)|[-> Hn]].
    + left. exists l1, x, (l2 ++ [m]). split; [now rewrite <- app_assoc|]. split; [exact Hp|].
      intros y Hy. apply in_app_or in Hy as [Hy|[<-|[]]]; auto.
    + right. split; [reflexivity|]. intros y Hy. apply in_app_or in Hy as [Hy|[<-|[]]]; auto.
Qed.

Lemma options_last ms (b := builder_of ms) :
  last_set version_set V1 ms (b_version b) /\ last_set block_set 3 ms (b_block b) /\
  last_set list_set SGenerate ms (b_list b) /\ last_set default_set 2 ms (b_default b) /\
  last_set crcs_set false ms (b_crcs b) /\ last_set tables_set false ms (b_ctables b) /\
  last_set tmethod_set 2 ms (b_tmethod b).
Proof.
  subst b. induction ms as [|m ms IH] using rev_ind.
  - repeat split; right; (split; [reflexivity|intros x []]).
  - rewrite builder_snoc. destruct IH as (H1 & H2 & H3 & H4 & H5 & H6 & H7).
    repeat split; (eapply last_set_snoc; [eassumption|]); destruct m; reflexivity.
Qed.

Lemma last_set_one {A} (pick : method -> option A) d ms v w : last_set pick d ms v -> last_set pick d ms w -> v = w.
Proof.
  induction ms as [|m ms IH] using rev_ind.
  - intros [(l1 & x & l2 & E & _)|[-> _]]; [destruct l1; discriminate|].
    intros [(l1 & x & l2 & E & _)|[-> _]]; [destruct l1; discriminate|reflexivity].
  - assert (G : forall u, last_set pick d (ms ++ [m]) u -> pick m = Some u \/ (pick m = None /\ last_set pick d ms u)).
    { intros u [(l1 & x & l2 & E & Hp & Hn)|[-> Hn]].
      - destruct (@exists_last _ (x :: l2)) as (l & y & Ey); [discriminate|]. rewrite Ey, app_assoc in E.
        apply app_inj_tail in E as [E1 <-]. destruct l as [|z l].
        + injection Ey as -> ->. now left.
        + injection Ey as -> ->. right. split; [apply Hn; apply in_app_iff; right; now left|].
          left. exists l1, z, l. split; [exact E1|]. split; [exact Hp|]. intros y0 Hy. apply Hn. apply in_app_iff. now left.
      - right. split; [apply Hn; apply in_app_iff; right; now left|]. right. split; [reflexivity|].
        intros x Hx. apply Hn. apply in_app_iff. now left. }
    intros Hv Hw. apply G in Hv. apply G in Hw. destruct Hv as [Hv|[Nv Hv]], Hw as [Hw|[Nw Hw]]; try congruence. now apply IH.
Qed.

Lemma pending_count ms : length (b_pending (builder_of ms)) = adds ms.
Proof.
  induction ms as [|m ms IH] using rev_ind; [reflexivity|]. rewrite builder_snoc. unfold adds. rewrite filter_app, app_length.
  fold (adds ms). rewrite <- IH. destruct m; cbn [apply_method push b_pending filter adding length]; rewrite ?app_length; cbn [length]; lia.
Qed.

Lemma pending_grows m ms : exists l, b_pending (apply_method (builder_of ms) m) = b_pending (builder_of ms) ++ l.
Proof. destruct m; cbn [apply_method push b_pending]; try (exists []; now rewrite app_nil_r); eexists; reflexivity. Qed.
Lemma pending_prefix l2 : forall l1, exists r, b_pending (builder_of (l1 ++ l2)) = b_pending (builder_of l1) ++ r.
Proof.
  induction l2 as [|m l2 IH] using rev_ind; intros l1.
  - exists []. now rewrite !app_nil_r.
  - rewrite app_assoc, builder_snoc. destruct (IH l1) as [r E]. destruct (pending_grows m (l1 ++ l2)) as [l G].
    rewrite G, E, <- app_assoc. eexists. reflexivity.
Qed.

Lemma file_in_order l1 m l2 : adding m = true ->
  exists d f, last_set default_set 2 l1 d /\ file_added m d = Some f /\
    nth_error (b_pending (builder_of (l1 ++ m :: l2))) (adds l1) = Some f.
Proof.
  intros Hm. destruct (options_last l1) as (_ & _ & _ & H & _). exists (b_default (builder_of l1)).
  change (l1 ++ m :: l2) with (l1 ++ [m] ++ l2). rewrite app_assoc.
  destruct (pending_prefix l2 (l1 ++ [m])) as [r E]. rewrite E, builder_snoc, <- pending_count.
  destruct m; try discriminate; (eexists; split; [exact H|]; split; [reflexivity|]);
    cbn [apply_method push b_pending]; rewrite <- app_assoc, nth_error_app2, Nat.sub_diag by lia; reflexivity.
Qed.

(** Settings that do not affect each other *)
Definition setting_of (m : method) : nat :=
  match m with MVersion _ => 0 | MBlock _ => 1 | MDefault _ => 2 | MList _ => 3 | MCrcs _ => 4 | MTables _ => 5 | MTableMethod _ => 6 | _ => 7 end%nat.
Lemma swap l1 a b l2 : setting_of a <> setting_of b ->
  ~ (setting_of a = 2 /\ setting_of b = 7)%nat -> ~ (setting_of a = 7 /\ setting_of b = 2)%nat ->
  builder_of (l1 ++ a :: b :: l2) = builder_of (l1 ++ b :: a :: l2).
Proof.
  intros H1 H2 H3. unfold builder_of. rewrite !fold_left_app. cbn [fold_left]. f_equal.
  generalize (fold_left apply_method l1 builder_new). intros x.
  destruct a, b; cbn [setting_of] in *; try reflexivity; try (now elim H1); try (elim H2; split; reflexivity); elim H3; split; reflexivity.
Qed.

Lemma swap_option l1 a b l2 : adding a = false -> default_set a = None -> adding b = true ->
  builder_of (l1 ++ a :: b :: l2) = builder_of (l1 ++ b :: a :: l2).
Proof. intros Ha Hd Hb. apply swap; destruct a, b; cbn in *; try discriminate; intros H; try destruct H; try discriminate; congruence. Qed.

Lemma fix_needs_encryption ms f : In f (b_pending (builder_of ms)) -> sp_fix f = true -> sp_encrypt f = true.
Proof.
  induction ms as [|m ms IH] using rev_ind; [intros []|]. rewrite builder_snoc.
  destruct m; cbn [apply_method push b_pending]; try exact IH;
    (intros H; apply in_app_or in H as [H|[<-|[]]]; [exact (IH H)|]); cbn [sp_fix sp_encrypt]; congruence.
Qed.

(** Building *)
Lemma contents_typed w srcs fs : contents w srcs fs -> (forall s, In s srcs -> sp_comp s < 256 /\ sp_locale s < 2 ^ 16) ->
  forall f, In f fs -> pf_comp f < 256 /\ pf_locale f < 2 ^ 16.
Proof.
  induction 1 as [|s r d fs Hs Hc IH]; intros H f Hf; [destruct Hf|]. destruct Hf as [<-|Hf].
  - cbn [pf_comp pf_locale]. apply H. now left.
  - apply IH; [|exact Hf]. intros s' Hs'. apply H. now right.
Qed.
Lemma calls_typed ms : Forall method_typed ms ->
  b_block (builder_of ms) < 2 ^ 16 /\ b_default (builder_of ms) < 256 /\
  forall s, In s (b_pending (builder_of ms)) -> sp_comp s < 256 /\ sp_locale s < 2 ^ 16.
Proof.
  induction ms as [|m ms IH] using rev_ind; intros H.
  - split; [reflexivity|]. split; [reflexivity|]. intros s [].
  - apply Forall_app in H as [H1 H2]. apply Forall_inv in H2. destruct (IH H1) as (A & B & C). rewrite builder_snoc.
    destruct m; cbn [apply_method push b_block b_default b_pending method_typed] in *; (split; [assumption|]; split; [assumption|]); try exact C.
    + intros s0 Hs. apply in_app_or in Hs as [Hs|[<-|[]]]; [auto|]. cbn [sp_comp sp_locale]. split; [exact B|reflexivity].
    + intros s0 Hs. apply in_app_or in Hs as [Hs|[<-|[]]]; auto.
    + intros s0 Hs. apply in_app_or in Hs as [Hs|[<-|[]]]; auto.
Qed.
Lemma builder_archive L md5 w ms arc (b := builder_of ms) : Forall method_typed ms ->
  archive_of L md5 w (builder_config b) (b_list b) (b_pending b) arc ->
  exists o fs, list_wanted w (b_list b) o /\ contents w (b_pending b) fs /\
    let c := mkCfg (b_version b) (b_block b) o (b_default b) (b_crcs b) (b_ctables b) (b_tmethod b) in
    well_typed c fs /\ build L md5 c fs = Ok arc.
Proof.
  intros Ht (o & fs & Hw & Hc & Hb). exists o, fs. split; [exact Hw|]. split; [exact Hc|]. cbv zeta. split; [|exact Hb].
  destruct (calls_typed ms Ht) as (A & B & C). split; [exact A|]. split; [exact B|]. exact (contents_typed w _ fs Hc C).
Qed.

(** The default method set after a file was added *)
Definition late_default : list method :=
  [MAdd (SData (lit "data")) (lit "a.txt"); MDefault 16].
Lemma late_default_missed : exists ms f, In f (b_pending (builder_of ms)) /\
  In (MAdd (sp_source f) (sp_name f)) ms /\ sp_comp f <> b_default (builder_of ms).
Proof.
  exists late_default, (mkSP (SData (lit "data")) (lit "a.txt") 2 false false 0). split; [left; reflexivity|].
  split; [left; reflexivity|]. vm_compute. discriminate.
Qed.

Lemma builder_writes L md5 ms dest w0 w (b := builder_of ms) :
  ~ temp_name (p_name dest) -> sources_ok w0 (b_list b) (b_pending b) -> Forall method_typed ms ->
  steps (builder_build L md5 b dest, w0) (Ret (Ok tt), w) ->
  exists o fs arc, list_wanted w0 (b_list b) o /\ contents w0 (b_pending b) fs /\
    let c := mkCfg (b_version b) (b_block b) o (b_default b) (b_crcs b) (b_ctables b) (b_tmethod b) in
    well_typed c fs /\ build L md5 c fs = Ok arc /\ w_files w dest = Some arc.
Proof.
  intros Hd Hs Ht R. destruct (all_or_nothing L md5 _ _ _ dest w0 Hd Hs _ _ R) as (_ & H & _).
  destruct (H eq_refl) as (arc & Ha & Hw). destruct (builder_archive L md5 w0 ms arc Ht Ha) as (o & fs & H1 & H2 & H3 & H4).
  exists o, fs, arc. auto 10.
Qed.
