(** * Facts about the settings of the command line tool *)
From Verif Require Import Bytes Header Compress Builder Cli BuildCalm SpecBuilding CliConfig SpecConfig.
From Coq Require Import ZifyBool ZifyN.
Open Scope N_scope.

(** ** Numbers *)
Lemma beqb_true a b : beqb a b = true <-> a = b.
Proof. apply beqb_eq. Qed.

Definition num (l : bytes) (a : N) : N := fold_left (fun a b => a * 10 + (bN b - 48)) l a.
Lemma num_mono l : forall a, a <= num l a.
Proof.
  unfold num. induction l as [|b t IH]; intros a; cbn [fold_left]; [lia|]. etransitivity; [|apply IH]. lia.
Qed.
Lemma digits_spec l : forall a n, a < 65536 ->
  digits l a = Some n <-> Forall a_digit l /\ num l a = n /\ n < 65536.
Proof.
  induction l as [|b t IH]; intros a n Ha; cbn [digits].
  - unfold num; cbn [fold_left]. split; [intros [= <-]; auto|intros (_ & -> & _); auto].
  - change (num (b :: t) a) with (num t (a * 10 + (bN b - 48))).
    destruct ((48 <=? bN b) && (bN b <=? 57)) eqn:Eb.
    + destruct (N.ltb_spec (a * 10 + (bN b - 48)) 65536) as [Hl|Hl].
      * rewrite IH by exact Hl. split; [intros (H1 & H2)|intros (H1 & H2)]; split; try exact H2.
        -- constructor; [unfold a_digit; lia|exact H1].
        -- inversion H1; assumption.
      * split; [discriminate|]. intros (_ & Hn & Hs). pose proof (num_mono t (a * 10 + (bN b - 48))). lia.
    + split; [discriminate|]. intros (H1 & _). inversion H1 as [|? ? Hd _]; subst. unfold a_digit in Hd. lia.
Qed.

Lemma parse_u16_spec v n : parse_u16 v = Some n <-> decimal v n /\ n < 65536.
Proof.
  unfold parse_u16. destruct v as [|b t].
  - split; [discriminate|]. intros ((sg & ds & E & _ & Hn & _) & _). destruct sg; destruct ds; try discriminate. congruence.
  - destruct (beqb b "+"%byte) eqn:Eb.
    + apply beqb_true in Eb. subst b. destruct t as [|b t].
      * split; [discriminate|]. intros ((sg & ds & E & [->| ->] & Hn & Hd & _) & _).
        -- cbn [app] in E. subst ds. inversion Hd as [|? ? X _]; subst. exfalso. unfold a_digit in X. revert X. vm_compute. intros [X _]. congruence.
        -- cbn in E. destruct ds; [congruence|discriminate].
      * rewrite digits_spec by lia. split.
        -- intros (H1 & H2 & H3). split; [|exact H3]. exists (lit "+"), (b :: t). repeat split; auto. discriminate.
        -- intros ((sg & ds & E & [->| ->] & Hn & Hd & Hv) & Hs).
           ++ cbn [app] in E. subst ds. inversion Hd as [|? ? X _]; subst. exfalso. unfold a_digit in X. revert X. vm_compute. intros [X _]. congruence.
           ++ cbn in E. injection E as <-. auto.
    + rewrite digits_spec by lia. split.
      * intros (H1 & H2 & H3). split; [|exact H3]. exists [], (b :: t). repeat split; auto. discriminate.
      * intros ((sg & ds & E & [->| ->] & Hn & Hd & Hv) & Hs).
        -- cbn [app] in E. subst ds. auto.
        -- cbn in E. injection E as -> <-. discriminate Eb.
Qed.

(** ** Changing one setting *)
Lemma among_spec v l : among v l = true <-> In v l.
Proof.
  unfold among. rewrite existsb_exists. split.
  - intros (x & Hi & E). apply bytes_eqb_eq in E. now subst.
  - intros H. exists v. split; [exact H|]. now apply bytes_eqb_eq.
Qed.
Lemma among_methods v : among v method_names = true <-> exists m, In (v, m) methods.
Proof.
  rewrite among_spec. change method_names with (map fst methods). rewrite in_map_iff. split.
  - intros ((v' & m) & <- & H). now exists m.
  - intros (m & H). now exists (v, m).
Qed.
Lemma method_named_spec v m : In (v, m) methods -> method_named v mod 256 = m.
Proof. intros H. repeat (destruct H as [[= <- <-]|H]; [reflexivity|]). destruct H. Qed.
Lemma version_of_spec n w : In (n, w) versions -> version_of n = w.
Proof. intros H. repeat (destruct H as [[= <- <-]|H]; [reflexivity|]). destruct H. Qed.
Lemma versions_range n : 1 <= n <= 4 <-> exists w, In (n, w) versions.
Proof.
  split.
  - intros H. assert (n = 1 \/ n = 2 \/ n = 3 \/ n = 4) as [->|[->|[->| ->]]] by lia; eexists; cbn; eauto.
  - intros (w & H). repeat (destruct H as [[= <- _]|H]; [lia|]). destruct H.
Qed.


Lemma change_effect s k v s' : change s k v = Some s' ->
  exists g, setting k v g /\
    forall f, create_with s' f = if overridden k f then create_with s f else g (create_with s f).
Proof.
  unfold change, overridden.
  destruct (bytes_eqb k (lit "default_compression")) eqn:E1.
  { apply bytes_eqb_eq in E1. subst k. destruct (among v method_names) eqn:Ev; [|discriminate].
    intros [= <-]. apply among_methods in Ev. destruct Ev as (m & Hm).
    eexists. split; [apply (set_method v m Hm)|]. intros f. unfold create_with, used_version, used_block, used_method.
    cbn. destruct (fl_compression f); [reflexivity|]. unfold with_method; cbn. now rewrite (method_named_spec v m Hm). }
  destruct (bytes_eqb k (lit "default_version")) eqn:E2.
  { apply bytes_eqb_eq in E2. subst k. destruct (parse_u16 v) as [n|] eqn:Ev; [|discriminate].
    destruct ((1 <=? n) && (n <=? 4)) eqn:En; [|discriminate]. intros [= <-].
    apply parse_u16_spec in Ev. destruct Ev as (Hd & _).
    assert (Hr : 1 <= n <= 4) by lia. apply versions_range in Hr. destruct Hr as (w & Hw).
    eexists. split; [apply (set_version v n w Hd Hw)|]. intros f. unfold create_with, used_version, used_block, used_method.
    cbn. destruct (fl_version f); [reflexivity|]. unfold with_version; cbn. now rewrite (version_of_spec n w Hw). }
  destruct (bytes_eqb k (lit "default_block_size")) eqn:E3.
  { apply bytes_eqb_eq in E3. subst k. destruct (parse_u16 v) as [n|] eqn:Ev; [|discriminate].
    destruct (n <=? 23) eqn:En; [|discriminate]. intros [= <-].
    apply parse_u16_spec in Ev. destruct Ev as (Hd & _).
    eexists. split; [apply (set_block v n Hd); lia|]. intros f. unfold create_with, used_version, used_block, used_method.
    cbn. destruct (fl_block f); reflexivity. }
  destruct (bytes_eqb k (lit "default_output")) eqn:E4; [|discriminate].
  apply bytes_eqb_eq in E4. subst k. destruct (among v _) eqn:Ev; [|discriminate].
  intros [= <-]. apply among_spec in Ev. eexists. split; [apply (set_output v Ev)|]. reflexivity.
Qed.

Lemma change_valid s k v g : setting k v g -> exists s', change s k v = Some s'.
Proof.
  intros H. destruct H as [v m H|v n w Hd Hw|v n Hd Hn|v H]; unfold change; cbn [bytes_eqb].
  - change (bytes_eqb (lit "default_compression") (lit "default_compression")) with true. cbv iota.
    replace (among v method_names) with true by (symmetry; apply among_methods; eauto). eauto.
  - change (bytes_eqb (lit "default_version") (lit "default_compression")) with false.
    change (bytes_eqb (lit "default_version") (lit "default_version")) with true. cbv iota.
    assert (Hr : 1 <= n <= 4) by (apply versions_range; eauto).
    assert (E : parse_u16 v = Some n) by (apply parse_u16_spec; split; [exact Hd|lia]). rewrite E.
    replace ((1 <=? n) && (n <=? 4)) with true by lia. eauto.
  - change (bytes_eqb (lit "default_block_size") (lit "default_compression")) with false.
    change (bytes_eqb (lit "default_block_size") (lit "default_version")) with false.
    change (bytes_eqb (lit "default_block_size") (lit "default_block_size")) with true. cbv iota.
    assert (E : parse_u16 v = Some n) by (apply parse_u16_spec; split; [exact Hd|lia]). rewrite E.
    replace (n <=? 23) with true by lia. eauto.
  - change (bytes_eqb (lit "default_output") (lit "default_compression")) with false.
    change (bytes_eqb (lit "default_output") (lit "default_version")) with false.
    change (bytes_eqb (lit "default_output") (lit "default_block_size")) with false.
    change (bytes_eqb (lit "default_output") (lit "default_output")) with true. cbv iota.
    match goal with |- context [among v ?l] => replace (among v l) with true by (symmetry; apply among_spec; exact H) end.
    eauto.
Qed.

(** What a number means is determined, and so is a setting. *)
Lemma decimal_fun v n m : decimal v n -> decimal v m -> n = m.
Proof.
  intros (s1 & d1 & E1 & H1 & N1 & F1 & V1) (s2 & d2 & E2 & H2 & N2 & F2 & V2). subst v.
  assert (P : forall t, ~ Forall a_digit ("+"%byte :: t)).
  { intros t Hf. inversion Hf as [|? ? X _]; subst. unfold a_digit in X. revert X. vm_compute. intros [X _]. congruence. }
  destruct H1 as [->| ->]; destruct H2 as [->| ->]; cbn [app] in E2.
  - congruence.
  - cbn in E2. subst d1. now apply P in F1.
  - cbn in E2. subst d2. now apply P in F2.
  - cbn in E2. injection E2 as E2. congruence.
Qed.
Lemma methods_fun v m m' : In (v, m) methods -> In (v, m') methods -> m = m'.
Proof. intros H H'. now rewrite <- (method_named_spec v m H), <- (method_named_spec v m' H'). Qed.
Lemma versions_fun n w w' : In (n, w) versions -> In (n, w') versions -> w = w'.
Proof. intros H H'. now rewrite <- (version_of_spec n w H), <- (version_of_spec n w' H'). Qed.
Lemma setting_fun k v g g' : setting k v g -> setting k v g' -> forall c, g c = g' c.
Proof.
  intros H H' c. destruct H as [v m H|v n w Hd Hw|v n Hd Hn|v H];
  inversion H' as [v' m' J Ek Ev|v' n' w' Jd Jw Ek Ev|v' n' Jd Jn Ek Ev|v' J Ek Ev]; subst.
  all: try reflexivity.
  - now rewrite (methods_fun v m m' H J).
  - pose proof (decimal_fun _ _ _ Hd Jd). subst n'. now rewrite (versions_fun n w w' Hw Jw).
  - now rewrite (decimal_fun _ _ _ Hd Jd).
Qed.

Section Config.
Variable encode : settings -> bytes.
Variable decode : bytes -> option settings.
Variable home : option bytes.
Variable writable : bytes -> bool.
Hypothesis text : forall s, decode (encode s) = Some s.

Notation load := (load_config decode home).
Notation path := (config_path home).
Notation run := (storm encode decode home writable).

Lemma put_same fs p d : put fs p d p = Some d.
Proof. unfold put. now rewrite bytes_eqb_refl. Qed.
Lemma put_other fs p d q : q <> p -> put fs p d q = fs q.
Proof. intros H. unfold put. destruct (bytes_eqb q p) eqn:E; [apply bytes_eqb_eq in E; contradiction|reflexivity]. Qed.

Lemma load_saved fs over p s : path fs over = Some p -> load (put fs p (encode s)) over = Some s.
Proof.
  unfold config_path, load_config. destruct over as [q|].
  - intros [= ->]. unfold load_from. now rewrite put_same, text.
  - destruct home as [h|]; [|discriminate]. intros [= <-].
    destruct (there (fs (storm_path h))) eqn:E.
    + rewrite put_same. cbn [there]. unfold load_from. now rewrite put_same, text.
    + destruct (bytes_eqb (storm_path h) (xdg_path h)) eqn:Eq.
      * apply bytes_eqb_eq in Eq. rewrite Eq, put_same. cbn [there]. unfold load_from. now rewrite put_same, text.
      * rewrite put_other by (intros X; rewrite X, bytes_eqb_refl in Eq; discriminate). rewrite E, put_same. cbn [there].
        unfold load_from. now rewrite put_same, text.
Qed.
Lemma path_saved fs over p d : path fs over = Some p -> path (put fs p d) over = Some p.
Proof.
  unfold config_path. destruct over as [q|]; [trivial|].
  destruct home as [h|]; [|discriminate]. intros [= <-].
  destruct (there (fs (storm_path h))) eqn:E.
  - now rewrite put_same.
  - destruct (bytes_eqb (storm_path h) (xdg_path h)) eqn:Eq.
    + apply bytes_eqb_eq in Eq. now rewrite Eq, put_same.
    + rewrite put_other by (intros X; rewrite X, bytes_eqb_refl in Eq; discriminate). now rewrite E.
Qed.
Lemma load_path fs over p : path fs over = Some p -> load fs over = load_from decode fs p.
Proof.
  unfold config_path, load_config. destruct over as [q|]; [now intros [= ->]|].
  destruct home as [h|]; [|discriminate]. intros [= <-].
  destruct (there (fs (storm_path h))) eqn:E; [reflexivity|].
  unfold load_from. destruct (fs (xdg_path h)); reflexivity.
Qed.

Lemma set_done fs over out k v fs' : run over out (SetKey k v) fs = (fs', Done) ->
  exists s s' p, load fs over = Some s /\ path fs over = Some p /\ writable p = true /\ change s k v = Some s' /\
    fs' = put fs p (encode s').
Proof.
  unfold storm. destruct (load fs over) as [s|]; [|discriminate]. destruct (path fs over) as [p|]; [|discriminate].
  destruct (change s k v) as [s'|] eqn:Ec; [|discriminate]. unfold save_config. destruct (writable p) eqn:Ew; [|discriminate].
  intros [= <-]. exists s, s', p. auto.
Qed.

(** ** The theorems *)
Theorem set_iff fs over out k v :
  (exists fs', run over out (SetKey k v) fs = (fs', Done)) <->
  (exists g, setting k v g) /\
  exists p, snd (run over out PathOf fs) = Told p /\ writable p = true.
Proof.
  split.
  - intros (fs' & H). apply set_done in H. destruct H as (s & s' & p & Hl & Hp & Hw & Hc & _).
    split; [destruct (change_effect _ _ _ _ Hc) as (g & Hg & _); now exists g|].
    exists p. split; [|exact Hw]. unfold storm. now rewrite Hl, Hp.
  - intros ((g & Hg) & p & Hp & Hw). unfold storm in *. destruct (load fs over) as [s|]; [|discriminate].
    destruct (path fs over) as [q|]; [|discriminate]. injection Hp as ->.
    destruct (change_valid s k v g Hg) as (s' & ->). unfold save_config. rewrite Hw. eauto.
Qed.

Theorem not_done fs over out cmd fs' a : run over out cmd fs = (fs', a) -> a <> Done -> fs' = fs.
Proof.
  unfold storm. destruct (load fs over) as [s|]; [|now intros [= <-]].
  destruct cmd; (destruct (path fs over) as [p|]; [|now intros [= <-]]); try now intros [= <-].
  - destruct (change s key value) as [s'|]; [|now intros [= <-]]. unfold save_config.
    destruct (writable p); [|now intros [= <-]]. intros [= _ <-]. congruence.
  - unfold save_config. destruct (writable p); [|now intros [= <-]]. intros [= _ <-]. congruence.
Qed.

Theorem one_file fs over out cmd fs' a : run over out cmd fs = (fs', a) ->
  forall p q, snd (run over out PathOf fs) = Told p -> q <> p -> fs' q = fs q.
Proof.
  unfold storm. destruct (load fs over) as [s|]; [|now intros [= <-]].
  intros H p q Hp Hq. destruct (path fs over) as [r|]; [|discriminate]. injection Hp as ->.
  destruct cmd; try (injection H as <- _; reflexivity).
  - destruct (change s key value) as [s'|]; [|now injection H as <- _]. unfold save_config in H.
    destruct (writable p); [|now injection H as <- _]. injection H as <- _. now apply put_other.
  - unfold save_config in H. destruct (writable p); [|now injection H as <- _]. injection H as <- _. now apply put_other.
Qed.

Theorem set_effect fs over out k v fs' g : run over out (SetKey k v) fs = (fs', Done) -> setting k v g ->
  forall out' f, exists c o, run over out' (Create f) fs = (fs, Creates c o) /\
    run over out' (Create f) fs' = (fs', Creates (if overridden k f then c else g c) o).
Proof.
  intros H Hg out' f. apply set_done in H. destruct H as (s & s' & p & Hl & Hp & _ & Hc & ->).
  exists (create_with s f), (used_format out' s). unfold storm. rewrite Hl, (load_saved _ _ _ s' Hp). split; [reflexivity|].
  destruct (change_effect _ _ _ _ Hc) as (g' & Hg' & He). rewrite He.
  now rewrite (setting_fun _ _ _ _ Hg Hg').
Qed.

Theorem set_shown fs over out k v fs' : run over out (SetKey k v) fs = (fs', Done) ->
  forall out', exists m n b t m' n' b' t',
    run over out' Show fs = (fs, Shown m n b t) /\ run over out' Show fs' = (fs', Shown m' n' b' t') /\
    (if bytes_eqb k (lit "default_compression") then m' = v else m' = m) /\
    (if bytes_eqb k (lit "default_version") then decimal v n' else n' = n) /\
    (if bytes_eqb k (lit "default_block_size") then decimal v b' else b' = b) /\
    (if bytes_eqb k (lit "default_output") then t' = v else t' = t).
Proof.
  intros H out'. apply set_done in H. destruct H as (s & s' & p & Hl & Hp & _ & Hc & ->).
  do 8 eexists. unfold storm. rewrite Hl, Hp, (load_saved _ _ _ s' Hp), (path_saved _ _ _ _ Hp).
  split; [reflexivity|]. split; [reflexivity|]. unfold change in Hc.
  destruct (bytes_eqb k (lit "default_compression")) eqn:E1.
  { apply bytes_eqb_eq in E1. subst k. destruct (among v method_names); [|discriminate]. injection Hc as <-. repeat split. }
  destruct (bytes_eqb k (lit "default_version")) eqn:E2.
  { apply bytes_eqb_eq in E2. subst k. destruct (parse_u16 v) as [n|] eqn:Ev; [|discriminate].
    destruct ((1 <=? n) && (n <=? 4)); [|discriminate]. injection Hc as <-. apply parse_u16_spec in Ev.
    repeat split. apply Ev. }
  destruct (bytes_eqb k (lit "default_block_size")) eqn:E3.
  { apply bytes_eqb_eq in E3. subst k. destruct (parse_u16 v) as [n|] eqn:Ev; [|discriminate].
    destruct (n <=? 23); [|discriminate]. injection Hc as <-. apply parse_u16_spec in Ev.
    repeat split. apply Ev. }
  destruct (bytes_eqb k (lit "default_output")) eqn:E4; [|discriminate].
  destruct (among v _); [|discriminate]. injection Hc as <-. repeat split.
Qed.

Theorem reset_effect fs over out fs' : run over out Reset fs = (fs', Done) ->
  forall out',
  run over out' Show fs' = (fs', Shown (lit "zlib") 1 3 (lit "text")) /\
  forall f, exists o, run over out' (Create f) fs' = (fs', Creates (create_with default_settings f) o).
Proof.
  unfold storm at 1. destruct (load fs over) as [s|]; [|discriminate]. destruct (path fs over) as [p|] eqn:Hp; [|discriminate].
  unfold save_config. destruct (writable p); [|discriminate]. intros [= <-] out'.
  unfold storm. rewrite (load_saved _ _ _ _ Hp), (path_saved _ _ _ _ Hp). split; [reflexivity|]. eauto.
Qed.

Theorem path_used fs over out p s : snd (run over out PathOf fs) = Told p ->
  fs p = Some (encode s) \/ fs p = None /\ s = default_settings ->
  forall f, exists o, run over out (Create f) fs = (fs, Creates (create_with s f) o).
Proof.
  unfold storm. destruct (load fs over) as [s0|] eqn:Hl; [|discriminate].
  destruct (path fs over) as [q|] eqn:Hp; [|discriminate]. intros [= ->] H f.
  rewrite (load_path _ _ _ Hp) in Hl. unfold load_from in Hl.
  destruct H as [H|[H ->]]; rewrite H in Hl; [rewrite text in Hl|]; injection Hl as <-; eauto.
Qed.

(** ** From nothing, by commands only *)
Definition fine (s : settings) : Prop :=
  (exists v m, st_compression s = Some v /\ In (v, m) methods) /\
  (exists n w, st_version s = Some n /\ In (n, w) versions) /\
  (exists b, st_block s = Some b /\ b <= 23).
Lemma fine_default : fine default_settings.
Proof.
  repeat split; do 2 eexists; try (split; [reflexivity|]); try (cbn; tauto); try (vm_compute; discriminate).
  all: cbn; auto.
Qed.
Lemma fine_change s k v s' : change s k v = Some s' -> fine s -> fine s'.
Proof.
  intros H (Hc & Hv & Hb). unfold change in H.
  destruct (bytes_eqb k (lit "default_compression")).
  { destruct (among v method_names) eqn:E; [|discriminate]. injection H as <-. split; [|split]; [|exact Hv|exact Hb].
    apply among_methods in E. destruct E as (m & Hm). exists v, m. auto. }
  destruct (bytes_eqb k (lit "default_version")).
  { destruct (parse_u16 v) as [n|] eqn:Ev; [|discriminate].
    destruct ((1 <=? n) && (n <=? 4)) eqn:En; [|discriminate]. injection H as <-.
    split; [exact Hc|split; [|exact Hb]]. assert (Hr : 1 <= n <= 4) by lia. apply versions_range in Hr.
    destruct Hr as (w & Hw). exists n, w. auto. }
  destruct (bytes_eqb k (lit "default_block_size")).
  { destruct (parse_u16 v) as [n|] eqn:Ev; [|discriminate].
    destruct (n <=? 23) eqn:En; [|discriminate]. injection H as <-.
    split; [exact Hc|split; [exact Hv|]]. exists n. split; [reflexivity|lia]. }
  destruct (bytes_eqb k (lit "default_output")); [|discriminate].
  destruct (among v _); [|discriminate]. injection H as <-. split; [|split]; assumption.
Qed.

Definition loads_fine over fs := exists s, load fs over = Some s /\ fine s.
Lemma step_fine over out cmd fs : loads_fine over fs -> loads_fine over (fst (run over out cmd fs)).
Proof.
  intros (s & Hl & Hs). unfold storm. rewrite Hl.
  assert (H0 : loads_fine over fs) by (exists s; auto).
  destruct cmd; try (destruct (path fs over) as [p|] eqn:Hp); try exact H0.
  - destruct (change s key value) as [s'|] eqn:Ec; [|exact H0]. unfold save_config. destruct (writable p); [|exact H0].
    exists s'. split; [now apply load_saved|]. exact (fine_change _ _ _ _ Ec Hs).
  - unfold save_config. destruct (writable p); [|exact H0].
    exists default_settings. split; [now apply load_saved|exact fine_default].
Qed.

Lemma steps_fine over l : forall fs, loads_fine over fs ->
  loads_fine over (after (fun c => run over (fst c) (snd c)) l fs).
Proof.
  unfold after. induction l as [|c t IH]; intros fs H; cbn [fold_left]; [exact H|]. apply IH. now apply step_fine.
Qed.
Lemma fresh_fine over fs : (forall s, fs s = None) -> loads_fine over fs.
Proof.
  intros H. exists default_settings. split; [|exact fine_default]. unfold load_config, load_from.
  destruct over; rewrite ?H; [reflexivity|]. destruct home; rewrite ?H; reflexivity.
Qed.

Theorem only_commands over l fs : (forall p, fs p = None) ->
  let fs' := after (fun c => run over (fst c) (snd c)) l fs in
  forall out f, exists c o, run over out (Create f) fs' = (fs', Creates c o) /\
    (fl_block f = None -> c_block_size c <= 23) /\
    (fl_compression f = None -> exists v, In (v, c_default c) methods) /\
    forall m n b t, run over out Show fs' = (fs', Shown m n b t) ->
      (fl_compression f = None -> In (m, c_default c) methods) /\
      (fl_version f = None -> In (n, c_version c) versions) /\
      (fl_block f = None -> c_block_size c = b).
Proof.
  intros H0 fs' out f. destruct (steps_fine over l fs (fresh_fine over fs H0)) as (s & Hl & Hs). fold fs' in Hl.
  exists (create_with s f), (used_format out s). unfold storm. rewrite Hl.
  destruct Hs as ((v & m & Ec & Hm) & (n & w & Ev & Hw) & (b & Eb & Hb)).
  split; [reflexivity|]. unfold create_with, used_block, used_method, used_version; cbn [c_block_size c_default c_version].
  split; [intros ->; now rewrite Eb|].
  split; [intros ->; rewrite Ec; exists v; now rewrite (method_named_spec v m Hm)|].
  destruct (path fs' over) as [p|]; [|intros; discriminate]. rewrite Ec, Ev, Eb; cbn [or_else].
  intros m' n' b' t' [= <- <- <- _]. split; [|split].
  - intros ->. now rewrite (method_named_spec v m Hm).
  - intros ->. now rewrite (version_of_spec n w Hw).
  - now intros ->.
Qed.

(** Within the limits of C48 building an archive with these settings does not panic. *)
Theorem only_commands_calm (L : codecs) (md5 : bytes -> bytes) over l fs :
  (forall p, fs p = None) -> calm_encoders L ->
  let fs' := after (fun c => run over (fst c) (snd c)) l fs in
  forall out f c o files, run over out (Create f) fs' = (fs', Creates c o) ->
  (forall b, fl_block f = Some b -> b <= 23) ->
  lenN files < 2 ^ 30 - 2 -> (forall p, In p files -> pf_encrypt p = false) ->
  c_version c = V1 \/ c_version c = V2 \/ narrow (all_contents c files) ->
  build L md5 c files <> Panic.
Proof.
  intros H0 HL fs' out f c o files Hr Hf Hn He Hv.
  destruct (only_commands over l fs H0 out f) as (c' & o' & Hr' & Hb & _). fold fs' in Hr'.
  rewrite Hr in Hr'. injection Hr' as <- <-.
  assert (B : c_block_size c <= 23).
  { destruct (fl_block f) as [b|] eqn:Eb; [|auto]. unfold storm in Hr. destruct (load fs' over) as [s|]; [|discriminate].
    injection Hr as <- _. unfold create_with, used_block; cbn [c_block_size]. rewrite Eb. now apply Hf. }
  assert (E : forall p, In p files -> pf_encrypt p = true -> lenN (pf_data p) <= 4000000000).
  { intros p Hp Ht. rewrite (He p Hp) in Ht. discriminate. }
  destruct Hv as [Hv|[Hv|Hv]].
  - apply build_calm12; auto; lia.
  - apply build_calm12; auto; lia.
  - destruct (c_version c) eqn:Ev; [apply build_calm12|apply build_calm12|apply build_calm34|apply build_calm34]; auto; lia.
Qed.
End Config.

Section Config2.
Variable encode : settings -> bytes.
Variable decode : bytes -> option settings.
Variable home : option bytes.
Variable writable : bytes -> bool.
Hypothesis text : forall s, decode (encode s) = Some s.
Notation run := (storm encode decode home writable).

Theorem flags_win over out f fs fs' c o : run over out (Create f) fs = (fs', Creates c o) ->
  (forall v, fl_version f = Some v -> c_version c = v) /\
  (forall m x, fl_compression f = Some m -> In (m, x) choices -> c_default c = x) /\
  (forall b, fl_block f = Some b -> c_block_size c = b) /\
  c_listfile c = (if fl_no_listfile f then LNone
                  else match fl_listfile f with Some d => LExternal d | None => LGenerate end) /\
  (forall x, out = Some x -> o = x).
Proof.
  unfold storm. destruct (load_config decode home fs over) as [s|]; [|discriminate]. intros [= _ <- <-].
  unfold create_with, used_version, used_method, used_block, used_format;
    cbn [c_version c_default c_block_size c_listfile].
  repeat split; try (intros ? ->; reflexivity). intros m x -> H.
  repeat (destruct H as [[= <- <-]|H]; [reflexivity|]). destruct H.
Qed.

Theorem reset_plain over out fs fs' : run over out Reset fs = (fs', Done) ->
  forall out',
  run over out' Show fs' = (fs', Shown (lit "zlib") 1 3 (lit "text")) /\
  forall nl lf, exists c o, run over out' (Create (mkFlags None None None nl lf)) fs' = (fs', Creates c o) /\
    c_version c = V1 /\ c_block_size c = 3 /\ c_default c = 2.
Proof.
  intros H out'. destruct (reset_effect _ _ _ _ text _ _ _ _ H out') as (H1 & H2). split; [exact H1|].
  intros nl lf. destruct (H2 (mkFlags None None None nl lf)) as (o & E). do 2 eexists. split; [exact E|]. repeat split.
Qed.

Lemma method_named_other v : (forall m, ~ In (v, m) methods) -> method_named v = 2.
Proof.
  intros H. unfold method_named.
  assert (X : forall x m, In (x, m) methods -> bytes_eqb v x = false).
  { intros x m Hx. destruct (bytes_eqb v x) eqn:E; [|reflexivity]. apply bytes_eqb_eq in E. subst x. now apply H in Hx. }
  rewrite (X _ 0), (X _ 0x02), (X _ 0x10), (X _ 0x12), (X _ 0x20), (X _ 0x08), (X _ 0x40), (X _ 0x80);
    cbn; tauto.
Qed.
Lemma version_of_other n : (forall w, ~ In (n, w) versions) -> version_of n = V1.
Proof.
  intros H. destruct (N.le_gt_cases 1 n) as [Ha|Ha]; [destruct (N.le_gt_cases n 4) as [Hb|Hb]|].
  - assert (Hr : 1 <= n <= 4) by lia. apply versions_range in Hr. destruct Hr as (w & Hw). now apply H in Hw.
  - unfold version_of. destruct n as [|[[[?|?|]|[?|?|]|]|[[?|?|]|[?|?|]|]|]]; try reflexivity; lia.
  - assert (n = 0) as -> by lia. reflexivity.
Qed.

Theorem file_effect over out fs p s : snd (run over out PathOf fs) = Told p -> fs p = Some (encode s) ->
  forall f, exists c o, run over out (Create f) fs = (fs, Creates c o) /\
    (fl_compression f = None -> forall v, st_compression s = Some v ->
       (forall m, In (v, m) methods -> c_default c = m) /\ ((forall m, ~ In (v, m) methods) -> c_default c = 2)) /\
    (fl_version f = None -> forall n, st_version s = Some n ->
       (forall w, In (n, w) versions -> c_version c = w) /\ ((forall w, ~ In (n, w) versions) -> c_version c = V1)) /\
    (fl_block f = None -> forall b, st_block s = Some b -> c_block_size c = b).
Proof.
  intros Hp Hs f. destruct (path_used _ _ _ _ text _ _ _ _ s Hp (or_introl Hs) f) as (o & E).
  do 2 eexists. split; [exact E|]. unfold create_with, used_version, used_method, used_block;
    cbn [c_version c_default c_block_size c_listfile]. split; [|split].
  - intros -> v ->. split; intros; [now apply method_named_spec|now rewrite method_named_other].
  - intros -> n ->. split; intros; [now apply version_of_spec|now apply version_of_other].
  - now intros -> b ->.
Qed.

(** ** What is shown is used, whatever is in the file or left out of it *)
Theorem shown_used over out fs m n b t f fs' c o : run over out Show fs = (fs, Shown m n b t) -> run over out (Create f) fs = (fs', Creates c o) ->
  (fl_block f = None -> c_block_size c = b) /\ (fl_version f = None -> forall w, In (n, w) versions -> c_version c = w) /\
  (fl_compression f = None -> forall x, In (m, x) methods -> c_default c = x).
Proof.
  unfold storm. destruct (load_config decode home fs over) as [s|]; [|discriminate].
  destruct (config_path home fs over) as [p|]; [|discriminate]. intros [= <- <- <- <-] [= <- <- <-].
  unfold create_with, used_version, used_method, used_block; cbn [c_version c_default c_block_size]. split; [|split].
  - intros ->. now destruct (st_block s).
  - intros ->. destruct (st_version s) as [v|]; cbn [or_else]; intros w H; [now apply version_of_spec|exact (version_of_spec _ _ H)].
  - intros ->. destruct (st_compression s) as [v|]; cbn [or_else]; intros x H; [now apply method_named_spec|exact (method_named_spec _ _ H)].
Qed.

(** ** What goes wrong *)
Theorem output_ignored over out fs fs' : run over out (SetKey (lit "default_output") (lit "json")) fs = (fs', Done) ->
  (exists m n b, run over None Show fs' = (fs', Shown m n b (lit "json"))) /\
  forall f, exists c, run over None (Create f) fs' = (fs', Creates c Text).
Proof.
  intros H. split.
  - destruct (set_shown _ _ _ _ text _ _ _ _ _ _ H None) as (m & n & b & t & m' & n' & b' & t' & _ & Hs & _ & _ & _ & Ht).
    change (bytes_eqb (lit "default_output") (lit "default_output")) with true in Ht. cbv iota in Ht. subst t'. eauto.
  - intros f. destruct (set_effect _ _ _ _ text _ _ _ _ _ _ _ H
      (set_output (lit "json") ltac:(cbn; tauto)) None f) as (c & o & Hc & E).
    change (overridden (lit "default_output") f) with true in E. cbv iota in E.
    assert (o = Text) as ->; [|eauto]. unfold storm in Hc.
    destruct (load_config decode home fs over); [|discriminate]. now injection Hc as _ <-.
Qed.

Theorem malformed_stuck over out cmd fs p d : over = Some p -> fs p = Some d -> decode d = None ->
  run over out cmd fs = (fs, Failed).
Proof. intros -> Hd Hn. unfold storm, load_config, load_from. now rewrite Hd, Hn. Qed.

Theorem block_unchecked (L : codecs) (md5 : bytes -> bytes) out fs p s :
  fs p = Some (encode s) -> st_block s = Some 64 ->
  exists c o, run (Some p) out (Create (mkFlags (Some V1) (Some ChNone) None true None)) fs = (fs, Creates c o) /\
    build L md5 c [] = Panic.
Proof.
  intros Hp Hb. do 2 eexists. split.
  - unfold storm, load_config, load_from. rewrite Hp, text. reflexivity.
  - unfold create_with, used_version, used_method, used_block; cbn [fl_version fl_compression fl_block fl_no_listfile].
    rewrite Hb. reflexivity.
Qed.

Theorem version_shown_wrongly out fs p s :
  fs p = Some (encode s) -> st_version s = Some 9 ->
  (exists m b t, run (Some p) out Show fs = (fs, Shown m 9 b t)) /\
  exists c o, run (Some p) out (Create (mkFlags None None None false None)) fs = (fs, Creates c o) /\ c_version c = V1.
Proof.
  intros Hp Hv. unfold storm, load_config, load_from, config_path. rewrite Hp, text, Hv. cbn [or_else].
  split; [eauto|]. do 2 eexists. split; [reflexivity|]. unfold create_with, used_version; cbn [fl_version c_version].
  now rewrite Hv.
Qed.
End Config2.
