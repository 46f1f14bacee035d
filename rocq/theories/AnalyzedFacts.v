(** * What a printed analysis says (C79) *)
From Verif Require Import Bytes Header Compress BlockTable Archive Cli CliList CliConfig CliVerbose Percent CliInfo CliVerify CliAnalyze CliAnalyzed
  SpecReport SpecCliList SpecPercent SpecVerifyText SpecAnalyze SpecAnalyzed PercentFacts VerboseFacts ReportFacts CliListFacts AnalyzeFacts.
From Coq Require Import Permutation Sorted.
Open Scope N_scope.

(** ** Sorting *)
Section Sorting.
Context {A : Type} (f : A -> N).
Definition down (x y : A) : Prop := f y <= f x.
Lemma put_in_perm x l : Permutation (put_in f x l) (x :: l).
Proof.
  induction l as [|y t IH]; cbn [put_in]; [reflexivity|]. destruct (f y <=? f x); [reflexivity|].
  rewrite IH. apply perm_swap.
Qed.
Lemma largest_perm l : Permutation (largest_first f l) l.
Proof. induction l as [|x l IH]; [reflexivity|]. cbn [largest_first fold_right]. rewrite put_in_perm. now constructor. Qed.
Lemma put_in_sorted x l : StronglySorted down l -> StronglySorted down (put_in f x l).
Proof.
  induction 1 as [|y t S IH F]; cbn [put_in]; [repeat constructor|]. destruct (N.leb_spec (f y) (f x)).
  - constructor; [now constructor|]. constructor; [assumption|]. eapply Forall_impl; [|exact F]. unfold down. intros; lia.
  - constructor; [assumption|]. apply Forall_forall. intros z Z. apply (Permutation_in _ (put_in_perm x t)) in Z.
    destruct Z as [<-|Z]; [unfold down; lia|]. rewrite Forall_forall in F. now apply F.
Qed.
Lemma largest_sorted l : StronglySorted down (largest_first f l).
Proof. induction l as [|x l IH]; [constructor|]. cbn [largest_first fold_right]. now apply put_in_sorted. Qed.
End Sorting.

Lemma sorted_over {A B} (R : A -> B -> Prop) (P : B -> B -> Prop) (Q : A -> A -> Prop) xs ys :
  (forall x x' y y', R x y -> R x' y' -> P y y' -> Q x x') -> Forall2 R xs ys -> StronglySorted P ys -> StronglySorted Q xs.
Proof.
  intros H F. induction F as [|x y xs ys Rxy F IH]; intros S; [constructor|]. inversion S as [|? ? S' G]; subst.
  constructor; [now apply IH|]. clear IH S S'. induction F; constructor; inversion G; subst; eauto.
Qed.

(** ** Methods *)
Definition flagged (m : method) : Prop := exists x, x < 256 /\ m = from_flags x.
Lemma multiple_is x f : from_flags x = MMultiple f -> f = x.
Proof.
  unfold from_flags. intros H. do 10 (match type of H with (if ?c then _ else _) = _ => destruct c; [discriminate H|] end). congruence.
Qed.
Lemma flagged_called m : flagged m -> called m (method_name m).
Proof.
  intros (x & X & ->). destruct (from_flags x) eqn:E; try reflexivity. apply multiple_is in E. subst flags.
  cbn [called method_name]. exists (hex_digits 2 x). split; [reflexivity|]. split; [|reflexivity].
  rewrite hex_digits_value. change (16 ^ N.of_nat 2) with 256. rewrite N.mod_small by exact X. reflexivity.
Qed.
Lemma same_is m m' : same_method m m' = true <-> m = m'.
Proof. destruct m, m'; cbn; split; try congruence; intros H; [apply N.eqb_eq in H; now subst|injection H as ->; apply N.eqb_refl]. Qed.
Lemma flagged_apart m m' : flagged m -> flagged m' -> method_name m = method_name m' -> m = m'.
Proof. intros (x & X & ->) (y & Y & ->) E. now rewrite (names_apart _ _ X Y E). Qed.
Lemma supported_is m : supported m = unpacked m.
Proof. now destruct m. Qed.
Lemma marked m : mark (supported_name (method_name m)) = sign (unpacked m).
Proof. rewrite names_agree, supported_is. reflexivity. Qed.
Lemma methods_flagged hs h : In h (methods_of hs) -> flagged (snd (fst h)).
Proof.
  unfold methods_of. rewrite in_map_iff. intros (x & <- & _). cbn [fst snd]. eexists. split; [|reflexivity].
  apply N.mod_lt. discriminate.
Qed.

(** ** Tallies *)
Definition all_flagged (hs : list (bytes * method * finfo)) : Prop := forall h, In h hs -> flagged (snd (fst h)).
Definition names_in (hs : list (bytes * method * finfo)) : list bytes := map (fun h => method_name (snd (fst h))) hs.

Lemma often_times m hs : flagged m -> all_flagged hs -> times (method_name m) (names_in hs) (how_often (same_method m) hs).
Proof.
  intros M. induction hs as [|h hs IH]; intros F; [constructor|]. unfold how_often in *. cbn [names_in map filter].
  assert (F' : all_flagged hs) by (intros x X; apply F; now right).
  destruct (same_method m (snd (fst h))) eqn:E.
  - apply same_is in E. rewrite lenN_cons, <- E.
    match goal with |- times _ _ ?n => replace n with (lenN (filter (fun h0 => same_method m (snd (fst h0))) hs) + 1) by lia end.
    constructor. now apply IH.
  - constructor; [|now apply IH]. intros X. apply flagged_apart in X; [|apply F; now left|assumption].
    symmetry in X. apply same_is in X. congruence.
Qed.

Lemma forall2_ex {A B} (R : A -> B -> Prop) ys : (forall y, In y ys -> exists x, R x y) -> exists xs, Forall2 R xs ys.
Proof.
  induction ys as [|y ys IH]; intros H; [now exists []|]. destruct (H y (or_introl eq_refl)) as [x X].
  destruct IH as [xs F]; [intros; apply H; now right|]. exists (x :: xs). now constructor.
Qed.
Lemma forall2_in_l {A B} (R : A -> B -> Prop) xs ys x : Forall2 R xs ys -> In x xs -> exists y, In y ys /\ R x y.
Proof. induction 1 as [|a b xs ys H F IH]; [intros []|]. intros [<-|X]; [exists b; split; [now left|assumption]|]. destruct (IH X) as (y & Y & Z). exists y. split; [now right|assumption]. Qed.
Lemma forall2_in_r {A B} (R : A -> B -> Prop) xs ys y : Forall2 R xs ys -> In y ys -> exists x, In x xs /\ R x y.
Proof. induction 1 as [|a b xs ys H F IH]; [intros []|]. intros [<-|X]; [exists a; split; [now left|assumption]|]. destruct (IH X) as (z & Y & Z). exists z. split; [now right|assumption]. Qed.
Lemma forall2_map_r {A B C} (g : A -> B) (R : A -> C -> Prop) (h : C -> B) xs ys :
  (forall x y, R x y -> g x = h y) -> Forall2 R xs ys -> map g xs = map h ys.
Proof. intros H. induction 1; cbn [map]; f_equal; auto. Qed.
Lemma nodup_map {A B} (g : A -> B) l : NoDup (map g l) -> NoDup l.
Proof. apply NoDup_map_inv. Qed.

Definition stands (hs : list (bytes * method * finfo)) (m : method) (x : bytes * N) : Prop :=
  flagged m /\ fst x = method_name m /\ snd x = how_often (same_method m) hs.
Lemma tally_methods hs t t' : all_flagged hs -> tally (names_in hs) t -> Permutation t' t ->
  exists ms, NoDup ms /\ (forall m, In m ms <-> exists h, In h hs /\ snd (fst h) = m) /\ Forall2 (stands hs) ms t'.
Proof.
  intros F (N & T) P.
  assert (E : forall x, In x t' -> exists m, stands hs m x /\ exists h, In h hs /\ snd (fst h) = m).
  { intros [k n] X. apply (Permutation_in _ P) in X. pose proof (proj1 (T _ _) X) as (T1 & T2).
    assert (K : In k (names_in hs)).
    { clear - T1 T2. induction T1; [congruence|now left|]. right. auto. }
    unfold names_in in K. apply in_map_iff in K. destruct K as (h & <- & H). exists (snd (fst h)). split; [|eauto].
    split; [now apply F|]. split; [reflexivity|]. cbn [snd]. eapply times_fun; [exact T1|]. apply often_times; [now apply F|assumption]. }
  destruct (forall2_ex (fun m x => stands hs m x /\ exists h, In h hs /\ snd (fst h) = m) t' E) as (ms & G). clear E.
  exists ms. split; [|split].
  - apply (nodup_map method_name). rewrite (forall2_map_r method_name _ fst ms t' (fun m x H => eq_sym (proj1 (proj2 (proj1 H)))) G).
    eapply Permutation_NoDup; [|exact N]. symmetry. now apply Permutation_map.
  - intros m. split; [intros I; destruct (forall2_in_l _ _ _ _ G I) as (x & _ & _ & H); exact H|].
    intros (h & H & <-). assert (O : how_often (same_method (snd (fst h))) hs <> 0).
    { unfold how_often. assert (In h (filter (fun h0 => same_method (snd (fst h)) (snd (fst h0))) hs)) by (apply filter_In; split; [assumption|now apply same_is]).
      destruct (filter _ hs) as [|y l]; [destruct H0|]. rewrite lenN_cons. lia. }
    assert (X : In (method_name (snd (fst h)), how_often (same_method (snd (fst h))) hs) t').
    { apply (Permutation_in _ (Permutation_sym P)), T. split; [|assumption]. apply often_times; [now apply F|assumption]. }
    destruct (forall2_in_r _ _ _ _ G X) as (m & M & (S1 & S2 & _) & _). cbn [fst] in S2.
    apply flagged_apart in S2; [|now apply F|assumption]. now rewrite S2.
  - clear - G. induction G as [|? ? ? ? [? _] ? ?]; constructor; assumption.
Qed.

(** The sum of a tally *)
Lemma fold_tally keys : tally keys (fold_left (fun m k => bump k m) keys []).
Proof.
  induction keys as [|k keys IH] using rev_ind; [apply tally_nil|]. rewrite fold_left_app. cbn [fold_left]. now apply tally_snoc.
Qed.
Lemma sum_bump k m : sum_of (bump k m) = sum_of m + 1.
Proof.
  induction m as [|[k' n] t IH]; [reflexivity|]. cbn [bump]. destruct (bytes_eqb k k'); unfold sum_of in *; cbn [fold_right snd]; lia.
Qed.
Lemma sum_perm x y : Permutation x y -> sum_of x = sum_of y.
Proof. unfold sum_of. induction 1; cbn [fold_right]; lia. Qed.
Lemma tally_perm keys t t' : tally keys t -> tally keys t' -> Permutation t t'.
Proof.
  intros (N & T) (N' & T'). apply NoDup_Permutation; [now apply (nodup_map fst)|now apply (nodup_map fst)|].
  intros [k n]. now rewrite T, T'.
Qed.
Lemma sum_tally keys t : tally keys t -> sum_of t = lenN keys.
Proof.
  intros H. rewrite (sum_perm _ _ (tally_perm _ _ _ H (fold_tally keys))). clear.
  induction keys as [|k keys IH] using rev_ind; [reflexivity|]. rewrite fold_left_app. cbn [fold_left].
  rewrite sum_bump, IH, lenN_app, lenN_cons. change (lenN (@nil bytes)) with 0. lia.
Qed.

(** ** Rows *)
Lemma share_ratio n s : 0 < s -> share n s = ratio n s.
Proof. intros H. unfold share, ratio. apply N.ltb_lt in H. now rewrite H. Qed.
Lemma often_le P hs : how_often P hs <= lenN hs.
Proof.
  unfold how_often. induction hs as [|h hs IH]; [reflexivity|]. cbn [filter]. destruct (P _); rewrite ?lenN_cons; lia.
Qed.
Lemma decimal_small n : n < 2 ^ 64 -> shown n (decimal n).
Proof. apply decimal_shown. Qed.
Lemma ratio_shown c s : shown (ratio c s) (decimal (ratio c s)).
Proof. apply decimal_shown, ratio_lt. Qed.

Lemma row_right_method before w1 w2 total hs m x : 0 < total -> total < 2 ^ 45 -> lenN hs < 2 ^ 45 -> stands hs m x ->
  method_row before w1 w2 total (how_often (same_method m) hs) m (method_line before w1 w2 total x).
Proof.
  intros T0 T1 H (F & N & C). pose proof (often_le (same_method m) hs) as O. unfold method_line. rewrite N, C, marked.
  set (n := how_often _ _) in *. rewrite share_ratio by exact T0.
  assert (n < 2 ^ 45) by lia. clearbody n. clear O H.
  exists (method_name m), (pad_right w1 (method_name m)), (decimal n), (pad_left w2 (decimal n)), (ratio n total),
    (decimal (ratio n total)), (pad_left 3 (decimal (ratio n total))).
  split; [now apply flagged_called|]. split; [apply padded_right|]. split; [apply decimal_small; lia|]. split; [apply padded_left|].
  split; [apply ratio_right; lia|]. split; [apply ratio_shown|]. split; [apply padded_left|reflexivity].
Qed.
Lemma forall2_map {A B C} (R : A -> C -> Prop) (g : B -> C) (S : A -> B -> Prop) xs ys :
  (forall x y, S x y -> R x (g y)) -> Forall2 S xs ys -> Forall2 R xs (map g ys).
Proof. intros H. induction 1; cbn [map]; constructor; auto. Qed.

Lemma rows_right_methods before w1 w2 total hs t t0 : 0 < total -> total < 2 ^ 45 -> lenN hs < 2 ^ 45 ->
  all_flagged hs -> tally (names_in hs) t -> Permutation t0 t ->
  method_rows before w1 w2 total hs (map (method_line before w1 w2 total) (largest_first snd t0)).
Proof.
  intros T0 T1 H F T P. destruct (tally_methods hs t (largest_first snd t0) F T) as (ms & N & I & G).
  { now rewrite largest_perm. }
  exists ms. split; [assumption|]. split; [assumption|]. split.
  - eapply sorted_over; [|exact G|apply (largest_sorted snd)]. intros m m' x x' (_ & _ & S1) (_ & _ & S2) D. unfold down in D. now rewrite <- S1, <- S2.
  - eapply forall2_map; [|exact G]. intros m x S. now apply row_right_method.
Qed.

Section Facts.
Variable L : codecs.
Variable lower : bytes -> bytes.
Variable walk : map_of -> forall A : Type, list A -> list A.
Variable as_json : report -> bytes.
Hypothesis walk_perm : forall k A l, Permutation (walk k A l) l.

Notation ext := (file_extension lower).

Lemma meth_names hs : map (fun h : bytes * finfo => method_name (from_flags (fi_flags (snd h) mod 256))) hs = names_in (methods_of hs).
Proof. unfold names_in, methods_of. rewrite map_map. reflexivity. Qed.
Lemma all_methods_flagged hs : all_flagged (methods_of hs).
Proof. intros h. apply methods_flagged. Qed.
Lemma len_methods hs : lenN (methods_of hs) = lenN hs.
Proof. unfold methods_of, lenN. now rewrite map_length. Qed.
Lemma filter_map_comm {A B} (g : A -> B) p l : filter p (map g l) = map g (filter (fun x => p (g x)) l).
Proof. induction l as [|x l IH]; [reflexivity|]. cbn [map filter]. destruct (p (g x)); cbn [map]; now rewrite IH. Qed.

(** The report in terms of the methods *)
Lemma counts_methods by_ext hs r : counts lower by_ext hs r ->
  let ms := methods_of hs in
  tally (names_in ms) (r_methods r) /\
  (if by_ext then tally2 (map (fun h => (ext (fst (fst h)), method_name (snd (fst h)))) ms) (r_extensions r) else r_extensions r = []) /\
  r_unsupported r = map (fun h => (fst (fst h), method_name (snd (fst h)))) (filter (fun h => negb (unpacked (snd (fst h)))) ms) /\
  r_csize r = total (fun h => fi_csize (snd h)) ms /\ r_size r = total (fun h => fi_size (snd h)) ms.
Proof.
  intros (H1 & H2 & H3 & H4 & H5) ms. subst ms. unfold methods_of. split; [now rewrite <- meth_names|]. split.
  - destruct by_ext; [|exact H2]. now rewrite map_map.
  - split; [|split].
    + rewrite H3, filter_map_comm, map_map. cbn [fst snd].
      rewrite (filter_ext _ (fun h : bytes * finfo => negb (unpacked (from_flags (fi_flags (snd h) mod 256))))); [reflexivity|].
      intros h. now rewrite supported_is.
    + rewrite H4. unfold total. clear. induction hs as [|h hs IH]; [reflexivity|]. cbn [map fold_right snd]. now rewrite IH.
    + rewrite H5. unfold total. clear. induction hs as [|h hs IH]; [reflexivity|]. cbn [map fold_right snd]. now rewrite IH.
Qed.

(** ** The loop *)
Lemma loop_same text detailed only stats by_ext a es : forall r,
  snd (analyze_loop_told lower text detailed only stats by_ext a es r) = analyze_loop lower a by_ext es r.
Proof.
  induction es as [|e t IH]; intros r; cbn [analyze_loop_told analyze_loop]; [reflexivity|].
  destruct (find_file a (fe_name e)) as [[fi|]| |]; cbn [bind]; try reflexivity; [|apply IH].
  destruct (add64 (r_csize r) (fi_csize fi)) as [c| |]; cbn [bind]; try reflexivity.
  destruct (add64 (r_size r) (fi_size fi)) as [s| |]; cbn [bind]; try reflexivity.
  rewrite <- IH. now destruct (analyze_loop_told _ _ _ _ _ _ _ t _).
Qed.
Lemma loop_lines text detailed only stats by_ext a es hs : found_in a es hs -> forall r r',
  analyze_loop lower a by_ext es r = Ok r' ->
  fst (analyze_loop_told lower text detailed only stats by_ext a es r) =
  if text && detailed
  then map (fun h => detail_line stats (fst (fst h)) (snd h) (snd (fst h)))
           (filter (fun h => negb only || negb (unpacked (snd (fst h)))) (methods_of hs))
  else [].
Proof.
  induction 1 as [|e t fi hs E H IH|e t hs E H IH]; intros r r' Q; cbn [analyze_loop analyze_loop_told] in *.
  - now destruct (text && detailed).
  - rewrite E in Q |- *. cbn [bind] in Q. destruct (add64 (r_csize r) (fi_csize fi)) as [c| |]; try discriminate.
    cbn [bind] in *. destruct (add64 (r_size r) (fi_size fi)) as [s| |]; try discriminate. cbn [bind] in *.
    specialize (IH _ _ Q). destruct (analyze_loop_told _ _ _ _ _ _ _ t _) as [ls o]. cbn [fst] in *. subst ls.
    cbn [methods_of map filter fst snd]. fold (methods_of hs). rewrite supported_is.
    destruct text, detailed; try reflexivity. cbn [andb]. now destruct (negb only || negb _).
  - rewrite E in Q |- *. cbn [bind] in Q. eauto.
Qed.

(** ** The sections *)
Lemma total_ge {A} (f : A -> N) l x : In x l -> f x <= total f l.
Proof. unfold total. induction l as [|y l IH]; [intros []|]. intros [<-|X]; cbn [fold_right]; [lia|]. specialize (IH X). lia. Qed.

Lemma details_right detailed only stats ms : all_flagged ms ->
  total (fun h => fi_size (snd h)) ms < 2 ^ 45 -> total (fun h => fi_csize (snd h)) ms < 2 ^ 45 ->
  details_say detailed only stats ms
    (if detailed then map (fun h => detail_line stats (fst (fst h)) (snd h) (snd (fst h))) (filter (fun h => negb only || negb (unpacked (snd (fst h)))) ms) else []).
Proof.
  intros F S C. unfold details_say. destruct detailed; [|reflexivity].
  assert (X : forall h, In h ms -> detail_says stats h (detail_line stats (fst (fst h)) (snd h) (snd (fst h)))).
  { intros h I. exists (method_name (snd (fst h))). split; [now apply flagged_called, F|].
    pose proof (total_ge (fun h : bytes * method * finfo => fi_size (snd h)) _ _ I). pose proof (total_ge (fun h : bytes * method * finfo => fi_csize (snd h)) _ _ I).
    cbn beta in *. unfold detail_line. rewrite supported_is. destruct stats.
    - exists (decimal (fi_size (snd h))), (decimal (fi_csize (snd h))), (ratio (fi_csize (snd h)) (fi_size (snd h))), (decimal (ratio (fi_csize (snd h)) (fi_size (snd h)))).
      split; [apply decimal_small; lia|]. split; [apply decimal_small; lia|]. split; [apply ratio_right; lia|]. split; [apply ratio_shown|].
      reflexivity.
    - now rewrite app_nil_r. }
  assert (Y : forall h, In h (filter (fun h => negb only || negb (unpacked (snd (fst h)))) ms) -> In h ms) by (intros h I; apply filter_In in I; tauto).
  induction (filter _ ms) as [|h l IH]; [constructor|]. cbn [map]. constructor; [apply X, Y; now left|]. apply IH. intros; apply Y. now right.
Qed.

Lemma summary_right stats by_ext hs r : counts lower by_ext hs r -> 0 < r_files r -> r_files r < 2 ^ 45 -> lenN hs < 2 ^ 45 ->
  r_size r < 2 ^ 45 -> r_csize r < 2 ^ 45 ->
  summary_says stats (r_files r) (methods_of hs) (summary_lines walk stats r).
Proof.
  intros K F0 F1 H S C. destruct (counts_methods _ _ _ K) as (T & _ & _ & C1 & C2).
  exists (map (method_line [] 20 6 (r_files r)) (largest_first snd (walk Summary _ (r_methods r)))). split.
  - apply (rows_right_methods [] 20 6 (r_files r) (methods_of hs) (r_methods r)); auto; [now rewrite len_methods|apply all_methods_flagged].
  - unfold summary_lines, banner. destruct stats.
    + exists (decimal (r_files r)), (decimal (r_size r)), (decimal (r_csize r)), (ratio (r_csize r) (r_size r)), (decimal (ratio (r_csize r) (r_size r))).
      cbn zeta. rewrite <- C1, <- C2. split; [apply decimal_small; lia|]. split; [apply decimal_small; lia|]. split; [apply decimal_small; lia|].
      split; [apply ratio_right; lia|]. split; [apply ratio_shown|]. reflexivity.
    + now rewrite app_nil_r.
Qed.

Lemma eqb_sym a b : bytes_eqb a b = bytes_eqb b a.
Proof.
  destruct (bytes_eqb a b) eqn:E.
  - apply bytes_eqb_eq in E. subst. symmetry. apply bytes_eqb_refl.
  - destruct (bytes_eqb b a) eqn:F; [|reflexivity]. apply bytes_eqb_eq in F. subst. now rewrite bytes_eqb_refl in E.
Qed.
Lemma with_ext_tally ms t e m : tally2 (map (fun h => (ext (fst (fst h)), method_name (snd (fst h)))) ms) t -> In (e, m) t ->
  tally (names_in (with_ext ext ms e)) m.
Proof.
  intros (_ & T & _) I. specialize (T _ _ I). rewrite filter_map_comm, map_map in T. cbn [fst snd] in T. unfold names_in, with_ext.
  rewrite (filter_ext _ (fun h : bytes * method * finfo => bytes_eqb e (ext (fst (fst h))))); [exact T|]. intros h. apply eqb_sym.
Qed.
Lemma with_ext_len ms e : lenN (with_ext ext ms e) <= lenN ms.
Proof. unfold with_ext. induction ms as [|h ms IH]; [reflexivity|]. cbn [filter]. destruct (bytes_eqb _ _); rewrite ?lenN_cons; lia. Qed.
Lemma names_len hs : lenN (names_in hs) = lenN hs.
Proof. unfold names_in, lenN. now rewrite map_length. Qed.
Lemma forall2_self {A B} (R : A -> B -> Prop) (g : A -> B) l : (forall x, In x l -> R x (g x)) -> Forall2 R l (map g l).
Proof. induction l as [|x l IH]; intros H; [constructor|]. cbn [map]. constructor; [apply H; now left|]. apply IH. intros; apply H. now right. Qed.
Lemma forall2_fst {A B C} (R : A -> C -> Prop) (g : A * B -> C) l : (forall x, In x l -> R (fst x) (g x)) -> Forall2 R (map fst l) (map g l).
Proof. induction l as [|x l IH]; intros H; [constructor|]. cbn [map]. constructor; [apply H; now left|]. apply IH. intros; apply H. now right. Qed.
Lemma sorted_map {A B} (g : A -> B) (P : A -> A -> Prop) (Q : B -> B -> Prop) l :
  (forall x y, In x l -> In y l -> P x y -> Q (g x) (g y)) -> StronglySorted P l -> StronglySorted Q (map g l).
Proof.
  intros H S. induction S as [|x l S IH F]; [constructor|]. cbn [map]. constructor.
  - apply IH. intros; apply H; auto; now right.
  - apply Forall_forall. intros b B'. apply in_map_iff in B'. destruct B' as (y & <- & Y). rewrite Forall_forall in F. apply H; auto; [now left|now right].
Qed.

Lemma extensions_right hs r : counts lower true hs r -> lenN hs < 2 ^ 45 ->
  extensions_say ext (methods_of hs) (match r_extensions r with [] => [] | _ => extension_lines walk r end).
Proof.
  intros K H. destruct (counts_methods _ _ _ K) as (_ & T & _). cbn beta iota in T. pose proof T as (ND & TT & I).
  destruct (r_extensions r) as [|x0 xs0] eqn:E.
  - left. split; [|reflexivity]. destruct (methods_of hs) as [|h l]; [reflexivity|]. exfalso.
    assert (X : In (ext (fst (fst h))) (map fst (map (fun h => (ext (fst (fst h)), method_name (snd (fst h)))) (h :: l)))) by (left; reflexivity).
    now apply I in X.
  - right. assert (NX : r_extensions r <> []) by congruence. rewrite <- E in *. clear x0 xs0 E. split.
    { intros X. rewrite X in I. cbn in I. destruct (r_extensions r) as [|[e m] t] eqn:EE; [now apply NX|]. specialize (I e). apply I. now left. }
    set (t := r_extensions r) in *. set (l := largest_first (fun x : bytes * list (bytes * N) => sum_of (snd x)) (walk Extensions _ t)).
    assert (P : Permutation l t) by (unfold l; now rewrite largest_perm).
    assert (IN : forall x, In x l -> In x t) by (intros x; apply Permutation_in, P).
    assert (SUM : forall x, In x l -> sum_of (snd x) = lenN (with_ext ext (methods_of hs) (fst x))).
    { intros [e m] X. cbn [fst snd]. rewrite (sum_tally _ _ (with_ext_tally _ _ _ _ T (IN _ X))). apply names_len. }
    exists (map fst l), (map (fun x => [[]; fst x ++ lit " (" ++ decimal (sum_of (snd x)) ++ lit " files):"] ++
                     map (method_line (lit "  ") 18 4 (sum_of (snd x))) (largest_first snd (walk (Extension (fst x)) _ (snd x)))) l).
    split; [|split; [|split; [|split]]].
    + eapply Permutation_NoDup; [|exact ND]. symmetry. now apply Permutation_map.
    + intros e. assert (Q : In e (map fst l) <-> In e (map fst t)).
      { split; apply Permutation_in; [|symmetry]; now apply Permutation_map. }
      rewrite Q, <- I, map_map. cbn [fst]. rewrite in_map_iff. split; intros (h & X1 & X2); now exists h.
    + apply (sorted_map _ (down (fun x : bytes * list (bytes * N) => sum_of (snd x)))); [|apply largest_sorted].
      intros x y X Y D. unfold down in D. now rewrite <- !SUM.
    + apply forall2_fst. intros [e m] X. pose proof (SUM _ X) as Q. cbn [fst snd] in *. unfold group_says. cbn zeta.
      pose proof (with_ext_tally _ _ _ _ T (IN _ X)) as T'.
      assert (NZ : 0 < sum_of m).
      { destruct (with_ext ext (methods_of hs) e) eqn:W; [|rewrite lenN_cons in Q; lia]. exfalso.
        assert (Z : In e (map fst t)) by (apply in_map_iff; exists (e, m); split; [reflexivity|apply IN, X]).
        apply I in Z. rewrite map_map in Z. apply in_map_iff in Z. destruct Z as (h & Z & Z').
        assert (V : In h (with_ext ext (methods_of hs) e)) by (apply filter_In; split; [assumption|]; cbn [fst] in Z; rewrite Z; apply bytes_eqb_refl).
        now rewrite W in V. }
      pose proof (with_ext_len (methods_of hs) e) as W. rewrite len_methods in W.
      exists (decimal (sum_of m)), (map (method_line (lit "  ") 18 4 (sum_of m)) (largest_first snd (walk (Extension e) _ m))).
      split; [rewrite <- Q; apply decimal_small; lia|]. split; [|reflexivity]. rewrite <- Q.
      apply (rows_right_methods (lit "  ") 18 4 (sum_of m) (with_ext ext (methods_of hs) e) m); auto; [lia|lia|].
      intros h V. apply filter_In in V. apply (all_methods_flagged hs). tauto.
    + unfold extension_lines, banner. fold t. fold l. now rewrite <- flat_map_concat_map.
Qed.

Lemma unsupported_right only by_ext hs r : counts lower by_ext hs r -> 0 < r_files r -> r_files r < 2 ^ 45 -> lenN hs < 2 ^ 45 ->
  unsupported_say only (r_files r) (methods_of hs)
    (match r_unsupported r with
     | [] => if only then [] else [[]; TICK ++ lit " All compression methods in this archive are supported!"]
     | _ => unsupported_lines walk only r
     end).
Proof.
  intros K F0 F1 H. destruct (counts_methods _ _ _ K) as (_ & _ & U & _). unfold unsupported_say. cbn zeta.
  set (bad := filter (fun h : bytes * method * finfo => negb (unpacked (snd (fst h)))) (methods_of hs)) in *.
  assert (B : lenN bad <= lenN hs).
  { rewrite <- len_methods. unfold bad. generalize (methods_of hs). intros l. induction l as [|h l IH]; [reflexivity|].
    cbn [filter]. destruct (negb _); rewrite ?lenN_cons; lia. }
  assert (BF : all_flagged bad) by (intros h V; apply filter_In in V; apply (all_methods_flagged hs); tauto).
  destruct (r_unsupported r) as [|x0 xs0] eqn:E.
  - left. split; [now destruct bad|reflexivity].
  - right. split; [intros X; rewrite X in U; discriminate U|]. rewrite <- E in *. clear x0 xs0 E.
    assert (LU : lenN (r_unsupported r) = lenN bad) by (rewrite U; unfold lenN; now rewrite map_length).
    assert (SN : map snd (r_unsupported r) = names_in bad) by (rewrite U, map_map; reflexivity).
    destruct (tally_methods bad (fold_left (fun m k => bump k m) (map snd (r_unsupported r)) [])
      (walk Breakdown _ (fold_left (fun m k => bump k m) (map snd (r_unsupported r)) [])) BF) as (ms & M1 & M2 & M3).
    { rewrite SN. apply fold_tally. }
    { apply walk_perm. }
    exists (decimal (lenN bad)), (ratio (lenN bad) (r_files r)), (decimal (ratio (lenN bad) (r_files r))), (pad_left 3 (decimal (ratio (lenN bad) (r_files r)))),
      (if only then map (fun x => CROSS ++ lit " " ++ fst x ++ lit " " ++ snd x) (r_unsupported r) else []), ms,
      (map (fun x => lit "  " ++ fst x ++ lit " - " ++ decimal (snd x) ++ lit " files")
      (walk Breakdown _ (fold_left (fun m k => bump k m) (map snd (r_unsupported r)) []))).
    split; [apply decimal_small; lia|]. split; [apply ratio_right; lia|]. split; [apply ratio_shown|]. split; [apply padded_left|]. split.
    + destruct only; [|reflexivity]. rewrite U, map_map. apply forall2_self. intros h V. cbn [fst snd].
      exists (method_name (snd (fst h))). split; [now apply flagged_called, BF|reflexivity].
    + split; [exact M1|]. split; [exact M2|]. split.
      * eapply forall2_map; [|exact M3]. intros m [k n] (S1 & S2 & S3). cbn [fst snd] in *. subst k n.
        exists (method_name m), (decimal (how_often (same_method m) bad)). split; [now apply flagged_called|].
        pose proof (often_le (same_method m) bad) as OL. split; [apply decimal_small; lia|reflexivity].
      * unfold unsupported_lines, banner. rewrite LU, share_ratio by exact F0. reflexivity.
Qed.

Lemma csv_right by_ext hs r : counts lower by_ext hs r -> lenN hs < 2 ^ 45 -> analysis_rows (methods_of hs) (analysis_csv walk r).
Proof.
  intros K H. destruct (counts_methods _ _ _ K) as (T & _).
  destruct (tally_methods (methods_of hs) (r_methods r) (walk Summary _ (r_methods r)) (all_methods_flagged hs) T (walk_perm _ _ _)) as (ms & M1 & M2 & M3).
  eexists ms, _. split; [exact M1|]. split; [exact M2|]. split; [|reflexivity].
  eapply forall2_map; [|exact M3]. intros m [k n] (S1 & S2 & S3). cbn [fst snd] in *. subst k n.
  exists (method_name m), (decimal (how_often (same_method m) (methods_of hs))). split; [now apply flagged_called|].
  pose proof (often_le (same_method m) (methods_of hs)) as O. rewrite len_methods in O. split; [apply decimal_small; lia|].
  rewrite names_agree, supported_is. now destruct (unpacked m).
Qed.

(** ** All of it *)
Lemma found_len a es hs : found_in a es hs -> lenN hs <= lenN es.
Proof. unfold lenN. induction 1; cbn [length]; lia. Qed.

Theorem analysis_right detailed by_ext only stats path file a es hs :
  open_archive L file = Ok a -> list_with_hashes L a = Ok es -> es <> [] -> found_in a es hs -> lenN es < 2 ^ 45 ->
  total (fun h => fi_size (snd h)) hs < 2 ^ 45 -> total (fun h => fi_csize (snd h)) hs < 2 ^ 45 ->
  exists ls, analyze_told L lower walk as_json Text false detailed by_ext only stats path file = (ls, Ok tt) /\
    analysis_says ext detailed by_ext only stats path (lenN es) (methods_of hs) ls.
Proof.
  intros O Q NE F S1 S2 S3. unfold analyze_told. rewrite O. cbn [bind]. rewrite Q. cbn [bind].
  pose proof (found_len _ _ _ F) as FL.
  destruct (loop_ends lower a by_ext es hs F (mkReport [] [] [] 0 0 (lenN es))) as (r & R); [cbn [r_csize]; unfold M64; lia|cbn [r_size]; unfold M64; lia|].
  pose proof (loop_lines true detailed only stats by_ext a es hs F _ _ R) as LL. cbn [andb] in LL.
  pose proof (loop_same true detailed only stats by_ext a es (mkReport [] [] [] 0 0 (lenN es))) as LS. rewrite R in LS.
  destruct (loop_counts lower a by_ext es [] _ _ (counts_nil lower by_ext (lenN es)) R) as (hs' & F' & K & RF).
  assert (hs' = hs).
  { clear - F F'. revert hs' F'. induction F as [|e t fi hs E H IH|e t hs E H IH]; intros hs' F'; inversion F'; subst; try congruence.
    - f_equal; [|now apply IH]. f_equal. congruence.
    - now apply IH. }
  subst hs'. cbn [app] in K. cbn [r_files] in RF.
  destruct (analyze_loop_told _ _ _ _ _ _ a es _) as [ls o]. cbn [fst snd] in LL, LS. subst o ls.
  destruct (counts_methods _ _ _ K) as (_ & KX & _ & K1 & K2).
  assert (P1 : r_size r < 2 ^ 45). { destruct K as (_ & _ & _ & _ & ->). exact S2. }
  assert (P2 : r_csize r < 2 ^ 45). { destruct K as (_ & _ & _ & -> & _). exact S3. }
  assert (F0 : 0 < r_files r). { rewrite RF. destruct es; [congruence|]. rewrite lenN_cons. lia. }
  destruct es as [|e0 es0]; [congruence|]. eexists. split; [reflexivity|].
  rewrite <- RF in *. clear RF. do 4 eexists. split; [|split; [|split; [|split]]]; cycle 4.
  - cbn [negb andb app]. unfold analysis_text. reflexivity.
  - apply details_right; [apply all_methods_flagged|now rewrite <- K2|now rewrite <- K1].
  - destruct only; [reflexivity|]. eapply summary_right; eauto; lia.
  - destruct by_ext; [|rewrite KX; reflexivity]. pose proof (extensions_right _ _ K) as X. destruct (r_extensions r); apply X; lia.
  - eapply unsupported_right; eauto; lia.
Qed.

Theorem analysis_csv_right quiet detailed by_ext only stats path file a es hs :
  open_archive L file = Ok a -> list_with_hashes L a = Ok es -> es <> [] -> found_in a es hs -> lenN es < 2 ^ 45 ->
  total (fun h => fi_size (snd h)) hs < 2 ^ 64 -> total (fun h => fi_csize (snd h)) hs < 2 ^ 64 ->
  exists ls, analyze_told L lower walk as_json Csv quiet detailed by_ext only stats path file = (ls, Ok tt) /\ analysis_rows (methods_of hs) ls.
Proof.
  intros O Q NE F S1 S2 S3. unfold analyze_told. rewrite O. cbn [bind]. rewrite Q. cbn [bind].
  pose proof (found_len _ _ _ F) as FL.
  destruct (loop_ends lower a by_ext es hs F (mkReport [] [] [] 0 0 (lenN es))) as (r & R); [exact S3|exact S2|].
  pose proof (loop_lines false detailed only stats by_ext a es hs F _ _ R) as LL. cbn [andb] in LL.
  pose proof (loop_same false detailed only stats by_ext a es (mkReport [] [] [] 0 0 (lenN es))) as LS. rewrite R in LS.
  destruct (loop_counts lower a by_ext es [] _ _ (counts_nil lower by_ext (lenN es)) R) as (hs' & F' & K & RF).
  assert (hs' = hs).
  { clear - F F'. revert hs' F'. induction F as [|e t fi hs E H IH|e t hs E H IH]; intros hs' F'; inversion F'; subst; try congruence.
    - f_equal; [|now apply IH]. f_equal. congruence.
    - now apply IH. }
  subst hs'. cbn [app] in K.
  destruct (analyze_loop_told _ _ _ _ _ _ a es _) as [ls o]. cbn [fst snd] in LL, LS. subst o ls.
  destruct es as [|e0 es0]; [congruence|]. eexists. split; [reflexivity|]. rewrite andb_false_r. cbn [app].
  eapply csv_right; [exact K|lia].
Qed.
End Facts.
