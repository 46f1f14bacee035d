(** * How exact the printed percentages and sizes are. *)
From Coq Require Import Lia ZifyN.
From Verif Require Import Bytes Compress BlockTable Archive CliList SpecReport SpecPercent ReportFacts Percent.
Open Scope N_scope.

Lemma nearest_near a b : 0 < b -> 2 * (b * nearest a b) <= 2 * a + b /\ 2 * a <= 2 * (b * nearest a b) + b.
Proof.
  intros Hb. unfold nearest. pose proof (N.div_mod a b ltac:(lia)) as D. pose proof (N.mod_lt a b ltac:(lia)) as M.
  set (q := a / b) in *. set (r := a mod b) in *. clearbody q r.
  assert (E : b * (q + 1) = b * q + b) by lia.
  destruct (N.ltb_spec (2 * r) b); [|destruct (N.ltb_spec b (2 * r)); [|destruct (N.even q)]]; rewrite ?E; lia.
Qed.
Lemma nearest_exact m b : 0 < b -> nearest (b * m) b = m.
Proof.
  intros Hb. unfold nearest. rewrite (N.mul_comm b m), N.div_mul, N.mod_mul by lia.
  replace (2 * 0 <? b) with true by (symmetry; apply N.ltb_lt; lia). reflexivity.
Qed.
Lemma nearest_scale k a b : 0 < k -> 0 < b -> nearest (k * a) (k * b) = nearest a b.
Proof.
  intros Hk Hb. unfold nearest. rewrite N.div_mul_cancel_l, N.mul_mod_distr_l by lia. set (r := a mod b).
  replace (2 * (k * r)) with (k * (2 * r)) by lia.
  assert (L : forall x y, (k * x <? k * y) = (x <? y)).
  { intros x y. destruct (N.ltb_spec x y); [apply N.ltb_lt|apply N.ltb_ge]; [now apply N.mul_lt_mono_pos_l|now apply N.mul_le_mono_l]. }
  now rewrite !L.
Qed.
Lemma rnd_scale k p q : 0 < k -> 0 < q -> rnd (k * p) (k * q) = rnd p q.
Proof.
  intros Hk Hq. unfold rnd. rewrite N.div_mul_cancel_l by lia. set (u := 2 ^ _).
  assert (0 < u) by (apply N.neq_0_lt_0, N.pow_nonzero; discriminate).
  rewrite <- N.mul_assoc, nearest_scale by lia. reflexivity.
Qed.
Lemma rnd_ratio p q p' q' : 0 < q -> 0 < q' -> p * q' = p' * q -> rnd p q = rnd p' q'.
Proof.
  intros Hq Hq' E. rewrite <- (rnd_scale q' p q), <- (rnd_scale q p' q') by assumption. f_equal; lia.
Qed.
Lemma rnd_near p q : 0 < q -> 2 ^ 52 * q <= p ->
  2 ^ 53 * (rnd p q * q) <= (2 ^ 53 + 1) * p /\ (2 ^ 53 - 1) * p <= 2 ^ 53 * (rnd p q * q).
Proof.
  intros Hq Hp. unfold rnd.
  assert (Ht : 2 ^ 52 <= p / q) by (apply N.div_le_lower_bound; lia).
  assert (HL : 52 <= N.log2 (p / q)) by (apply N.log2_le_pow2; [|exact Ht]; eapply N.lt_le_trans; [|exact Ht]; reflexivity).
  set (u := 2 ^ (N.log2 (p / q) - 52)).
  assert (Hu : u * 2 ^ 52 <= p / q).
  { unfold u. rewrite <- N.pow_add_r. replace (N.log2 (p / q) - 52 + 52) with (N.log2 (p / q)) by lia.
    apply N.log2_spec. eapply N.lt_le_trans; [|exact Ht]. reflexivity. }
  assert (U : 0 < u) by (apply N.neq_0_lt_0, N.pow_nonzero; discriminate). clearbody u.
  assert (Hup : q * u * 2 ^ 52 <= p).
  { pose proof (N.mul_div_le p q ltac:(lia)) as D. eapply N.le_trans; [|exact D]. rewrite <- N.mul_assoc. now apply N.mul_le_mono_l. }
  destruct (nearest_near p (q * u) ltac:(nia)) as [A B]. set (m := nearest p (q * u)) in *. clearbody m.
  replace (m * u * q) with (q * u * m) by lia. set (w := q * u) in *. clearbody w. clear - A B Hup.
  change (2 ^ 53) with (2 * 2 ^ 52). set (h := 2 ^ 52) in *. assert (1 <= h) by (unfold h; now vm_compute). clearbody h. set (wm := w * m) in *. clearbody wm. nia.
Qed.
Lemma rnd_exact n q : 0 < q -> n < 2 ^ 53 -> rnd (n * UNIT * q) q = n * UNIT.
Proof.
  intros Hq Hn. destruct (N.eq_dec n 0) as [->|Z].
  - change (0 * UNIT * q) with 0. change (0 * UNIT) with 0. unfold rnd. rewrite N.div_0_l by lia. change (2 ^ (N.log2 0 - 52)) with 1.
    rewrite <- (N.mul_0_r (q * 1)) at 1. rewrite nearest_exact by lia. reflexivity.
  - unfold rnd. rewrite N.div_mul by lia.
    assert (L : N.log2 (n * UNIT) = N.log2 n + 128) by (unfold UNIT; rewrite N.log2_mul_pow2 by lia; apply N.add_comm).
    assert (L2 : N.log2 n < 53) by (apply N.log2_lt_pow2; lia).
    rewrite L. set (l := N.log2 n) in *. clearbody l.
    assert (E : UNIT = 2 ^ (52 - l) * 2 ^ (l + 128 - 52)) by (rewrite <- N.pow_add_r; unfold UNIT; f_equal; lia).
    set (u := 2 ^ (l + 128 - 52)) in *. assert (U : 0 < u) by (apply N.neq_0_lt_0, N.pow_nonzero; discriminate).
    rewrite E. replace (n * (2 ^ (52 - l) * u) * q) with (q * u * (n * 2 ^ (52 - l))) by lia. rewrite nearest_exact by nia. lia.
Qed.
Lemma of_exact n : n < 2 ^ 53 -> of_u64 n = n * UNIT.
Proof. intros H. unfold of_u64. rewrite <- (rnd_exact n 1 ltac:(lia) H) at 2. now rewrite N.mul_1_r. Qed.

Lemma unit_pos : 0 < UNIT.
Proof. reflexivity. Qed.
Global Opaque UNIT.

(** ** Percentages *)
Lemma fdiv_of c s : c < 2 ^ 53 -> s < 2 ^ 53 -> 0 < s -> fdiv (of_u64 c) (of_u64 s) = rnd (c * UNIT) s.
Proof.
  intros Hc Hs H0. unfold fdiv. rewrite !of_exact by assumption. pose proof unit_pos. apply rnd_ratio; [nia|assumption|]. lia.
Qed.
Lemma fmul_by x y : fmul x (y * UNIT) = rnd (x * y) 1.
Proof. unfold fmul. pose proof unit_pos. apply rnd_ratio; [assumption|lia|]. lia. Qed.

Lemma per_hundred_near c s : 0 < c -> c < 2 ^ 53 -> 0 < s -> s < 2 ^ 53 ->
  2 ^ 106 * (per_hundred c s * s) <= (2 ^ 53 + 1) * (2 ^ 53 + 1) * (100 * c * UNIT) /\
  (2 ^ 53 - 1) * (2 ^ 53 - 1) * (100 * c * UNIT) <= 2 ^ 106 * (per_hundred c s * s).
Proof.
  intros C0 Hc S0 Hs. unfold per_hundred. rewrite fdiv_of, fmul_by by assumption.
  assert (P : 2 ^ 52 * s <= c * UNIT).
  { apply N.le_trans with (1 * UNIT); [|apply N.mul_le_mono_r; lia]. apply N.le_trans with (2 ^ 52 * 2 ^ 53); [apply N.mul_le_mono_l; lia|]. vm_compute. discriminate. }
  destruct (rnd_near (c * UNIT) s S0 P) as [A B]. set (x := rnd (c * UNIT) s) in *. clearbody x.
  assert (Q : 2 ^ 52 * 1 <= x * 100).
  { assert (K : 2 ^ 53 * (x * s) <= 2 ^ 53 * (x * 2 ^ 53)) by (apply N.mul_le_mono_l, N.mul_le_mono_l; lia).
    assert (K2 : (2 ^ 53 - 1) * (1 * UNIT) <= (2 ^ 53 - 1) * (c * UNIT)) by (apply N.mul_le_mono_l, N.mul_le_mono_r; lia).
    assert (K3 : (2 ^ 53 - 1) * (1 * UNIT) <= 2 ^ 53 * (x * 2 ^ 53)) by lia.
    with_strategy transparent [UNIT] change UNIT with (2 ^ 128) in K3. clear - K3. lia. }
  destruct (rnd_near (x * 100) 1 ltac:(lia) Q) as [A2 B2]. set (y := rnd (x * 100) 1) in *. clearbody y. rewrite N.mul_1_r in A2, B2.
  change (2 ^ 106) with (2 ^ 53 * 2 ^ 53). set (h := 2 ^ 53) in *. assert (1 <= h) by (unfold h; now vm_compute). clearbody h.
  set (w := c * UNIT) in *. replace (100 * c * UNIT) with (100 * w) by (unfold w; lia). clearbody w. clear - A B A2 B2 H.
  split.
  - apply N.le_trans with (h * (((h + 1) * (x * 100)) * s)); [|].
    + rewrite <- (N.mul_assoc h h). apply N.mul_le_mono_l. rewrite N.mul_assoc. now apply N.mul_le_mono_r.
    + replace (h * ((h + 1) * (x * 100) * s)) with ((h + 1) * 100 * (h * (x * s))) by lia.
      replace ((h + 1) * (h + 1) * (100 * w)) with ((h + 1) * 100 * ((h + 1) * w)) by lia. now apply N.mul_le_mono_l.
  - apply N.le_trans with (h * (((h - 1) * (x * 100)) * s)); [|].
    + replace (h * ((h - 1) * (x * 100) * s)) with ((h - 1) * 100 * (h * (x * s))) by lia.
      replace ((h - 1) * (h - 1) * (100 * w)) with ((h - 1) * 100 * ((h - 1) * w)) by lia. now apply N.mul_le_mono_l.
    + rewrite <- (N.mul_assoc h h). apply N.mul_le_mono_l. rewrite (N.mul_assoc h y s). now apply N.mul_le_mono_r.
Qed.

Lemma upper_bound y s w k r T : 0 < s -> 0 < w -> T < 2 ^ 52 -> T = s * k + r -> r < s ->
  2 ^ 106 * (y * s) <= (2 ^ 53 + 1) * (2 ^ 53 + 1) * (T * w) -> y < (k + 1) * w.
Proof.
  intros S0 W HT D M A. apply (N.mul_lt_mono_pos_r s); [exact S0|]. apply (N.mul_lt_mono_pos_l (2 ^ 106)); [reflexivity|].
  eapply N.le_lt_trans; [exact A|]. clear A. assert (E : 2 ^ 106 * ((k + 1) * w * s) = 2 ^ 106 * (s * k + s) * w) by (set (h := 2 ^ 106); lia).
  rewrite E, (N.mul_assoc _ T w). apply N.mul_lt_mono_pos_r; [exact W|].
  assert (H : T + 1 <= s * k + s) by lia. set (v := s * k + s) in *. clearbody v. clear - H HT.
  change (2 ^ 106) with (2 ^ 53 * 2 ^ 53). change (2 ^ 53) with (2 * 2 ^ 52). set (h := 2 ^ 52) in *. clearbody h. nia.
Qed.
Lemma lower_bound y s w j T : 0 < s -> 0 < w -> T < 2 ^ 52 -> j * s + 1 <= T ->
  (2 ^ 53 - 1) * (2 ^ 53 - 1) * (T * w) <= 2 ^ 106 * (y * s) -> j * w <= y.
Proof.
  intros S0 W HT Hj B. apply (N.mul_le_mono_pos_r _ _ s); [exact S0|]. apply (N.mul_le_mono_pos_l _ _ (2 ^ 106)); [reflexivity|].
  eapply N.le_trans; [|exact B]. clear B. assert (E : 2 ^ 106 * (j * w * s) = 2 ^ 106 * (j * s) * w) by (set (h := 2 ^ 106); lia).
  rewrite E, (N.mul_assoc _ T w). apply N.mul_le_mono_r. set (v := j * s) in *. clearbody v. clear - Hj HT.
  change (2 ^ 106) with (2 ^ 53 * 2 ^ 53). change (2 ^ 53) with (2 * 2 ^ 52). set (h := 2 ^ 52) in *. clearbody h. nia.
Qed.
Lemma per_zero s : 0 < s -> s < 2 ^ 53 -> per_hundred 0 s = 0.
Proof.
  intros S0 Hs. unfold per_hundred. rewrite fdiv_of, fmul_by by (try reflexivity; assumption).
  assert (E : rnd (0 * UNIT) s = 0) by exact (rnd_exact 0 s S0 eq_refl). rewrite E. exact (rnd_exact 0 1 eq_refl eq_refl).
Qed.
Lemma quotient y w j : 0 < w -> j * w <= y -> y < (j + 1) * w -> y / w = j.
Proof. intros W H1 H2. symmetry. apply (N.div_unique y w j (y - j * w)); [|rewrite (N.mul_comm w)]; lia. Qed.

Lemma shown_ratio c s : 0 < s -> s < 2 ^ 53 -> c < 2 ^ 45 ->
  (100 * c mod s <> 0 -> per_hundred c s / UNIT = 100 * c / s) /\
  (100 * c mod s = 0 -> per_hundred c s / UNIT = 100 * c / s \/ per_hundred c s / UNIT + 1 = 100 * c / s).
Proof.
  intros S0 Hs Hc. pose proof unit_pos as W. destruct (N.eq_dec c 0) as [->|C0].
  { rewrite per_zero by assumption. change (100 * 0) with 0. rewrite N.mod_0_l, !N.div_0_l by lia. split; [intros H; now elim H|now left]. }
  assert (C1 : 0 < c) by lia. assert (C2 : c < 2 ^ 53) by lia.
  destruct (per_hundred_near c s C1 C2 S0 Hs) as [A B]. set (y := per_hundred c s) in *. clearbody y.
  pose proof (N.div_mod (100 * c) s ltac:(lia)) as D. pose proof (N.mod_lt (100 * c) s ltac:(lia)) as M.
  assert (HT : 100 * c < 2 ^ 52) by lia.
  set (k := 100 * c / s) in *. set (r := 100 * c mod s) in *. assert (T0 : 100 * c <> 0) by lia. set (T := 100 * c) in *. clearbody k r T.
  pose proof (upper_bound y s UNIT k r T S0 W HT D M A) as Up.
  pose proof (fun j H => lower_bound y s UNIT j T S0 W HT H B) as Lo. clear A B.
  split; intros Hr.
  - apply quotient; [exact W|apply Lo; clear - D Hr; lia|exact Up].
  - assert (K0 : k <> 0) by (clear - T0 D Hr; intros ->; lia).
    assert (E : (k - 1) * s + s = s * k) by (clear - K0; nia).
    assert (P : (k - 1) * UNIT <= y) by (apply Lo; clear - E D Hr S0; lia). replace (k + 1) with (k - 1 + 1 + 1) in Up by (clear - K0; lia).
    destruct (N.lt_ge_cases y ((k - 1 + 1) * UNIT)) as [C|C].
    + right. rewrite (quotient _ _ _ W P C). clear - K0. lia.
    + left. rewrite (quotient _ _ _ W C Up). clear - K0. lia.
Qed.

Lemma ratio_general c s : 0 < s -> s < 2 ^ 53 -> c < 2 ^ 45 ->
  (100 * c mod s <> 0 -> ratio c s = N.min (2 ^ 32 - 1) (100 * c / s)) /\
  (forall k, 100 * c = k * s -> ratio c s = N.min (2 ^ 32 - 1) k \/ 0 < k /\ ratio c s = N.min (2 ^ 32 - 1) (k - 1)).
Proof.
  intros S0 Hs Hc. destruct (shown_ratio c s S0 Hs Hc) as [A B]. unfold ratio, to_u32. replace (0 <? s) with true by (symmetry; now apply N.ltb_lt).
  split; [intros H; now rewrite A|]. intros k Hk. rewrite Hk in B. rewrite N.mod_mul, N.div_mul in B by lia. destruct (B eq_refl) as [E|E].
  - left. now rewrite E.
  - right. rewrite <- E. split; [rewrite N.add_1_r; apply N.lt_0_succ|]. now rewrite N.add_sub.
Qed.

Lemma ratio_same c s k : 0 < s -> s < 2 ^ 53 -> c < 2 ^ 53 -> k < 2 ^ 53 -> 100 * c = k * s -> ratio c s = ratio k 100.
Proof.
  intros S0 Hs Hc Hk E. unfold ratio, to_u32. replace (0 <? s) with true by (symmetry; now apply N.ltb_lt). change (0 <? 100) with true.
  unfold per_hundred. rewrite !fdiv_of by (reflexivity || assumption).
  replace (rnd (k * UNIT) 100) with (rnd (c * UNIT) s); [reflexivity|]. apply rnd_ratio; [assumption|reflexivity|]. lia.
Qed.

Definition down : list N := [29; 57; 58].
Lemma ratio_whole k : k <= 100 -> ratio k 100 = if existsb (N.eqb k) down then k - 1 else k.
Proof.
  intros H. assert (K : forallb (fun j => let k := N.of_nat j in ratio k 100 =? if existsb (N.eqb k) down then k - 1 else k) (seq 0 101) = true)
    by (vm_compute; reflexivity).
  rewrite forallb_forall in K. specialize (K (N.to_nat k)). cbv zeta in K. rewrite N2Nat.id in K. apply N.eqb_eq, K, in_seq. lia.
Qed.

Lemma ratio_exact c s : 0 < s -> s < 2 ^ 53 -> c < 2 ^ 45 -> c <= s ->
  (forall k, In k [29; 57; 58] -> 100 * c = k * s -> ratio c s + 1 = k) /\
  ((forall k, In k [29; 57; 58] -> 100 * c <> k * s) -> ratio c s = 100 * c / s).
Proof.
  intros S0 Hs Hc Hcs. assert (Hc' : c < 2 ^ 53) by lia. split.
  - intros k Hk E. assert (k < 2 ^ 53) by (destruct Hk as [<-|[<-|[<-|[]]]]; reflexivity).
    rewrite (ratio_same c s k) by assumption. destruct Hk as [<-|[<-|[<-|[]]]]; vm_compute; reflexivity.
  - intros H. destruct (N.eq_dec (100 * c mod s) 0) as [Z|Z].
    + pose proof (N.div_mod (100 * c) s ltac:(lia)) as D. rewrite Z in D. set (k := 100 * c / s) in *.
      assert (K : k <= 100) by (apply (N.mul_le_mono_pos_r _ _ s); [assumption|]; lia).
      rewrite (ratio_same c s k) by (try assumption; lia). rewrite ratio_whole by exact K.
      destruct (existsb (N.eqb k) down) eqn:X; [|reflexivity]. apply existsb_exists in X as (j & Hj & E). apply N.eqb_eq in E. subst j.
      elim (H k Hj). lia.
    + rewrite (proj1 (ratio_general c s S0 Hs Hc) Z). apply N.min_r.
      apply N.le_trans with (100 * c / c); [|destruct (N.eq_dec c 0) as [->|C0]; [discriminate|rewrite N.div_mul by assumption; discriminate]].
      destruct (N.eq_dec c 0) as [->|C0]; [rewrite N.mod_0_l in Z by lia; now elim Z|]. apply N.div_le_compat_l. lia.
Qed.

(** ** Tenths *)
Lemma tenths_near c s : 0 < s -> s < 2 ^ 53 -> c < 2 ^ 40 -> is_nearest (tenths (per_hundred c s)) (1000 * c) s.
Proof.
  intros S0 Hs Hc. unfold is_nearest. destruct (N.eq_dec c 0) as [->|C0].
  { rewrite per_zero by assumption. replace (tenths 0) with 0 by (vm_compute; reflexivity). lia. }
  destruct (per_hundred_near c s ltac:(lia) ltac:(lia) S0 Hs) as [A B]. set (y := per_hundred c s) in *. clearbody y.
  pose proof unit_pos as W. unfold tenths. destruct (nearest_near (10 * y) UNIT W) as [P Q]. set (h := nearest _ _) in *. clearbody h.
  set (w := UNIT) in *. clearbody w.
  assert (P2 : 2 ^ 106 * (2 * (h * s)) * w <= ((2 ^ 53 + 1) * (2 ^ 53 + 1) * (2000 * c) + 2 ^ 106 * s) * w).
  { apply N.le_trans with (2 ^ 106 * ((2 * (10 * y) + w) * s)); [replace (2 ^ 106 * (2 * (h * s)) * w) with (2 ^ 106 * (2 * (w * h) * s)) by lia;
      apply N.mul_le_mono_l, N.mul_le_mono_r; exact P|].
    replace (2 ^ 106 * ((2 * (10 * y) + w) * s)) with (20 * (2 ^ 106 * (y * s)) + 2 ^ 106 * s * w) by lia.
    replace (((2 ^ 53 + 1) * (2 ^ 53 + 1) * (2000 * c) + 2 ^ 106 * s) * w) with (20 * ((2 ^ 53 + 1) * (2 ^ 53 + 1) * (100 * c * w)) + 2 ^ 106 * s * w) by lia.
    apply N.add_le_mono_r, N.mul_le_mono_l, A. }
  assert (Q2 : (2 ^ 53 - 1) * (2 ^ 53 - 1) * (2000 * c) * w <= 2 ^ 106 * (2 * (h * s) + s) * w).
  { apply N.le_trans with (2 ^ 106 * (2 * (10 * y) * s)); [|replace (2 ^ 106 * (2 * (h * s) + s) * w) with (2 ^ 106 * ((2 * (w * h) + w) * s)) by lia;
      apply N.mul_le_mono_l, N.mul_le_mono_r; exact Q].
    replace (2 ^ 106 * (2 * (10 * y) * s)) with (20 * (2 ^ 106 * (y * s))) by lia.
    replace ((2 ^ 53 - 1) * (2 ^ 53 - 1) * (2000 * c) * w) with (20 * ((2 ^ 53 - 1) * (2 ^ 53 - 1) * (100 * c * w))) by lia.
    apply N.mul_le_mono_l, B. }
  apply N.mul_le_mono_pos_r in P2; [|exact W]. apply N.mul_le_mono_pos_r in Q2; [|exact W].
  set (x := h * s) in *. clearbody x. clear - P2 Q2 Hc. lia.
Qed.
