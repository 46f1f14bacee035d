(** * Facts about the name table of a built archive *)
From Coq Require Import Lia ZifyBool ZifyNat ZifyN.
From Verif Require Import Bytes Crypto SpecCipher CipherFacts HashTable BlockTable HashTableFacts HetBet SpecBits BitFacts HetBetFacts SpecNameTable.
Open Scope N_scope.

Definition row (hb : N) (name : bytes) (i : N) : N := extended_hash name mod 2 ^ hb + i * 2 ^ hb.

Lemma land_mod h k : N.land h (2 ^ k - 1) = h mod 2 ^ k.
Proof. rewrite <- N.land_ones, N.ones_equiv, N.pred_sub. reflexivity. Qed.
Lemma lor_row h hb i : N.lor (h mod 2 ^ hb) (N.shiftl i hb) = h mod 2 ^ hb + i * 2 ^ hb.
Proof.
  apply N.bits_inj. intros j. rewrite N.lor_spec, shiftl_bits.
  assert (Hh : h mod 2 ^ hb < 2 ^ hb) by (apply N.mod_lt, N.pow_nonzero; lia).
  rewrite (N.mul_comm i), testbit_cat by exact Hh.
  destruct (N.ltb_spec j hb) as [C|C].
  - replace (hb <=? j) with false by lia. cbn [andb]. apply orb_false_r.
  - replace (hb <=? j) with true by lia. cbn [andb].
    rewrite N.mod_pow2_bits_high by exact C. reflexivity.
Qed.

Lemma slot_first used m start : m <> 0 -> forall fuel t s,
  het_slot fuel used m start ((start + t) mod m) = Ok s ->
  exists d, t <= d /\ s = (start + d) mod m /\ nthN used s = Some false /\
    forall e, t <= e -> e < d -> nthN used ((start + e) mod m) = Some true.
Proof.
  intros Hm. induction fuel as [|fuel IH]; intros t s H; cbn [het_slot] in H; [discriminate|].
  destruct (nthN used ((start + t) mod m)) as [[|]|] eqn:E; try discriminate.
  - replace (((start + t) mod m + 1) mod m) with ((start + (t + 1)) mod m) in H
      by (rewrite N.add_mod_idemp_l by exact Hm; f_equal; lia).
    destruct (_ =? start); [discriminate|]. apply IH in H as (d & H1 & H2 & H3 & H4).
    exists d. split; [lia|]. split; [exact H2|]. split; [exact H3|]. intros e L1 L2.
    destruct (N.eq_dec e t) as [->|]; [exact E|]. apply H4; lia.
  - apply Ok_inj in H. subst s. exists t. split; [lia|]. split; [reflexivity|]. split; [exact E|]. intros; lia.
Qed.

(** [used] marks the places taken *)
Definition marks (used : list bool) (m : N) (prev : list N) : Prop :=
  lenN used = m /\ forall s, s < m -> nthN used s = Some (existsb (N.eqb s) prev).
Lemma existsb_In s l : existsb (N.eqb s) l = true <-> In s l.
Proof.
  rewrite existsb_exists. split.
  - intros (x & H & E). apply N.eqb_eq in E. now subst.
  - intros H. exists s. split; [exact H|apply N.eqb_refl].
Qed.
Lemma marks_upd used m prev s : marks used m prev -> s < m -> marks (upd used (N.to_nat s) true) m (prev ++ [s]).
Proof.
  intros [H1 H2] Hs. split.
  - rewrite <- H1. unfold lenN. now rewrite upd_length.
  - intros x Hx. rewrite existsb_app. cbn [existsb]. rewrite orb_false_r.
    specialize (H2 x Hx). unfold nthN in *. assert (Hl : lenN (upd used (N.to_nat s) true) = lenN used) by (unfold lenN; now rewrite upd_length).
    rewrite Hl. destruct (x <? lenN used) eqn:E; [|discriminate].
    destruct (N.eqb_spec x s) as [->|Hne].
    + rewrite nth_error_upd_eq by (unfold lenN in *; lia). now rewrite orb_true_r.
    + rewrite nth_error_upd_neq by lia. now rewrite orb_false_r.
Qed.

Definition seated_from (m : N) (prev : list N) (names : list bytes) (places : list N) : Prop :=
  length places = length names /\
  forall i name s, nth_error names i = Some name -> nth_error places i = Some s ->
    exists d, d < m /\ s = (extended_hash name + d) mod m /\ ~ In s (prev ++ firstn i places) /\
      forall e, e < d -> In ((extended_hash name + e) mod m) (prev ++ firstn i places).
Definition rows_bit (hb ib i0 : N) (names : list bytes) (places : list N) (p : N) : Prop :=
  exists i name s j, nth_error names i = Some name /\ nth_error places i = Some s /\
    j < hb + ib /\ p = s * (hb + ib) + j /\ N.testbit (row hb name (i0 + N.of_nat i)) j = true.

Lemma row_small hb ib name i : i < 2 ^ ib -> row hb name i < 2 ^ (hb + ib).
Proof.
  intros H. unfold row. rewrite N.pow_add_r. assert (extended_hash name mod 2 ^ hb < 2 ^ hb) by (apply N.mod_lt, N.pow_nonzero; lia).
  nia.
Qed.
Lemma fill_bits m k hb ib : m = 2 ^ k -> 1 <= hb -> hb + ib <= 57 -> forall names i used table prev table',
  marks used m prev -> (forall p, bit_of table p = true -> In (p / (hb + ib)) prev) -> i + lenN names <= 2 ^ ib ->
  het_fill names i used table m hb ib = Ok table' ->
  exists places, seated_from m prev names places /\
    forall p, bit_of table' p = true <-> bit_of table p = true \/ rows_bit hb ib i names places p.
Proof.
  intros Hmk H1 H57. assert (Hm : m <> 0) by (rewrite Hmk; apply N.pow_nonzero; lia).
  induction names as [|name rest IH]; intros i used table prev table' Hma Hz Hi H; cbn [het_fill] in H.
  - apply Ok_inj in H. subst table'. exists []. split.
    + split; [reflexivity|]. intros j n s E. destruct j; discriminate E.
    + intros p. split; [now left|]. intros [E|(j & n & s & x & E & _)]; [exact E|]. destruct j; discriminate E.
  - assert (HL : forall x, N.land x (m - 1) = x mod m) by (intros x; rewrite Hmk; apply land_mod).
    cbv zeta in H. rewrite !HL, jenkins_is in H.
    set (h := extended_hash name) in *. set (start := h mod m) in *.
    assert (Hstart : start < m) by (apply N.mod_lt; exact Hm).
    destruct (het_slot _ _ _ _ _) as [s| |] eqn:Es; cbn [bind] in H; try discriminate.
    replace start with ((start + 0) mod m) in Es at 2 by (rewrite N.add_0_r; now apply N.mod_small).
    apply slot_first in Es as (d & _ & S1 & S2 & S3); [|exact Hm].
    assert (Hs : s < m) by (rewrite S1; apply N.mod_lt; exact Hm).
    assert (Hh : forall x, (start + x) mod m = (h + x) mod m) by (intros x; unfold start; now rewrite N.add_mod_idemp_l).
    assert (Hd : d < m).
    { apply N.nle_gt. intros C. specialize (S3 (d - m)). rewrite Hh in S1, S3.
      assert (X : (h + (d - m)) mod m = s).
      { rewrite S1. replace (h + d) with (h + (d - m) + 1 * m) by lia. now rewrite N.mod_add. }
      rewrite X in S3. rewrite S3 in S2; [discriminate|lia|lia]. }
    destruct Hma as [Hlen Hmark]. pose proof (conj Hlen Hmark : marks used m prev) as Hma.
    assert (Hfree : ~ In s prev).
    { rewrite (Hmark s Hs) in S2. injection S2 as S2. intros C. apply existsb_In in C. congruence. }
    assert (Htaken : forall e, e < d -> In ((h + e) mod m) prev).
    { intros e He. specialize (S3 e ltac:(lia) He). rewrite Hh in S3. rewrite Hmark in S3 by (apply N.mod_lt; exact Hm).
      injection S3 as S3. now apply existsb_In. }
    unfold mask_chk in H. replace (hb <? 64) with true in H by lia. cbn [bind] in H.
    unfold shl64 in H. replace (hb <? 64) with true in H by lia. cbn [bind] in H.
    assert (Hib : i < 2 ^ ib) by (rewrite lenN_cons in Hi; lia).
    pose proof (row_small hb ib name i Hib) as Hrow.
    assert (H64 : w64 (N.shiftl i hb) = N.shiftl i hb).
    { unfold w64. apply N.mod_small. rewrite N.shiftl_mul_pow2. unfold row in Hrow. fold h in Hrow.
      apply N.le_lt_trans with (h mod 2 ^ hb + i * 2 ^ hb); [lia|]. apply N.lt_le_trans with (2 ^ (hb + ib)); [exact Hrow|].
      unfold M64. apply N.pow_le_mono_r; lia. }
    rewrite H64, land_mod, lor_row in H. change (h mod 2 ^ hb + i * 2 ^ hb) with (row hb name i) in H.
    destruct (write_bit_entry _ _ _ _) as [table1| |] eqn:Ew; cbn [bind] in H; try discriminate.
    apply write_bit_entry_bits in Ew as (_ & _ & Hb); [|lia]. set (b := hb + ib) in *.
    assert (Hmin : N.min (s * b + b) (8 * (s * b / 8) + 64) = s * b + b).
    { pose proof (N.div_mod' (s * b) 8). pose proof (N.mod_lt (s * b) 8 ltac:(lia)). lia. }
    assert (Hdiv : forall j, j < b -> (s * b + j) / b = s).
    { intros j Hj. rewrite N.add_comm, N.div_add by lia. rewrite N.div_small by exact Hj. lia. }
    assert (HT : forall p, bit_of table1 p = true <-> bit_of table p = true \/ exists j, j < b /\ p = s * b + j /\ N.testbit (row hb name i) j = true).
    { intros p. rewrite Hb, Hmin. destruct ((s * b <=? p) && (p <? s * b + b)) eqn:E.
      - split.
        + intros X. right. exists (p - s * b). split; [lia|]. split; [lia|exact X].
        + intros [X|(j & J1 & J2 & J3)].
          * apply Hz in X. replace p with (s * b + (p - s * b)) in X by lia. rewrite Hdiv in X by lia. contradiction.
          * subst p. replace (s * b + j - s * b) with j by lia. exact J3.
      - split; [now left|]. intros [X|(j & J1 & J2 & J3)]; [exact X|]. lia. }
    destruct (IH (i + 1) (upd used (N.to_nat s) true) table1 (prev ++ [s]) table') as (places & P1 & P2); clear IH.
    + now apply marks_upd.
    + intros p Hp. apply HT in Hp as [Hp|(j & J1 & -> & _)]; apply in_or_app.
      * left. now apply Hz.
      * right. left. symmetry. now apply Hdiv.
    + rewrite lenN_cons in Hi. lia.
    + exact H.
    + exists (s :: places). destruct P1 as [P0 P1]. split.
      * split; [cbn [length]; now rewrite P0|]. intros [|j] n x E F; cbn [nth_error] in E, F.
        -- injection E as <-. injection F as <-. exists d. fold h. cbn [firstn]. rewrite app_nil_r.
           split; [exact Hd|]. split; [rewrite <- Hh; exact S1|]. split; [exact Hfree|exact Htaken].
        -- destruct (P1 j n x E F) as (y & Y1 & Y2 & Y3 & Y4). exists y. cbn [firstn].
           rewrite <- app_assoc in Y3, Y4. cbn [app] in Y3, Y4. auto.
      * intros p. rewrite P2, HT. split.
        -- intros [[X|(j & J1 & J2 & J3)]|(j & n & x & y & Y1 & Y2 & Y3 & Y4 & Y5)]; [now left| |]; right.
           ++ exists 0%nat, name, s, j. rewrite N.add_0_r. cbn [nth_error]. auto.
           ++ exists (S j), n, x, y. cbn [nth_error]. replace (i + N.of_nat (S j)) with (i + 1 + N.of_nat j) by lia. auto.
        -- intros [X|([|j] & n & x & y & Y1 & Y2 & Y3 & Y4 & Y5)]; [left; now left| |]; cbn [nth_error] in Y1, Y2.
           ++ injection Y1 as <-. injection Y2 as <-. rewrite N.add_0_r in Y5. left. right. exists y. auto.
           ++ right. exists j, n, x, y. replace (i + N.of_nat (S j)) with (i + 1 + N.of_nat j) in Y5 by lia. auto.
Qed.

(** ** The widths *)
Lemma pow_le_inv a b : 2 ^ a <= 2 ^ b -> a <= b.
Proof. intros H. apply N.nlt_ge. intros C. apply N.pow_lt_mono_r with (a := 2) in C; lia. Qed.
Lemma pow_lt_double a b : a < b -> 2 * 2 ^ a <= 2 ^ b.
Proof. intros H. rewrite <- N.pow_succ_r'. apply N.pow_le_mono_r; lia. Qed.
Lemma pow_between n a b : n <= 2 ^ a -> 2 ^ a < 2 * n -> n <= 2 ^ b -> 2 ^ b < 2 * n -> a = b.
Proof.
  intros. destruct (N.lt_trichotomy a b) as [C|[C|C]]; [|exact C|]; apply pow_lt_double in C; lia.
Qed.
Lemma pow_between' n a b : n < 2 ^ a -> 2 ^ a <= 2 * n -> n < 2 ^ b -> 2 ^ b <= 2 * n -> a = b.
Proof.
  intros. destruct (N.lt_trichotomy a b) as [C|[C|C]]; [|exact C|]; apply pow_lt_double in C; lia.
Qed.
Lemma widths_one n m hb ib m' hb' ib' : widths n m hb ib -> widths n m' hb' ib' -> m = m' /\ hb = hb' /\ ib = ib'.
Proof.
  intros ((k & ->) & A1 & A2 & A3 & A4 & A5 & A6) ((k' & ->) & B1 & B2 & B3 & B4 & B5 & B6).
  assert (k = k') as <- by (apply (pow_between (2 * n)); lia). split; [reflexivity|].
  split; [apply (pow_between' (2 ^ k)); lia|apply (pow_between' n); lia].
Qed.
Lemma bits_needed_double v : 0 < v -> v < 2 ^ bits_needed v /\ 2 ^ bits_needed v <= 2 * v.
Proof.
  intros H. unfold bits_needed. replace (v =? 0) with false by lia. rewrite N.size_log2 by lia.
  pose proof (N.log2_spec v H) as [A B]. split; [exact B|]. rewrite N.pow_succ_r'. lia.
Qed.
Lemma widths_of n : 0 < n -> let k := N.log2_up (n * 2) in widths n (2 ^ k) (bits_needed (2 ^ k)) (bits_needed n).
Proof.
  intros H k. assert (Hk : 1 < n * 2) by lia. apply N.log2_up_spec in Hk as [A B]. fold k in A, B.
  assert (Hpos : 0 < 2 ^ k) by (apply N.neq_0_lt_0, N.pow_nonzero; lia).
  assert (Hk0 : 0 < k).
  { apply N.neq_0_lt_0. intros C. rewrite C in B. change (2 ^ 0) with 1 in B. lia. }
  assert (E : 2 ^ k = 2 * 2 ^ N.pred k) by (rewrite <- N.pow_succ_r', N.succ_pred by lia; reflexivity).
  destruct (bits_needed_double (2 ^ k) Hpos). destruct (bits_needed_double n H).
  split; [now exists k|]. repeat split; lia.
Qed.
Lemma widths_small n m hb ib : widths n m hb ib -> m * (hb + ib) < M32 -> 1 <= hb /\ hb + ib <= 57.
Proof.
  intros ((k & ->) & A1 & A2 & A3 & A4 & A5 & A6) H. rewrite <- N.pow_succ_r' in A4. apply pow_le_inv in A4.
  assert (Hib : ib <= k) by (apply pow_le_inv; lia).
  assert (k < hb) by (apply N.nle_gt; intros C; apply (N.pow_le_mono_r 2) in C; lia).
  split; [lia|]. assert (k < 28); [|lia]. apply N.nle_gt. intros C. unfold M32 in H.
  assert (2 ^ 28 * 29 <= 2 ^ k * (hb + ib)) by (apply N.mul_le_mono; [apply N.pow_le_mono_r; lia|lia]).
  change (2 ^ 28 * 29) with 7784628224 in *. change (2 ^ 32) with 4294967296 in *. lia.
Qed.
Lemma few_places n m hb ib : widths n m hb ib -> n <= 4 -> m * hb < 64.
Proof.
  intros ((k & ->) & A1 & A2 & A3 & A4 & A5 & A6) H. rewrite <- N.pow_succ_r' in A4. apply pow_le_inv in A4.
  assert (Hk : k < 4) by (apply N.nle_gt; intros C; apply (N.pow_le_mono_r 2) in C; [change (2 ^ 4) with 16 in C; lia|lia]).
  assert (2 ^ k <= 2 ^ 3) by (apply N.pow_le_mono_r; lia). change (2 ^ 3) with 8 in *.
  assert (2 ^ k * hb <= 8 * 4) by (apply N.mul_le_mono; lia). lia.
Qed.

(** ** What the reader finds *)
Lemma zeros_bits n p : bit_of (zeros n) p = false.
Proof.
  unfold bit_of. destruct (nth_error (zeros n) _) as [x|] eqn:E; [|reflexivity]. apply nth_error_In in E.
  unfold zeros in E. apply repeat_spec in E. subst x. apply N.bits_0.
Qed.
Lemma marks_none m : marks (repeat false (N.to_nat m)) m [].
Proof.
  split; [unfold lenN; rewrite repeat_length; lia|]. intros s Hs. unfold nthN, lenN. rewrite repeat_length.
  replace (s <? N.of_nat (N.to_nat m)) with true by lia. rewrite nth_error_repeat by lia. reflexivity.
Qed.
Lemma find_confused h names : 0 < lenN names -> het_is h (lenN names) -> het_rows h names ->
  exists m hb ib places, widths (lenN names) m hb ib /\ seated m names places /\
    forall name, het_find h name = Ok (Some 0) <-> confused names places name.
Proof.
  intros Hn Hh (H32 & table & Hfill & Hsl). set (n := lenN names) in *. set (k := N.log2_up (n * 2)) in *.
  pose proof (widths_of n Hn) as HW. cbv zeta in HW. fold k in HW.
  destruct (widths_small _ _ _ _ HW H32) as [Hb1 Hb57].
  set (hb := bits_needed (2 ^ k)) in *. set (ib := bits_needed n) in *. set (m := 2 ^ k) in *.
  destruct (fill_bits m k hb ib eq_refl Hb1 Hb57 names 0 _ (zeros (div_ceil (m * (hb + ib)) 8)) [] table (marks_none m)) as (places & Hse & Hbits); [| |exact Hfill|].
  { intros p Hp. rewrite zeros_bits in Hp. discriminate. }
  { destruct HW as (_ & _ & _ & _ & _ & Hx & _). fold n. lia. }
  exists m, hb, ib, places. split; [exact HW|]. split; [exact Hse|]. intros name.
  assert (Hcon : confused names places name <-> 8 * (extended_hash name mod m * hb / 8) + 64 <= m * hb /\
     forall j, j < hb -> (N.testbit (extended_hash name) j = true <-> bit_of table (extended_hash name mod m * hb + j) = true)).
  { assert (Hset : forall p, bit_of table p = true <-> set_bit hb ib names places p).
    { intros p. rewrite Hbits, zeros_bits. split; [intros [X|X]; [discriminate|exact X]|intros X; right; exact X]. }
    split.
    - intros (m' & hb' & ib' & HW' & Q). destruct (widths_one _ _ _ _ _ _ _ HW HW') as (<- & <- & <-). destruct Q as [Q1 Q2].
      split; [exact Q1|]. intros j Hj. rewrite Hset. now apply Q2.
    - intros [Q1 Q2]. exists m, hb, ib. split; [exact HW|]. split; [exact Q1|]. intros j Hj. rewrite <- Hset. now apply Q2. }
  rewrite Hcon. clear Hcon Hbits Hse Hfill.
  destruct (N.le_gt_cases n 4) as [H4|H4].
  { rewrite (het_find_small h n name Hh H4). split; [discriminate|]. intros [C _]. pose proof (few_places _ _ _ _ HW H4). lia. }
  specialize (Hsl H4). destruct Hh as (k' & Ek & Hmax & Hhb & Hib & Htb & Hb32 & Hlen).
  replace (2 * n) with (n * 2) in Ek by lia. fold k in Ek. subst k'. fold m in Hhb, Htb. fold hb in Hhb, Htb.
  set (q := extended_hash name mod m).
  assert (Hm8 : exists x, m = 8 * x).
  { exists (2 ^ (k - 3)). unfold m. assert (Hk4 : 3 <= k).
    { destruct HW as (_ & HW & _). apply N.nlt_ge. intros C. assert (m <= 2 ^ 2) by (unfold m; apply N.pow_le_mono_r; lia).
      change (2 ^ 2) with 4 in *. lia. }
    change 8 with (2 ^ 3). rewrite <- N.pow_add_r. f_equal. lia. }
  assert (Ht8 : 8 * het_table_bytes h = m * hb).
  { rewrite Htb. destruct Hm8 as (x & ->). pose proof (div_ceil_8 (8 * x * hb)). nia. }
  assert (Hm0 : m <> 0) by (destruct HW as (_ & HW & _); lia).
  assert (Hq : q < m) by (now apply N.mod_lt).
  unfold het_find. rewrite jenkins_is. unfold chk32. replace (het_table_bytes h * 8 <? M32) with true by lia. cbn [bind].
  rewrite Hhb. replace (hb =? 0) with false by lia.
  replace (het_table_bytes h * 8 / hb) with m by (replace (het_table_bytes h * 8) with (m * hb) by lia; symmetry; apply N.div_mul; lia).
  replace (m =? 0) with false by lia.
  replace (N.land (extended_hash name) (m - 1)) with q by (symmetry; apply land_mod).
  destruct (het_entry h q) as [e|] eqn:Ee.
  - assert (Hfit : 8 * (q * hb / 8) + 64 <= m * hb).
    { unfold het_entry in Ee. rewrite Hhb in Ee. destruct (slice (q * hb / 8) 8 (het_hashes h)) as [z|] eqn:Ez; [|discriminate Ee]. unfold slice in Ez.
      destruct (N.leb_spec (q * hb / 8 + 8) (lenN (het_hashes h))); [lia|discriminate Ez]. }
    assert (Hbit : forall j, j < hb -> N.testbit e j = bit_of table (q * hb + j)).
    { intros j Hj. rewrite (het_entry_reads h q e Ee j), Hhb. replace (j <? N.min hb 64) with true by lia.
      pose proof (N.mod_lt (q * hb) 8 ltac:(lia)). replace (q * hb mod 8 + j <? 64) with true by lia. cbn [andb].
      pose proof (slice_bits _ _ _ _ (q * hb + j) Hsl) as X. rewrite <- bit_of_dec in X. rewrite X.
      replace (q * hb + j <? 8 * het_table_bytes h) with true by nia. cbn [andb]. reflexivity. }
    destruct (N.eqb_spec (N.land e (mask_sat hb)) (N.land (extended_hash name) (mask_sat hb))) as [E|E]; cbn [negb].
    + split; [|intros _].
      * intros _. split; [exact Hfit|]. intros j Hj. rewrite <- Hbit by exact Hj.
        apply (f_equal (fun x => N.testbit x j)) in E. rewrite !N.land_spec, mask_sat_bits in E.
        replace (j <? N.min hb 64) with true in E by lia. rewrite !andb_true_r in E. now rewrite E.
      * unfold shr64. replace (hb <? 64) with true by lia. cbn [bind].
        unfold het_entry in Ee. rewrite Hhb in Ee. destruct (slice (q * hb / 8) 8 (het_hashes h)) as [s|]; [|discriminate Ee].
        injection Ee as <-.
        rewrite shiftr_land_mask, N.land_0_l. rewrite Hmax. replace (n <=? 0) with false by lia. reflexivity.
    + split; [discriminate|]. intros [_ X]. elim E. apply N.bits_inj. intros j. rewrite !N.land_spec, mask_sat_bits.
      destruct (N.ltb_spec j (N.min hb 64)) as [Hj|Hj]; [|now rewrite !andb_false_r]. rewrite !andb_true_r.
      rewrite Hbit by lia. specialize (X j ltac:(lia)). apply eq_iff_eq_true. tauto.
  - split; [discriminate|]. intros [C _]. unfold het_entry in Ee. rewrite Hhb in Ee.
    destruct (slice (q * hb / 8) 8 (het_hashes h)) as [z|] eqn:Ez; [discriminate Ee|]. apply slice_None in Ez. lia.
Qed.

(** ** There is one way to seat the files *)
Lemma seated_prefix m names p q : seated m names p -> seated m names q -> forall i, firstn i p = firstn i q.
Proof.
  intros [Lp Hp] [Lq Hq]. induction i as [|i IH]; [reflexivity|].
  destruct (nth_error names i) as [name|] eqn:En.
  - destruct (nth_error p i) as [s|] eqn:Ep.
    2:{ apply nth_error_None in Ep. assert (nth_error names i <> None) by congruence. apply nth_error_Some in H. lia. }
    destruct (nth_error q i) as [t|] eqn:Eq.
    2:{ apply nth_error_None in Eq. assert (nth_error names i <> None) by congruence. apply nth_error_Some in H. lia. }
    destruct (Hp i name s En Ep) as (d & _ & D1 & D2 & D3). destruct (Hq i name t En Eq) as (e & _ & E1 & E2 & E3).
    assert (d = e) as <-.
    { destruct (N.lt_trichotomy d e) as [C|[C|C]]; [|exact C|].
      - apply E3 in C. rewrite <- IH, <- D1 in C. contradiction.
      - apply D3 in C. rewrite IH, <- E1 in C. contradiction. }
    assert (s = t) as <- by congruence.
    assert (X : forall (l : list N) x, nth_error l i = Some x -> firstn (S i) l = firstn i l ++ [x]).
    { clear. intros l. revert i. induction l as [|y l IH]; intros [|i] x E; cbn [nth_error] in E; try discriminate.
      - injection E as ->. reflexivity.
      - change (y :: firstn (S i) l = y :: firstn i l ++ [x]). f_equal. now apply IH. }
    rewrite (X p s Ep), (X q s Eq), IH. reflexivity.
  - apply nth_error_None in En. rewrite (firstn_all2 (n := S i)), (firstn_all2 (n := S i)) by lia.
    rewrite (firstn_all2 (n := i)) in IH by lia. rewrite IH. apply firstn_all2. lia.
Qed.
Lemma seated_one m names p q : seated m names p -> seated m names q -> p = q.
Proof.
  intros Hp Hq. pose proof (seated_prefix m names p q Hp Hq (length names)) as H.
  rewrite !firstn_all2 in H by (rewrite (proj1 Hp) || rewrite (proj1 Hq); lia). exact H.
Qed.
