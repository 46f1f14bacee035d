(** * What the verbose table says. *)
From Coq Require Import Lia ZifyN.
From Verif Require Import Bytes Compress BlockTable Archive CliList SpecCliList CliListFacts StoredFacts SpecStored SpecReport SpecPercent ReportFacts Percent
  PercentFacts CliVerbose.
Open Scope N_scope.

(** ** Sizes *)
Lemma rnd_part n k q : 0 < q -> n < 2 ^ 53 -> 52 <= k -> rnd (n * 2 ^ k * q) q = n * 2 ^ k.
Proof.
  intros Hq Hn Hk. destruct (N.eq_dec n 0) as [->|Z].
  { exact (rnd_exact 0 q Hq eq_refl). }
  unfold rnd. rewrite N.div_mul by lia.
  assert (L : N.log2 (n * 2 ^ k) = N.log2 n + k) by (rewrite N.log2_mul_pow2 by lia; apply N.add_comm).
  assert (L2 : N.log2 n < 53) by (apply N.log2_lt_pow2; lia).
  rewrite L. set (l := N.log2 n) in *. clearbody l.
  assert (E : 2 ^ k = 2 ^ (52 - l) * 2 ^ (l + k - 52)) by (rewrite <- N.pow_add_r; f_equal; lia).
  set (u := 2 ^ (l + k - 52)) in *. assert (U : 0 < u) by (apply N.neq_0_lt_0, N.pow_nonzero; discriminate).
  rewrite E. set (p := 2 ^ (52 - l)). clearbody u p. replace (n * (p * u) * q) with (q * u * (n * p)) by lia. rewrite nearest_exact by nia. lia.
Qed.
Lemma unit_is : UNIT = 2 ^ 128.
Proof. with_strategy transparent [UNIT] reflexivity. Qed.
Lemma of_128 n : n < 2 ^ 53 -> of_u64 n = n * 2 ^ 128.
Proof. intros H. rewrite of_exact by exact H. now rewrite unit_is. Qed.
Lemma divided n k : n < 2 ^ 53 -> 62 <= k -> fdiv (n * 2 ^ k) (1024 * UNIT) = n * 2 ^ (k - 10).
Proof.
  intros Hn Hk. unfold fdiv. pose proof unit_pos as U.
  assert (E : 2 ^ k = 2 ^ (k - 10) * 1024) by (change 1024 with (2 ^ 10); rewrite <- N.pow_add_r; f_equal; lia).
  replace (n * 2 ^ k * UNIT) with (n * 2 ^ (k - 10) * (1024 * UNIT)) by (rewrite E; set (x := 2 ^ (k - 10)); lia).
  apply rnd_part; [lia|exact Hn|lia].
Qed.
Lemma enough n k : k <= 128 -> (1024 * UNIT <=? n * 2 ^ k) = (1024 * 2 ^ (128 - k) <=? n).
Proof.
  intros Hk. rewrite unit_is. assert (E : 2 ^ 128 = 2 ^ (128 - k) * 2 ^ k) by (rewrite <- N.pow_add_r; f_equal; lia). rewrite E, N.mul_assoc.
  assert (P : 0 < 2 ^ k) by (apply N.neq_0_lt_0, N.pow_nonzero; discriminate). set (x := 1024 * _). clearbody x. set (y := 2 ^ k) in *. clearbody y.
  destruct (N.leb_spec x n); [apply N.leb_le|apply N.leb_gt]; [now apply N.mul_le_mono_r|now apply N.mul_lt_mono_pos_r].
Qed.

Definition exact_in (j n : N) : Prop := 1024 ^ j <= n /\ (j < 4 -> n < 1024 ^ (j + 1)).
Lemma shrunk n : n < 2 ^ 53 -> 1024 <= n -> exists j u, In (j, u) [(1, lit "KB"); (2, lit "MB"); (3, lit "GB"); (4, lit "TB")] /\
  1024 ^ j <= n /\ (j < 4 -> n < 1024 ^ (j + 1)) /\
  shrink [lit "KB"; lit "MB"; lit "GB"; lit "TB"] (fdiv (of_u64 n) (1024 * UNIT)) = (n * 2 ^ (128 - 10 * j), u).
Proof.
  intros Hn H1. rewrite of_128 by exact Hn.
  rewrite (divided n 128) by (try exact Hn; discriminate).
  assert (C : n < 1024 ^ 2 \/ 1024 ^ 2 <= n < 1024 ^ 3 \/ 1024 ^ 3 <= n < 1024 ^ 4 \/ 1024 ^ 4 <= n) by lia.
  destruct C as [C|[C|[C|C]]].
  - exists 1, (lit "KB"). split; [now left|]. split; [exact H1|]. split; [intros _; exact C|].
    cbn [shrink]. rewrite enough by discriminate. change (1024 * 2 ^ (128 - (128 - 10))) with (1024 ^ 2).
    replace (1024 ^ 2 <=? n) with false by (symmetry; now apply N.leb_gt). reflexivity.
  - destruct C as [C1 C2]. exists 2, (lit "MB"). split; [right; now left|]. split; [exact C1|]. split; [intros _; exact C2|].
    cbn [shrink]. rewrite enough by discriminate. change (1024 * 2 ^ (128 - (128 - 10))) with (1024 ^ 2).
    replace (1024 ^ 2 <=? n) with true by (symmetry; now apply N.leb_le). rewrite divided by (try exact Hn; discriminate).
    rewrite enough by discriminate. change (1024 * 2 ^ (128 - (128 - 10 - 10))) with (1024 ^ 3).
    replace (1024 ^ 3 <=? n) with false by (symmetry; now apply N.leb_gt). reflexivity.
  - destruct C as [C1 C2]. exists 3, (lit "GB"). split; [right; right; now left|]. split; [exact C1|]. split; [intros _; exact C2|].
    cbn [shrink]. rewrite enough by discriminate. change (1024 * 2 ^ (128 - (128 - 10))) with (1024 ^ 2).
    replace (1024 ^ 2 <=? n) with true by (symmetry; apply N.leb_le; lia). rewrite divided by (try exact Hn; discriminate).
    rewrite enough by discriminate. change (1024 * 2 ^ (128 - (128 - 10 - 10))) with (1024 ^ 3).
    replace (1024 ^ 3 <=? n) with true by (symmetry; now apply N.leb_le). rewrite divided by (try exact Hn; discriminate).
    rewrite enough by discriminate. change (1024 * 2 ^ (128 - (128 - 10 - 10 - 10))) with (1024 ^ 4).
    replace (1024 ^ 4 <=? n) with false by (symmetry; now apply N.leb_gt). reflexivity.
  - exists 4, (lit "TB"). split; [right; right; right; now left|]. split; [exact C|]. split; [intros K; exfalso; revert K; clear; lia|].
    cbn [shrink]. rewrite enough by discriminate. change (1024 * 2 ^ (128 - (128 - 10))) with (1024 ^ 2).
    replace (1024 ^ 2 <=? n) with true by (symmetry; apply N.leb_le; lia). rewrite divided by (try exact Hn; discriminate).
    rewrite enough by discriminate. change (1024 * 2 ^ (128 - (128 - 10 - 10))) with (1024 ^ 3).
    replace (1024 ^ 3 <=? n) with true by (symmetry; apply N.leb_le; lia). rewrite divided by (try exact Hn; discriminate).
    rewrite enough by discriminate. change (1024 * 2 ^ (128 - (128 - 10 - 10 - 10))) with (1024 ^ 4).
    replace (1024 ^ 4 <=? n) with true by (symmetry; now apply N.leb_le). rewrite divided by (try exact Hn; discriminate). reflexivity.
Qed.

Lemma hundredths_of n j : j <= 4 -> is_nearest (hundredths (n * 2 ^ (128 - 10 * j))) (100 * n) (1024 ^ j).
Proof.
  intros Hj. unfold hundredths, is_nearest. destruct (nearest_near (100 * (n * 2 ^ (128 - 10 * j))) UNIT unit_pos) as [A B].
  set (h := nearest _ _) in *. clearbody h. rewrite unit_is in A, B.
  assert (E : 2 ^ 128 = 1024 ^ j * 2 ^ (128 - 10 * j)).
  { change 1024 with (2 ^ 10). rewrite <- N.pow_mul_r, <- N.pow_add_r. f_equal. lia. }
  rewrite E in A, B. set (p := 1024 ^ j) in *. set (q := 2 ^ (128 - 10 * j)) in *. assert (Q : 0 < q) by (apply N.neq_0_lt_0, N.pow_nonzero; discriminate).
  clearbody p q. clear - A B Q. split; apply (N.mul_le_mono_pos_r _ _ q); try exact Q; lia.
Qed.

Lemma size_right n : n < 2 ^ 53 -> size_shown n (format_size n).
Proof.
  intros Hn. unfold format_size. rewrite (of_128 n Hn) at 1. rewrite enough by discriminate.
  change (1024 * 2 ^ (128 - 128)) with 1024. destruct (N.leb_spec 1024 n) as [C|C].
  2:{ left. split; [exact C|]. apply decimal_shown. lia. }
  destruct (shrunk n Hn C) as (j & u & I & J1 & J2 & E). rewrite E. right.
  assert (Hj : j <= 4 /\ 1 <= j).
  { destruct I as [I|[I|[I|[I|[]]]]]; apply (f_equal fst) in I; cbn [fst] in I; subst j; split; discriminate. }
  pose proof (hundredths_of n j (proj1 Hj)) as H. unfold fixed2. set (h := hundredths _) in *. clearbody h.
  assert (B : h < 2 ^ 63).
  { destruct H as [H _]. assert (P : 1 <= 1024 ^ j) by (change 1 with (1024 ^ 0); apply N.pow_le_mono_r; [discriminate|lia]). set (p := 1024 ^ j) in *. clearbody p.
    destruct (N.lt_ge_cases h (2 ^ 63)) as [K|K]; [exact K|exfalso]. assert (K2 : 2 * 2 ^ 63 * p <= 2 * (h * p)) by (replace (2 * (h * p)) with (2 * h * p) by lia; apply N.mul_le_mono_r; lia).
    assert (K3 : p <= n) by exact J1. lia. }
  exists j, u, (h / 100), (h / 10 mod 10), (h mod 10), (decimal (h / 100)), (decimal (h / 10 mod 10)), (decimal (h mod 10)).
  split; [exact I|]. split; [exact J1|]. split; [exact J2|]. split; [apply N.mod_lt; discriminate|]. split; [apply N.mod_lt; discriminate|].
  assert (Q1 : h / 100 < 2 ^ 64) by (apply N.div_lt_upper_bound; lia).
  assert (Q2 : forall x, x mod 10 < 2 ^ 64) by (intros x; eapply N.lt_trans; [apply N.mod_lt; discriminate|reflexivity]).
  split; [now apply decimal_shown|]. split; [now apply decimal_shown|]. split; [now apply decimal_shown|].
  split; [now rewrite <- !app_assoc|]. replace (100 * (h / 100) + 10 * (h / 10 mod 10) + h mod 10) with h; [exact H|]. clear. lia.
Qed.

(** ** Percentages *)
Lemma ratio_right c s : s < 2 ^ 53 -> c < 2 ^ 45 -> percent_of c s (ratio c s).
Proof.
  intros Hs Hc. split; [intros ->; reflexivity|]. split.
  - intros S0 Hcs. now apply ratio_exact.
  - intros S0. now apply ratio_general.
Qed.
Lemma ratio_lt c s : ratio c s < 2 ^ 64.
Proof.
  unfold ratio, to_u32. destruct (0 <? s); [|reflexivity]. eapply N.le_lt_trans; [apply N.le_min_l|reflexivity].
Qed.
Lemma nearest_lt h a b : 0 < b -> is_nearest h a b -> a < 2 ^ 60 -> h < 2 ^ 62.
Proof.
  intros Hb [H _] Ha. destruct (N.lt_ge_cases h (2 ^ 62)) as [K|K]; [exact K|exfalso].
  assert (K2 : 2 ^ 62 * b <= h * b) by now apply N.mul_le_mono_r. set (x := h * b) in *. clearbody x. lia.
Qed.
Lemma tenth_right c s : 0 < s -> s < 2 ^ 53 -> c < 2 ^ 40 -> percent_shown c s (fixed1 (per_hundred c s)).
Proof.
  intros S0 Hs Hc. pose proof (tenths_near c s S0 Hs Hc) as H. pose proof (nearest_lt _ _ _ S0 H ltac:(lia)) as B.
  unfold fixed1. set (h := tenths _) in *. clearbody h.
  exists (h / 10), (h mod 10), (decimal (h / 10)), (decimal (h mod 10)). split; [apply N.mod_lt; discriminate|].
  split; [apply decimal_shown, N.div_lt_upper_bound; lia|].
  split; [apply decimal_shown; eapply N.lt_trans; [apply N.mod_lt; discriminate|reflexivity]|].
  split; [reflexivity|]. replace (10 * (h / 10) + h mod 10) with h; [exact H|]. clear. lia.
Qed.

(** ** Columns *)
Lemma width_is t : width t = characters t.
Proof.
  unfold width, characters. f_equal. apply filter_ext. intros b. destruct (N.ltb_spec (bN b) 128), (N.leb_spec 192 (bN b)), (N.leb_spec 128 (bN b)), (N.ltb_spec (bN b) 192); cbn; lia.
Qed.
Lemma padded_left w t : right_aligned w t (pad_left w t).
Proof. eexists. split; [reflexivity|]. now rewrite N2Nat.id, width_is. Qed.
Lemma padded_right w t : left_aligned w t (pad_right w t).
Proof. eexists. split; [reflexivity|]. now rewrite N2Nat.id, width_is. Qed.

Lemma drop_zeros_spec d : d <> [] -> drop_zeros d <> [] /\ hex_number 0 (drop_zeros d) = hex_number 0 d /\
  (hd "0"%byte (drop_zeros d) = "0"%byte -> length (drop_zeros d) = 1%nat).
Proof.
  induction d as [|b t IH]; [congruence|]. intros _. destruct t as [|c t].
  - cbn. split; [discriminate|]. split; [reflexivity|reflexivity].
  - change (drop_zeros (b :: c :: t)) with (if beqb b "0"%byte then drop_zeros (c :: t) else b :: c :: t).
    destruct (beqb b "0"%byte) eqn:E.
    + apply beqb_eq in E. subst b. destruct (IH ltac:(discriminate)) as (A & B & C). split; [exact A|]. split; [|exact C].
      rewrite B. reflexivity.
    + split; [discriminate|]. split; [reflexivity|]. cbn [hd]. intros ->. rewrite (proj2 (beqb_eq _ _) eq_refl) in E. discriminate.
Qed.
Lemma hex_right n : n < 2 ^ 32 -> hex_shown n (hex_upper n).
Proof.
  intros H. destruct (hex8_value n H) as [Hl Hv]. destruct (drop_zeros_spec (hex8 n)) as (A & B & C); [intros E; rewrite E in Hl; discriminate|].
  unfold hex_upper. split; [exact A|]. split; [|exact C]. now rewrite B.
Qed.

(** ** Flags *)
Lemma flag_bit flags k : negb (N.land flags (2 ^ k) =? 0) = N.testbit flags k.
Proof. exact (on_flag flags k). Qed.
Lemma joined w l : with_commas (w :: l) (join_with (lit ", ") (w :: l)).
Proof.
  revert w. induction l as [|x l IH]; intros w; [constructor|]. change (join_with (lit ", ") (w :: x :: l)) with (w ++ lit ", " ++ join_with (lit ", ") (x :: l)).
  constructor. apply IH.
Qed.
Definition chosen (f : N -> bool) (l : list (N * bytes)) : list bytes := map snd (filter (fun kw => f (fst kw)) l).
Lemma names_chosen flags : flag_names flags = chosen (N.testbit flags) flag_words.
Proof.
  unfold flag_names. change FLAG_COMPRESS with (2 ^ 9). change FLAG_ENCRYPTED with (2 ^ 16). change FLAG_SINGLE_UNIT with (2 ^ 24).
  change FLAG_SECTOR_CRC with (2 ^ 26). change FLAG_FIX_KEY with (2 ^ 17). change FLAG_PATCH_FILE with (2 ^ 20). change FLAG_DELETE_MARKER with (2 ^ 25).
  rewrite !flag_bit. unfold chosen, flag_words. cbn [filter fst].
  destruct (N.testbit flags 9), (N.testbit flags 16), (N.testbit flags 24), (N.testbit flags 26), (N.testbit flags 17), (N.testbit flags 20), (N.testbit flags 25); reflexivity.
Qed.
Lemma chosen_nodup f l : NoDup (map snd l) -> NoDup (chosen f l).
Proof.
  unfold chosen. induction l as [|[k w] l IH]; intros H; [constructor|]. cbn [map snd] in H. inversion H as [|? ? H1 H2]; subst. cbn [filter fst].
  destruct (f k); [|now apply IH]. cbn [map snd]. constructor; [|now apply IH]. intros C. apply H1. apply in_map_iff in C as (x & <- & Hx).
  apply filter_In in Hx as [Hx _]. now apply in_map.
Qed.
Lemma flags_right flags : flags_shown flags (flags_text flags).
Proof.
  exists (flag_names flags). rewrite names_chosen. split; [|split].
  - apply chosen_nodup. unfold flag_words. cbn [map snd].
    repeat (apply NoDup_cons; [intros H; repeat (destruct H as [H|H]; [discriminate H|]); exact H|]). apply NoDup_nil.
  - intros w. unfold chosen. rewrite in_map_iff. split.
    + intros ((k & w') & <- & H). apply filter_In in H as [H1 H2]. exists k. split; assumption.
    + intros (k & H1 & H2). exists (k, w). split; [reflexivity|]. apply filter_In. split; assumption.
  - unfold flags_text. rewrite names_chosen. destruct (chosen _ _) as [|w l]; [now left|]. right. apply joined.
Qed.

(** ** Rows *)
Lemma row_right hashes n e : display_name (fe_name e) = Ok n -> fe_size e < 2 ^ 45 -> fe_csize e < 2 ^ 45 ->
  match fe_hashes e with Some (a, b) => a < 2 ^ 32 /\ b < 2 ^ 32 | None => True end -> row_says hashes e (verbose_row hashes n e).
Proof.
  intros Hn Hs Hc Hh. apply display_ok in Hn.
  assert (S1 : fe_size e < 2 ^ 53) by lia. assert (S2 : fe_csize e < 2 ^ 53) by lia.
  exists n, (pad_right 40 n), (format_size (fe_size e)), (pad_left 12 (format_size (fe_size e))),
    (format_size (fe_csize e)), (pad_left 12 (format_size (fe_csize e))), (ratio (fe_csize e) (fe_size e)), (decimal (ratio (fe_csize e) (fe_size e))),
    (pad_left 6 (decimal (ratio (fe_csize e) (fe_size e)))),
    (if hashes then let (h1, h2) := match fe_hashes e with Some h => h | None => (0, 0) end in
        pad_left 10 (hex_upper h1) ++ lit " " ++ pad_left 10 (hex_upper h2) ++ lit " " else []), (flags_text (fe_flags e)).
  split; [exact Hn|]. split; [apply padded_right|]. split; [now apply size_right|]. split; [apply padded_left|].
  split; [now apply size_right|]. split; [apply padded_left|]. split; [now apply ratio_right|]. split; [apply decimal_shown, ratio_lt|].
  split; [apply padded_left|]. split; [|split; [apply flags_right|reflexivity]].
  destruct hashes; [|reflexivity]. destruct (fe_hashes e) as [[a b]|].
  - exists (hex_upper a), (hex_upper b), (pad_left 10 (hex_upper a)), (pad_left 10 (hex_upper b)).
    split; [now apply hex_right|]. split; [now apply hex_right|]. split; [apply padded_left|]. split; [apply padded_left|reflexivity].
  - exists (hex_upper 0), (hex_upper 0), (pad_left 10 (hex_upper 0)), (pad_left 10 (hex_upper 0)).
    split; [now apply hex_right|]. split; [now apply hex_right|]. split; [apply padded_left|]. split; [apply padded_left|reflexivity].
Qed.

Definition small (e : fentry) : Prop := fe_size e < 2 ^ 45 /\ fe_csize e < 2 ^ 45 /\
  match fe_hashes e with Some (a, b) => a < 2 ^ 32 /\ b < 2 ^ 32 | None => True end.
Lemma rows_right hashes es : forall s c rows s' c', verbose_rows hashes es s c = Ok (rows, s', c') -> Forall small es ->
  Forall2 (row_says hashes) es rows /\ s' = s + total fe_size es /\ c' = c + total fe_csize es.
Proof.
  induction es as [|e t IH]; intros s c rows s' c'; cbn [verbose_rows].
  - intros H _. apply Ok_inj in H. inversion H. subst. cbn. split; [constructor|]. lia.
  - destruct (display_name (fe_name e)) as [n| |] eqn:En; cbn [bind]; try discriminate.
    unfold add64. destruct (s + fe_size e <? M64); cbn [bind]; [|discriminate]. destruct (c + fe_csize e <? M64); cbn [bind]; [|discriminate].
    destruct (verbose_rows hashes t _ _) as [[[r s2] c2]| |] eqn:Er; cbn [bind]; try discriminate.
    intros H F. apply Ok_inj in H. inversion H. subst. inversion F as [|? ? F1 F2]. subst. apply IH in Er as (R & -> & ->); [|exact F2].
    split; [constructor; [|exact R]; destruct F1 as (P & Q & T); now apply row_right|]. cbn [total fold_right]. fold (total fe_size t) (total fe_csize t). lia.
Qed.
Lemma rows_panic hashes es : forall s c,
  match print_verbose es s c with Ok _ => exists r, verbose_rows hashes es s c = Ok r | Err x => verbose_rows hashes es s c = Err x | Panic => verbose_rows hashes es s c = Panic end.
Proof.
  induction es as [|e t IH]; intros s c; cbn [print_verbose verbose_rows]; [eexists; reflexivity|].
  destruct (display_name (fe_name e)) as [n| |]; cbn [bind]; try reflexivity.
  destruct (add64 s _) as [s'| |]; cbn [bind]; try reflexivity. destruct (add64 c _) as [c'| |]; cbn [bind]; try reflexivity.
  specialize (IH s' c'). destruct (print_verbose t s' c'); cbn [bind].
  - destruct IH as [[[r s2] c2] ->]. eexists. reflexivity.
  - now rewrite IH.
  - now rewrite IH.
Qed.

Lemma part_small (f : fentry -> N) es e : In e es -> f e <= total f es.
Proof.
  induction es as [|x t IH]; [easy|]. cbn [total fold_right]. fold (total f t). intros [->|H]; [lia|]. apply IH in H. lia.
Qed.
Lemma modest_small es : modest es -> Forall small es.
Proof.
  intros (H & Hs & Hc & _). apply Forall_forall. intros e He. pose proof (part_small fe_size _ _ He). pose proof (part_small fe_csize _ _ He).
  split; [lia|]. split; [lia|]. exact (proj1 (Forall_forall _ _) H e He).
Qed.
Lemma headed hashes : [lit "File Listing (Verbose Mode)"; repeat "="%byte 120;
       pad_right 40 (lit "Name") ++ lit " " ++ pad_left 12 (lit "Size") ++ lit " " ++ pad_left 12 (lit "Compressed") ++ lit " " ++
       pad_left 7 (lit "Ratio") ++ lit " " ++
       (if hashes : bool then pad_left 10 (lit "Hash1") ++ lit " " ++ pad_left 10 (lit "Hash2") ++ lit " " else []) ++ lit "Flags";
       repeat "-"%byte (if hashes then 120 else 100)] = heading_of hashes.
Proof. destruct hashes; vm_compute; reflexivity. Qed.
Lemma hashes_seen es : shows_hashes (existsb (fun e => match fe_hashes e with Some _ => true | None => false end) es) es.
Proof.
  unfold shows_hashes. rewrite existsb_exists. split; intros (e & H & K); exists e; (split; [exact H|]).
  - now destruct (fe_hashes e).
  - now destruct (fe_hashes e).
Qed.
Lemma table_right vv es lines : modest es -> verbose_table vv es = Ok lines -> table_says vv es lines.
Proof.
  intros M H. pose proof (modest_small es M) as F. destruct M as (_ & Hs & Hc & Hl). unfold verbose_table in H.
  pose proof (hashes_seen es) as Hh. set (hashes := existsb _ es) in *. clearbody hashes.
  destruct (verbose_rows hashes es 0 0) as [[[rows s] c]| |] eqn:Er; cbn [bind] in H; try discriminate.
  apply Ok_inj in H. apply rows_right in Er as (R & Es & Ec); [|exact F]. rewrite N.add_0_l in Es, Ec. subst s c.
  rewrite headed in H. fold (rule_of hashes) in H.
  set (s := total fe_size es) in *. set (c := total fe_csize es) in *.
  match type of H with ?hd ++ ?rs ++ [?rl; ?tt] ++ ?mm = _ => exists hashes, rs, tt, mm end.
  split; [exact Hh|]. split; [now symmetry|]. split; [exact R|].
  assert (S1 : s < 2 ^ 53) by lia. assert (S2 : c < 2 ^ 53) by lia. assert (S3 : c < 2 ^ 45) by lia.
  split.
  { exists (decimal (lenN es)), (pad_right 40 (lit "Total: " ++ decimal (lenN es) ++ lit " files")), (format_size s), (pad_left 12 (format_size s)), (format_size c), (pad_left 12 (format_size c)),
      (ratio c s), (decimal (ratio c s)), (pad_left 6 (decimal (ratio c s))).
    split; [apply decimal_shown; lia|]. split; [apply padded_right|]. split; [now apply size_right|]. split; [apply padded_left|].
    split; [now apply size_right|]. split; [apply padded_left|]. split; [now apply ratio_right|]. split; [apply decimal_shown, ratio_lt|].
    split; [apply padded_left|reflexivity]. }
  split; [intros ->; reflexivity|]. intros -> Hne.
  assert (Sh : forall what k, share_says what k es (what ++ decimal (lenN (filter (has_bit (2 ^ k)) es)) ++ lit " (" ++
            (match es with [] => lit "NaN" | _ => fixed1 (per_hundred (lenN (filter (has_bit (2 ^ k)) es)) (lenN es)) end) ++ lit "%)")).
  { intros what k. assert (E : filter (has_bit (2 ^ k)) es = filter (fun e => N.testbit (fe_flags e) k) es).
    { apply filter_ext. intros e. apply flag_bit. }
    rewrite E. assert (Hf : lenN (filter (fun e => N.testbit (fe_flags e) k) es) <= lenN es).
    { clear. induction es as [|e t IH]; [reflexivity|]. unfold lenN in *. cbn [filter]. destruct (N.testbit (fe_flags e) k); cbn [length]; lia. }
    exists (decimal (lenN (filter (fun e => N.testbit (fe_flags e) k) es))), (fixed1 (per_hundred (lenN (filter (fun e => N.testbit (fe_flags e) k) es)) (lenN es))).
    split; [apply decimal_shown; lia|]. split; [|now destruct es].
    apply tenth_right; [destruct es; [now elim Hne|unfold lenN; cbn [length]; lia]|lia|lia]. }
  unfold verbose_more. change FLAG_COMPRESS with (2 ^ 9). change FLAG_ENCRYPTED with (2 ^ 16). change FLAG_SINGLE_UNIT with (2 ^ 24).
  match goal with |- exists r1 r2 r3 saved, [?b1; ?b2; ?b3; ?q1; ?q2; ?q3] ++ ?sv = _ /\ _ => exists q1, q2, q3, sv end.
  split; [reflexivity|]. split; [apply Sh|]. split; [apply Sh|]. split; [apply Sh|].
  destruct (N.ltb_spec c s) as [C|C]; split; intros K; try reflexivity; try (exfalso; lia).
  exists (format_size (s - c)), (fixed1 (per_hundred (s - c) s)). split; [apply size_right; lia|]. split; [apply tenth_right; lia|reflexivity].
Qed.
Lemma table_panic vv es : (verbose_table vv es = Panic <-> print_verbose es 0 0 = Panic) /\ forall x, verbose_table vv es <> Err x.
Proof.
  unfold verbose_table. set (h := existsb _ _). pose proof (rows_panic h es 0 0) as P. pose proof (verbose_calm es 0 0) as Q.
  destruct (print_verbose es 0 0) as [r|x|]; [|now elim (Q x)|].
  - destruct P as [[[rows s] c] ->]. cbn [bind]. split; [split; discriminate|discriminate].
  - rewrite P. cbn [bind]. split; [split; reflexivity|discriminate].
Qed.
