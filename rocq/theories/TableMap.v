(** * The name table refines the map specification. *)
From Verif Require Import Bytes Crypto CryptoFacts SpecNames NameFacts HashTable BlockTable
  HashTableFacts SpecTables.
Open Scope N_scope.

(** ** C05 *)
Lemma he_matches_answers a b loc e : he_matches a b loc e = true <-> answers a b loc e.
Proof.
  unfold he_matches, answers, is_valid.
  rewrite !andb_true_iff, !orb_true_iff, !N.eqb_eq, N.ltb_lt. tauto.
Qed.

Lemma he_matches_answers_f a b loc e : he_matches a b loc e = false <-> ~ answers a b loc e.
Proof. rewrite <- he_matches_answers. destruct (he_matches a b loc e); split; congruence || tauto. Qed.

Lemma is_empty_never e : is_empty e = false <-> ~ never_used e.
Proof. unfold is_empty, never_used. apply N.eqb_neq. Qed.

Lemma slot_at_probe t h i : (0 < length t)%nat ->
  slot_at t (N.of_nat h) (N.of_nat i) = nth_error t (probe (length t) h i).
Proof.
  intros H. unfold slot_at, probe.
  replace (N.of_nat h + N.of_nat i) with (N.of_nat (h + i)) by lia.
  rewrite <- of_nat_mod, Nat2N.id. reflexivity.
Qed.

Lemma map_split {A B} (f : A -> B) l l1 y l2 :
  map f l = l1 ++ y :: l2 -> exists x1 x x2, l = x1 ++ x :: x2 /\ l1 = map f x1 /\ y = f x /\ l2 = map f x2.
Proof.
  revert l1. induction l as [|x l IH]; intros l1 H.
  - destruct l1; discriminate.
  - destruct l1 as [|z l1]; cbn in H; injection H as H1 H2; subst.
    + exists [], x, l. auto.
    + apply IH in H2 as (x1 & x0 & x2 & -> & -> & -> & ->).
      exists (x :: x1), x0, x2. auto.
Qed.

Lemma seq_split n l1 i l2 : seq 0 n = l1 ++ i :: l2 -> l1 = seq 0 i /\ (i < n)%nat.
Proof.
  intros H. assert (L : length (seq 0 n) = n) by apply seq_length.
  rewrite H, app_length in L. cbn in L.
  assert (E : nth_error (seq 0 n) (length l1) = Some i).
  { rewrite H, nth_error_app2, Nat.sub_diag by lia. reflexivity. }
  assert (i = length l1) as ->.
  { rewrite (nth_error_nth' _ 0%nat) in E by (rewrite seq_length; lia).
    rewrite seq_nth in E by lia. injection E. lia. }
  split; [|lia].
  assert (F : firstn (length l1) (seq 0 n) = l1).
  { rewrite H, firstn_app, firstn_all, Nat.sub_diag. cbn. apply app_nil_r. }
  rewrite <- F at 1.
  replace n with (length l1 + (n - length l1))%nat by lia.
  rewrite seq_app, firstn_app, seq_length, Nat.sub_diag. cbn.
  rewrite app_nil_r. apply firstn_all2. rewrite seq_length. lia.
Qed.

Lemma search_first t a b loc h idx e : (0 < length t)%nat ->
  search t a b loc (order (length t) h) = Some (idx, e) <->
  exists i, first_answer t (N.of_nat h) a b loc (N.of_nat i) e /\
            idx = N.of_nat (probe (length t) h i).
Proof.
  intros Hn. rewrite search_Some. split.
  - intros (l1 & s & l2 & Ho & -> & He & Hm & HF).
    apply map_split in Ho as (x1 & i & x2 & Hs & -> & -> & ->).
    apply seq_split in Hs as [-> Hi].
    exists i. split; [|reflexivity]. unfold first_answer.
    rewrite slot_at_probe by exact Hn. split; [lia|]. split; [exact He|].
    split; [now apply he_matches_answers|].
    rewrite Forall_forall in HF. intros j e' Hj Hs.
    destruct (HF (probe (length t) h (N.to_nat j))) as (e1 & H1 & H2 & H3).
    { apply in_map, in_seq. lia. }
    rewrite <- (N2Nat.id j), slot_at_probe in Hs by exact Hn.
    assert (e1 = e') as -> by congruence.
    split; [now apply he_matches_answers_f|now apply is_empty_never].
  - intros (i & (Hi & He & Hm & HF) & ->).
    rewrite slot_at_probe in He by exact Hn.
    exists (map (probe (length t) h) (seq 0 i)), (probe (length t) h i),
      (map (probe (length t) h) (seq (S i) (length t - S i))).
    split; [|split; [reflexivity|split; [exact He|split]]].
    + unfold order. replace (length t) with (i + S (length t - S i))%nat at 2 by lia.
      rewrite seq_app, map_app. reflexivity.
    + now apply he_matches_answers.
    + apply Forall_forall. intros s Hs. apply in_map_iff in Hs as (j & <- & Hj).
      apply in_seq in Hj.
      destruct (nth_error t (probe (length t) h j)) as [e'|] eqn:E.
      2:{ apply nth_error_None in E.
          assert (probe (length t) h j < length t)%nat by (apply Nat.mod_upper_bound; lia). lia. }
      destruct (HF (N.of_nat j) e' ltac:(lia)) as [H1 H2].
      { now rewrite slot_at_probe. }
      exists e'. rewrite he_matches_answers_f, is_empty_never. auto.
Qed.

Lemma home_mod t off : (0 < length t)%nat -> forall i,
  (off + i) mod N.of_nat (length t) = (N.of_nat (home t off) + i) mod N.of_nat (length t).
Proof.
  intros H i. rewrite of_nat_home. unfold lenN.
  rewrite N.add_mod_idemp_l by lia. reflexivity.
Qed.

Lemma first_answer_home t off a b loc i e : (0 < length t)%nat ->
  first_answer t off a b loc i e <-> first_answer t (N.of_nat (home t off)) a b loc i e.
Proof.
  intros H. unfold first_answer, slot_at.
  split; intros (H1 & H2 & H3 & H4); (split; [exact H1|]).
  - rewrite <- home_mod by exact H. split; [exact H2|]. split; [exact H3|].
    intros j e' Hj Hs. rewrite <- home_mod in Hs by exact H. apply (H4 j e' Hj Hs).
  - rewrite home_mod by exact H. split; [exact H2|]. split; [exact H3|].
    intros j e' Hj Hs. rewrite home_mod in Hs by exact H. apply (H4 j e' Hj Hs).
Qed.

Lemma ht_find_lookup t k name loc :
  lenN t = 2 ^ k ->
  exists r, ht_find_file t name loc = Ok r /\
    lookup_spec t (hash_string name HT_TABLE_OFFSET) (hash_string name HT_NAME_A)
      (hash_string name HT_NAME_B) loc r.
Proof.
  intros Ht. pose proof (n_pos t k Ht) as Hn.
  rewrite (ht_find_search t k Ht). eexists. split; [reflexivity|].
  generalize (hash_string name HT_TABLE_OFFSET) (hash_string name HT_NAME_A)
    (hash_string name HT_NAME_B). intros off a b.
  destruct (search t a b loc (order (length t) (home t off))) as [[idx e]|] eqn:S; cbn [lookup_spec].
  - apply search_first in S as (i & H1 & ->); [|exact Hn].
    exists (N.of_nat i). rewrite first_answer_home by exact Hn. split; [exact H1|].
    rewrite home_mod by exact Hn. unfold probe. rewrite of_nat_mod. f_equal. lia.
  - intros (i & e & H). rewrite first_answer_home in H by exact Hn.
    rewrite <- (N2Nat.id i) in H.
    assert (search t a b loc (order (length t) (home t off)) =
            Some (N.of_nat (probe (length t) (home t off) (N.to_nat i)), e)) as E.
    { apply search_first; [exact Hn|]. eauto. }
    rewrite S in E. discriminate.
Qed.

(** ** C06 *)
Definition item_of (x : key) : item := mkItem (fst x) (snd x).

Lemma add_all_spec files : forall t k done,
  lenN t = 2 ^ k -> table_inv t (map item_of done) ->
  (length done + length files < length t)%nat ->
  lenN (done ++ files) <= DELETED ->
  no_collision (map fst (done ++ files)) ->
  (exists t', add_all t files (lenN done) = Ok t' /\ length t' = length t /\
     table_inv t' (map item_of (done ++ files)) /\
     (forall l1 x l2 y l3, done ++ files = l1 ++ x :: l2 ++ y :: l3 ->
        (length done <= length (l1 ++ x :: l2))%nat -> ~ same_file x y)) \/
  (add_all t files (lenN done) = Err EInvalidFormat /\
   exists l1 x l2 y l3, done ++ files = l1 ++ x :: l2 ++ y :: l3 /\ same_file x y).
Proof.
  induction files as [|x files IH]; intros t k done Ht Inv Hlen Hmax Hcol.
  - left. exists t. rewrite app_nil_r. cbn [add_all].
    split; [reflexivity|]. split; [reflexivity|]. split; [exact Inv|].
    intros l1 x l2 y l3 E Hl. subst done. rewrite !app_length in Hl. cbn in Hl.
    rewrite app_length in Hl. cbn in Hl. lia.
  - destruct x as [n l]. cbn [add_all]. set (xx := (n, l) : key) in *.
    assert (Hl2 : lenN (map item_of done) = lenN done) by (unfold lenN; now rewrite map_length).
    rewrite lenN_app, lenN_cons in Hmax. cbn [length] in Hlen.
    destruct (add_to_hash_table_spec t k (map item_of done) (item_of xx) Ht Inv)
      as [(t' & Ha & Inv' & Hlt & Hnd)|[Ha (y & Hy & Hsame)]].
    { rewrite Hl2. lia. }
    { rewrite map_length. lia. }
    + cbn [item_of it_name it_loc] in Ha. rewrite Hl2 in Ha.
      change (fst xx) with n in Ha. change (snd xx) with l in Ha. rewrite Ha. cbn [bind].
      assert (Hd : done ++ xx :: files = (done ++ [xx]) ++ files)
        by (rewrite <- app_assoc; reflexivity).
      assert (Hn1 : lenN done + 1 = lenN (done ++ [xx])) by (rewrite lenN_app; reflexivity).
      rewrite Hn1, Hd. rewrite Hd in Hcol.
      assert (Hfresh : forall l1 x l2 y l3, (done ++ [xx]) ++ files = l1 ++ x :: l2 ++ y :: l3 ->
        length done = length (l1 ++ x :: l2) -> ~ same_file x y).
      { intros l1 x l2 y l3 E El [Hs1 Hs2].
        assert (E' : done = l1 ++ x :: l2 /\ xx = y).
        { rewrite <- app_assoc in E. cbn [app] in E.
          replace (l1 ++ x :: l2 ++ y :: l3) with ((l1 ++ x :: l2) ++ y :: l3) in E
            by (rewrite <- app_assoc; reflexivity).
          assert (done = l1 ++ x :: l2) as ->.
          { apply (f_equal (firstn (length done))) in E.
            rewrite firstn_app_exact in E by reflexivity.
            rewrite El, firstn_app_exact in E by reflexivity. exact E. }
          split; [reflexivity|]. apply app_inv_head in E. congruence. }
        destruct E' as [-> <-].
        assert (Hin : In (item_of x) (map item_of (l1 ++ x :: l2))).
        { apply in_map. apply in_or_app. right. now left. }
        cbn [fst snd] in *.
        assert (Hoff : it_off (item_of x) = it_off (item_of xx))
          by (unfold it_off; apply name_equiv_hash; exact Hs1).
        assert (Hsk := Hnd (item_of x) Hin). rewrite Hoff in Hsk. specialize (Hsk eq_refl).
        unfold same_key in Hsk.
        assert (EA : it_a (item_of x) = it_a (item_of xx))
          by (unfold it_a; apply name_equiv_hash; exact Hs1).
        assert (EB : it_b (item_of x) = it_b (item_of xx))
          by (unfold it_b; apply name_equiv_hash; exact Hs1).
        rewrite EA, EB, !N.eqb_refl in Hsk. cbn [item_of it_loc snd] in Hsk.
        rewrite Hs2, N.eqb_refl in Hsk. discriminate. }
      destruct (IH t' k (done ++ [xx])) as [(t2 & Hr & Hl3 & Inv2 & Hnd2)|[Hr Hdup]].
      * unfold lenN. rewrite Hlt. exact Ht.
      * rewrite map_app. exact Inv'.
      * rewrite app_length, Hlt. cbn. lia.
      * rewrite <- Hd, lenN_app, lenN_cons. lia.
      * exact Hcol.
      * left. exists t2. split; [exact Hr|]. split; [congruence|]. split; [exact Inv2|].
        intros l1 x l2 y l3 E El.
        destruct (Nat.eq_dec (length done) (length (l1 ++ x :: l2))) as [Eq|Ne].
        -- apply (Hfresh l1 x l2 y l3 E Eq).
        -- apply (Hnd2 l1 x l2 y l3 E). rewrite app_length. cbn. lia.
      * right. split; [exact Hr|]. exact Hdup.
    + right. cbn [item_of it_name it_loc] in Ha. rewrite Hl2 in Ha.
      change (fst xx) with n in Ha. change (snd xx) with l in Ha. rewrite Ha.
      split; [reflexivity|].
      apply in_map_iff in Hy as (y' & <- & Hy).
      apply in_split in Hy as (d1 & d2 & ->).
      exists d1, y', d2, xx, files. split; [rewrite <- app_assoc; reflexivity|].
      unfold same_key in Hsame. rewrite !andb_true_iff, !N.eqb_eq in Hsame.
      destruct Hsame as [[Ea Eb] El]. split; [|exact El].
      apply Hcol; [| |exact Ea|exact Eb]; apply in_map, in_or_app.
      * left. apply in_or_app. right. now left.
      * right. now left.
Qed.

Lemma ht_find_map t k files req :
  lenN t = 2 ^ k -> table_inv t (map item_of files) -> lenN files <= DELETED ->
  (length files < length t)%nat -> no_collision (fst req :: map fst files) ->
  exists r, ht_find_file t (fst req) (snd req) = Ok r /\
    map_lookup files req (option_map (fun p => he_block (snd p)) r) /\
    (forall s e, r = Some (s, e) -> exists x, nth_error files (N.to_nat (he_block e)) = Some x /\
       he_locale e = snd x).
Proof.
  intros Ht Inv Hmax Hlen Hcol.
  assert (Hans : forall y, In y files ->
    (item_matches (hash_string (fst req) HT_NAME_A) (hash_string (fst req) HT_NAME_B) (snd req) (item_of y) = true
     <-> key_answers req y)).
  { intros y Hy. unfold item_matches, key_answers, item_of, it_a, it_b; cbn [it_name it_loc].
    rewrite !andb_true_iff, !orb_true_iff, !N.eqb_eq. split.
    - intros [[H1 H2] H3]. split; [|tauto]. apply Hcol; auto; [now left|].
      right. now apply in_map.
    - intros [H1 H2]. split; [|tauto]. split; symmetry; now apply name_equiv_hash. }
  pose proof (ht_find_items t k (map item_of files) (fst req) (snd req) Ht Inv) as F.
  unfold lenN in F at 1. rewrite map_length in F. specialize (F Hmax Hlen).
  assert (Hc : forall x, In x (map item_of files) ->
      it_a x = hash_string (fst req) HT_NAME_A -> it_b x = hash_string (fst req) HT_NAME_B ->
      it_off x = hash_string (fst req) HT_TABLE_OFFSET).
  { intros x Hx Ha Hb. apply in_map_iff in Hx as (y & <- & Hy).
    unfold it_off. apply name_equiv_hash. cbn [item_of it_name]. apply Hcol; auto.
    - right. now apply in_map.
    - now left. }
  specialize (F Hc). clear Hc.
  destruct (find_pos _ (map item_of files) 0) as [[m x]|] eqn:P.
  - destruct F as [slot F]. exists (Some (slot, it_entry x m)). split; [exact F|].
    apply find_pos_Some in P as (_ & Hm & Hp & Hb). rewrite Nat.sub_0_r in Hm, Hb.
    rewrite nth_error_map in Hm. destruct (nth_error files m) as [y|] eqn:E; [|discriminate].
    injection Hm as <-.
    cbn [option_map map_lookup snd].
    change (he_block (it_entry (item_of y) m)) with (N.of_nat m). split.
    + exists y. rewrite Nat2N.id. split; [exact E|]. split.
      * apply Hans; [now apply nth_error_In in E|exact Hp].
      * intros j z Hj Hz K. apply Hans in K; [|now apply nth_error_In in Hz].
        rewrite (Hb j (item_of z)) in K; [discriminate|exact Hj|].
        rewrite nth_error_map, Hz. reflexivity.
    + intros s e H. injection H as <- <-. exists y.
      unfold it_entry; cbn [he_block he_locale]. rewrite Nat2N.id. split; [exact E|reflexivity].
  - exists None. split; [exact F|]. split; [|discriminate]. cbn [option_map map_lookup].
    intros y Hy K. apply Hans in K; [|exact Hy].
    rewrite find_pos_None in P. rewrite (P (item_of y)) in K; [discriminate|]. now apply in_map.
Qed.

Definition distinct_files (files : list key) : Prop :=
  forall l1 x l2 y l3, files = l1 ++ x :: l2 ++ y :: l3 -> ~ same_file x y.

Lemma builder_table count files :
  lenN files <= count -> count < 2 ^ 30 -> no_collision (map fst files) ->
  exists t0, ht_new (calculate_hash_table_size count) = Ok t0 /\
   ((exists t k, add_all t0 files 0 = Ok t /\ lenN t = 2 ^ k /\
       length t = length t0 /\ (length files < length t)%nat /\
       table_inv t (map item_of files) /\ distinct_files files) \/
    (add_all t0 files 0 = Err EInvalidFormat /\ ~ distinct_files files)).
Proof.
  intros Hle Hc Hcol.
  destruct (hash_table_size_bound count Hc) as (k & Hk & Hk32 & Hge & H16).
  exists (repeat he_empty (N.to_nat (2 ^ k))). split.
  - unfold ht_new. rewrite Hk, w32_small.
    + replace (is_power_of_two (2 ^ k)) with true; [reflexivity|].
      symmetry. apply is_power_of_two_spec. eauto.
    + change M32 with (2 ^ 32). apply N.pow_lt_mono_r; lia.
  - set (t0 := repeat he_empty (N.to_nat (2 ^ k))).
    assert (L0 : length t0 = N.to_nat (2 ^ k)) by (unfold t0; apply repeat_length).
    assert (Ht : lenN t0 = 2 ^ k) by (unfold lenN; rewrite L0; lia).
    assert (Hl : (length files < length t0)%nat).
    { rewrite L0. unfold lenN in Hle. lia. }
    destruct (add_all_spec files t0 k [] Ht (ht_new_inv _) Hl) as [(t & Ha & Hlt & Inv & Hd)|[Ha Hd]].
    + cbn [app]. transitivity count; [exact Hle|]. unfold DELETED. change (2^30) with 1073741824 in Hc. lia.
    + exact Hcol.
    + left. exists t, k. cbn [app] in *. split; [exact Ha|].
      split; [unfold lenN; rewrite Hlt; exact Ht|]. split; [exact Hlt|].
      split; [lia|]. split; [exact Inv|].
      intros l1 x l2 y l3 E. apply (Hd l1 x l2 y l3 E). cbn. lia.
    + right. split; [exact Ha|]. cbn [app] in Hd. destruct Hd as (l1 & x & l2 & y & l3 & E & S).
      intros D. exact (D l1 x l2 y l3 E S).
Qed.

(** ** C35 *)
Lemma pos_recombine pos : pos < 2 ^ 48 ->
  N.lor (N.shiftl (pos_high pos) 32) (pos_low pos) = pos.
Proof.
  intros H. unfold pos_high, pos_low, w16, w32, M16, M32.
  assert (Hs : N.shiftr pos 32 < 2 ^ 16).
  { rewrite N.shiftr_div_pow2. apply N.div_lt_upper_bound; [discriminate|].
    change (2 ^ 32 * 2 ^ 16) with (2 ^ 48). exact H. }
  rewrite (N.mod_small _ (2 ^ 16)) by exact Hs.
  apply N.bits_inj. intros i. rewrite N.lor_spec.
  destruct (N.lt_ge_cases i 32) as [L|L].
  - rewrite N.shiftl_spec_low, N.mod_pow2_bits_low by exact L. reflexivity.
  - rewrite N.shiftl_spec_high', N.shiftr_spec', N.mod_pow2_bits_high by lia.
    rewrite orb_false_r. f_equal. lia.
Qed.

Lemma hi_not_needed positions i pos :
  Forall (fun p => p < 2 ^ 48) positions ->
  hi_is_needed (map pos_high positions) = false ->
  nthN positions i = Some pos -> pos < 2 ^ 32.
Proof.
  intros HF Hn Hi. unfold nthN in Hi. destruct (i <? lenN positions); [|discriminate].
  apply nth_error_In in Hi. rewrite Forall_forall in HF. specialize (HF _ Hi).
  unfold hi_is_needed in Hn. 
  assert (pos_high pos = 0).
  { destruct (N.eq_dec (pos_high pos) 0) as [E|E]; [exact E|exfalso].
    assert (existsb (fun v => negb (v =? 0)) (map pos_high positions) = true); [|congruence].
    apply existsb_exists. exists (pos_high pos). split; [now apply in_map|].
    now rewrite negb_true_iff, N.eqb_neq. }
  rewrite <- (pos_recombine pos HF), H, N.shiftl_0_l, N.lor_0_l.
  apply N.mod_lt. discriminate.
Qed.

Lemma nthN_map {A B} (f : A -> B) l i : nthN (map f l) i = option_map f (nthN l i).
Proof.
  unfold nthN, lenN. rewrite map_length. destruct (_ <? _); [|reflexivity].
  apply nth_error_map.
Qed.

Lemma hi_positions pre post positions i pos :
  Forall (fun p => p < 2 ^ 48) positions -> nthN positions i = Some pos ->
  match hi_written true positions with
  | Some w => exists t,
      hi_read (pre ++ w ++ post) (lenN pre) (lenN positions) = Ok t /\
      pos_full (Some t) i (pos_low pos) = pos
  | None => pos_full None i (pos_low pos) = pos
  end.
Proof.
  intros HF Hi. unfold hi_written.
  assert (Hp : pos < 2 ^ 48).
  { rewrite Forall_forall in HF. apply HF. unfold nthN in Hi.
    destruct (i <? lenN positions); [|discriminate]. now apply nth_error_In in Hi. }
  cbn [andb]. destruct (hi_is_needed (map pos_high positions)) eqn:E.
  - exists (map pos_high positions). split.
    + assert (L : lenN (map pos_high positions) = lenN positions)
        by (unfold lenN; now rewrite map_length).
      rewrite <- L. apply hi_read_write.
      * apply Forall_forall. intros v Hv. apply in_map_iff in Hv as (p & <- & _).
        unfold pos_high, w16. apply N.mod_lt. discriminate.
      * apply slice_mid'; [reflexivity|].
        unfold lenN. rewrite write_hi_length. lia.
    + cbn [pos_full]. unfold hi_get. rewrite nthN_map, Hi. cbn [option_map].
      now apply pos_recombine.
  - cbn [pos_full]. unfold pos_low. apply w32_small.
    now apply (hi_not_needed positions i).
Qed.

Lemma hi_omitted positions :
  Forall (fun p => p < 2 ^ 48) positions -> hi_written true positions = None ->
  Forall (fun p => p < 2 ^ 32) positions.
Proof.
  intros HF Hn. unfold hi_written in Hn. cbn [andb] in Hn.
  destruct (hi_is_needed (map pos_high positions)) eqn:E; [discriminate|].
  apply Forall_forall. intros p Hp. apply In_nth_error in Hp as [i Hi].
  apply (hi_not_needed positions (N.of_nat i)); auto.
  unfold nthN, lenN. assert (i < length positions)%nat by (apply nth_error_Some; congruence).
  replace (N.of_nat i <? N.of_nat (length positions)) with true by lia.
  now rewrite Nat2N.id.
Qed.

Lemma builder_table_map count files :
  lenN files <= count -> count < 2 ^ 30 -> no_collision (map fst files) ->
  exists t0, ht_new (calculate_hash_table_size count) = Ok t0 /\
   ((exists t, add_all t0 files 0 = Ok t /\ distinct_files files /\
       forall req, no_collision (fst req :: map fst files) ->
         exists r, ht_find_file t (fst req) (snd req) = Ok r /\
           map_lookup files req (option_map (fun p => he_block (snd p)) r)) \/
    (add_all t0 files 0 = Err EInvalidFormat /\ ~ distinct_files files)).
Proof.
  intros Hle Hc Hcol.
  destruct (builder_table count files Hle Hc Hcol)
    as (t0 & Hn & [(t & k & Ha & Ht & Hl0 & Hl & Inv & Hd)|[Ha Hd]]).
  - exists t0. split; [exact Hn|]. left. exists t. split; [exact Ha|]. split; [exact Hd|].
    intros req Hreq.
    destruct (ht_find_map t k files req Ht Inv) as (r & H1 & H2 & _); auto.
    + transitivity count; [exact Hle|]. unfold DELETED. change (2^30) with 1073741824 in Hc. lia.
    + exists r. auto.
  - exists t0. split; [exact Hn|]. right. auto.
Qed.

Lemma hash_table_round_trip pre post t k :
  lenN t = 2 ^ k -> Forall he_ok t ->
  ht_read (pre ++ write_hash_table t ++ post) (lenN pre) (lenN t) = Ok t.
Proof.
  intros Ht Hok. apply (ht_read_write _ _ k); auto.
  apply slice_mid'; [reflexivity|]. unfold lenN. rewrite write_hash_table_length. lia.
Qed.

Lemma block_table_round_trip pre post t :
  Forall be_ok t ->
  bt_read (pre ++ write_block_table t ++ post) (lenN pre) (lenN t) = Ok t.
Proof.
  intros Hok. apply bt_read_write; auto.
  apply slice_mid'; [reflexivity|]. unfold lenN. rewrite write_block_table_length. lia.
Qed.

(** ** The same without assuming the absence of hash collisions *)
Lemma add_all_hashes files : forall t k done,
  lenN t = 2 ^ k -> table_inv t (map item_of done) ->
  (length done + length files < length t)%nat ->
  lenN (done ++ files) <= DELETED ->
  (exists t', add_all t files (lenN done) = Ok t' /\ length t' = length t /\
     table_inv t' (map item_of (done ++ files))) \/
  (add_all t files (lenN done) = Err EInvalidFormat /\
   exists l1 x l2 y l3, done ++ files = l1 ++ x :: l2 ++ y :: l3 /\
     same_key (item_of x) (item_of y) = true).
Proof.
  induction files as [|xx files IH]; intros t k done Ht Inv Hlen Hmax.
  - left. exists t. rewrite app_nil_r. auto.
  - destruct xx as [n l] eqn:Exx. cbn [add_all]. rewrite <- Exx in *.
    assert (Hl2 : lenN (map item_of done) = lenN done) by (unfold lenN; now rewrite map_length).
    rewrite lenN_app, lenN_cons in Hmax. cbn [length] in Hlen.
    destruct (add_to_hash_table_spec t k (map item_of done) (item_of xx) Ht Inv)
      as [(t' & Ha & Inv' & Hlt & _)|[Ha (y & Hy & Hsame)]].
    { rewrite Hl2. lia. }
    { rewrite map_length. lia. }
    + rewrite Hl2 in Ha. unfold item_of in Ha. rewrite Exx in Ha. cbn [it_name it_loc fst snd] in Ha.
      rewrite Ha. cbn [bind].
      assert (Hd : done ++ xx :: files = (done ++ [xx]) ++ files)
        by (rewrite <- app_assoc; reflexivity).
      assert (Hn1 : lenN done + 1 = lenN (done ++ [xx])) by (rewrite lenN_app; reflexivity).
      rewrite Hn1, Hd.
      destruct (IH t' k (done ++ [xx])) as [(t2 & Hr & Hl3 & Inv2)|H].
      * unfold lenN. rewrite Hlt. exact Ht.
      * rewrite map_app. exact Inv'.
      * rewrite app_length, Hlt. cbn. lia.
      * rewrite <- Hd, lenN_app, lenN_cons. lia.
      * left. exists t2. split; [exact Hr|]. split; [congruence|exact Inv2].
      * right. exact H.
    + right. rewrite Hl2 in Ha. unfold item_of in Ha. rewrite Exx in Ha. cbn [it_name it_loc fst snd] in Ha.
      rewrite Ha. split; [reflexivity|].
      apply in_map_iff in Hy as (y' & <- & Hy).
      apply in_split in Hy as (d1 & d2 & ->).
      exists d1, y', d2, xx, files. split; [rewrite <- app_assoc; reflexivity|exact Hsame].
Qed.

Lemma search_complete t k items m x loc :
  lenN t = 2 ^ k -> table_inv t items -> lenN items <= DELETED ->
  nth_error items m = Some x -> (loc = 0 \/ loc = it_loc x) ->
  exists s m' x', nth_error items m' = Some x' /\ it_a x' = it_a x /\ it_b x' = it_b x /\
    search t (it_a x) (it_b x) loc (order (length t) (home t (it_off x))) = Some (s, it_entry x' m').
Proof.
  intros Ht Inv Hl Hm Hloc.
  destruct (search t (it_a x) (it_b x) loc (order (length t) (home t (it_off x))))
    as [[s e]|] eqn:Se.
  - apply search_Some in Se as (l1 & i & l2 & _ & -> & He & Hmt & _).
    destruct (ti_sound _ _ Inv i e He (he_matches_nonempty _ _ _ _ Hmt)) as (m' & x' & Hx' & ->).
    exists (N.of_nat i), m', x'. split; [exact Hx'|].
    rewrite (it_entry_matches items m' x' _ _ _ Hl Hx') in Hmt.
    unfold item_matches in Hmt. rewrite !andb_true_iff, !N.eqb_eq in Hmt. tauto.
  - exfalso. destruct (ti_complete _ _ Inv m x Hm) as (i & Hi & H1 & H2).
    assert (Hmx : he_matches (it_a x) (it_b x) loc (it_entry x m) = true).
    { rewrite (it_entry_matches items m x _ _ _ Hl Hm). unfold item_matches.
      rewrite !N.eqb_refl. cbn [andb]. destruct Hloc as [->| ->].
      - reflexivity.
      - rewrite N.eqb_refl. now rewrite !orb_true_r. }
    (* the slots before [i] are used; a hit among them would give a result too *)
    assert (G : forall d j, (j + d = i)%nat ->
      search t (it_a x) (it_b x) loc
        (map (probe (length t) (home t (it_off x))) (seq j (length t - j))) <> None).
    { induction d as [|d IH]; intros j Hj.
      - assert (j = i) as -> by lia.
        replace (length t - i)%nat with (S (length t - S i)) by lia.
        cbn [seq map search]. rewrite H1, Hmx. discriminate.
      - replace (length t - j)%nat with (S (length t - S j)) by lia.
        cbn [seq map search]. destruct (H2 j ltac:(lia)) as (m' & x' & L & M & E).
        rewrite E. destruct (he_matches _ _ _ (it_entry x' m')); [discriminate|].
        rewrite (proj2 (it_entry_valid items m' x' Hl M)). apply IH. lia. }
    apply (G i 0%nat ltac:(lia)). rewrite Nat.sub_0_r. exact Se.
Qed.

Lemma search_absent t items a b loc l :
  table_inv t items -> (forall x, In x items -> ~ (it_a x = a /\ it_b x = b)) ->
  search t a b loc l = None.
Proof.
  intros Inv H. destruct (search t a b loc l) as [[s e]|] eqn:S; [exfalso|reflexivity].
  apply search_Some in S as (l1 & i & l2 & _ & -> & He & Hmt & _).
  destruct (ti_sound _ _ Inv i e He (he_matches_nonempty _ _ _ _ Hmt)) as (m' & x' & Hx' & ->).
  apply (H x'); [now apply nth_error_In in Hx'|].
  unfold he_matches in Hmt. rewrite !andb_true_iff, !N.eqb_eq in Hmt.
  cbn [it_entry he_name1 he_name2] in Hmt. tauto.
Qed.

Definition same_hashes (x y : bytes) : Prop :=
  hash_string x HT_NAME_A = hash_string y HT_NAME_A /\
  hash_string x HT_NAME_B = hash_string y HT_NAME_B.

Lemma builder_table_hashes count files :
  lenN files <= count -> count < 2 ^ 30 ->
  exists t0, ht_new (calculate_hash_table_size count) = Ok t0 /\
   ((exists t, add_all t0 files 0 = Ok t /\
       (forall name loc, In (name, loc) files -> forall spelling, name_equiv spelling name ->
          forall req, req = 0 \/ req = loc ->
          exists s e y, ht_find_file t spelling req = Ok (Some (s, e)) /\
            nth_error files (N.to_nat (he_block e)) = Some y /\ same_hashes (fst y) name) /\
       (forall name req, (forall y, In y files -> ~ same_hashes (fst y) name) ->
          ht_find_file t name req = Ok None)) \/
    (add_all t0 files 0 = Err EInvalidFormat /\
     exists l1 x l2 y l3, files = l1 ++ x :: l2 ++ y :: l3 /\
       same_hashes (fst x) (fst y) /\ snd x = snd y)).
Proof.
  intros Hle Hc.
  destruct (hash_table_size_bound count Hc) as (k & Hk & Hk32 & Hge & H16).
  exists (repeat he_empty (N.to_nat (2 ^ k))). split.
  - unfold ht_new. rewrite Hk, w32_small.
    + replace (is_power_of_two (2 ^ k)) with true; [reflexivity|].
      symmetry. apply is_power_of_two_spec. eauto.
    + change M32 with (2 ^ 32). apply N.pow_lt_mono_r; lia.
  - set (t0 := repeat he_empty (N.to_nat (2 ^ k))).
    assert (L0 : length t0 = N.to_nat (2 ^ k)) by (unfold t0; apply repeat_length).
    assert (Ht : lenN t0 = 2 ^ k) by (unfold lenN; rewrite L0; lia).
    assert (Hl : (length files < length t0)%nat).
    { rewrite L0. unfold lenN in Hle. lia. }
    assert (Hmax : lenN files <= DELETED).
    { transitivity count; [exact Hle|]. unfold DELETED. change (2^30) with 1073741824 in Hc. lia. }
    destruct (add_all_hashes files t0 k [] Ht (ht_new_inv _) Hl Hmax) as [(t & Ha & Hlt & Inv)|[Ha Hd]].
    + left. exists t. cbn [app] in *. split; [exact Ha|].
      assert (Ht' : lenN t = 2 ^ k) by (unfold lenN; rewrite Hlt; exact Ht).
      assert (Hmax' : lenN (map item_of files) <= DELETED) by (unfold lenN; rewrite map_length; exact Hmax).
      split.
      * intros name loc Hin spelling Heq req Hreq.
        apply In_nth_error in Hin as [m Hm].
        destruct (search_complete t k (map item_of files) m (item_of (name, loc)) req Ht' Inv Hmax')
          as (s & m' & x' & Hx' & Ea & Eb & Hs).
        { exact (map_nth_error item_of m files Hm). }
        { destruct Hreq as [->| ->]; auto. }
        rewrite nth_error_map in Hx'. destruct (nth_error files m') as [y|] eqn:Ey; [|discriminate].
        injection Hx' as <-.
        exists s, (it_entry (item_of y) m'), y. split; [|split].
        -- rewrite (ht_find_search t k Ht'), !(name_equiv_hash _ _ _ Heq). f_equal. exact Hs.
        -- unfold it_entry; cbn [he_block]. rewrite Nat2N.id. exact Ey.
        -- split; assumption.
      * intros name req Hno. rewrite (ht_find_search t k Ht'). f_equal.
        apply (search_absent t (map item_of files)); [exact Inv|].
        intros x Hx [H1 H2]. apply in_map_iff in Hx as (y & <- & Hy).
        apply (Hno y Hy). split; assumption.
    + right. split; [exact Ha|]. cbn [app] in Hd.
      destruct Hd as (l1 & x & l2 & y & l3 & E & S).
      exists l1, x, l2, y, l3. split; [exact E|].
      unfold same_key in S. rewrite !andb_true_iff, !N.eqb_eq in S. destruct S as [[S1 S2] S3].
      split; [split; assumption|exact S3].
Qed.
