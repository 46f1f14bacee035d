(** * Tables made and changed by a caller: proofs. *)
From Verif Require Import Bytes Crypto CryptoFacts SpecNames HashTable BlockTable HashTableFacts SpecTables TableMap TableApi SpecArray.
Open Scope N_scope.

Section A.
Context {A : Type} (blank : A).

Lemma put_len (t : list A) i e : lenN (table_put t i e) = lenN t.
Proof. unfold table_put. destruct (i <? lenN t); [|reflexivity]. apply lenN_eq, upd_length. Qed.
Lemma clear_len (t : list A) : lenN (table_clear blank t) = lenN t.
Proof. apply lenN_eq, map_length. Qed.
Lemma change_len t c : lenN (table_change blank t c) = lenN t.
Proof. destruct c; [apply put_len|apply clear_len]. Qed.

Lemma nthN_some (t : list A) i : i < lenN t -> exists e, nthN t i = Some e.
Proof.
  intros H. unfold nthN. replace (i <? lenN t) with true by lia.
  destruct (nth_error t (N.to_nat i)) as [e|] eqn:E; [eauto|].
  apply nth_error_None in E. unfold lenN in H. lia.
Qed.
Lemma nthN_none (t : list A) i : lenN t <= i -> nthN t i = None.
Proof. intros H. unfold nthN. now replace (i <? lenN t) with false by lia. Qed.
Lemma nthN_put_eq (t : list A) i e : i < lenN t -> nthN (table_put t i e) i = Some e.
Proof.
  intros H. unfold nthN. rewrite put_len. unfold table_put. replace (i <? lenN t) with true by lia.
  apply nth_error_upd_eq. unfold lenN in H. lia.
Qed.
Lemma nthN_put_neq (t : list A) i j e : i <> j -> nthN (table_put t i e) j = nthN t j.
Proof.
  intros H. unfold nthN. rewrite put_len. destruct (j <? lenN t); [|reflexivity].
  unfold table_put. destruct (i <? lenN t); [|reflexivity]. apply nth_error_upd_neq. lia.
Qed.
Lemma nthN_clear (t : list A) i : i < lenN t -> nthN (table_clear blank t) i = Some blank.
Proof.
  intros H. unfold table_clear. rewrite nthN_map. destruct (nthN_some t i H) as (e & ->). reflexivity.
Qed.

Lemma snoc_split {X} (before after cs : list X) x y :
  cs ++ [x] = before ++ y :: after ->
  (after = [] /\ x = y /\ before = cs) \/ exists r, after = r ++ [x] /\ cs = before ++ y :: r.
Proof.
  intros H. destruct (exists_last (l := y :: after)) as (r & z & E); [discriminate|].
  rewrite E, app_assoc in H. apply app_inj_tail in H as [H1 H2]. subst z.
  destruct r as [|w r].
  - cbn [app] in E. injection E as -> ->. left. rewrite app_nil_r in H1. auto.
  - cbn [app] in E. injection E as -> ->. right. exists r. auto.
Qed.

Lemma array_step n cs t c : array_of blank n cs t -> array_of blank n (cs ++ [c]) (table_change blank t c).
Proof.
  intros (Hl & Ho & Hi). split; [now rewrite change_len|]. split.
  { intros i H. apply nthN_none. rewrite change_len. lia. }
  intros i H. destruct c as [j e|]; cbn [table_change].
  - destruct (N.eq_dec j i) as [->|Hj].
    + exists e. split; [apply nthN_put_eq; lia|]. split; [|split].
      * intros x (b & a & E & _ & Hx). apply snoc_split in E as [(-> & E & _)|(r & -> & _)]; [congruence|].
        elim (Hx e). apply in_or_app. right. left. reflexivity.
      * intros (b & a & E & Hx). exfalso. destruct E as [<-|E].
        -- apply (Hx e), in_or_app. right. left. reflexivity.
        -- apply snoc_split in E as [(_ & E & _)|(r & -> & _)]; [discriminate|].
           apply (Hx e), in_or_app. right. left. reflexivity.
      * left. exists cs, []. split; [reflexivity|]. split; [intros []|intros x []].
    + destruct (Hi i H) as (x & Hx & Hp & Hn & Hc). exists x.
      split; [now rewrite nthN_put_neq|]. split; [|split].
      * intros y (b & a & E & Hcl & Hy). apply snoc_split in E as [(_ & E & _)|(r & -> & ->)]; [congruence|].
        apply Hp. exists b, r. split; [reflexivity|]. split.
        -- intros C. apply Hcl, in_or_app. now left.
        -- intros z C. apply (Hy z), in_or_app. now left.
      * intros (b & a & E & Hy). apply Hn. destruct E as [<-|E].
        -- exists [], cs. split; [now left|]. intros z C. apply (Hy z), in_or_app. now left.
        -- apply snoc_split in E as [(_ & E & _)|(r & -> & ->)]; [discriminate|].
           exists b, r. split; [now right|]. intros z C. apply (Hy z), in_or_app. now left.
      * destruct Hc as [(b & a & -> & Hcl & Hy)|(b & a & E & Hy)]; [left|right].
        -- exists b, (a ++ [TPut j e]). split; [now rewrite <- app_assoc|]. split.
           ++ intros C. apply in_app_or in C as [C|[C|[]]]; [auto|discriminate].
           ++ intros z C. apply in_app_or in C as [C|[C|[]]]; [now apply (Hy z)|congruence].
        -- exists b, (a ++ [TPut j e]). split.
           ++ destruct E as [->| ->]; [now left|right; now rewrite <- app_assoc].
           ++ intros z C. apply in_app_or in C as [C|[C|[]]]; [now apply (Hy z)|congruence].
  - exists blank. split; [apply nthN_clear; lia|]. split; [|split].
    + intros y (b & a & E & Hcl & _). exfalso. apply snoc_split in E as [(_ & E & _)|(r & -> & _)]; [discriminate|].
      apply Hcl, in_or_app. right. now left.
    + reflexivity.
    + right. exists cs, []. split; [now right|]. intros z [].
Qed.

Lemma array_new n : array_of blank n [] (repeat blank (N.to_nat n)).
Proof.
  assert (Hl : lenN (repeat blank (N.to_nat n)) = n) by (unfold lenN; rewrite repeat_length; lia).
  split; [exact Hl|]. split; [intros i H; apply nthN_none; lia|].
  intros i H. exists blank. split; [|split; [|split]].
  - destruct (nthN_some (repeat blank (N.to_nat n)) i) as (e & E); [lia|]. rewrite E. f_equal.
    unfold nthN in E. destruct (i <? _); [|discriminate]. apply nth_error_In, repeat_spec in E. exact E.
  - intros x (b & a & E & _). destruct b; discriminate.
  - reflexivity.
  - right. exists [], []. split; [now left|]. intros x [].
Qed.

Lemma array_all n cs : array_of blank n cs (table_changes blank (repeat blank (N.to_nat n)) cs).
Proof.
  induction cs as [|c cs IH] using rev_ind; [apply array_new|].
  unfold table_changes in *. rewrite fold_left_app. cbn [fold_left]. now apply array_step.
Qed.
End A.

(** ** Hash tables *)
Lemma new_mut_small size : size < 2 ^ 32 ->
  (forall t, ht_new_mut size = Ok t <-> (exists k, size = 2 ^ k) /\ t = repeat he_empty (N.to_nat size)) /\
  (~ (exists k, size = 2 ^ k) -> ht_new_mut size = Err EHashTable).
Proof.
  intros H. unfold ht_new_mut. rewrite (w32_small size) by exact H.
  destruct (is_power_of_two size) eqn:E.
  - assert (K : exists k, size = 2 ^ k) by now apply is_power_of_two_spec. split; [|contradiction].
    intros t. split; [intros T; apply Ok_inj in T; auto|]. intros (_ & ->). reflexivity.
  - assert (K : ~ exists k, size = 2 ^ k) by (intros K; apply is_power_of_two_spec in K; congruence).
    split; [|reflexivity]. intros t. split; [discriminate|]. intros (C & _). contradiction.
Qed.

Lemma changed_lookup size t0 cs name loc : size < 2 ^ 32 -> ht_new_mut size = Ok t0 ->
  exists r, ht_find_file (table_changes he_empty t0 cs) name loc = Ok r /\
    lookup_spec (table_changes he_empty t0 cs) (hash_string name HT_TABLE_OFFSET) (hash_string name HT_NAME_A)
      (hash_string name HT_NAME_B) loc r.
Proof.
  intros H E. apply (new_mut_small size H) in E as ((k & Hk) & ->).
  destruct (array_all he_empty size cs) as (Hl & _). apply (ht_find_lookup _ k). now rewrite Hl.
Qed.

Definition HUGE : N := 2 ^ 32 + 1.
Lemma huge_find t name loc i e : lenN t = HUGE -> ht_find_file t name loc = Ok (Some (i, e)) -> i = 0.
Proof.
  intros Hl. unfold ht_find_file. rewrite Hl. change (HUGE =? 0) with false. cbv iota zeta.
  assert (Hz : forall x, x < 2 ^ 32 -> N.land x (HUGE - 1) = 0).
  { intros x Hx. change (HUGE - 1) with (2 ^ 32). apply N.bits_inj. intros j. rewrite N.land_spec, N.bits_0, N.pow2_bits_eqb.
    destruct (N.eqb_spec 32 j) as [<-|]; [|apply andb_false_r]. rewrite andb_true_r.
    rewrite <- (N.mod_small x (2 ^ 32)) by exact Hx. now apply N.mod_pow2_bits_high. }
  rewrite (Hz (hash_string name HT_TABLE_OFFSET)) by apply hash_string_lt.
  destruct (length t) as [|f] eqn:El; cbn [find_loop]; [discriminate|].
  destruct (nthN t 0) as [x|]; [|discriminate].
  destruct (he_matches _ _ _ _); [intros H; apply Ok_inj in H; congruence|].
  destruct (is_empty x); [discriminate|]. rewrite Hl, (Hz (0 + 1)) by reflexivity. cbn [N.eqb]. discriminate.
Qed.

Lemma huge_not_power k : HUGE <> 2 ^ k.
Proof.
  intros H. assert (is_power_of_two HUGE = true) by (apply is_power_of_two_spec; eauto). vm_compute in H0. discriminate.
Qed.

Lemma huge_gen n : n = HUGE -> is_power_of_two (w32 n) = true ->
  exists size t, ht_new_mut size = Ok t /\ (forall k, lenN t <> 2 ^ k) /\
  forall cs name loc i e, ht_find_file (table_changes he_empty t cs) name loc = Ok (Some (i, e)) -> i = 0.
Proof.
  intros Hn E. exists n, (repeat he_empty (N.to_nat n)).
  split; [unfold ht_new_mut; rewrite E; reflexivity|].
  assert (Hl : forall cs, lenN (table_changes he_empty (repeat he_empty (N.to_nat n)) cs) = n).
  { intros cs. exact (proj1 (array_all he_empty n cs)). }
  split.
  - intros k. specialize (Hl []). unfold table_changes in Hl. cbn [fold_left] in Hl. rewrite Hl, Hn. apply huge_not_power.
  - intros cs name loc i e. apply huge_find. rewrite Hl. exact Hn.
Qed.
Lemma huge_wrong : exists size t, ht_new_mut size = Ok t /\ (forall k, lenN t <> 2 ^ k) /\
  forall cs name loc i e, ht_find_file (table_changes he_empty t cs) name loc = Ok (Some (i, e)) -> i = 0.
Proof.
  assert (E : is_power_of_two (w32 HUGE) = true) by (vm_compute; reflexivity).
  exact (huge_gen HUGE eq_refl E).
Qed.

(** ** Hi-block tables *)
Lemma needed_iff t : hi_is_needed t = true <-> exists i v, nthN t i = Some v /\ v <> 0.
Proof.
  unfold hi_is_needed. rewrite existsb_exists. split.
  - intros (v & Hi & Hv). apply In_nth_error in Hi as (i & Hi). exists (N.of_nat i), v. split; [|lia].
    unfold nthN. assert (i < length t)%nat by (apply nth_error_Some; congruence).
    replace (N.of_nat i <? lenN t) with true by (unfold lenN; lia). now rewrite Nat2N.id.
  - intros (i & v & Hi & Hv). exists v. split; [|lia]. unfold nthN in Hi. destruct (i <? _); [|discriminate].
    now apply nth_error_In in Hi.
Qed.

Lemma block_array n cs : exists t0, bt_new_mut n = Ok t0 /\ array_of be_blank n cs (table_changes be_blank t0 cs).
Proof. eexists. split; [reflexivity|]. apply array_all. Qed.
Lemma hash_array n t0 cs : ht_new_mut n = Ok t0 -> array_of he_empty n cs (table_changes he_empty t0 cs).
Proof.
  unfold ht_new_mut. destruct (is_power_of_two _); [|discriminate]. intros H. apply Ok_inj in H. subst t0. apply array_all.
Qed.
Lemma hi_array n cs : array_of 0 n cs (table_changes 0 (hi_new n) cs).
Proof. apply array_all. Qed.
Lemma hi_outside n cs i : n <= i -> hi_get (table_changes 0 (hi_new n) cs) i = 0.
Proof. intros H. unfold hi_get. destruct (hi_array n cs) as (_ & Ho & _). now rewrite (Ho i H). Qed.
