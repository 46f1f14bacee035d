(** * Facts about the hash table: probing, insertion, serialisation. *)
From Verif Require Import Bytes Crypto CryptoFacts SpecNames NameFacts HashTable BlockTable.
Open Scope N_scope.

(** ** Powers of two *)
Lemma land_pow2_mod x k : N.land x (2 ^ k - 1) = x mod 2 ^ k.
Proof. rewrite <- N.land_ones, N.ones_equiv, N.sub_1_r. reflexivity. Qed.

Lemma is_power_of_two_spec v : is_power_of_two v = true <-> exists k, v = 2 ^ k.
Proof.
  unfold is_power_of_two. rewrite andb_true_iff, negb_true_iff, N.eqb_neq, N.eqb_eq. split.
  - intros [Hv Hl]. exists (N.log2 v).
    destruct (N.log2_spec v) as [L1 L2]; [lia|].
    destruct (N.eq_dec v (2 ^ N.log2 v)) as [E|E]; [exact E|exfalso].
    assert (Hlog : N.log2 (v - 1) = N.log2 v).
    { apply N.log2_unique; [lia|]. lia. }
    assert (B : N.testbit (N.land v (v - 1)) (N.log2 v) = true).
    { rewrite N.land_spec, N.bit_log2 by lia.
      rewrite <- Hlog. rewrite N.bit_log2; [reflexivity|].
      assert (2 ^ N.log2 v <> 0) by (apply N.pow_nonzero; lia). lia. }
    rewrite Hl, N.bits_0 in B. discriminate.
  - intros [k ->]. assert (2 ^ k <> 0) by (apply N.pow_nonzero; lia).
    split; [assumption|]. rewrite land_pow2_mod. now apply N.mod_same.
Qed.

(** ** The probe sequence *)
Definition probe (n h : nat) (i : nat) : nat := ((h + i) mod n)%nat.
Definition order (n h : nat) : list nat := map (probe n h) (seq 0 n).

(** Search along a list of slots. *)
Fixpoint search (t : list hentry) (a b loc : N) (l : list nat) : option (N * hentry) :=
  match l with
  | [] => None
  | i :: l' =>
      match nth_error t i with
      | None => None
      | Some e =>
          if he_matches a b loc e then Some (N.of_nat i, e)
          else if is_empty e then None
          else search t a b loc l'
      end
  end.

Lemma of_nat_mod a b : N.of_nat (a mod b) = N.of_nat a mod N.of_nat b.
Proof.
  destruct b as [|b].
  - destruct a; reflexivity.
  - apply (N.mod_unique _ _ (N.of_nat (a / S b))).
    + pose proof (Nat.mod_upper_bound a (S b)). lia.
    + rewrite (Nat.div_mod a (S b)) at 1 by lia. lia.
Qed.

Section Probing.
  Variable t : list hentry.
  Variable k : N.
  Hypothesis Ht : lenN t = 2 ^ k.
  Let n := length t.

  Lemma n_pos : (0 < n)%nat.
  Proof.
    unfold n. assert (2 ^ k <> 0) by (apply N.pow_nonzero; lia).
    unfold lenN in Ht. lia.
  Qed.

  Lemma mask_mod x : N.land x (lenN t - 1) = x mod lenN t.
  Proof. rewrite Ht. apply land_pow2_mod. Qed.

  Lemma lenN_n : lenN t = N.of_nat n.
  Proof. reflexivity. Qed.

  Lemma probe_lt h i : (probe n h i < n)%nat.
  Proof. apply Nat.mod_upper_bound. pose proof n_pos. lia. Qed.

  Lemma probe_next h i : (h < n)%nat ->
    N.land (N.of_nat (probe n h i) + 1) (lenN t - 1) = N.of_nat (probe n h (S i)).
  Proof.
    intros Hh. rewrite mask_mod, lenN_n. unfold probe.
    pose proof n_pos.
    replace (N.of_nat ((h + i) mod n) + 1) with (N.of_nat ((h + i) mod n + 1)) by lia.
    rewrite <- of_nat_mod. f_equal.
    rewrite Nat.add_mod_idemp_l by lia. f_equal. lia.
  Qed.

  Lemma probe_0 h : (h < n)%nat -> probe n h 0 = h.
  Proof using. clear Ht. intros H. unfold probe. rewrite Nat.add_0_r. now apply Nat.mod_small. Qed.

  Lemma probe_neq_start h i : (h < n)%nat -> (0 < i < n)%nat -> probe n h i <> h.
  Proof.
    intros Hh Hi E. unfold probe in E.
    pose proof (Nat.div_mod (h + i) n ltac:(lia)) as D. rewrite E in D.
    assert (i = n * ((h + i) / n))%nat by lia.
    destruct ((h + i) / n)%nat; nia.
  Qed.

  Lemma probe_wrap h : (h < n)%nat -> probe n h n = h.
  Proof.
    intros H. unfold probe. pose proof n_pos.
    replace (h + n)%nat with (h + 1 * n)%nat by lia. rewrite Nat.mod_add by lia.
    now apply Nat.mod_small.
  Qed.

  (** Every slot is visited. *)
  Lemma probe_surj h s : (h < n)%nat -> (s < n)%nat -> exists i, (i < n)%nat /\ probe n h i = s.
  Proof using. clear Ht.
    intros Hh Hs. exists ((s + (n - h)) mod n)%nat. split.
    - apply Nat.mod_upper_bound. lia.
    - unfold probe. rewrite Nat.add_mod_idemp_r by lia.
      replace (h + (s + (n - h)))%nat with (s + 1 * n)%nat by lia.
      rewrite Nat.mod_add by lia. now apply Nat.mod_small.
  Qed.

  Lemma probe_inj h i j : (i < n)%nat -> (j < n)%nat -> probe n h i = probe n h j -> i = j.
  Proof.
    intros Hi Hj E. unfold probe in E.
    pose proof (Nat.div_mod (h + i) n ltac:(lia)) as D1.
    pose proof (Nat.div_mod (h + j) n ltac:(lia)) as D2.
    rewrite E in D1. set (q1 := ((h + i) / n)%nat) in *. set (q2 := ((h + j) / n)%nat) in *.
    set (r := ((h + j) mod n)%nat) in *. clearbody q1 q2 r.
    assert (q1 = q2 \/ q1 < q2 \/ q2 < q1)%nat as [->|[L|L]] by lia; nia.
  Qed.

  Lemma nthN_probe h i : exists e, nthN t (N.of_nat (probe n h i)) = Some e /\
     nth_error t (probe n h i) = Some e.
  Proof.
    pose proof (probe_lt h i) as H.
    destruct (nth_error t (probe n h i)) as [e|] eqn:E.
    - exists e. split; [|reflexivity]. unfold nthN, lenN. fold n. rewrite Nat2N.id.
      replace (N.of_nat (probe n h i) <? N.of_nat n) with true by lia. exact E.
    - apply nth_error_None in E. fold n in E. lia.
  Qed.

  Lemma find_loop_search a b loc h :
    (h < n)%nat ->
    forall m i, (0 < m)%nat -> (i + m = n)%nat ->
    find_loop m t a b loc (N.of_nat h) (N.of_nat (probe n h i))
    = Ok (search t a b loc (map (probe n h) (seq i m))).
  Proof.
    intros Hh. induction m as [|m IH]; intros i Hm Hi; [lia|].
    cbn [find_loop seq map search].
    destruct (nthN_probe h i) as (e & E1 & E2). rewrite E1, E2.
    destruct (he_matches a b loc e); [reflexivity|].
    destruct (is_empty e); [reflexivity|].
    rewrite probe_next by exact Hh.
    destruct m as [|m].
    - replace (S i) with n by lia. rewrite probe_wrap by exact Hh.
      rewrite N.eqb_refl. reflexivity.
    - replace (N.of_nat (probe n h (S i)) =? N.of_nat h) with false.
      + apply IH; lia.
      + symmetry. apply N.eqb_neq. intros E. apply Nat2N.inj in E.
        apply (probe_neq_start h (S i)); [exact Hh|lia|exact E].
  Qed.

  Definition home (off : N) : nat := N.to_nat (off mod lenN t).

  Lemma home_lt off : (home off < n)%nat.
  Proof.
    unfold home. pose proof n_pos.
    assert (off mod lenN t < lenN t) by (apply N.mod_lt; unfold lenN; fold n; lia).
    rewrite lenN_n in *. lia.
  Qed.

  Lemma of_nat_home off : N.of_nat (home off) = off mod lenN t.
  Proof using. clear Ht. unfold home. lia. Qed.

  Lemma ht_find_search name loc :
    ht_find_file t name loc =
    Ok (search t (hash_string name HT_NAME_A) (hash_string name HT_NAME_B) loc
          (order n (home (hash_string name HT_TABLE_OFFSET)))).
  Proof.
    unfold ht_find_file. pose proof n_pos as Hn.
    destruct (N.eqb_spec (lenN t) 0) as [E|_]; [unfold lenN in E; fold n in E; lia|].
    rewrite mask_mod, <- of_nat_home.
    set (h := home (hash_string name HT_TABLE_OFFSET)).
    pose proof (home_lt (hash_string name HT_TABLE_OFFSET)) as Hh. fold h in Hh.
    rewrite <- (probe_0 h Hh) at 2. fold n.
    apply (find_loop_search _ _ _ h Hh n 0); lia.
  Qed.
End Probing.

(** ** Search in terms of the first hit *)
Lemma search_Some t a b loc l idx e :
  search t a b loc l = Some (idx, e) <->
  exists l1 i l2, l = l1 ++ i :: l2 /\ idx = N.of_nat i /\ nth_error t i = Some e /\
    he_matches a b loc e = true /\
    Forall (fun j => exists e', nth_error t j = Some e' /\
                     he_matches a b loc e' = false /\ is_empty e' = false) l1.
Proof.
  induction l as [|i l IH]; cbn [search].
  - split; [discriminate|]. intros (l1 & j & l2 & H & _). destruct l1; discriminate.
  - destruct (nth_error t i) as [e'|] eqn:E.
    2:{ split; [discriminate|]. intros (l1 & j & l2 & H & _ & Hj & _ & HF).
        destruct l1 as [|x l1]; injection H as -> ->; [congruence|].
        inversion HF as [|? ? (e1 & H1 & _)]; subst. congruence. }
    destruct (he_matches a b loc e') eqn:Hm.
    + split.
      * intros H. injection H as <- <-. exists [], i, l. repeat split; auto.
      * intros (l1 & j & l2 & H & -> & Hj & Hmj & HF).
        destruct l1 as [|x l1]; injection H as -> ->; [congruence|].
        inversion HF as [|? ? (e1 & H1 & H2 & _)]; subst. congruence.
    + destruct (is_empty e') eqn:He.
      * split; [discriminate|]. intros (l1 & j & l2 & H & -> & Hj & Hmj & HF).
        destruct l1 as [|x l1]; injection H as -> ->; [congruence|].
        inversion HF as [|? ? (e1 & H1 & _ & H3)]; subst. congruence.
      * rewrite IH. split.
        -- intros (l1 & j & l2 & -> & H). exists (i :: l1), j, l2. split; [reflexivity|].
           destruct H as (-> & H1 & H2 & H3). repeat split; auto. constructor; eauto.
        -- intros (l1 & j & l2 & H & -> & Hj & Hmj & HF).
           destruct l1 as [|x l1]; injection H as -> ->; [congruence|].
           inversion HF; subst. exists l1, j, l2. repeat split; auto.
Qed.

(** ** Insertion *)
Definition count_used (t : list hentry) : nat :=
  length (filter (fun e => negb (is_empty e)) t).

Lemma count_used_upd t i e e' :
  nth_error t i = Some e -> is_empty e = true -> is_empty e' = false ->
  count_used (upd t i e') = S (count_used t).
Proof.
  unfold count_used. revert i. induction t as [|x t IH]; intros [|i] Hi He He'; cbn in *;
    try discriminate.
  - injection Hi as ->. rewrite He, He'. cbn. reflexivity.
  - destruct (is_empty x); cbn; auto.
Qed.

Lemma count_used_exists t :
  (count_used t < length t)%nat ->
  exists i e, nth_error t i = Some e /\ is_empty e = true.
Proof.
  unfold count_used. induction t as [|x t IH]; cbn [filter length]; [lia|].
  destruct (is_empty x) eqn:E; cbn [negb].
  - intros _. exists 0%nat, x. auto.
  - cbn [length]. intros H. destruct IH as (i & e & H1 & H2); [lia|]. exists (S i), e. auto.
Qed.

Record item := mkItem { it_name : bytes; it_loc : N }.
Definition it_a (x : item) : N := hash_string (it_name x) HT_NAME_A.
Definition it_b (x : item) : N := hash_string (it_name x) HT_NAME_B.
Definition it_off (x : item) : N := hash_string (it_name x) HT_TABLE_OFFSET.
Definition it_entry (x : item) (m : nat) : hentry :=
  mkHE (it_a x) (it_b x) (it_loc x) 0 (N.of_nat m).

(** The table holds exactly the first [M] items, each reachable from its home
    slot through slots that were filled earlier. *)
Record table_inv (t : list hentry) (items : list item) : Prop := {
  ti_count : count_used t = length items;
  ti_sound : forall s e, nth_error t s = Some e -> is_empty e = false ->
     exists m x, nth_error items m = Some x /\ e = it_entry x m;
  ti_complete : forall m x, nth_error items m = Some x ->
     exists i, (i < length t)%nat /\
       nth_error t (probe (length t) (home t (it_off x)) i) = Some (it_entry x m) /\
       forall j, (j < i)%nat -> exists m' x', (m' < m)%nat /\
          nth_error items m' = Some x' /\
          nth_error t (probe (length t) (home t (it_off x)) j) = Some (it_entry x' m') }.

Lemma ht_new_inv n : table_inv (repeat he_empty n) [].
Proof.
  constructor.
  - unfold count_used. induction n as [|n IH]; cbn; auto.
  - intros s e Hs He. apply nth_error_In, repeat_spec in Hs. subst e. discriminate.
  - intros [|m] x H; discriminate.
Qed.

(** What the insertion loop does, in terms of probe distances. *)
Lemma add_loop_spec t k a b loc blk h :
  lenN t = 2 ^ k -> (h < length t)%nat -> forall m i,
  (i + m = length t)%nat ->
  (exists j s e, (i <= j < length t)%nat /\ s = probe (length t) h j /\
     nth_error t s = Some e /\
     (forall j' e', (i <= j' < j)%nat -> nth_error t (probe (length t) h j') = Some e' ->
        is_empty e' = false /\
        (he_name1 e' =? a) && (he_name2 e' =? b) && (he_locale e' =? loc) = false) /\
     ((is_empty e = true /\
       add_loop m t a b loc blk (N.of_nat (probe (length t) h i))
         = Ok (upd t s (mkHE a b loc 0 blk))) \/
      (is_empty e = false /\
       (he_name1 e =? a) && (he_name2 e =? b) && (he_locale e =? loc) = true /\
       add_loop m t a b loc blk (N.of_nat (probe (length t) h i)) = Err EInvalidFormat))) \/
  (add_loop m t a b loc blk (N.of_nat (probe (length t) h i)) = Panic /\
   forall j e, (i <= j < length t)%nat -> nth_error t (probe (length t) h j) = Some e ->
     is_empty e = false).
Proof.
  intros Ht Hh. induction m as [|m IH]; intros i Hi.
  - right. split; [reflexivity|]. intros; lia.
  - cbn [add_loop]. destruct (nthN_probe t k Ht h i) as (e & E1 & E2). rewrite E1.
    destruct (is_empty e) eqn:Ee.
    + left. exists i, (probe (length t) h i), e. repeat split; auto; try lia.
      all: try (intros; lia).
      left. rewrite Nat2N.id. auto.
    + destruct ((he_name1 e =? a) && (he_name2 e =? b) && (he_locale e =? loc)) eqn:Ed.
      * left. exists i, (probe (length t) h i), e. repeat split; auto; try lia.
        all: intros; lia.
      * rewrite (probe_next t k Ht) by exact Hh.
        destruct (IH (S i) ltac:(lia)) as [(j & s & e1 & Hj & Hs & He1 & Hb & Hr)|[Hp Hall]].
        -- left. exists j, s, e1. split; [lia|]. split; [exact Hs|]. split; [exact He1|].
           split; [|exact Hr].
           intros j' e' Hj' Hn. destruct (Nat.eq_dec j' i) as [->|].
           ++ rewrite E2 in Hn. injection Hn as <-. auto.
           ++ apply (Hb j'); [lia|exact Hn].
        -- right. split; [exact Hp|]. intros j e1 Hj Hn.
           destruct (Nat.eq_dec j i) as [->|].
           ++ rewrite E2 in Hn. injection Hn as <-. exact Ee.
           ++ apply (Hall j); [lia|exact Hn].
Qed.

(** Two items are the same file: same name hashes and same locale. *)
Definition same_key (x y : item) : bool :=
  (it_a x =? it_a y) && (it_b x =? it_b y) && (it_loc x =? it_loc y).

Lemma lenN_eq {A} (a : list A) (b : list A) : length a = length b -> lenN a = lenN b.
Proof. unfold lenN. congruence. Qed.

Lemma home_upd t i e off : home (upd t i e) off = home t off.
Proof. unfold home, lenN. now rewrite upd_length. Qed.

Lemma nth_error_snoc {A} (l : list A) x m y :
  nth_error (l ++ [x]) m = Some y ->
  (nth_error l m = Some y /\ (m < length l)%nat) \/ (m = length l /\ y = x).
Proof.
  intros H. destruct (Nat.lt_ge_cases m (length l)) as [L|L].
  - rewrite nth_error_app1 in H by exact L. auto.
  - rewrite nth_error_app2 in H by exact L. right.
    destruct (m - length l)%nat as [|d] eqn:E; cbn in H.
    + injection H as ->. split; [lia|reflexivity].
    + destruct d; discriminate.
Qed.

Lemma add_to_hash_table_spec t k items x :
  lenN t = 2 ^ k -> table_inv t items -> lenN items < DELETED ->
  (length items < length t)%nat ->
  (exists t', add_to_hash_table t (it_name x) (lenN items) (it_loc x) = Ok t' /\
     table_inv t' (items ++ [x]) /\ length t' = length t /\
     (* no earlier item with the same key and the same home slot *)
     (forall y, In y items -> home t (it_off y) = home t (it_off x) -> same_key y x = false)) \/
  (add_to_hash_table t (it_name x) (lenN items) (it_loc x) = Err EInvalidFormat /\
   exists y, In y items /\ same_key y x = true).
Proof.
  intros Ht Inv Hblk Hlen.
  unfold add_to_hash_table.
  pose proof (n_pos t k Ht) as Hn.
  destruct (N.eqb_spec (lenN t) 0) as [E|_]; [unfold lenN in E; lia|].
  rewrite (mask_mod t k Ht), <- (of_nat_home t).
  fold (it_off x) (it_a x) (it_b x). set (h := home t (it_off x)).
  pose proof (home_lt t k Ht (it_off x)) as Hh. fold h in Hh.
  pose proof (add_loop_spec t k (it_a x) (it_b x) (it_loc x) (lenN items) h Ht Hh
                (length t) 0 ltac:(lia)) as S.
  rewrite (probe_0 t h Hh) in S.
  destruct S as [(j & s & e & Hj & Hs & He & Hb & [[Hee Hr]|(Hee & Hd & Hr)])|[Hp Hall]].
  - left. eexists. split; [exact Hr|].
    set (ne := mkHE (it_a x) (it_b x) (it_loc x) 0 (lenN items)).
    assert (Hne : is_empty ne = false).
    { unfold is_empty, ne; cbn [he_block]. apply N.eqb_neq. unfold NEVER_USED, DELETED in *. lia. }
    assert (Hentry : ne = it_entry x (length items)) by reflexivity.
    assert (Hslt : (s < length t)%nat) by (apply nth_error_Some; congruence).
    assert (Hother : forall s' e', nth_error t s' = Some e' -> is_empty e' = false -> s' <> s).
    { intros s' e' H1 H2 ->. congruence. }
    split; [|split].
    + constructor.
      * rewrite (count_used_upd t s e ne He Hee Hne), (ti_count _ _ Inv).
        rewrite app_length. cbn. lia.
      * intros s' e' Hs' He'. destruct (Nat.eq_dec s s') as [<-|Hneq].
        -- rewrite nth_error_upd_eq in Hs' by exact Hslt. injection Hs' as <-.
           exists (length items), x. split; [|exact Hentry].
           rewrite nth_error_app2, Nat.sub_diag by lia. reflexivity.
        -- rewrite nth_error_upd_neq in Hs' by exact Hneq.
           destruct (ti_sound _ _ Inv s' e' Hs' He') as (m & y & H1 & H2).
           exists m, y. split; [|exact H2].
           rewrite nth_error_app1; [exact H1|]. apply nth_error_Some. congruence.
      * intros m y Hm. rewrite upd_length, home_upd.
        apply nth_error_snoc in Hm as [[Hm Hmlt]|[-> ->]].
        -- destruct (ti_complete _ _ Inv m y Hm) as (i & Hi & H1 & H2).
           exists i. split; [exact Hi|]. split.
           ++ rewrite nth_error_upd_neq; [exact H1|].
              apply not_eq_sym, (Hother _ _ H1).
              unfold is_empty, it_entry; cbn [he_block]. apply N.eqb_neq.
              unfold NEVER_USED, DELETED, lenN in *. lia.
           ++ intros j' Hj'. destruct (H2 j' Hj') as (m' & x' & L & M & Nn).
              exists m', x'. split; [exact L|]. split.
              ** rewrite nth_error_app1; [exact M|]. apply nth_error_Some. congruence.
              ** rewrite nth_error_upd_neq; [exact Nn|].
                 apply not_eq_sym, (Hother _ _ Nn).
                 unfold is_empty, it_entry; cbn [he_block]. apply N.eqb_neq.
                 unfold NEVER_USED, DELETED, lenN in *. lia.
        -- fold h. exists j. split; [lia|]. split.
           ++ rewrite <- Hs. rewrite nth_error_upd_eq by exact Hslt. now rewrite Hentry.
           ++ intros j' Hj'.
              destruct (nth_error t (probe (length t) h j')) as [e'|] eqn:E'.
              2:{ apply nth_error_None in E'. pose proof (probe_lt t k Ht h j'). lia. }
              destruct (Hb j' e' ltac:(lia) E') as [Hu _].
              destruct (ti_sound _ _ Inv _ _ E' Hu) as (m' & x' & M & ->).
              assert (m' < length items)%nat by (apply nth_error_Some; congruence).
              exists m', x'. split; [assumption|]. split.
              ** rewrite nth_error_app1; assumption.
              ** rewrite nth_error_upd_neq; [exact E'|].
                 apply not_eq_sym, (Hother _ _ E' Hu).
    + apply upd_length.
    + intros y Hy Hhome. fold h in Hhome.
      apply In_nth_error in Hy as [m Hm].
      destruct (ti_complete _ _ Inv m y Hm) as (i & Hi & H1 & H2).
      rewrite Hhome in H1, H2.
      assert (Huse : is_empty (it_entry y m) = false).
      { unfold is_empty, it_entry; cbn [he_block]. apply N.eqb_neq.
        assert (m < length items)%nat by (apply nth_error_Some; congruence).
        unfold NEVER_USED, DELETED, lenN in *. lia. }
      assert (Hij : (i < j)%nat).
      { destruct (Nat.lt_trichotomy i j) as [L|[->|L]]; [exact L| |].
        - rewrite <- Hs in H1. rewrite H1 in He. injection He as <-. congruence.
        - destruct (H2 j L) as (m' & x' & _ & Hm' & H3).
          rewrite <- Hs in H3. rewrite H3 in He. injection He as <-.
          unfold is_empty, it_entry in Hee; cbn [he_block] in Hee. apply N.eqb_eq in Hee.
          assert (m' < length items)%nat by (apply nth_error_Some; congruence).
          unfold NEVER_USED, DELETED, lenN in *. lia. }
      destruct (Hb i _ ltac:(lia) H1) as [_ Hd]. exact Hd.
  - right. split; [exact Hr|].
    destruct (ti_sound _ _ Inv s e He Hee) as (m & y & Hm & ->).
    exists y. split; [now apply nth_error_In in Hm|]. exact Hd.
  - exfalso.
    destruct (count_used_exists t) as (s & e & H1 & H2).
    { rewrite (ti_count _ _ Inv). exact Hlen. }
    assert (Hslt : (s < length t)%nat) by (apply nth_error_Some; congruence).
    destruct (probe_surj t h s Hh Hslt) as (i & Hi & Hp').
    rewrite <- Hp' in H1. specialize (Hall i e ltac:(lia) H1). congruence.
Qed.

(** ** Lookup in a table satisfying the invariant *)
Definition item_matches (a b loc : N) (x : item) : bool :=
  (it_a x =? a) && (it_b x =? b) && ((loc =? 0) || (it_loc x =? 0) || (it_loc x =? loc)).

(** First element satisfying [p], with its position. *)
Fixpoint find_pos {A} (p : A -> bool) (l : list A) (m : nat) : option (nat * A) :=
  match l with
  | [] => None
  | x :: l' => if p x then Some (m, x) else find_pos p l' (S m)
  end.

Lemma find_pos_Some {A} (p : A -> bool) l m i x :
  find_pos p l m = Some (i, x) <->
  (m <= i)%nat /\ nth_error l (i - m) = Some x /\ p x = true /\
  forall j y, (j < i - m)%nat -> nth_error l j = Some y -> p y = false.
Proof.
  revert m. induction l as [|z l IH]; intros m; cbn [find_pos].
  - split; [discriminate|]. intros (_ & H & _). destruct (i - m)%nat; discriminate.
  - destruct (p z) eqn:E.
    + split.
      * intros H; injection H as <- <-. split; [lia|]. rewrite Nat.sub_diag.
        repeat split; auto. intros; lia.
      * intros (Hle & Hn & Hp & Hb). destruct (i - m)%nat as [|d] eqn:D.
        -- cbn in Hn. injection Hn as ->. f_equal. f_equal. lia.
        -- specialize (Hb 0%nat z ltac:(lia) eq_refl). congruence.
    + rewrite IH. split.
      * intros (Hle & Hn & Hp & Hb). split; [lia|].
        replace (i - m)%nat with (S (i - S m)) by lia. split; [exact Hn|]. split; [exact Hp|].
        intros [|j] y Hj Hy; cbn in Hy; [congruence|]. apply (Hb j y); [lia|exact Hy].
      * intros (Hle & Hn & Hp & Hb). destruct (i - m)%nat as [|d] eqn:D.
        -- cbn in Hn. congruence.
        -- split; [lia|]. replace (i - S m)%nat with d by lia.
           split; [exact Hn|]. split; [exact Hp|].
           intros j y Hj Hy. apply (Hb (S j) y); [lia|exact Hy].
Qed.

Lemma find_pos_None {A} (p : A -> bool) l m :
  find_pos p l m = None <-> forall x, In x l -> p x = false.
Proof.
  revert m. induction l as [|z l IH]; intros m; cbn [find_pos].
  - split; [intros _ x []|reflexivity].
  - destruct (p z) eqn:E.
    + split; [discriminate|]. intros H. rewrite (H z) in E by (left; auto). discriminate.
    + rewrite IH. split; intros H x.
      * intros [<-|Hx]; auto.
      * intros Hx. apply H. now right.
Qed.

Lemma it_entry_valid (items : list item) m x :
  lenN items <= DELETED -> nth_error items m = Some x ->
  is_valid (it_entry x m) = true /\ is_empty (it_entry x m) = false.
Proof.
  intros Hl Hm. assert (m < length items)%nat by (apply nth_error_Some; congruence).
  unfold is_valid, is_empty, it_entry, NEVER_USED, DELETED, lenN in *; cbn [he_block].
  split; lia.
Qed.

Lemma it_entry_matches (items : list item) m x a b loc :
  lenN items <= DELETED -> nth_error items m = Some x ->
  he_matches a b loc (it_entry x m) = item_matches a b loc x.
Proof.
  intros Hl Hm. unfold he_matches, item_matches.
  rewrite (proj1 (it_entry_valid items m x Hl Hm)), andb_true_r. reflexivity.
Qed.

Lemma he_matches_nonempty a b loc e : he_matches a b loc e = true -> is_empty e = false.
Proof.
  unfold he_matches. intros Hm. apply andb_true_iff in Hm as [_ Hv].
  unfold is_valid, is_empty in *. rewrite N.ltb_lt in Hv. apply N.eqb_neq.
  unfold NEVER_USED, DELETED in *. lia.
Qed.

Lemma search_items t k items a b off loc :
  lenN t = 2 ^ k -> table_inv t items -> lenN items <= DELETED ->
  (length items < length t)%nat ->
  (forall x, In x items -> it_a x = a -> it_b x = b -> it_off x = off) ->
  match find_pos (item_matches a b loc) items 0 with
  | Some (m, x) => exists slot,
      search t a b loc (order (length t) (home t off)) = Some (slot, it_entry x m)
  | None => search t a b loc (order (length t) (home t off)) = None
  end.
Proof.
  intros Ht Inv Hl Hlen Hcol.
  set (h := home t off). pose proof (home_lt t k Ht off) as Hh. fold h in Hh.
  destruct (find_pos (item_matches a b loc) items 0) as [[m x]|] eqn:F.
  - apply find_pos_Some in F as (_ & Hm & Hp & Hb). rewrite Nat.sub_0_r in Hm, Hb.
    assert (Hoff : it_off x = off).
    { unfold item_matches in Hp. apply andb_true_iff in Hp as [Hp _].
      apply andb_true_iff in Hp as [H1 H2]. apply N.eqb_eq in H1, H2.
      apply Hcol; auto. now apply nth_error_In in Hm. }
    destruct (ti_complete _ _ Inv m x Hm) as (i & Hi & H1 & H2).
    rewrite Hoff in H1, H2. fold h in H1, H2.
    exists (N.of_nat (probe (length t) h i)).
    apply search_Some.
    exists (map (probe (length t) h) (seq 0 i)), (probe (length t) h i),
      (map (probe (length t) h) (seq (S i) (length t - S i))).
    split; [|split; [reflexivity|split; [exact H1|split]]].
    + unfold order. replace (length t) with (i + S (length t - S i))%nat at 2 by lia.
      rewrite seq_app, map_app. reflexivity.
    + now rewrite (it_entry_matches items m x a b loc Hl Hm).
    + apply Forall_forall. intros s Hs. apply in_map_iff in Hs as (j & <- & Hj).
      apply in_seq in Hj. destruct (H2 j ltac:(lia)) as (m' & x' & L & M & Nn).
      exists (it_entry x' m'). split; [exact Nn|].
      rewrite (it_entry_matches items m' x' a b loc Hl M).
      split; [apply (Hb m' x' L M)|].
      apply (it_entry_valid items m' x' Hl M).
  - rewrite find_pos_None in F.
    destruct (search t a b loc (order (length t) h)) as [[idx e]|] eqn:S; [exfalso|reflexivity].
    apply search_Some in S as (l1 & i & l2 & _ & _ & He & Hm & _).
    assert (Hv : is_empty e = false).
    { exact (he_matches_nonempty _ _ _ _ Hm). }
    destruct (ti_sound _ _ Inv i e He Hv) as (m & x & Hx & ->).
    rewrite (it_entry_matches items m x a b loc Hl Hx) in Hm.
    rewrite (F x) in Hm by now apply nth_error_In in Hx. discriminate.
Qed.

(** The lookup of a name gives the first added item that matches it, provided
    no foreign item shares both name hashes while living in another chain. *)
Lemma ht_find_items t k items name loc :
  lenN t = 2 ^ k -> table_inv t items -> lenN items <= DELETED ->
  (length items < length t)%nat ->
  (forall x, In x items -> it_a x = hash_string name HT_NAME_A ->
     it_b x = hash_string name HT_NAME_B -> it_off x = hash_string name HT_TABLE_OFFSET) ->
  match find_pos (item_matches (hash_string name HT_NAME_A) (hash_string name HT_NAME_B) loc) items 0 with
  | Some (m, x) => exists slot, ht_find_file t name loc = Ok (Some (slot, it_entry x m))
  | None => ht_find_file t name loc = Ok None
  end.
Proof.
  intros Ht Inv Hl Hlen Hcol.
  pose proof (search_items t k items _ _ _ loc Ht Inv Hl Hlen Hcol) as S.
  rewrite (ht_find_search t k Ht).
  destruct (find_pos _ items 0) as [[m x]|].
  - destruct S as [slot S]. exists slot. now rewrite S.
  - now rewrite S.
Qed.

(** Size of the table chosen by the builder. *)
Lemma hash_table_size_bound count :
  count < 2 ^ 30 ->
  exists k, calculate_hash_table_size count = 2 ^ k /\ k < 32 /\
    2 * count <= 2 ^ k /\ 16 <= 2 ^ k.
Proof.
  intros H. unfold calculate_hash_table_size, next_power_of_two.
  set (m := N.max (count * 2) 16).
  assert (Hm : m < 2 ^ 31) by (unfold m; change (2 ^ 31) with 2147483648; change (2 ^ 30) with 1073741824 in H; lia).
  rewrite w32_small by (unfold M32; change (2 ^ 31) with 2147483648 in Hm; change (2 ^ 32) with 4294967296; lia).
  exists (N.log2_up m). split; [reflexivity|].
  assert (1 < m) by (unfold m; lia).
  destruct (N.log2_up_spec m) as [L1 L2]; [assumption|].
  split.
  - assert (N.log2_up m <= 31); [|lia].
    apply N.log2_up_le_pow2; lia.
  - unfold m in *. lia.
Qed.

(** ** Serialisation round trips *)
Definition he_ok (e : hentry) : Prop :=
  he_name1 e < M32 /\ he_name2 e < M32 /\ he_locale e < M16 /\ he_platform e < M16 /\
  he_block e < M32.

Lemma he_bytes_length e : length (he_bytes e) = 16%nat.
Proof. unfold he_bytes, le32, le16. rewrite !app_length, !le_enc_length. reflexivity. Qed.

Lemma firstn_app_exact {A} (a b : list A) n : length a = n -> firstn n (a ++ b) = a.
Proof.
  intros <-. rewrite firstn_app, firstn_all, Nat.sub_diag. cbn. apply app_nil_r.
Qed.
Lemma skipn_app_exact {A} (a b : list A) n : length a = n -> skipn n (a ++ b) = b.
Proof. intros <-. rewrite skipn_app, skipn_all, Nat.sub_diag. reflexivity. Qed.

Lemma skipn_add_app {A} (a b : list A) n m : length a = n -> skipn (n + m) (a ++ b) = skipn m b.
Proof.
  intros H. rewrite (Nat.add_comm n m), <- skipn_skipn.
  now rewrite (skipn_app_exact a b n H).
Qed.

Lemma he_from_bytes_bytes e : he_ok e -> he_from_bytes (he_bytes e) = Ok e.
Proof.
  intros (H1 & H2 & H3 & H4 & H5). unfold he_from_bytes.
  replace (lenN (he_bytes e) <? 16) with false
    by (unfold lenN; rewrite he_bytes_length; reflexivity).
  unfold he_bytes.
  rewrite (firstn_app_exact (le32 _)) by apply le32_length.
  rewrite (skipn_app_exact (le32 (he_name1 e))) by apply le32_length.
  rewrite (firstn_app_exact (le32 (he_name2 e))) by apply le32_length.
  rewrite (skipn_add_app (le32 (he_name1 e)) _ 4 4) by apply le32_length.
  rewrite (skipn_app_exact (le32 (he_name2 e))) by apply le32_length.
  rewrite (firstn_app_exact (le16 (he_locale e))) by apply le_enc_length.
  rewrite (skipn_add_app (le32 (he_name1 e)) _ 4 6) by apply le32_length.
  rewrite (skipn_add_app (le32 (he_name2 e)) _ 4 2) by apply le32_length.
  rewrite (skipn_app_exact (le16 (he_locale e))) by apply le_enc_length.
  rewrite (firstn_app_exact (le16 (he_platform e))) by apply le_enc_length.
  rewrite (skipn_add_app (le32 (he_name1 e)) _ 4 8) by apply le32_length.
  rewrite (skipn_add_app (le32 (he_name2 e)) _ 4 4) by apply le32_length.
  rewrite (skipn_add_app (le16 (he_locale e)) _ 2 2) by apply le_enc_length.
  rewrite (skipn_app_exact (le16 (he_platform e))) by apply le_enc_length.
  rewrite (firstn_all2 (le32 (he_block e))) by (rewrite le32_length; lia).
  rewrite !le32_dec, !le16_dec by assumption.
  destruct e; reflexivity.
Qed.

Definition be_ok (e : bentry) : Prop :=
  be_pos e < M32 /\ be_csize e < M32 /\ be_size e < M32 /\ be_flags e < M32.

Lemma be_bytes_length e : length (be_bytes e) = 16%nat.
Proof. unfold be_bytes, le32. rewrite !app_length, !le_enc_length. reflexivity. Qed.

Lemma be_from_bytes_bytes e : be_ok e -> be_from_bytes (be_bytes e) = Ok e.
Proof.
  intros (H1 & H2 & H3 & H4). unfold be_from_bytes.
  replace (lenN (be_bytes e) <? 16) with false
    by (unfold lenN; rewrite be_bytes_length; reflexivity).
  unfold be_bytes.
  rewrite (firstn_app_exact (le32 (be_pos e))) by apply le32_length.
  rewrite (skipn_app_exact (le32 (be_pos e))) by apply le32_length.
  rewrite (firstn_app_exact (le32 (be_csize e))) by apply le32_length.
  rewrite (skipn_add_app (le32 (be_pos e)) _ 4 4) by apply le32_length.
  rewrite (skipn_app_exact (le32 (be_csize e))) by apply le32_length.
  rewrite (firstn_app_exact (le32 (be_size e))) by apply le32_length.
  rewrite (skipn_add_app (le32 (be_pos e)) _ 4 8) by apply le32_length.
  rewrite (skipn_add_app (le32 (be_csize e)) _ 4 4) by apply le32_length.
  rewrite (skipn_app_exact (le32 (be_size e))) by apply le32_length.
  rewrite (firstn_all2 (le32 (be_flags e))) by (rewrite le32_length; lia).
  rewrite !le32_dec by assumption.
  destruct e; reflexivity.
Qed.

Lemma parse_entries_concat {A} (p : bytes -> res A) (s : A -> bytes) l rest :
  (forall e, In e l -> length (s e) = 16%nat) ->
  (forall e, In e l -> p (s e) = Ok e) ->
  parse_entries p (length l) (concat (map s l) ++ rest) = Ok l.
Proof.
  induction l as [|e l IH]; intros HL HP; cbn [length parse_entries map concat]; [reflexivity|].
  rewrite <- app_assoc.
  rewrite (firstn_app_exact (s e)) by (apply HL; now left).
  rewrite (skipn_app_exact (s e)) by (apply HL; now left).
  rewrite HP by now left. cbn [bind].
  rewrite IH by (intros; (apply HL || apply HP); now right). reflexivity.
Qed.

Lemma concat_map_length16 {A} (s : A -> bytes) l :
  (forall e, length (s e) = 16%nat) -> length (concat (map s l)) = (16 * length l)%nat.
Proof.
  intros H. induction l as [|e l IH]; cbn [map concat length]; [reflexivity|].
  rewrite app_length, IH, H. lia.
Qed.

Lemma decrypt_table_encrypt_data d key :
  (length d mod 4 = 0)%nat -> decrypt_table_data (encrypt_data d key) key = d.
Proof.
  intros H. rewrite decrypt_table_file by (rewrite encrypt_data_length; exact H).
  apply decrypt_encrypt_data.
Qed.

Lemma mod4_16 m : ((16 * m) mod 4 = 0)%nat.
Proof.
  replace (16 * m)%nat with ((4 * m) * 4)%nat by lia. now apply Nat.mod_mul.
Qed.

Lemma write_hash_table_length t : length (write_hash_table t) = (16 * length t)%nat.
Proof.
  unfold write_hash_table. rewrite encrypt_data_length.
  apply concat_map_length16, he_bytes_length.
Qed.

Lemma write_block_table_length t : length (write_block_table t) = (16 * length t)%nat.
Proof.
  unfold write_block_table. rewrite encrypt_data_length.
  apply concat_map_length16, be_bytes_length.
Qed.

Lemma ht_read_write file offset k t :
  lenN t = 2 ^ k -> Forall he_ok t ->
  slice offset (lenN t * 16) file = Some (write_hash_table t) ->
  ht_read file offset (lenN t) = Ok t.
Proof.
  intros Ht Hok Hs. unfold ht_read.
  replace (is_power_of_two (lenN t)) with true
    by (symmetry; apply is_power_of_two_spec; exists k; exact Ht).
  rewrite Hs. cbn [of_option bind]. unfold write_hash_table.
  rewrite decrypt_table_encrypt_data.
  2:{ rewrite concat_map_length16 by apply he_bytes_length. apply mod4_16. }
  unfold lenN. rewrite Nat2N.id.
  rewrite <- (app_nil_r (concat (map he_bytes t))).
  apply parse_entries_concat; intros e He.
  - apply he_bytes_length.
  - apply he_from_bytes_bytes. rewrite Forall_forall in Hok. auto.
Qed.

Lemma bt_read_write file offset t :
  Forall be_ok t ->
  slice offset (lenN t * 16) file = Some (write_block_table t) ->
  bt_read file offset (lenN t) = Ok t.
Proof.
  intros Hok Hs. unfold bt_read.
  rewrite (read_at_slice _ _ _ _ Hs). cbn [bind]. unfold write_block_table.
  rewrite decrypt_table_encrypt_data.
  2:{ rewrite concat_map_length16 by apply be_bytes_length. apply mod4_16. }
  unfold lenN. rewrite Nat2N.id.
  rewrite <- (app_nil_r (concat (map be_bytes t))).
  apply parse_entries_concat; intros e He.
  - apply be_bytes_length.
  - apply be_from_bytes_bytes. rewrite Forall_forall in Hok. auto.
Qed.

Lemma write_hi_length t : length (write_hi_block_table t) = (2 * length t)%nat.
Proof.
  unfold write_hi_block_table. induction t as [|v t IH]; cbn [map concat length]; [reflexivity|].
  rewrite app_length, IH. unfold le16. rewrite le_enc_length. lia.
Qed.

Lemma hi_read_write file offset t :
  Forall (fun v => v < M16) t ->
  slice offset (lenN t * 2) file = Some (write_hi_block_table t) ->
  hi_read file offset (lenN t) = Ok t.
Proof.
  intros Hok Hs. unfold hi_read. rewrite (read_at_slice _ _ _ _ Hs). cbn [bind]. f_equal.
  unfold lenN. rewrite Nat2N.id. clear Hs.
  unfold write_hi_block_table. induction Hok as [|v t Hv _ IH]; cbn [length parse_u16s map concat];
    [reflexivity|].
  rewrite (firstn_app_exact (le16 v)) by apply le_enc_length.
  rewrite (skipn_app_exact (le16 v)) by apply le_enc_length.
  now rewrite le16_dec, IH.
Qed.
