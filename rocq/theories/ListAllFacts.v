(** * Listings of archives without names. *)
From Coq Require Import Sorting.Sorted Sorting.Permutation.
From Verif Require Import Bytes HashTable BlockTable HetBet Listfile Archive SpecAnon SpecCliList CliListFacts.
Open Scope N_scope.

(** ** Numbers *)
Lemma dec_app a b : dec_value (a ++ [b]) = dec_value a * 10 + (bN b - 48).
Proof. unfold dec_value. rewrite fold_left_app. reflexivity. Qed.
Lemma digit_byte n : n < 10 -> bN (Nb (48 + n)) = 48 + n.
Proof. intros H. rewrite bN_Nb. apply N.mod_small. lia. Qed.
Lemma dec_digits_ok fuel : forall n acc, n < 10 ^ N.of_nat (S fuel) ->
  exists d, dec_digits (S fuel) n acc = d ++ acc /\ Forall digit d /\ dec_value d = n /\ d <> [] /\
    (n = 0 -> length d = 1%nat) /\ (n <> 0 -> hd "0"%byte d <> "0"%byte).
Proof.
  induction fuel as [|fuel IH]; intros n acc Hn.
  - assert (Hn' : n < 10) by (change (10 ^ N.of_nat 1) with 10 in Hn; exact Hn).
    exists [Nb (48 + n mod 10)]. rewrite N.mod_small by exact Hn'. cbn [dec_digits].
    rewrite N.mod_small by exact Hn'. rewrite N.div_small by exact Hn'. split; [reflexivity|].
    split; [constructor; [|constructor]; unfold digit; rewrite digit_byte by exact Hn'; lia|].
    split; [unfold dec_value; cbn [fold_left]; rewrite digit_byte by exact Hn'; lia|].
    split; [discriminate|]. split; [reflexivity|]. intros Hz E. cbn [hd] in E. apply (f_equal bN) in E.
    rewrite digit_byte in E by exact Hn'. change (bN "0"%byte) with 48 in E. lia.
  - cbn [dec_digits]. set (c := Nb (48 + n mod 10)).
    assert (Hm : n mod 10 < 10) by (apply N.mod_lt; discriminate).
    assert (Hc : bN c = 48 + n mod 10) by (now apply digit_byte).
    assert (Hdc : digit c) by (unfold digit; rewrite Hc; lia).
    destruct (n / 10 =? 0) eqn:E0.
    + apply N.eqb_eq in E0. assert (Hs : n < 10).
      { destruct (N.lt_ge_cases n 10) as [K|K]; [exact K|]. apply (N.div_le_mono 10 n 10) in K; [|discriminate].
        rewrite E0 in K. change (10 / 10) with 1 in K. lia. }
      rewrite N.mod_small in Hc by exact Hs. exists [c]. split; [reflexivity|]. split; [now constructor|].
      split; [unfold dec_value; cbn [fold_left]; lia|]. split; [discriminate|]. split; [reflexivity|].
      intros Hz E. cbn [hd] in E. apply (f_equal bN) in E. rewrite Hc in E. change (bN "0"%byte) with 48 in E. lia.
    + apply N.eqb_neq in E0. destruct (IH (n / 10) (c :: acc)) as (d & D1 & D2 & D3 & D4 & _ & D6).
      { apply N.div_lt_upper_bound; [discriminate|]. rewrite (Nat2N.inj_succ (S fuel)), N.pow_succ_r' in Hn. exact Hn. }
      exists (d ++ [c]). change (dec_digits (S fuel) (n / 10) (c :: acc) = (d ++ [c]) ++ acc /\ Forall digit (d ++ [c]) /\ dec_value (d ++ [c]) = n /\ d ++ [c] <> [] /\ (n = 0 -> length (d ++ [c]) = 1%nat) /\ (n <> 0 -> hd "0"%byte (d ++ [c]) <> "0"%byte)).
      rewrite D1, <- app_assoc. split; [reflexivity|]. split; [apply Forall_app; split; [exact D2|now constructor]|].
      split; [rewrite dec_app, D3, Hc; pose proof (N.div_mod n 10 ltac:(discriminate)); lia|].
      split; [destruct d; discriminate|]. split; [intros ->; contradiction|].
      intros _. destruct d; [contradiction|]. exact (D6 E0).
Qed.
Lemma dec_value_pad k d : dec_value (repeat "0"%byte k ++ d) = dec_value d.
Proof.
  unfold dec_value. rewrite fold_left_app. f_equal. induction k as [|k IH]; [reflexivity|]. exact IH.
Qed.
Lemma anon_numbered n : n < 2 ^ 64 -> numbered n (anon_name n).
Proof.
  intros Hn. unfold anon_name. destruct (dec_digits_ok 19 n []) as (d & D1 & D2 & D3 & D4 & D5 & D6).
  { apply N.lt_trans with (2 ^ 64); [exact Hn|reflexivity]. }
  change (dec_digits 20 n []) with (dec_digits (S 19) n []). rewrite D1, app_nil_r.
  exists (repeat "0"%byte (8 - length d) ++ d). split; [now rewrite <- app_assoc|].
  split; [apply Forall_app; split; [|exact D2]|].
  { apply Forall_forall. intros b Hb. apply repeat_spec in Hb. subst b. unfold digit. change (bN "0"%byte) with 48. lia. }
  split; [now rewrite dec_value_pad|]. rewrite app_length, repeat_length. split; [lia|]. intros Hl.
  destruct (8 - length d)%nat eqn:E; [|lia]. cbn [repeat app]. apply D6. intros ->.
  specialize (D5 eq_refl). lia.
Qed.

(** ** Flags and slots *)
Lemma exists_flag_iff f : has_flag f FLAG_EXISTS = true <-> exists_flag f.
Proof.
  unfold has_flag, exists_flag, FLAG_EXISTS. rewrite negb_true_iff, N.eqb_neq.
  change 2147483648 with (2 ^ 31). split.
  - intros H. destruct (N.testbit f 31) eqn:E; [reflexivity|]. exfalso. apply H. apply N.bits_inj. intros i.
    rewrite N.land_spec, N.bits_0. destruct (N.eq_dec i 31) as [->|Hi]; [now rewrite E|].
    rewrite N.pow2_bits_false by congruence. apply andb_false_r.
  - intros H E. assert (K : N.testbit (N.land f (2 ^ 31)) 31 = true).
    { rewrite N.land_spec, H. now rewrite N.pow2_bits_true. }
    rewrite E in K. now rewrite N.bits_0 in K.
Qed.
Lemma taken_iff e : is_valid e = true <-> taken e.
Proof. apply N.ltb_lt. Qed.

Lemma nthN_cons {A} (x : A) l i : nthN (x :: l) (i + 1) = nthN l i.
Proof.
  unfold nthN. replace (N.to_nat (i + 1)) with (S (N.to_nat i)) by lia. cbn [nth_error].
  replace (i + 1 <? lenN (x :: l)) with (i <? lenN l); [reflexivity|].
  apply eq_true_iff_eq. rewrite !N.ltb_lt. unfold lenN. cbn [length]. lia.
Qed.

(** ** By slot *)
Lemma slot_entries_ok bt t : forall k, k + lenN t <= 2 ^ 64 ->
  exists idx, StronglySorted N.lt idx /\ (forall i, In i idx <-> k <= i /\ is_file_slot t bt (i - k)) /\
    Forall2 (fun i x => numbered i (fe_name x) /\ fe_hashes x = None /\
      exists e b, nthN t (i - k) = Some e /\ nthN bt (he_block e) = Some b /\ describes b x) idx (slot_entries bt t k).
Proof.
  induction t as [|e t IH]; intros k Hk.
  - exists []. cbn. split; [constructor|]. split; [|constructor]. intros i. split; [intros []|].
    intros [_ (e & b & E & _)]. unfold nthN in E. destruct (i - k <? lenN _); [destruct (N.to_nat (i - k))|]; discriminate.
  - assert (Hl : lenN (e :: t) = lenN t + 1) by (unfold lenN; cbn [length]; lia).
    destruct (IH (k + 1)) as (idx & S1 & S2 & S3); [lia|].
    assert (Hsh : forall i, k + 1 <= i -> nthN (e :: t) (i - k) = nthN t (i - (k + 1))).
    { intros i Hi. replace (i - k) with ((i - (k + 1)) + 1) by lia. apply nthN_cons. }
    assert (Hmem : forall i, In i idx <-> k + 1 <= i /\ is_file_slot (e :: t) bt (i - k)).
    { intros i. rewrite S2. split; intros [Hi (x & b & E & K)]; (split; [exact Hi|]); exists x, b; (split; [|exact K]).
      - now rewrite Hsh.
      - now rewrite Hsh in E. }
    assert (Hrows : Forall2 (fun i x => numbered i (fe_name x) /\ fe_hashes x = None /\
      exists e0 b, nthN (e :: t) (i - k) = Some e0 /\ nthN bt (he_block e0) = Some b /\ describes b x) idx (slot_entries bt t (k + 1))).
    { assert (Hge : Forall (fun i => k + 1 <= i) idx) by (apply Forall_forall; intros i Hi; now apply S2 in Hi).
      clear -S3 Hge Hsh. induction S3 as [|i x idx l H _ IH]; [constructor|]. inversion Hge as [|? ? H1 H2]; subst.
      constructor; [|auto]. destruct H as (N1 & N2 & e0 & b & E & K). split; [exact N1|]. split; [exact N2|].
      exists e0, b. rewrite Hsh by exact H1. auto. }
    assert (Hno : (forall i, In i idx <-> k <= i /\ is_file_slot (e :: t) bt (i - k)) \/
                  is_file_slot (e :: t) bt 0).
    { destruct (is_valid e) eqn:V.
      - destruct (nthN bt (he_block e)) as [b|] eqn:B.
        + destruct (has_flag (be_flags b) FLAG_EXISTS) eqn:Fl.
          * right. exists e, b. split; [reflexivity|]. split; [now apply taken_iff|]. split; [exact B|now apply exists_flag_iff].
          * left. intros i. rewrite Hmem. split; intros [Hi K]; (split; [|exact K]); [lia|].
            destruct (N.eq_dec i k) as [->|]; [|lia]. exfalso. destruct K as (x & b' & E & _ & E2 & E3).
            rewrite N.sub_diag in E. injection E as <-. rewrite B in E2. injection E2 as <-.
            apply exists_flag_iff in E3. congruence.
        + left. intros i. rewrite Hmem. split; intros [Hi K]; (split; [|exact K]); [lia|].
          destruct (N.eq_dec i k) as [->|]; [|lia]. exfalso. destruct K as (x & b' & E & _ & E2 & E3).
          rewrite N.sub_diag in E. injection E as <-. congruence.
      - left. intros i. rewrite Hmem. split; intros [Hi K]; (split; [|exact K]); [lia|].
        destruct (N.eq_dec i k) as [->|]; [|lia]. exfalso. destruct K as (x & b' & E & E2 & _).
        rewrite N.sub_diag in E. injection E as <-. apply taken_iff in E2. congruence. }
    cbn [slot_entries].
    destruct (is_valid e) eqn:V; [destruct (nthN bt (he_block e)) as [b|] eqn:B; [destruct (has_flag (be_flags b) FLAG_EXISTS) eqn:Fl|]|].
    + exists (k :: idx). split; [|split].
      * constructor; [exact S1|]. apply Forall_forall. intros i Hi. apply S2 in Hi. lia.
      * intros i. cbn [In]. rewrite Hmem. split.
        -- intros [<-|[Hi K]]; [|split; [lia|exact K]]. split; [lia|]. rewrite N.sub_diag. exists e, b.
           split; [reflexivity|]. split; [now apply taken_iff|]. split; [exact B|now apply exists_flag_iff].
        -- intros [Hi K]. destruct (N.eq_dec i k) as [->|]; [now left|]. right. split; [lia|exact K].
      * constructor; [|exact Hrows]. cbn. split; [apply anon_numbered; lia|]. split; [reflexivity|].
        exists e, b. rewrite N.sub_diag. split; [reflexivity|]. split; [exact B|]. repeat split.
    + exists idx. split; [exact S1|]. split; [|exact Hrows]. destruct Hno as [K|(x & b' & E & _ & E2 & E3)]; [exact K|].
      exfalso. injection E as <-. rewrite B in E2. injection E2 as <-. apply exists_flag_iff in E3. congruence.
    + exists idx. split; [exact S1|]. split; [|exact Hrows]. destruct Hno as [K|(x & b' & E & _ & E2 & E3)]; [exact K|].
      exfalso. injection E as <-. congruence.
    + exists idx. split; [exact S1|]. split; [|exact Hrows]. destruct Hno as [K|(x & b' & E & E2 & _)]; [exact K|].
      exfalso. injection E as <-. apply taken_iff in E2. congruence.
Qed.

(** ** By block *)
Lemma first_slot_cons e t i f : he_block e <> i -> first_slot t i f -> first_slot (e :: t) i f.
Proof.
  intros H (u & v & -> & K1 & K2 & K3). exists (e :: u), v. split; [reflexivity|]. split; [exact K1|]. split; [exact K2|].
  intros e' [<-|Hi]; auto.
Qed.
Lemma block_row_cons hashes e t bt i x : he_block e <> i -> block_row hashes t bt i x -> block_row hashes (e :: t) bt i x.
Proof.
  intros H (K1 & K2 & f & K3 & K4). split; [exact K1|]. split; [exact K2|]. exists f. split; [now apply first_slot_cons|exact K4].
Qed.
Lemma seen_iff b seen : existsb (N.eqb b) seen = true <-> In b seen.
Proof.
  rewrite existsb_exists. split.
  - intros (x & Hx & E). apply N.eqb_eq in E. now subst x.
  - intros H. exists b. split; [exact H|apply N.eqb_refl].
Qed.
Lemma block_entries_ok hashes bt t : forall seen,
  exists idx, NoDup idx /\ (forall i, In i idx <-> ~ In i seen /\ is_file t bt i) /\
    Forall2 (block_row hashes t bt) idx (block_entries hashes bt t seen).
Proof.
  induction t as [|e t IH]; intros seen; cbn [block_entries].
  - exists []. split; [constructor|]. split; [|constructor]. intros i. split; [intros []|]. intros [_ (e & b & [] & _)].
  - assert (Hcons : forall i, he_block e <> i \/ ~ taken e -> (is_file (e :: t) bt i <-> is_file t bt i)).
    { intros i Hn. split; intros (x & b & K1 & K2 & K3 & K4).
      - exists x, b. destruct K1 as [<-|K1]; [destruct Hn; contradiction|]. auto.
      - exists x, b. split; [now right|]. auto. }
    assert (Hrows : forall idx l, (forall i, In i idx -> he_block e <> i) -> Forall2 (block_row hashes t bt) idx l -> Forall2 (block_row hashes (e :: t) bt) idx l).
    { intros idx l Hi H. induction H as [|i x idx l H _ IHf]; [constructor|]. constructor; [|apply IHf; intros j Hj; apply Hi; now right].
      apply block_row_cons; [apply Hi; now left|exact H]. }
    destruct (is_valid e && negb (existsb (N.eqb (he_block e)) seen)) eqn:V.
    + apply andb_true_iff in V. destruct V as [V1 V2]. apply taken_iff in V1. apply negb_true_iff in V2.
      assert (V3 : ~ In (he_block e) seen) by (intros K; apply seen_iff in K; congruence).
      destruct (IH (he_block e :: seen)) as (idx & I1 & I2 & I3).
      assert (Hne : forall i, In i idx -> he_block e <> i) by (intros i Hi E; apply I2 in Hi; apply (proj1 Hi); now left).
      assert (Hmem : forall i, he_block e <> i -> (In i idx <-> ~ In i seen /\ is_file (e :: t) bt i)).
      { intros i Hi. rewrite I2, (Hcons i (or_introl Hi)). cbn [In]. tauto. }
      assert (Hskip : ~ is_file (e :: t) bt (he_block e) -> forall i, In i idx <-> ~ In i seen /\ is_file (e :: t) bt i).
      { intros Hnf i. destruct (N.eq_dec (he_block e) i) as [<-|Hi]; [|auto]. split; [|tauto].
        intros K. exfalso. now apply (Hne _ K). }
      destruct (nthN bt (he_block e)) as [b|] eqn:B; [destruct (has_flag (be_flags b) FLAG_EXISTS) eqn:Fl|].
      * exists (he_block e :: idx). split; [|split].
        -- constructor; [|exact I1]. intros K. now apply (Hne _ K).
        -- intros i. cbn [In]. destruct (N.eq_dec (he_block e) i) as [<-|Hi].
           ++ split; [intros _|auto]. split; [exact V3|]. exists e, b. split; [now left|]. split; [exact V1|]. split; [reflexivity|].
              split; [exact B|now apply exists_flag_iff].
           ++ rewrite <- (Hmem i Hi). tauto.
        -- constructor; [|now apply Hrows]. unfold block_row. cbn. split; [apply anon_numbered; unfold taken in V1; lia|].
           split; [exists b; split; [exact B|repeat split]|]. exists e. split; [|reflexivity].
           exists [], t. split; [reflexivity|]. split; [exact V1|]. split; [reflexivity|intros ? []].
      * exists idx. split; [exact I1|]. split; [|now apply Hrows]. apply Hskip.
        intros (x & b' & _ & _ & _ & K2 & K3). rewrite B in K2. injection K2 as <-. apply exists_flag_iff in K3. congruence.
      * exists idx. split; [exact I1|]. split; [|now apply Hrows]. apply Hskip. intros (x & b' & _ & _ & _ & K2 & K3). congruence.
    + destruct (IH seen) as (idx & I1 & I2 & I3).
      assert (Hor : ~ taken e \/ In (he_block e) seen).
      { apply andb_false_iff in V. destruct V as [V|V]; [left; intros K; apply taken_iff in K; congruence|].
        right. apply negb_false_iff in V. now apply seen_iff. }
      assert (Hne : forall i, In i idx -> he_block e <> i).
      { intros i Hi <-. apply I2 in Hi. destruct Hi as [K (x & b & K1 & K2 & K3 & _)]. destruct Hor as [Hor|Hor]; [|contradiction].
        apply Hor. unfold taken in *. now rewrite <- K3. }
      exists idx. split; [exact I1|]. split; [|now apply Hrows]. intros i. rewrite I2.
      destruct (N.eq_dec (he_block e) i) as [<-|Hi]; [|rewrite (Hcons i (or_introl Hi)); tauto].
      destruct Hor as [Hor|Hor]; [|tauto]. rewrite (Hcons (he_block e) (or_intror Hor)). tauto.
Qed.

(** ** By BET entry *)
Lemma bet_entries_ok b n : forall k l, k + N.of_nat n <= 2 ^ 64 -> bet_entries b n k = Ok l ->
  exists idx, StronglySorted N.lt idx /\
    (forall i, In i idx <-> k <= i < k + N.of_nat n /\ exists bi, bet_get b i = Ok (Some bi) /\ exists_flag (bi_flags bi)) /\
    Forall2 (bet_row b) idx l.
Proof.
  induction n as [|n IH]; intros k l Hk; cbn [bet_entries].
  - intros H. injection H as <-. exists []. split; [constructor|]. split; [|constructor]. intros i. split; [intros []|]. intros [K _]. lia.
  - destruct (bet_get b k) as [r| |] eqn:E; try discriminate. cbn [bind].
    destruct (bet_entries b n (k + 1)) as [rest| |] eqn:Er; try discriminate. cbn [bind]. intros H.
    destruct (IH (k + 1) rest) as (idx & S1 & S2 & S3); [lia|exact Er|].
    assert (Hskip : ~ (exists bi, bet_get b k = Ok (Some bi) /\ exists_flag (bi_flags bi)) ->
      forall i, In i idx <-> k <= i < k + N.of_nat (S n) /\ exists bi, bet_get b i = Ok (Some bi) /\ exists_flag (bi_flags bi)).
    { intros Hn i. rewrite S2. split; intros [K1 K2]; (split; [|exact K2]); [lia|].
      destruct (N.eq_dec i k) as [->|]; [contradiction|lia]. }
    destruct r as [bi|]; [destruct (has_flag (bi_flags bi) FLAG_EXISTS) eqn:Fl|]; injection H as <-.
    + exists (k :: idx). split; [|split].
      * constructor; [exact S1|]. apply Forall_forall. intros i Hi. apply S2 in Hi. lia.
      * intros i. cbn [In]. rewrite S2. split.
        -- intros [<-|[K1 K2]]; (split; [lia|]); [|exact K2]. exists bi. split; [exact E|now apply exists_flag_iff].
        -- intros [K1 K2]. destruct (N.eq_dec i k) as [->|]; [now left|]. right. split; [lia|exact K2].
      * constructor; [|exact S3]. cbn. split; [apply anon_numbered; lia|]. split; [reflexivity|]. exists bi. auto.
    + exists idx. split; [exact S1|]. split; [|exact S3]. apply Hskip. intros (bi' & K1 & K2). rewrite E in K1. injection K1 as <-.
      apply exists_flag_iff in K2. congruence.
    + exists idx. split; [exact S1|]. split; [|exact S3]. apply Hskip. intros (bi' & K1 & K2). congruence.
Qed.

(** ** The three listings *)
Lemma no_extended a : a_het a = None \/ a_bet a = None -> valid_het_bet a = None.
Proof. unfold valid_het_bet. intros [->| ->]; [reflexivity|]. now destruct (a_het a). Qed.

Lemma list_slots L a ht bt :
  find_file a Listfile.LISTFILE = Ok None -> a_het a = None \/ a_bet a = None ->
  a_hash a = Some ht -> a_block a = Some bt -> lenN ht <= 2 ^ 64 ->
  exists l idx, list_files L a = Ok l /\ StronglySorted N.lt idx /\
    (forall i, In i idx <-> is_file_slot ht bt i) /\ Forall2 (slot_row ht bt) idx l.
Proof.
  intros Hf Hx Hh Hb Hl. destruct (slot_entries_ok bt ht 0 Hl) as (idx & S1 & S2 & S3).
  exists (slot_entries bt ht 0), idx. unfold list_files. rewrite Hf. cbn [bind]. unfold list_tables.
  rewrite (no_extended a Hx), Hh, Hb. cbn [bind of_option]. split; [reflexivity|]. split; [exact S1|]. split.
  - intros i. rewrite S2, N.sub_0_r. split; [tauto|]. intros K. split; [apply N.le_0_l|exact K].
  - clear -S3. induction S3 as [|i x idx l H _ IH]; constructor; [|exact IH]. now rewrite N.sub_0_r in H.
Qed.

Lemma sorted_blocks hashes ht bt :
  exists idx, NoDup idx /\ (forall i, In i idx <-> is_file ht bt i) /\
    Forall2 (block_row hashes ht bt) idx (sort_entries (block_entries hashes bt ht [])).
Proof.
  destruct (block_entries_ok hashes bt ht []) as (idx & I1 & I2 & I3).
  destruct (Permutation_Forall2 (P := fun x i => block_row hashes ht bt i x) (sort_perm (block_entries hashes bt ht [])) (l2 := idx)) as (idx' & P1 & P2).
  { clear -I3. induction I3; constructor; assumption. }
  exists idx'. split; [exact (Permutation_NoDup P1 I1)|]. split.
  - intros i. split; [intros K; apply (Permutation_in _ (Permutation_sym P1)) in K; now apply I2 in K|].
    intros K. apply (Permutation_in _ P1). apply I2. split; [intros []|exact K].
  - clear -P2. induction P2; constructor; assumption.
Qed.
Lemma list_blocks a ht bt :
  a_het a = None \/ a_bet a = None -> a_hash a = Some ht -> a_block a = Some bt ->
  forall hashes : bool, exists l idx, (if hashes then list_all_with_hashes a else list_all a) = Ok l /\
    in_order fe_name l /\ NoDup idx /\ (forall i, In i idx <-> is_file ht bt i) /\
    Forall2 (block_row hashes ht bt) idx l.
Proof.
  intros Hx Hh Hb hashes. destruct (sorted_blocks hashes ht bt) as (idx & I1 & I2 & I3).
  exists (sort_entries (block_entries hashes bt ht [])), idx. split; [|split; [apply sort_ordered|auto]].
  unfold list_all, list_all_with_hashes, list_tables. rewrite (no_extended a Hx), Hh, Hb.
  destruct hashes; reflexivity.
Qed.

Lemma list_bet L a h b k :
  a_het a = Some h -> a_bet a = Some b -> 0 < het_max h -> bet_count b < 2 ^ 32 ->
  (exists i bi, i < bet_count b /\ bet_get b i = Ok (Some bi) /\ exists_flag (bi_flags bi)) ->
  forall l, (k = list_all a \/ k = list_all_with_hashes a \/ find_file a Listfile.LISTFILE = Ok None /\ k = list_files L a) ->
  k = Ok l ->
  exists idx, StronglySorted N.lt idx /\
    (forall i, In i idx <-> i < bet_count b /\ exists bi, bet_get b i = Ok (Some bi) /\ exists_flag (bi_flags bi)) /\
    Forall2 (bet_row b) idx l.
Proof.
  intros Hh Hb Hm Hc (i0 & bi0 & Hi0 & Hg0 & Hf0) l Hk El.
  assert (Hv : valid_het_bet a = Some (h, b)).
  { unfold valid_het_bet. rewrite Hh, Hb. apply N.ltb_lt in Hm. rewrite Hm.
    replace (0 <? bet_count b) with true; [reflexivity|]. symmetry. apply N.ltb_lt. lia. }
  assert (Hrows : forall f, list_tables a f = Ok l -> bet_entries b (N.to_nat (bet_count b)) 0 = Ok l).
  { intros f. unfold list_tables. rewrite Hv. destruct (bet_entries b (N.to_nat (bet_count b)) 0) as [es| |] eqn:E; try discriminate.
    cbn [bind]. destruct es as [|x es]; [|auto]. intros _. exfalso.
    apply bet_entries_ok in E; [|rewrite N2Nat.id; lia]. destruct E as (idx & _ & K1 & K2). inversion K2; subst idx.
    apply (proj2 (K1 i0)). rewrite N2Nat.id. split; [lia|]. exists bi0. auto. }
  assert (He : bet_entries b (N.to_nat (bet_count b)) 0 = Ok l).
  { destruct Hk as [->|[->|[Hf ->]]]; [exact (Hrows _ El)|exact (Hrows _ El)|].
    unfold list_files in El. rewrite Hf in El. cbn [bind] in El. exact (Hrows _ El). }
  apply bet_entries_ok in He; [|rewrite N2Nat.id; lia]. destruct He as (idx & K1 & K2 & K3).
  exists idx. split; [exact K1|]. split; [|exact K3]. intros i. rewrite K2, N2Nat.id. split; intros [K4 K5]; (split; [lia|exact K5]).
Qed.
