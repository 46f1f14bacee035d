(** * Facts about the reader of io.rs *)
From Verif Require Import Bytes Stream SpecStream.
From Coq Require Import ZArith ZifyBool ZifyN ZifyNat.
Open Scope N_scope.

Lemma app_same {A} (a : list A) : forall b c d, length a = length c -> a ++ b = c ++ d -> a = c /\ b = d.
Proof.
  induction a as [|x a IH]; intros b [|y c] d Hl E; try discriminate Hl; [auto|]. injection E as -> E.
  destruct (IH b c d) as [-> ->]; auto.
Qed.
Lemma part_det d off n x y : part d off n x -> part d off n y -> x = y.
Proof.
  intros (a & b & E & Ha & Hx) (a' & b' & E' & Ha' & Hy). rewrite E in E'. unfold lenN in *.
  apply app_same in E'; [|lia]. destruct E' as [_ E']. apply app_same in E'; [|lia]. tauto.
Qed.
Lemma part_ends d off n x : part d off n x -> off + n <= lenN d.
Proof. intros (a & b & -> & <- & <-). rewrite !lenN_app. lia. Qed.
Lemma part_exists d off n : off + n <= lenN d -> part d off n (firstn (N.to_nat n) (skipn (N.to_nat off) d)).
Proof.
  intros H. exists (firstn (N.to_nat off) d), (skipn (N.to_nat n) (skipn (N.to_nat off) d)). rewrite !firstn_skipn.
  split; [reflexivity|]. unfold lenN in *. rewrite !firstn_length, skipn_length. lia.
Qed.
Lemma part_split d off n m x y : part d off n x -> part d (off + n) m y -> part d off (n + m) (x ++ y).
Proof.
  intros Hx Hy. pose proof Hx as (a & b & E & Ha & Hl). destruct Hy as (a' & b' & E' & Ha' & Hm).
  rewrite E in E'. rewrite app_assoc in E'. apply app_same in E'.
  - destruct E' as [_ ->]. exists a, b'. rewrite E, <- !app_assoc. repeat split; [exact Ha|]. rewrite lenN_app. lia.
  - rewrite app_length. unfold lenN in *. lia.
Qed.

(** One read *)
Lemma read_spec picks s n x s' : s_read picks s n = (x, s') ->
  s_data s' = s_data s /\ s_pos s' = s_pos s + lenN x /\ lenN x <= n /\
  (x = [] \/ part (s_data s) (s_pos s) (lenN x) x) /\
  (x = [] <-> n = 0 \/ lenN (s_data s) <= s_pos s).
Proof.
  unfold s_read. intros [= <- <-]. cbn [s_data s_pos]. set (m := N.min n _).
  set (l := skipn _ _). assert (Hl : lenN l = lenN (s_data s) - s_pos s) by (unfold l, lenN; rewrite skipn_length; lia).
  assert (Hx : lenN (firstn (N.to_nat m) l) = N.min m (lenN (s_data s) - s_pos s)) by (unfold lenN in *; rewrite firstn_length; lia).
  split; [reflexivity|]. split; [reflexivity|]. split; [rewrite Hx; lia|]. split.
  - destruct (N.le_gt_cases (lenN (s_data s)) (s_pos s)) as [H|H].
    + left. destruct (firstn (N.to_nat m) l); [reflexivity|]. unfold lenN in *. cbn [length] in Hx. lia.
    + right. exists (firstn (N.to_nat (s_pos s)) (s_data s)), (skipn (N.to_nat m) l). rewrite firstn_skipn. unfold l. rewrite firstn_skipn.
      split; [reflexivity|]. split; [|reflexivity]. unfold lenN in *. rewrite firstn_length. lia.
  - split.
    + intros E. rewrite E in Hx. change (lenN []) with 0 in Hx. lia.
    + intros H. destruct (firstn (N.to_nat m) l); [reflexivity|]. unfold lenN in *. cbn [length] in Hx. lia.
Qed.

Lemma exact_spec picks fuel : forall s n, (N.to_nat (N.min n (lenN (s_data s) - s_pos s)) < fuel)%nat ->
  let '(r, s') := s_exact picks fuel s n in
  s_data s' = s_data s /\ r <> Panic /\
  (forall x, r = Ok x <-> (n = 0 /\ x = []) \/ (n <> 0 /\ part (s_data s) (s_pos s) n x)) /\
  (forall x, r = Ok x -> s_pos s' = s_pos s + n).
Proof.
  induction fuel as [|fuel IH]; intros s n Hf; [lia|]. cbn [s_exact]. destruct (n =? 0) eqn:En.
  { split; [reflexivity|]. split; [discriminate|]. split; [|intros x _; lia]. intros x. split.
    - intros H. apply Ok_inj in H. left. split; [lia|now symmetry].
    - intros [[_ ->]|[H _]]; [reflexivity|lia]. }
  destruct (s_read picks s n) as [got s'] eqn:Er. destruct (read_spec _ _ _ _ _ Er) as (Hd & Hp & Hle & Hpart & Hnil).
  destruct got as [|b got].
  { split; [exact Hd|]. split; [discriminate|]. split; [|discriminate]. intros x. split; [discriminate|].
    intros [[H _]|[_ H]]; [lia|]. apply part_ends in H. destruct (proj1 Hnil eq_refl) as [H'|H']; lia. }
  destruct Hpart as [X|Hpart]; [discriminate X|]. set (g := b :: got) in *. assert (Hg : 1 <= lenN g) by (unfold g, lenN; cbn [length]; lia).
  pose proof (part_ends _ _ _ _ Hpart) as Hend.
  specialize (IH s' (n - lenN g)). rewrite Hd, Hp in IH. specialize (IH ltac:(lia)).
  destruct (s_exact picks fuel s' (n - lenN g)) as [r s'']. destruct IH as (IH1 & IH2 & IH3 & IH4).
  assert (Hsplit : forall x, (part (s_data s) (s_pos s) n x <->
    exists rest, x = g ++ rest /\ ((n - lenN g = 0 /\ rest = []) \/ (n - lenN g <> 0 /\ part (s_data s) (s_pos s + lenN g) (n - lenN g) rest)))).
  { intros x. split.
    - intros H. destruct (N.eq_dec (n - lenN g) 0) as [E0|E0].
      + exists []. rewrite app_nil_r. split; [|auto]. assert (E : lenN g = n) by lia. rewrite E in Hpart. eapply part_det; eassumption.
      + pose proof (part_ends _ _ _ _ H) as He. assert (Hr := part_exists (s_data s) (s_pos s + lenN g) (n - lenN g) ltac:(lia)).
        eexists. split; [|right; split; [exact E0|exact Hr]]. eapply part_det; [exact H|].
        replace n with (lenN g + (n - lenN g)) at 1 by lia. now apply part_split.
    - intros (rest & -> & [[E0 ->]|[E0 Hr]]).
      + rewrite app_nil_r. assert (E : n = lenN g) by lia. rewrite E. exact Hpart.
      + replace n with (lenN g + (n - lenN g)) by lia. now apply part_split. }
  destruct r as [rest|e|]; [| |congruence].
  - split; [exact IH1|]. split; [discriminate|]. split.
    + intros x. split.
      * intros H. apply Ok_inj in H. right. split; [lia|]. apply Hsplit. exists rest. split; [now symmetry|]. now apply IH3.
      * intros [[H _]|[_ H]]; [lia|]. apply Hsplit in H. destruct H as (rest' & -> & H). apply IH3 in H. apply Ok_inj in H. now rewrite H.
    + intros x _. rewrite (IH4 rest eq_refl). lia.
  - split; [exact IH1|]. split; [discriminate|]. split; [|discriminate]. intros x. split; [discriminate|].
    intros [[H _]|[_ H]]; [lia|]. apply Hsplit in H. destruct H as (rest & _ & H). apply IH3 in H. discriminate H.
Qed.

Theorem read_at_spec picks s off n :
  let '(r, s') := s_read_at picks s off n in
  s_data s' = s_data s /\ r <> Panic /\
  (forall x, r = Ok x <-> (n = 0 /\ x = []) \/ (n <> 0 /\ part (s_data s) off n x)) /\
  (forall x, r = Ok x -> s_pos s' = off + n).
Proof.
  unfold s_read_at. cbn [s_seek]. apply (exact_spec picks (S (length (s_data s))) (mkS (s_data s) off (s_calls s)) n).
  cbn [s_data s_pos]. unfold lenN. lia.
Qed.

Lemma run_data picks s x : s_data (snd (s_run picks s x)) = s_data s.
Proof.
  destruct x as [n|w|n|off n]; cbn [s_run].
  - destruct (s_read picks s n) as [d s'] eqn:E. now destruct (read_spec _ _ _ _ _ E).
  - destruct (s_seek s w) as [r s'] eqn:E. cbn [snd]. destruct w as [o|o|o]; cbn [s_seek] in E.
    + injection E as _ <-. reflexivity.
    + destruct (_ || _) in E; injection E as _ <-; reflexivity.
    + destruct (_ || _) in E; injection E as _ <-; reflexivity.
  - pose proof (exact_spec picks (S (length (s_data s))) s n ltac:(unfold lenN; lia)) as H.
    destruct (s_exact _ _ s n) as [r s']. tauto.
  - pose proof (read_at_spec picks s off n) as H. destruct (s_read_at picks s off n) as [r s']. tauto.
Qed.
Theorem runs_data picks l : forall s, s_data (snd (s_runs picks s l)) = s_data s.
Proof.
  induction l as [|x l IH]; intros s; [reflexivity|]. cbn [s_runs]. pose proof (run_data picks s x) as H.
  destruct (s_run picks s x) as [r s']. cbn [snd] in H. specialize (IH s'). destruct (s_runs picks s' l) as [rs s'']. cbn [snd] in *. congruence.
Qed.

Lemma result_det (r r' : res bytes) (P : bytes -> Prop) : (forall e, r = Err e -> e = EIo) -> (forall e, r' = Err e -> e = EIo) ->
  r <> Panic -> r' <> Panic -> (forall x, r = Ok x <-> P x) -> (forall x, r' = Ok x <-> P x) -> r = r'.
Proof.
  intros He He' Hp Hp' H H'. destruct r as [x|e|]; [| |congruence].
  - symmetry. apply H'. now apply H.
  - destruct r' as [x|e'|]; [|now rewrite (He e eq_refl), (He' e' eq_refl)|congruence].
    assert (X : Err e = Ok x) by (apply H; now apply H'). discriminate X.
Qed.
Lemma exact_err picks fuel : forall s n r s' e, s_exact picks fuel s n = (r, s') -> r = Err e -> e = EIo.
Proof.
  induction fuel as [|fuel IH]; intros s n r s' e H E; cbn [s_exact] in H; destruct (n =? 0).
  1,2,3: injection H as <- _; discriminate E.
  destruct (s_read picks s n) as [[|b got] s1]; [injection H as <- _; now injection E|].
  destruct (s_exact picks fuel s1 _) as [[rest|e'|] s2] eqn:Ex; injection H as <- _; try discriminate E.
  injection E as <-. exact (IH _ _ _ _ _ Ex eq_refl).
Qed.
Theorem read_at_same picks picks' s s' off n : s_data s = s_data s' ->
  fst (s_read_at picks s off n) = fst (s_read_at picks' s' off n).
Proof.
  intros Hd. pose proof (read_at_spec picks s off n) as H. pose proof (read_at_spec picks' s' off n) as H'.
  destruct (s_read_at picks s off n) as [r t] eqn:E. destruct (s_read_at picks' s' off n) as [r' t'] eqn:E'.
  destruct H as (_ & Hp & Hx & _). destruct H' as (_ & Hp' & Hx' & _). cbn [fst]. rewrite <- Hd in Hx'.
  unfold s_read_at in E, E'. cbn [s_seek] in E, E'.
  refine (result_det r r' _ _ _ Hp Hp' Hx Hx').
  - intros e. exact (exact_err _ _ _ _ _ _ _ E).
  - intros e. exact (exact_err _ _ _ _ _ _ _ E').
Qed.
Theorem history picks s l off n :
  fst (s_read_at picks (snd (s_runs picks s l)) off n) = fst (s_read_at picks s off n).
Proof. apply read_at_same. apply runs_data. Qed.

(** Reading on and on *)
Theorem reads_on picks : forall ns s rs s', s_runs picks s (map SRead ns) = (rs, s') ->
  exists xs, rs = map Ok xs /\ s_pos s' = s_pos s + lenN (concat xs) /\
    (concat xs = [] \/ part (s_data s) (s_pos s) (lenN (concat xs)) (concat xs)) /\
    Forall2 (fun n x => lenN x <= n /\ (n <> 0 -> x = [] -> lenN (s_data s) <= s_pos s')) ns xs.
Proof.
  induction ns as [|n ns IH]; intros s rs s' H; cbn [map s_runs] in H.
  - injection H as <- <-. exists []. split; [reflexivity|]. split; [change (lenN (concat [])) with 0; lia|]. split; [now left|constructor].
  - cbn [s_run] in H. destruct (s_read picks s n) as [x s1] eqn:Er. destruct (s_runs picks s1 (map SRead ns)) as [rs1 s2] eqn:Es.
    injection H as <- <-. destruct (IH s1 rs1 s2 Es) as (xs & -> & Hp & Hc & HF).
    destruct (read_spec _ _ _ _ _ Er) as (Hd & Hp1 & Hle & Hx & Hnil). rewrite Hd in *. exists (x :: xs). cbn [map concat].
    split; [reflexivity|]. rewrite lenN_app. split; [lia|]. split.
    + destruct Hx as [->|Hx].
      * change (lenN []) with 0 in *. rewrite N.add_0_r in Hp1. rewrite Hp1 in Hc. exact Hc.
      * destruct Hc as [Hc|Hc].
        -- right. rewrite Hc, app_nil_r. change (lenN []) with 0. rewrite N.add_0_r. exact Hx.
        -- right. rewrite Hp1 in Hc. apply part_split; assumption.
    + constructor; [|exact HF]. split; [exact Hle|]. intros Hn E. destruct (proj1 Hnil E) as [H|H]; [congruence|]. lia.
Qed.
Theorem seek_spec s w r s' : s_seek s w = (r, s') ->
  let z := match w with FromStart o => Z.of_N o | FromCurrent o => (Z.of_N (s_pos s) + o)%Z | FromEnd o => (Z.of_N (lenN (s_data s)) + o)%Z end in
  (match w with FromStart o => o < 2 ^ 64 | _ => True end) ->
  ((0 <= z < 2 ^ 64)%Z -> r = Ok (Z.to_N z) /\ s_pos s' = Z.to_N z) /\
  (~ (0 <= z < 2 ^ 64)%Z -> (exists e, r = Err e) /\ s_pos s' = s_pos s).
Proof.
  change (2 ^ 64) with 18446744073709551616. change (2 ^ 64)%Z with 18446744073709551616%Z.
  intros H. cbv zeta. destruct w as [o|o|o]; cbn [s_seek] in H; intros Ho.
  - injection H as <- <-. cbn [s_pos]. rewrite N2Z.id. split; [auto|lia].
  - change (2 ^ 64)%Z with 18446744073709551616%Z in H. destruct (_ || _)%bool eqn:E in H; injection H as <- <-; cbn [s_pos]; split; intros; try lia; eauto.
  - change (2 ^ 64)%Z with 18446744073709551616%Z in H. destruct (_ || _)%bool eqn:E in H; injection H as <- <-; cbn [s_pos]; split; intros; try lia; eauto.
Qed.
