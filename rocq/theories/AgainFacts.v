(** * Generating test data again gives the same (C84) *)
From Coq Require Import Lia.
From Verif Require Import Bytes Cli SpecCli CliFacts TestData SpecData DataFacts DataRuns.
Open Scope N_scope.

Lemma nthN_same {A} (a b : list A) : lenN a = lenN b -> (forall i, i < lenN a -> nthN a i = nthN b i) -> a = b.
Proof.
  intros El H. assert (El' : length a = length b) by (unfold lenN in El; lia).
  assert (G : forall i, (i < length a)%nat -> nth_error a i = nth_error b i).
  { intros i Hi. specialize (H (N.of_nat i)). unfold nthN in H. rewrite <- El in H.
    assert (Hl : N.of_nat i < lenN a) by (unfold lenN; lia). specialize (H Hl).
    apply N.ltb_lt in Hl. rewrite Hl, Nnat.Nat2N.id in H. exact H. }
  clear El H. revert b El' G. induction a as [|x a IH]; intros [|y b] El' G; try discriminate; [reflexivity|].
  pose proof (G 0%nat ltac:(cbn; lia)) as G0. injection G0 as <-. f_equal. apply IH; [now injection El'|].
  intros i Hi. apply (G (S i)). cbn. lia.
Qed.

Section Random.
Variable random : N -> bytes.

Lemma content_one f a b : content_of random f a -> content_of random f b -> a = b.
Proof.
  unfold content_of. destruct (df_type f); [|congruence..].
  intros [La Ha] [Lb Hb]. apply nthN_same; [congruence|]. intros i Hi. rewrite La in Hi. rewrite Ha, Hb by exact Hi. reflexivity.
Qed.

Definition place_dec (a b : place) : {a = b} + {a <> b} := list_eq_dec (list_eq_dec Byte.byte_eq_dec) a b.
Lemma last_at cwd base c l fs : (exists f, In f fs /\ file_at cwd base c f l) ->
  exists pre f post, fs = pre ++ f :: post /\ file_at cwd base c f l /\ forall g, In g post -> ~ file_at cwd base c g l.
Proof.
  induction fs as [|g fs IH]; intros (f & Hf & Ha); [destruct Hf|].
  destruct (Exists_dec (fun x => resolve cwd (path_join (path_join base (dc_name c)) (df_path x)) = l) fs) as [E|E];
    [intros x; apply place_dec| |].
  - apply Exists_exists in E. destruct E as (x & Hx & Ex). destruct IH as (pre & f' & post & -> & K).
    + exists x. split; [exact Hx|]. apply leads_resolve. now symmetry.
    + exists (g :: pre), f', post. split; [reflexivity|exact K].
  - assert (N : forall x, In x fs -> ~ file_at cwd base c x l).
    { intros x Hx K. apply E. apply Exists_exists. exists x. split; [exact Hx|]. apply leads_resolve in K. now symmetry. }
    destruct Hf as [->|Hf]; [|now apply N in Ha]. exists [], f, fs. split; [reflexivity|]. split; [exact Ha|exact N].
Qed.

Lemma again cwd base c o f1 f2 d1 d1' r1 d2 d2' r2 : orderly d1 -> orderly d2 -> out_at cwd base c o ->
  generate_test_data random f1 cwd base c d1 d1' (Ok r1) -> generate_test_data random f2 cwd base c d2 d2' (Ok r2) ->
  r1 = r2 /\ forall l, below o l -> d1' l = d2' l.
Proof.
  intros O1 O2 Ho G1 G2.
  pose proof (fun t l => ways random f1 cwd base c d1 d1' r1 t l O1 G1) as W1.
  pose proof (fun t l => ways random f2 cwd base c d2 d2' r2 t l O2 G2) as W2.
  destruct (generated random f1 cwd base c d1 d1' r1 o O1 Ho G1) as (E1 & F1 & D1 & B1 & X1 & Y1).
  destruct (generated random f2 cwd base c d2 d2' r2 o O2 Ho G2) as (E2 & F2 & D2 & B2 & X2 & Y2).
  split; [congruence|]. intros l Hl.
  assert (S : (exists f, In f (dc_files c) /\ file_at cwd base c f l) -> d1' l = d2' l).
  { intros H. destruct (last_at _ _ _ _ _ H) as (pre & f & post & E & Ha & N).
    destruct (F1 _ _ _ _ E Ha N) as (b1 & -> & C1). destruct (F2 _ _ _ _ E Ha N) as (b2 & -> & C2).
    now rewrite (content_one _ _ _ C1 C2). }
  assert (T : (exists t, named_at cwd base c t /\ below l t) -> d1' l = d2' l).
  { intros (t & Ht & Hb). destruct (place_dec l t) as [<-|Ne]; [|now rewrite (W1 t l Ht Hb Ne), (W2 t l Ht Hb Ne)].
    destruct Ht as [Ht|[(s & Hs & Ht)|Ht]]; [|now rewrite (D1 s l Hs Ht), (D2 s l Hs Ht)|now apply S].
    apply leads_resolve in Ht. apply leads_resolve in Ho. rewrite Ht, <- Ho. congruence. }
  destruct (d1' l) as [[|b1]|] eqn:L1.
  - apply T. now apply Y1.
  - destruct (X1 l b1 Hl L1) as (f & Hf & Ha & _). apply S. now exists f.
  - destruct (d2' l) as [[|b2]|] eqn:L2; [| |reflexivity].
    + apply T. now apply Y2.
    + destruct (X2 l b2 Hl L2) as (f & Hf & Ha & _). apply S. now exists f.
Qed.

Lemma again_neat cwd base c o fault d d' r : neat c = true -> orderly d -> out_at cwd base c o ->
  generate_test_data random fault cwd base c d d' (Ok r) ->
  exists d'', generate_test_data random false cwd base c d' d'' (Ok r) /\ forall l, below o l -> d'' l = d' l.
Proof.
  intros Hn O Ho G. pose proof (run_orderly random fault cwd base c d d' r O G) as O'.
  destruct (generated random fault cwd base c d d' r o O Ho G) as (_ & _ & _ & B & _).
  destruct (neat_succeeds random cwd base c d' o Hn O' Ho) as [(d'' & G') _].
  - intros l b Hl. destruct (place_dec l o) as [->|Ne]; [congruence|].
    rewrite (ways random fault cwd base c d d' r o l O G (or_introl Ho) Hl Ne). discriminate.
  - destruct (again cwd base c o fault false d d' r d' d'' _ O O' Ho G G') as [E K]. rewrite <- E in G'.
    exists d''. split; [exact G'|]. intros l Hl. symmetry. now apply K.
Qed.

(** ** Side by side *)
Lemma own_name c : In c all_data -> tame (dc_name c) /\ parts (dc_name c) = [dc_name c].
Proof.
  intros H. split; [apply tame_b_ok|]; repeat (destruct H as [<-|H]; [vm_compute; reflexivity|]); destruct H.
Qed.
Lemma out_own cwd base c o : In c all_data -> out_at cwd base c o -> o = resolve cwd base ++ [dc_name c].
Proof.
  intros H Ho. apply leads_resolve in Ho. destruct (own_name c H) as [T E]. now rewrite (tame_resolve cwd base _ T), E in Ho.
Qed.
Lemma neat_within cwd base c o t : neat c = true -> out_at cwd base c o -> named_at cwd base c t -> below o t.
Proof.
  intros Hn Ho Ht. apply leads_resolve in Ho. unfold neat in Hn. rewrite !Bool.andb_true_iff, !forallb_forall in Hn.
  destruct Hn as (((((((A & B) & _) & _) & _) & _) & _) & _).
  destruct Ht as [Ht|[(s & Hs & Ht)|(f & Hf & Ht)]]; apply leads_resolve in Ht; rewrite Ht, Ho.
  - apply below_refl.
  - rewrite (tame_resolve cwd _ s (tame_b_ok _ (A s Hs))). eexists. reflexivity.
  - rewrite (tame_resolve cwd _ (df_path f) (tame_b_ok _ (B f Hf))). eexists. reflexivity.
Qed.
Lemma side_by_side cwd base c1 c2 o fault d d' r l : In c1 all_data -> In c2 all_data -> dc_name c1 <> dc_name c2 ->
  out_at cwd base c1 o -> below o l -> generate_test_data random fault cwd base c2 d d' r -> d' l = d l.
Proof.
  intros H1 H2 Ne Ho Hl G. pose proof (out_own _ _ _ _ H1 Ho) as E1.
  assert (Ho2 : out_at cwd base c2 (resolve cwd base ++ [dc_name c2])).
  { apply leads_resolve. destruct (own_name c2 H2) as [T E]. now rewrite (tame_resolve cwd base _ T), E. }
  assert (X : forall m, below (resolve cwd base ++ [dc_name c1]) m -> below (resolve cwd base ++ [dc_name c2]) m -> False).
  { intros m (r1 & M1) (r2 & M2). rewrite M1, <- !app_assoc in M2. apply app_inv_head in M2. cbn in M2. congruence. }
  subst o. destruct (elsewhere random fault cwd base c2 d d' r _ l Ho2) as [K|(_ & _ & K)]; try assumption.
  - intros t Ht. exact (neat_within cwd base c2 _ t (all_neat c2 H2) Ho2 Ht).
  - intros B. exact (X l Hl B).
  - exfalso. apply (X (resolve cwd base ++ [dc_name c2])); [exact (below_trans _ _ _ Hl K)|apply below_refl].
Qed.
End Random.
