(** * Hashes respect name equivalence. *)
From Verif Require Import Bytes Crypto CryptoFacts SpecNames.
Open Scope N_scope.

Lemma char_equiv_upper a b :
  char_equiv a b -> to_upper (fold_sep (bN a)) = to_upper (fold_sep (bN b)).
Proof.
  assert (L : forall u l, ascii_lower_of u l ->
      to_upper (fold_sep (bN u)) = to_upper (fold_sep (bN l))).
  { intros u l [[H1 H2] H3].
    change (bN "A") with 65 in H1. change (bN "Z") with 90 in H2.
    unfold to_upper, fold_sep.
    destruct (N.eqb_spec (bN u) 47); [lia|].
    destruct (N.eqb_spec (bN l) 47); [lia|].
    rewrite H3.
    destruct (N.leb_spec 97 (bN u)), (N.leb_spec (bN u) 122),
      (N.leb_spec 97 (bN u + 32)), (N.leb_spec (bN u + 32) 122); cbn [andb]; lia. }
  intros H; inversion H; subst; auto; try reflexivity.
  symmetry. auto.
Qed.

Lemma name_equiv_hash a b ht : name_equiv a b -> hash_string a ht = hash_string b ht.
Proof.
  intros H. unfold hash_string. f_equal.
  generalize (0x7FED7FED, 0xEEEEEEEE).
  induction H as [|x y a b Hxy H IH]; intros st; cbn [fold_left]; [reflexivity|].
  rewrite (hash_step_norm ht st x y) by now apply char_equiv_upper.
  apply IH.
Qed.

Lemma name_equiv_jenkins a b : name_equiv a b -> jenkins_hash a = jenkins_hash b.
Proof.
  intros H. unfold jenkins_hash.
  replace (fold_left jenkins_step a 0) with (fold_left jenkins_step b 0); [reflexivity|].
  symmetry. generalize 0.
  induction H as [|x y a b Hxy H IH]; intros st; cbn [fold_left]; [reflexivity|].
  rewrite (jenkins_step_norm st x y); [apply IH|].
  now apply upper_lower_same, char_equiv_upper.
Qed.

(** ** Name equivalence is transitive *)
Definition all_bytes : list byte := map (fun n => Nb (N.of_nat n)) (seq 0 256).

Lemma all_bytes_In b : In b all_bytes.
Proof.
  unfold all_bytes. apply in_map_iff. exists (N.to_nat (bN b)). rewrite N2Nat.id, Nb_bN.
  split; [reflexivity|]. apply in_seq. pose proof (bN_lt b). lia.
Qed.

Definition canon (b : byte) : N := to_upper (fold_sep (bN b)).

Lemma canon_equiv a b : canon a = canon b -> char_equiv a b.
Proof.
  intros H. apply char_equivb_sound.
  assert (G : forallb (fun x => forallb (fun y => negb (canon x =? canon y) || char_equivb x y) all_bytes)
                all_bytes = true) by (vm_compute; reflexivity).
  rewrite forallb_forall in G. specialize (G a (all_bytes_In a)).
  rewrite forallb_forall in G. specialize (G b (all_bytes_In b)).
  rewrite H, N.eqb_refl in G. exact G.
Qed.

Lemma name_equiv_trans a b c : name_equiv a b -> name_equiv b c -> name_equiv a c.
Proof.
  unfold name_equiv. intros H. revert c. induction H as [|x y a b Hxy H IH]; intros c Hc; inversion Hc; subst;
    constructor; auto.
  apply canon_equiv. unfold canon. etransitivity; apply char_equiv_upper; eassumption.
Qed.

(** Equivalence is decidable. *)
Lemma char_equivb_complete a b : char_equiv a b -> char_equivb a b = true.
Proof.
  unfold char_equivb. intros [c|u l [[H1 H2] H3]|u l [[H1 H2] H3]| |]; rewrite ?orb_true_iff, ?andb_true_iff.
  - do 4 left. now apply beqb_eq.
  - do 3 left. right. apply N.leb_le in H1, H2. apply N.eqb_eq in H3. auto.
  - do 2 left. right. apply N.leb_le in H1, H2. apply N.eqb_eq in H3. auto.
  - left. right. split; reflexivity.
  - right. split; reflexivity.
Qed.
Lemma name_equivb_complete a b : name_equiv a b -> name_equivb a b = true.
Proof. induction 1; cbn [name_equivb]; [reflexivity|]. now rewrite char_equivb_complete. Qed.
Lemma name_equiv_dec a b : {name_equiv a b} + {~ name_equiv a b}.
Proof.
  destruct (name_equivb a b) eqn:E; [left; now apply name_equivb_sound|].
  right. intros H. apply name_equivb_complete in H. congruence.
Defined.
