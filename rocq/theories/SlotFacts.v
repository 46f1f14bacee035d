(** * What the slots of a filled hash table hold. *)
From Verif Require Import Bytes Crypto CryptoFacts SpecNames HashTable SpecTables HashTableFacts TableMap.
Open Scope N_scope.

Lemma upd_in {A} (l : list A) i x y : In y (upd l i x) -> In y l \/ y = x.
Proof.
  revert i. induction l as [|z l IH]; intros [|i]; cbn [upd]; cbn [In]; try tauto.
  - intros [->|H]; auto.
  - intros [->|H]; auto. apply IH in H. tauto.
Qed.
Lemma add_loop_in fuel t a b loc blk : forall i t', add_loop fuel t a b loc blk i = Ok t' ->
  forall e, In e t' -> In e t \/ e = mkHE a b loc 0 blk.
Proof.
  induction fuel as [|f IH]; intros i t' H; cbn [add_loop] in H; [discriminate|].
  destruct (nthN t i) as [e|]; [|discriminate]. destruct (is_empty e).
  - apply Ok_inj in H. subst t'. intros x Hx. now apply upd_in in Hx.
  - destruct (_ && _) in H; [discriminate|]. exact (IH _ _ H).
Qed.
Lemma add_all_in files : forall t m t', add_all t files m = Ok t' ->
  forall e, In e t' -> In e t \/ exists i name loc, nth_error files i = Some (name, loc) /\
    e = mkHE (hash_string name 1) (hash_string name 2) loc 0 (m + N.of_nat i).
Proof.
  induction files as [|[n l] files IH]; intros t m t' H e He; cbn [add_all] in H.
  - apply Ok_inj in H. subst. now left.
  - destruct (add_to_hash_table t n m l) as [u| |] eqn:E; cbn [bind] in H; try discriminate.
    destruct (IH _ _ _ H e He) as [Hu|(i & name & loc & Hi & ->)].
    + unfold add_to_hash_table in E. destruct (lenN t =? 0); [discriminate|].
      destruct (add_loop_in _ _ _ _ _ _ _ _ E e Hu) as [Ht| ->]; [now left|right].
      exists O, n, l. split; [reflexivity|]. cbn [N.of_nat]. now rewrite N.add_0_r.
    + right. exists (S i), name, loc. split; [exact Hi|]. f_equal. lia.
Qed.
Theorem slots_fine count files t0 t : ht_new (calculate_hash_table_size count) = Ok t0 -> add_all t0 files 0 = Ok t ->
  forall e, In e t -> e = mkHE 0 0 0 0 0xFFFFFFFF \/
  exists i name loc, nth_error files i = Some (name, loc) /\ e = mkHE (hash_string name 1) (hash_string name 2) loc 0 (N.of_nat i).
Proof.
  intros H0 H e He. destruct (add_all_in _ _ _ _ H e He) as [H1|H1].
  - left. unfold ht_new in H0. destruct (is_power_of_two _); [|discriminate]. apply Ok_inj in H0. subst t0.
    apply repeat_spec in H1. exact H1.
  - right. exact H1.
Qed.
