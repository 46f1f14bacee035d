(** * What Huffman decompression computes. *)
From Verif Require Import Bytes Huffman.
Open Scope N_scope.

(** The value of the first item for each table. *)
Definition first_value (k : N) : option N :=
  match build_tree k with Ok (it :: _) => Some (it_value it) | _ => None end.

Lemma first_values :
  first_value 0 = Some 0x100 /\ first_value 1 = Some 89 /\ first_value 2 = Some 33.
Proof. vm_compute. auto. Qed.

Lemma land_F n : n < 16 -> N.land n 15 = n.
Proof. intros. change 15 with (N.ones 4). rewrite N.land_ones. now apply N.mod_small. Qed.

Lemma build_tree_low t : build_tree t = build_tree (N.land t 15).
Proof.
  unfold build_tree. rewrite <- N.land_assoc. reflexivity.
Qed.

(** Decoding one symbol does not look at the input at all. *)
Lemma decode_one_const v tl r items :
  items = mkItem v (it_weight (hd (mkItem 0 0 None) items)) None :: tl ->
  exists r', decode_one items r = Ok (v, r').
Proof.
  intros ->. unfold decode_one. destruct (peek_7_bits r) as [[l|] r1]; eexists; reflexivity.
Qed.

Lemma first_leaf k : k < 3 -> exists w tl v, first_value k = Some v /\ build_tree k = Ok (mkItem v w None :: tl).
Proof.
  intros H. assert (C : k = 0 \/ k = 1 \/ k = 2) by lia.
  destruct C as [->|[->| ->]]; vm_compute; do 3 eexists; split; reflexivity.
Qed.

Lemma loop_const v w tl : v <= 255 -> forall n f r out expected,
  (n < f)%nat -> out + N.of_nat n + 1 = N.max (out + 1) expected ->
  huff_loop f (mkItem v w None :: tl) r out expected = Ok (repeat (Nb v) (S n)).
Proof.
  intros Hv. induction n as [|n IH]; intros f r out expected Hf He; destruct f as [|f]; try lia;
  cbn [huff_loop];
  destruct (decode_one_const v tl r (mkItem v w None :: tl) eq_refl) as [r' ->]; cbn [bind];
  replace (v =? 0x100) with false by (symmetry; apply N.eqb_neq; lia);
  replace (v =? 0x1FF) with false by (symmetry; apply N.eqb_neq; lia);
  replace (v =? 0x101) with false by (symmetry; apply N.eqb_neq; lia);
  replace (255 <? v) with false by (symmetry; apply N.ltb_ge; lia).
  - replace (expected <=? out + 1) with true by (symmetry; apply N.leb_le; lia). reflexivity.
  - replace (expected <=? out + 1) with false by (symmetry; apply N.leb_gt; lia).
    rewrite IH by lia. reflexivity.
Qed.

Lemma huffman_const t rest expected :
  huffman_decompress (t :: rest) expected =
  match N.land (bN t) 15 with
  | 0 => Ok []
  | 1 => Ok (repeat (Nb 89) (N.to_nat (N.max 1 expected)))
  | 2 => Ok (repeat (Nb 33) (N.to_nat (N.max 1 expected)))
  | _ => Err ECompression
  end.
Proof.
  unfold huffman_decompress. rewrite build_tree_low.
  assert (L : N.land (bN t) 15 < 16).
  { change 15 with (N.ones 4). rewrite N.land_ones. exact (N.mod_lt _ (2^4) ltac:(discriminate)). }
  destruct first_values as (F0 & F1 & F2).
  set (k := N.land (bN t) 15) in *. clearbody k.
  destruct (N.lt_ge_cases k 3) as [H|H].
  - destruct (first_leaf k H) as (w & tl & v & Hv & ->). cbn [bind].
    assert (C : k = 0 \/ k = 1 \/ k = 2) by lia. destruct C as [->|[->| ->]].
    + rewrite F0 in Hv. injection Hv as <-. cbn [huff_loop].
      destruct (decode_one_const 0x100 tl (mkReader rest 0 0) (mkItem 256 w None :: tl) eq_refl) as [r' ->].
      reflexivity.
    + rewrite F1 in Hv. injection Hv as <-.
      rewrite (loop_const 89 w tl ltac:(lia) (N.to_nat (N.max 1 expected) - 1)).
      * f_equal. f_equal. lia.
      * lia.
      * lia.
    + rewrite F2 in Hv. injection Hv as <-.
      rewrite (loop_const 33 w tl ltac:(lia) (N.to_nat (N.max 1 expected) - 1)).
      * f_equal. f_equal. lia.
      * lia.
      * lia.
  - assert (E : build_tree k = Err ECompression).
    { unfold build_tree. rewrite land_F by exact L.
      destruct (nth_error WEIGHT_TABLES (N.to_nat k)) eqn:E; [|reflexivity].
      assert (N.to_nat k < length WEIGHT_TABLES)%nat by (apply nth_error_Some; congruence).
      cbn in H0. lia. }
    rewrite E. cbn [bind]. destruct k as [|p]; [lia|]. destruct p as [p|p|]; try lia; destruct p; try reflexivity; lia.
Qed.
