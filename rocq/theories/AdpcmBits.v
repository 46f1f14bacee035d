(** * The bit level of the ADPCM codec. *)
From Verif Require Import Bytes Adpcm HashTableFacts.
Open Scope Z_scope.

Lemma upd_same {A} (l : list A) i x : nth_error l i = Some x -> upd l i x = l.
Proof.
  revert i. induction l as [|a l IH]; intros [|i] H; cbn in *; try congruence.
  f_equal. auto.
Qed.
Lemma upd_upd {A} (l : list A) i x y : upd (upd l i x) i y = upd l i y.
Proof. revert i. induction l as [|a l IH]; intros [|i]; cbn; try reflexivity. f_equal. auto. Qed.

Definition i16 (s : Z) : Prop := -32768 <= s <= 32767.
Definition st_ok (st : Z * N) : Prop := i16 (fst st) /\ (snd st <= 88)%N.

Lemma step_at_ok i : (i <= 88)%N -> exists s, step_at i = Ok s /\ 7 <= s <= 32767.
Proof.
  intros H.
  assert (K : forallb (fun i => match step_at (N.of_nat i) with Ok s => (7 <=? s) && (s <=? 32767)
                                | _ => false end) (seq 0 89) = true) by (vm_compute; reflexivity).
  rewrite forallb_forall in K.
  specialize (K (N.to_nat i)). rewrite N2Nat.id in K.
  destruct (step_at i) as [s| |].
  - exists s. split; [reflexivity|].
    assert (B : (7 <=? s) && (s <=? 32767) = true) by (apply K; apply in_seq; lia). lia.
  - assert (false = true) by (apply K; apply in_seq; lia). discriminate.
  - assert (false = true) by (apply K; apply in_seq; lia). discriminate.
Qed.

Lemma next_step_ok idx enc : exists i, next_step_index idx enc = Ok i /\ (i <= 88)%N.
Proof.
  unfold next_step_index.
  assert (L : (N.land enc 0x1F < 32)%N).
  { change 0x1F%N with (N.ones 5). rewrite N.land_ones.
    exact (N.mod_lt enc (2^5) ltac:(discriminate)). }
  assert (K : exists c, nthN NEXT_STEP_TABLE (N.land enc 0x1F) = Some c).
  { unfold nthN.
    replace ((_ <? lenN NEXT_STEP_TABLE)%N) with true
      by (symmetry; apply N.ltb_lt; exact L).
    destruct (nth_error NEXT_STEP_TABLE (N.to_nat (N.land enc 0x1F))) eqn:E; [eauto|].
    apply nth_error_None in E. change (length NEXT_STEP_TABLE) with 32%nat in E. lia. }
  destruct K as [c ->]. eexists. split; [reflexivity|].
  destruct (Z.ltb_spec (Z.of_N idx + c) 0); [lia|].
  destruct (Z.ltb_spec 88 (Z.of_N idx + c)); lia.
Qed.

Lemma update_i16 p e d : i16 (update_predicted p e d).
Proof. unfold i16, update_predicted. cbv zeta. lia. Qed.

(** ** The encoded bits *)
Definition bits_sum (enc : N) (step : Z) : Z :=
  let bit m := negb (N.land enc m =? 0)%N in
  (if bit 0x01%N then step else 0) + (if bit 0x02%N then Z.shiftr step 1 else 0)
  + (if bit 0x04%N then Z.shiftr step 2 else 0) + (if bit 0x08%N then Z.shiftr step 3 else 0)
  + (if bit 0x10%N then Z.shiftr step 4 else 0) + (if bit 0x20%N then Z.shiftr step 5 else 0).

Lemma decode_sample_sum p enc step base :
  decode_sample p enc step base = update_predicted p enc (base + bits_sum enc step).
Proof.
  unfold decode_sample, bits_sum. cbv zeta.
  repeat match goal with |- context [if ?b then _ else _] => destruct b end; f_equal; lia.
Qed.

Lemma max_bit_mask_cases bs m : max_bit_mask bs = Ok m ->
  In m [0; 1; 2; 4; 8; 16; 32]%N /\ (m = 0%N <-> bs = 0%N) /\ (bs < 9)%N.
Proof.
  unfold max_bit_mask. destruct (N.ltb_spec 0 bs) as [H|H].
  - destruct (N.ltb_spec (bs - 1) 8) as [L|L]; [|discriminate].
    intros E. apply Ok_inj in E. subst m.
    assert (C : (bs = 1 \/ bs = 2 \/ bs = 3 \/ bs = 4 \/ bs = 5 \/ bs = 6 \/ bs = 7 \/ bs = 8)%N) by lia.
    repeat destruct C as [->|C]; [..|subst bs]; (split; [cbn; tauto|split; [split; discriminate|lia]]).
  - intros E. apply Ok_inj in E. subst m. split; [cbn; tauto|]. lia.
Qed.

Ltac norm_closed :=
  repeat match goal with
  | |- context [(?a <=? ?b)%N] =>
      let v := eval vm_compute in (a <=? b)%N in
      lazymatch v with true => idtac | false => idtac end; change ((a <=? b)%N) with v
  | |- context [(?a <? ?b)%N] =>
      let v := eval vm_compute in (a <? b)%N in
      lazymatch v with true => idtac | false => idtac end; change ((a <? b)%N) with v
  | |- context [(?a =? ?b)%N] =>
      let v := eval vm_compute in (a =? b)%N in
      lazymatch v with true => idtac | false => idtac end; change ((a =? b)%N) with v
  end.

Lemma enc_bits_spec m sgn d step total enc :
  In m [0; 1; 2; 4; 8; 16; 32]%N -> (sgn = 0 \/ sgn = 0x40)%N ->
  enc_bits 8 d step 0 1 m sgn = (total, enc) ->
  total = bits_sum enc step /\ (enc < 128)%N /\ N.land enc 0x40 = sgn.
Proof.
  intros Hm Hs.
  assert (S2 : forall k, 0 <= k -> Z.shiftr (Z.shiftr step k) 1 = Z.shiftr step (k + 1))
    by (intros; rewrite Z.shiftr_shiftr by lia; reflexivity).
  destruct Hm as [<-|[<-|[<-|[<-|[<-|[<-|[<-|[]]]]]]]]; destruct Hs as [-> | ->];
  cbn [enc_bits]; repeat rewrite S2 by lia; norm_closed; cbn iota;
  change (1 + 1) with 2; change (2 + 1) with 3; change (3 + 1) with 4; change (4 + 1) with 5;
  repeat (match goal with |- context [if (?a <=? ?b)%Z then _ else _] => destruct (a <=? b)%Z end);
  intros H; injection H as <- <-; unfold bits_sum; cbv zeta; norm_closed; cbn [negb];
  (split; [lia|split; reflexivity]).
Qed.
