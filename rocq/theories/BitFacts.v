(** * Facts about bit-packed entries. *)
From Verif Require Import Bytes Crypto HashTable BlockTable HashTableFacts HetBet SpecBits.
Open Scope N_scope.

Lemma testbit_cat n a x k : a < 2 ^ n ->
  N.testbit (a + 2 ^ n * x) k = if k <? n then N.testbit a k else N.testbit x (k - n).
Proof.
  intros Ha. assert (Hp : 2 ^ n <> 0) by (apply N.pow_nonzero; lia).
  destruct (N.ltb_spec k n) as [H|H].
  - rewrite <- (N.mod_pow2_bits_low _ n k H). f_equal.
    rewrite N.mul_comm, N.mod_add by exact Hp. now apply N.mod_small.
  - replace k with (k - n + n) at 1 by lia. rewrite <- N.div_pow2_bits. f_equal.
    rewrite N.mul_comm, N.div_add by exact Hp. rewrite N.div_small by exact Ha. reflexivity.
Qed.

Lemma pow256 n : 256 ^ n = 2 ^ (8 * n).
Proof. change 256 with (2 ^ 8). now rewrite N.pow_mul_r. Qed.

Lemma le_dec_bound d : le_dec d < 2 ^ (8 * lenN d).
Proof. rewrite <- pow256. apply le_dec_lt. Qed.

Lemma nth_error_nil {A} i : nth_error (@nil A) i = None.
Proof. now destruct i. Qed.

Lemma bit_of_dec d : forall k, bit_of d k = N.testbit (le_dec d) k.
Proof.
  induction d as [|b t IH]; intros k.
  - cbn [le_dec]. rewrite N.bits_0. unfold bit_of. now rewrite nth_error_nil.
  - cbn [le_dec]. change 256 with (2 ^ 8). rewrite testbit_cat by apply bN_lt.
    destruct (N.ltb_spec k 8) as [H|H].
    + unfold bit_of. rewrite N.div_small, N.mod_small by exact H. reflexivity.
    + rewrite <- IH. unfold bit_of.
      assert (E1 : k / 8 = (k - 8) / 8 + 1) by (rewrite <- N.div_add by lia; f_equal; lia).
      assert (E2 : k mod 8 = (k - 8) mod 8) by (rewrite <- (N.mod_add (k - 8) 1 8) by lia; f_equal; lia).
      rewrite E1, E2. replace (N.to_nat ((k - 8) / 8 + 1)) with (S (N.to_nat ((k - 8) / 8))) by lia.
      reflexivity.
Qed.

Lemma le_dec_app a b : le_dec (a ++ b) = le_dec a + 2 ^ (8 * lenN a) * le_dec b.
Proof.
  induction a as [|x a IH]; cbn [app le_dec].
  - change (2 ^ (8 * lenN [])) with 1. lia.
  - rewrite IH, lenN_cons.
    replace (8 * (1 + lenN a)) with (8 + 8 * lenN a) by lia. rewrite N.pow_add_r.
    change (2 ^ 8) with 256. lia.
Qed.

Lemma bit_of_app a b k :
  bit_of (a ++ b) k = if k <? 8 * lenN a then bit_of a k else bit_of b (k - 8 * lenN a).
Proof. rewrite !bit_of_dec, le_dec_app. apply testbit_cat, le_dec_bound. Qed.

Lemma bit_of_past d k : 8 * lenN d <= k -> bit_of d k = false.
Proof.
  intros H. rewrite bit_of_dec. destruct (N.eq_dec (le_dec d) 0) as [->|Hz]; [apply N.bits_0|].
  apply N.bits_above_log2. apply N.lt_le_trans with (8 * lenN d); [|exact H].
  apply N.log2_lt_pow2; [lia|apply le_dec_bound].
Qed.

(** A slice holds the bits from its position on. *)
Lemma slice_bits off n d s j : slice off n d = Some s ->
  N.testbit (le_dec s) j = (j <? 8 * n) && bit_of d (8 * off + j).
Proof.
  intros H. pose proof (slice_length _ _ _ _ H) as Hl.
  apply slice_split in H as (p & q & -> & Hp). rewrite <- bit_of_dec.
  destruct (N.ltb_spec j (8 * n)) as [C|C]; cbn [andb].
  - rewrite bit_of_app, Hp. replace (8 * off + j <? 8 * off) with false by lia.
    replace (8 * off + j - 8 * off) with j by lia.
    rewrite bit_of_app, Hl. now replace (j <? 8 * n) with true by lia.
  - apply bit_of_past. lia.
Qed.

Lemma splice_split off n d s x : slice off n d = Some s -> lenN x = n ->
  exists p q, d = p ++ s ++ q /\ lenN p = off /\ lenN s = n /\ splice off x d = p ++ x ++ q.
Proof.
  intros H Hx. pose proof (slice_length _ _ _ _ H) as Hl.
  apply slice_split in H as (p & q & -> & Hp). exists p, q. repeat split; auto.
  unfold splice. rewrite firstn_app_exact by (unfold lenN in Hp; lia). f_equal. f_equal.
  rewrite skipn_add_app by (unfold lenN in Hp; lia).
  apply skipn_app_exact. unfold lenN in *. lia.
Qed.

Lemma mask_sat_bits b j : N.testbit (mask_sat b) j = (j <? N.min b 64).
Proof.
  unfold mask_sat. assert (H : forall n, N.testbit (2 ^ n - 1) j = (j <? n)).
  { intros n. rewrite N.sub_1_r, <- N.ones_equiv. destruct (N.ltb_spec j n).
    - now apply N.ones_spec_low.
    - now apply N.ones_spec_high. }
  destruct (N.leb_spec 64 b) as [C|C]; rewrite H.
  - now rewrite N.min_r.
  - now rewrite N.min_l by lia.
Qed.

Lemma w64_bits v j : N.testbit (w64 v) j = (j <? 64) && N.testbit v j.
Proof.
  unfold w64, M64. destruct (N.ltb_spec j 64) as [H|H]; cbn [andb].
  - now apply N.mod_pow2_bits_low.
  - now apply N.mod_pow2_bits_high.
Qed.

Lemma shiftl_bits v s j : N.testbit (N.shiftl v s) j = (s <=? j) && N.testbit v (j - s).
Proof.
  destruct (N.leb_spec s j) as [H|H]; cbn [andb].
  - now apply N.shiftl_spec_high'.
  - now apply N.shiftl_spec_low.
Qed.

(** Writing an entry changes exactly the bits of the entry, up to the eight
    bytes from the one it starts in. *)
Lemma write_bit_entry_bits data i v b data' :
  b <= 64 -> write_bit_entry data i v b = Ok data' ->
  lenN data' = lenN data /\ i * b / 8 + div_ceil (i * b mod 8 + b) 8 <= lenN data /\
  forall k, bit_of data' k =
    if (i * b <=? k) && (k <? N.min (i * b + b) (8 * (i * b / 8) + 64))
    then N.testbit v (k - i * b) else bit_of data k.
Proof.
  intros Hb H. unfold write_bit_entry in H.
  set (bit := i * b) in *. set (by_ := bit / 8) in *. set (sh := bit mod 8) in *.
  assert (Hbit : bit = 8 * by_ + sh) by (apply N.div_mod'; lia).
  assert (Hsh : sh < 8) by (apply N.mod_lt; lia).
  set (need := div_ceil (sh + b) 8) in *.
  assert (Hneed : sh + b <= 8 * need /\ 8 * need < sh + b + 8).
  { unfold need, div_ceil. pose proof (N.div_mod' (sh + b + 8 - 1) 8).
    pose proof (N.mod_lt (sh + b + 8 - 1) 8 ltac:(lia)). lia. }
  destruct (N.ltb_spec (lenN data) (by_ + need)) as [|Hroom]; [discriminate|].
  destruct (slice by_ (N.min need 8) data) as [s|] eqn:Es; [|discriminate].
  apply Ok_inj in H. set (n := N.min need 8) in *.
  set (ex := N.lor _ _) in H.
  assert (Hx : lenN (le_enc (N.to_nat n) ex) = n) by (unfold lenN; rewrite le_enc_length; lia).
  destruct (splice_split _ _ _ _ _ Es Hx) as (p & q & Hd & Hp & Hs & Hsp).
  rewrite Hsp in H. subst data'.
  split; [rewrite Hd, !lenN_app, Hx, Hs; reflexivity|]. split; [exact Hroom|].
  intros k. rewrite Hd. rewrite !bit_of_app, Hp, Hx, Hs.
  destruct (N.ltb_spec k (8 * by_)) as [C|C].
  { replace (bit <=? k) with false by lia. reflexivity. }
  destruct (N.ltb_spec (k - 8 * by_) (8 * n)) as [D|D].
  2:{ replace (k <? N.min (bit + b) (8 * by_ + 64)) with false by lia. rewrite andb_false_r. reflexivity. }
  rewrite bit_of_dec, le_dec_enc, pow256, N2Nat.id.
  rewrite N.mod_pow2_bits_low by exact D.
  unfold ex. rewrite N.lor_spec, N.ldiff_spec, !w64_bits, !shiftl_bits, N.land_spec, mask_sat_bits.
  rewrite <- bit_of_dec. rewrite (N.min_l b 64) by exact Hb.
  set (j := k - 8 * by_) in *.
  assert (Hj : j < 64) by lia. replace (j <? 64) with true by lia. cbn [andb].
  replace (k - bit) with (j - sh) by lia.
  replace (bit <=? k) with (sh <=? j) by lia.
  replace (k <? N.min (bit + b) (8 * by_ + 64)) with (j <? sh + b) by lia.
  destruct (N.leb_spec sh j) as [E|E]; cbn [andb].
  - replace (j <? sh + b) with (j - sh <? b) by lia.
    destruct (j - sh <? b); cbn [andb negb]; rewrite ?andb_true_r, ?andb_false_r, ?orb_false_r, ?orb_false_l; reflexivity.
  - cbn [negb]. now rewrite andb_true_r, orb_false_r.
Qed.

(** The readers give the bits of an entry that lie in the eight bytes from the
    one it starts in. *)
Lemma bet_entry_reads t i v :
  bet_entry t i = Ok (Some v) ->
  bet_entry_bits t < 64 /\
  forall j, N.testbit v j = (j <? bet_entry_bits t) && (i * bet_entry_bits t mod 8 + j <? 64)
                            && bit_of (bet_table t) (i * bet_entry_bits t + j).
Proof.
  unfold bet_entry. set (b := bet_entry_bits t). set (bit := i * b).
  set (by_ := bit / 8). set (sh := bit mod 8).
  assert (Hbit : bit = 8 * by_ + sh) by (apply N.div_mod'; lia).
  assert (Hsh : sh < 8) by (apply N.mod_lt; lia).
  destruct (_ <? _); [discriminate|].
  destruct (slice _ _ _) as [s|] eqn:Es; [|discriminate].
  unfold mask_chk. destruct (N.ltb_spec b 64) as [Hb|]; cbn [bind]; [|discriminate].
  intros H. apply Ok_inj in H. injection H as <-. split; [exact Hb|]. intros j.
  rewrite N.land_spec, N.shiftr_spec', (slice_bits _ _ _ _ _ Es).
  set (need := div_ceil (sh + b) 8) in *.
  assert (Hneed : sh + b <= 8 * need /\ 8 * need < sh + b + 8).
  { unfold need, div_ceil. pose proof (N.div_mod' (sh + b + 8 - 1) 8).
    pose proof (N.mod_lt (sh + b + 8 - 1) 8 ltac:(lia)). lia. }
  assert (Hm : N.testbit (2 ^ b - 1) j = (j <? b)).
  { pose proof (mask_sat_bits b j) as M. unfold mask_sat in M.
    replace (64 <=? b) with false in M by lia. rewrite M. now rewrite N.min_l by lia. }
  rewrite Hm. replace (8 * by_ + (j + sh)) with (bit + j) by lia.
  destruct (N.ltb_spec j b) as [C|C]; cbn [andb]; [|now rewrite andb_false_r].
  rewrite andb_true_r. f_equal. lia.
Qed.

Lemma het_entry_reads h i v :
  het_entry h i = Some v ->
  forall j, N.testbit v j = (j <? N.min (het_hash_bits h) 64) && (i * het_hash_bits h mod 8 + j <? 64)
                            && bit_of (het_hashes h) (i * het_hash_bits h + j).
Proof.
  unfold het_entry. set (b := het_hash_bits h). set (bit := i * b).
  set (by_ := bit / 8). set (sh := bit mod 8).
  assert (Hbit : bit = 8 * by_ + sh) by (apply N.div_mod'; lia).
  destruct (slice _ _ _) as [s|] eqn:Es; [|discriminate].
  intros H. injection H as <-. intros j.
  rewrite N.land_spec, N.shiftr_spec', (slice_bits _ _ _ _ _ Es), mask_sat_bits.
  replace (8 * by_ + (j + sh)) with (bit + j) by lia.
  change (8 * 8) with 64. replace (j + sh <? 64) with (sh + j <? 64) by lia.
  destruct (j <? N.min b 64); cbn [andb]; [now rewrite andb_true_r|now rewrite andb_false_r].
Qed.
