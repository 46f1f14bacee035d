(** * Facts about Adler-32 and imploded streams *)
From Coq Require Import Lia ZifyBool ZifyNat ZifyN.
From Verif Require Import Bytes Adler Compress SpecChecksum.
Open Scope N_scope.

Lemma adler_fold d : forall a b, a < 65521 -> b < 65521 ->
  fold_left adler_step d (a, b) =
  ((a + byte_sum d) mod 65521, (b + lenN d * a + weighted_sum d) mod 65521).
Proof.
  induction d as [|x d IH]; intros a b Ha Hb.
  - cbn [fold_left byte_sum weighted_sum]. change (lenN []) with 0. rewrite N.mul_0_l, !N.add_0_r, (N.mod_small a), (N.mod_small b) by assumption. reflexivity.
  - cbn [fold_left byte_sum weighted_sum]. rewrite lenN_cons.
    assert (E : adler_step (a, b) x = ((a + bN x) mod 65521, (b + (a + bN x) mod 65521) mod 65521)) by reflexivity.
    rewrite E. clear E. rewrite IH by (apply N.mod_lt; discriminate).
    set (m := (a + bN x) mod 65521). assert (Q : exists q, a + bN x = 65521 * q + m).
    { exists ((a + bN x) / 65521). apply N.div_mod. discriminate. }
    destruct Q as [q Q]. f_equal.
    + replace (a + (bN x + byte_sum d)) with (m + byte_sum d + q * 65521) by lia. now rewrite N.mod_add by discriminate.
    + set (r := (b + m) mod 65521). assert (R : exists p, b + m = 65521 * p + r).
      { exists ((b + m) / 65521). apply N.div_mod. discriminate. }
      destruct R as [p R].
      replace (b + (1 + lenN d) * a + ((1 + lenN d) * bN x + weighted_sum d))
        with (r + lenN d * m + weighted_sum d + (p + q * (1 + lenN d)) * 65521) by nia.
      now rewrite N.mod_add by discriminate.
Qed.

Lemma lor_shift16 b a : a < 65536 -> N.lor (N.shiftl b 16) a = b * 65536 + a.
Proof.
  intros Ha. rewrite N.shiftl_mul_pow2. change (2 ^ 16) with 65536.
  rewrite <- N.lxor_lor, N.add_nocarry_lxor; [reflexivity| |].
  all: apply N.bits_inj_0; intros n; rewrite N.land_spec; change 65536 with (2 ^ 16) in *;
    (destruct (N.ltb_spec n 16);
     [rewrite N.mul_pow2_bits_low by assumption; reflexivity
     |replace (N.testbit a n) with false; [apply andb_false_r|];
      symmetry; destruct (N.eq_dec a 0) as [->|Hz]; [apply N.bits_0|apply N.bits_above_log2; apply N.log2_lt_pow2 in Ha; lia]]).
Qed.

Lemma adler_rfc d : adler32 d = rfc1950 d.
Proof.
  unfold adler32, adler_state. rewrite adler_fold by reflexivity. unfold rfc1950.
  rewrite lor_shift16 by (eapply N.lt_trans; [apply N.mod_lt; discriminate|reflexivity]).
  do 3 f_equal. lia.
Qed.

Lemma byte_sum_app p q : byte_sum (p ++ q) = byte_sum p + byte_sum q.
Proof. induction p as [|b p IH]; cbn [app byte_sum]; [reflexivity|]. rewrite IH. lia. Qed.
Lemma weighted_app p q : weighted_sum (p ++ q) = weighted_sum p + lenN q * byte_sum p + weighted_sum q.
Proof.
  induction p as [|b p IH]; cbn [app byte_sum weighted_sum]; [rewrite N.mul_0_r; reflexivity|]. rewrite IH, lenN_app. lia.
Qed.

Lemma rfc_parts d e : rfc1950 d = rfc1950 e ->
  (lenN d + weighted_sum d) mod 65521 = (lenN e + weighted_sum e) mod 65521 /\ (1 + byte_sum d) mod 65521 = (1 + byte_sum e) mod 65521.
Proof.
  unfold rfc1950. set (x := (lenN d + _) mod _). set (y := (lenN e + _) mod _). set (u := (1 + byte_sum d) mod _). set (v := (1 + byte_sum e) mod _).
  assert (u < 65521) by (apply N.mod_lt; discriminate). assert (v < 65521) by (apply N.mod_lt; discriminate). lia.
Qed.

(** Equal remainders of numbers less than the modulus apart *)
Lemma mod_near x y : x mod 65521 = y mod 65521 -> x < y + 65521 -> y < x + 65521 -> x = y.
Proof.
  intros H H1 H2. rewrite (N.div_mod x 65521), (N.div_mod y 65521) by discriminate.
  pose proof (N.div_mod x 65521 ltac:(discriminate)). pose proof (N.div_mod y 65521 ltac:(discriminate)).
  rewrite H in *. f_equal. f_equal. nia.
Qed.

Lemma adler_one_byte p x y q : adler32 (p ++ x :: q) = adler32 (p ++ y :: q) -> x = y.
Proof.
  rewrite !adler_rfc. intros H. apply rfc_parts in H as [_ H]. rewrite !byte_sum_app in H. cbn [byte_sum] in H.
  pose proof (bN_lt x). pose proof (bN_lt y).
  apply mod_near in H; [|lia|lia]. apply bN_inj. lia.
Qed.
Lemma adler_swap p x y q : adler32 (p ++ x :: y :: q) = adler32 (p ++ y :: x :: q) -> x = y.
Proof.
  rewrite !adler_rfc. intros H. apply rfc_parts in H as [H _]. rewrite !weighted_app in H. cbn [weighted_sum] in H.
  rewrite !lenN_app, !lenN_cons in H. pose proof (bN_lt x). pose proof (bN_lt y).
  apply mod_near in H; [|nia|nia]. apply bN_inj. nia.
Qed.
Lemma adler_collision : exists d e, lenN d = lenN e /\ d <> e /\ adler32 d = adler32 e.
Proof. exists [x01; x00; x01], [x00; x02; x00]. split; [reflexivity|]. split; [discriminate|]. vm_compute. reflexivity. Qed.

(** ** Imploded streams *)
Fixpoint try_heads (L : codecs) (d : bytes) (hs : list (N * N)) : res bytes :=
  match hs with
  | [] => Err ECompression
  | (ty, dict) :: hs' =>
      match pk_dec L (Nb ty :: Nb dict :: d) with Ok r => Ok r | Err _ => try_heads L d hs' | Panic => Panic end
  end.
Lemma implode_first L d n r : d <> [] -> (forall c, pk_dec L c <> Panic) ->
  (implode_decompress L d n = Ok r <-> first_head L d r).
Proof.
  intros Hd Hc.
  assert (E : implode_decompress L d n = try_heads L d [(0, 4); (0, 5); (0, 6); (1, 4); (1, 5); (1, 6)]) by (destruct d; [congruence|reflexivity]).
  rewrite E. clear E.
  unfold first_head. change imploded_heads with [(0, 4); (0, 5); (0, 6); (1, 4); (1, 5); (1, 6)].
  generalize [(0, 4); (0, 5); (0, 6); (1, 4); (1, 5); (1, 6)]. intros hs.
  induction hs as [|[t k] hs IH]; cbn [try_heads].
  - split; [discriminate|]. intros (bf & h & l & E & _). destruct bf; discriminate E.
  - destruct (pk_dec L (Nb t :: Nb k :: d)) as [o|e|] eqn:E.
    + split.
      * intros H. apply Ok_inj in H. subst o. exists [], (t, k), hs. split; [reflexivity|]. split; [intros g []|exact E].
      * intros (bf & h & l & Eh & Hb & Hr). destruct bf as [|g bf].
        { cbn [app] in Eh. injection Eh as <- _. cbn [fst snd] in Hr. congruence. }
        cbn [app] in Eh. injection Eh as <- _. destruct (Hb (t, k) (or_introl eq_refl)) as [e He]. cbn [fst snd] in He. congruence.
    + rewrite IH. split.
      * intros (bf & h & l & -> & Hb & Hr). exists ((t, k) :: bf), h, l. split; [reflexivity|]. split; [|exact Hr].
        intros g [<-|Hg]; [exists e; exact E|now apply Hb].
      * intros (bf & h & l & Eh & Hb & Hr). destruct bf as [|g bf].
        { cbn [app] in Eh. injection Eh as <- _. cbn [fst snd] in Hr. congruence. }
        cbn [app] in Eh. injection Eh as <- ->. exists bf, h, l. split; [reflexivity|]. split; [|exact Hr]. intros g Hg. apply Hb. now right.
    + now elim (Hc (Nb t :: Nb k :: d)).
Qed.
Lemma imploded_first L d n r : d <> [] -> (forall c, pk_dec L c <> Panic) ->
  (decompress L d 0x04 n = Ok r <-> first_head L d r).
Proof. intros Hd Hc. rewrite <- (implode_first L d n r Hd Hc). destruct d; [congruence|reflexivity]. Qed.
