(** * Signatures: the digested data, and what verification accepts. *)
From Verif Require Import Bytes Header Compress Archive Signature SpecSignature.
Open Scope N_scope.

(** ** Blanking *)
Lemma blanked_app xb xe a : forall pos b,
  blanked xb xe pos (a ++ b) = blanked xb xe pos a ++ blanked xb xe (pos + lenN a) b.
Proof.
  induction a as [|c a IH]; intros pos b; cbn [app blanked].
  - change (lenN (@nil byte)) with 0. now rewrite N.add_0_r.
  - rewrite IH. f_equal. f_equal. f_equal. rewrite lenN_cons. lia.
Qed.
Lemma blanked_length xb xe d : forall pos, length (blanked xb xe pos d) = length d.
Proof. induction d as [|c d IH]; intros pos; cbn [blanked length]; auto. Qed.
Lemma blanked_outside xb xe d : forall pos, pos + lenN d <= xb \/ xe <= pos -> blanked xb xe pos d = d.
Proof.
  induction d as [|c d IH]; intros pos H; cbn [blanked]; [reflexivity|]. rewrite lenN_cons in H.
  replace ((xb <=? pos) && (pos <? xe)) with false by lia. rewrite IH by lia. reflexivity.
Qed.
Lemma blanked_inside xb xe d : forall pos, xb <= pos -> pos + lenN d <= xe ->
  blanked xb xe pos d = repeat x00 (length d).
Proof.
  induction d as [|c d IH]; intros pos H1 H2; cbn [blanked length repeat]; [reflexivity|].
  rewrite lenN_cons in H2. replace ((xb <=? pos) && (pos <? xe)) with true by lia.
  rewrite IH by lia. reflexivity.
Qed.
Lemma blanked_nth xb xe d : forall pos i, nth_error (blanked xb xe pos d) i =
  option_map (fun c => if (xb <=? pos + N.of_nat i) && (pos + N.of_nat i <? xe) then x00 else c) (nth_error d i).
Proof.
  induction d as [|c d IH]; intros pos [|i]; cbn [blanked nth_error option_map]; try reflexivity.
  - change (N.of_nat 0) with 0. now rewrite N.add_0_r.
  - rewrite IH. replace (pos + 1 + N.of_nat i) with (pos + N.of_nat (S i)) by lia. reflexivity.
Qed.

Lemma blank_ok pos n xb xe chunk : lenN chunk = n -> xb <= xe -> pos < xe -> xb < pos + n ->
  blank (if pos <? xb then xb - pos else 0) (if xe <? pos + n then xe - pos else n) chunk =
  Ok (blanked xb xe pos chunk).
Proof.
  intros Hn Hx H1 H2. set (s := if pos <? xb then _ else _). set (e := if xe <? pos + n then _ else _).
  assert (Hse : s <= e /\ e <= n) by (unfold s, e; destruct (N.ltb_spec pos xb), (N.ltb_spec xe (pos + n)); lia).
  unfold blank. replace ((s <=? e) && (e <=? lenN chunk)) with true by lia. f_equal.
  set (A := firstn (N.to_nat s) chunk). set (B := firstn (N.to_nat (e - s)) (skipn (N.to_nat s) chunk)).
  set (C := skipn (N.to_nat e) chunk).
  assert (E : chunk = A ++ B ++ C).
  { unfold A, B, C. rewrite <- (firstn_skipn (N.to_nat s) chunk) at 1. f_equal.
    rewrite <- (firstn_skipn (N.to_nat (e - s)) (skipn (N.to_nat s) chunk)) at 1. f_equal.
    assert (G : forall (a b : nat) (d : bytes), skipn a (skipn b d) = skipn (b + a) d).
    { intros a b. induction b as [|b IH]; intros d; [reflexivity|]. destruct d; [now rewrite !skipn_nil|]. cbn. apply IH. }
    rewrite G. f_equal. lia. }
  assert (LA : lenN A = s) by (unfold A, lenN in *; rewrite firstn_length; lia).
  assert (LB : lenN B = e - s).
  { unfold B, lenN in *. rewrite firstn_length, skipn_length. lia. }
  rewrite E at 1. rewrite !blanked_app, LA, LB.
  assert (EA : blanked xb xe pos A = A).
  { unfold s in LA. destruct (N.ltb_spec pos xb).
    - apply blanked_outside. left. lia.
    - destruct A; [reflexivity|]. rewrite lenN_cons in LA. lia. }
  rewrite EA.
  rewrite (blanked_inside xb xe B (pos + s)).
  2: { unfold s. destruct (N.ltb_spec pos xb); lia. }
  2: { rewrite LB. unfold e, s. destruct (N.ltb_spec xe (pos + n)), (N.ltb_spec pos xb); lia. }
  assert (LC : lenN C = n - e).
  { apply (f_equal lenN) in E. rewrite !lenN_app, LA, LB, Hn in E. lia. }
  assert (EC : blanked xb xe (pos + s + (e - s)) C = C).
  { unfold e in LC |- *. destruct (N.ltb_spec xe (pos + n)).
    - apply blanked_outside. right. unfold s. destruct (N.ltb_spec pos xb); lia.
    - replace (n - n) with 0 in LC by lia. destruct C; [reflexivity|]. rewrite lenN_cons in LC. lia. }
  rewrite EC.
  f_equal. f_equal. unfold zeros. f_equal. unfold lenN in LB. lia.
Qed.

(** ** The digested data *)
Lemma portion_step pos n e (file : bytes) : n <= e - pos -> pos + n <= lenN file ->
  portion pos e file = firstn (N.to_nat n) (skipn (N.to_nat pos) file) ++ portion (pos + n) e file.
Proof.
  intros H1 H2. unfold portion.
  rewrite <- (firstn_skipn (N.to_nat n) (skipn (N.to_nat pos) file)) at 1.
  rewrite firstn_app. f_equal.
  - rewrite firstn_firstn. f_equal. lia.
  - rewrite firstn_length, skipn_length. unfold lenN in H2.
    replace (N.to_nat (e - pos) - Nat.min (N.to_nat n) (length file - N.to_nat pos))%nat
      with (N.to_nat (e - (pos + n))) by lia. f_equal.
    assert (G : forall (a b : nat) (d : bytes), skipn a (skipn b d) = skipn (b + a) d).
    { intros a b. induction b as [|b IH]; intros d; [reflexivity|]. destruct d; [now rewrite !skipn_nil|]. cbn. apply IH. }
    rewrite G. f_equal. lia.
Qed.
Lemma portion_end pos e (file : bytes) : e <= pos \/ lenN file <= pos -> portion pos e file = [].
Proof.
  intros [H|H]; unfold portion.
  - replace (N.to_nat (e - pos)) with 0%nat by lia. reflexivity.
  - rewrite skipn_all2 by (unfold lenN in H; lia). apply firstn_nil.
Qed.
Lemma slice_chunk pos n (file : bytes) : pos + n <= lenN file ->
  slice pos n file = Some (firstn (N.to_nat n) (skipn (N.to_nat pos) file)).
Proof. intros H. unfold slice. now replace (pos + n <=? lenN file) with true by lia. Qed.

Section R.
Variable rd : N -> N -> N.

Lemma digest_loop_ok file si : reader_of file rd -> si_xbegin si <= si_xend si ->
  forall fuel pos, (N.to_nat (lenN file - pos) < fuel)%nat ->
  digest_loop rd fuel file si pos =
  Ok (blanked (si_xbegin si) (si_xend si) pos (portion pos (si_end si) file)).
Proof.
  intros Hrd Hx. induction fuel as [|f IH]; intros pos Hf; [lia|]. cbn [digest_loop].
  destruct (N.ltb_spec pos (si_end si)) as [C|C].
  2: { rewrite portion_end by (left; exact C). reflexivity. }
  set (w := N.min (si_end si - pos) DIGEST_UNIT_SIZE). set (n := rd pos w).
  assert (Hw : 0 < w) by (unfold w, DIGEST_UNIT_SIZE; lia).
  destruct (Hrd pos w) as [R1 R2]. fold n in R1, R2.
  destruct (N.le_gt_cases (lenN file) pos) as [D|D].
  { rewrite (R1 D). cbn [N.eqb]. rewrite portion_end by (right; exact D). reflexivity. }
  destruct (R2 D Hw) as (H1 & H2 & H3). replace (n =? 0) with false by lia.
  assert (Hn : n <= si_end si - pos) by (unfold w in H2; lia).
  rewrite slice_chunk by exact H3. cbn [of_option bind].
  set (chunk := firstn _ _).
  assert (Hc : lenN chunk = n).
  { unfold chunk, lenN in *. rewrite firstn_length, skipn_length. lia. }
  assert (E : (if (pos <? si_xend si) && (si_xbegin si <? pos + n)
          then blank (if pos <? si_xbegin si then si_xbegin si - pos else 0)
                 (if si_xend si <? pos + n then si_xend si - pos else n) chunk
          else @Ok bytes chunk) = Ok (blanked (si_xbegin si) (si_xend si) pos chunk)).
  { destruct (N.ltb_spec pos (si_xend si)) as [A|A]; cbn [andb].
    2: { now rewrite blanked_outside by (right; exact A). }
    destruct (N.ltb_spec (si_xbegin si) (pos + n)) as [B|B].
    - now apply blank_ok.
    - rewrite blanked_outside; [reflexivity|]. left. lia. }
  rewrite E. cbn [bind]. rewrite IH by lia. cbn [bind].
  rewrite (portion_step pos n) by lia. fold chunk. rewrite blanked_app, Hc. reflexivity.
Qed.
Lemma digest_data_ok file si : reader_of file rd -> si_xbegin si <= si_xend si ->
  digest_data rd file si =
  Ok (blanked (si_xbegin si) (si_xend si) (si_begin si) (portion (si_begin si) (si_end si) file)).
Proof. intros H1 H2. apply digest_loop_ok; auto. unfold lenN. lia. Qed.

Lemma stream_loop_ok file : reader_of file rd -> forall fuel pos n, (N.to_nat (lenN file - pos) < fuel)%nat ->
  stream_loop rd fuel file pos n = Ok (portion pos (pos + n) file).
Proof.
  intros Hrd. induction fuel as [|f IH]; intros pos n Hf; [lia|]. cbn [stream_loop].
  destruct (N.ltb_spec 0 n) as [C|C].
  2: { rewrite portion_end by (left; lia). reflexivity. }
  set (w := N.min n 65536). set (m := rd pos w).
  destruct (Hrd pos w) as [R1 R2]. fold m in R1, R2.
  destruct (N.le_gt_cases (lenN file) pos) as [D|D].
  { rewrite (R1 D). cbn [N.eqb]. rewrite portion_end by (right; exact D). reflexivity. }
  destruct (R2 D) as (H1 & H2 & H3); [unfold w; lia|]. replace (m =? 0) with false by lia.
  assert (Hm : m <= n) by (unfold w in H2; lia).
  rewrite slice_chunk by exact H3. cbn [of_option bind]. rewrite IH by lia. cbn [bind].
  rewrite (portion_step pos m (pos + n)) by lia. f_equal. f_equal. f_equal. lia.
Qed.
Lemma stream_data_ok file pos n : reader_of file rd -> stream_data rd file pos n = Ok (portion pos (pos + n) file).
Proof. intros H. apply stream_loop_ok; auto. unfold lenN. lia. Qed.
End R.

(** Files and blanked portions. *)
Lemma nth_error_skipn {A} (l : list A) k i : nth_error (skipn k l) i = nth_error l (k + i).
Proof.
  revert l. induction k as [|k IH]; intros l; [reflexivity|]. destruct l; [now destruct i|]. cbn. apply IH.
Qed.
Lemma nth_error_firstn' {A} (l : list A) k i : (i < k)%nat -> nth_error (firstn k l) i = nth_error l i.
Proof.
  revert k l. induction i as [|i IH]; intros [|k] [|x l] H; try lia; try reflexivity. cbn. apply IH. lia.
Qed.
Lemma nth_error_ext {A} (a b : list A) : length a = length b ->
  (forall i, (i < length a)%nat -> nth_error a i = nth_error b i) -> a = b.
Proof.
  revert b. induction a as [|x a IH]; intros [|y b] Hl H; try discriminate; [reflexivity|].
  f_equal.
  - specialize (H 0%nat ltac:(cbn; lia)). cbn in H. congruence.
  - apply IH; [cbn in Hl; lia|]. intros i Hi. apply (H (S i)). cbn. lia.
Qed.
Lemma portion_length b e (f g : bytes) : lenN f = lenN g -> length (portion b e f) = length (portion b e g).
Proof. intros H. unfold portion. rewrite !firstn_length, !skipn_length. unfold lenN in H. lia. Qed.
Lemma nthN_nth_error {A} (l : list A) p : nthN l p = nth_error l (N.to_nat p).
Proof.
  unfold nthN. destruct (N.ltb_spec p (lenN l)) as [H|H]; [reflexivity|].
  symmetry. apply nth_error_None. unfold lenN in H. lia.
Qed.
Lemma portion_nth b e (f : bytes) i : (i < N.to_nat (e - b))%nat ->
  nth_error (portion b e f) i = nthN f (b + N.of_nat i).
Proof.
  intros H. unfold portion. rewrite nth_error_firstn' by exact H. rewrite nth_error_skipn, nthN_nth_error.
  f_equal. lia.
Qed.

(** Equal blanked portions are exactly agreement outside the blanked range. *)
Lemma blanked_agree b e xb xe f g : lenN f = lenN g ->
  (blanked xb xe b (portion b e f) = blanked xb xe b (portion b e g) <->
   agree_at (fun p => b <= p < e /\ (p < xb \/ xe <= p)) f g).
Proof.
  intros Hl. split.
  - intros E. split; [exact Hl|]. intros p [[H1 H2] H3].
    assert (Hi : (N.to_nat (p - b) < N.to_nat (e - b))%nat) by lia.
    apply (f_equal (fun l => nth_error l (N.to_nat (p - b)))) in E. rewrite !blanked_nth in E.
    rewrite !portion_nth in E by exact Hi. rewrite N2Nat.id in E. replace (b + (p - b)) with p in E by lia.
    replace ((xb <=? p) && (p <? xe)) with false in E by lia.
    destruct (nthN f p), (nthN g p); cbn in E; congruence.
  - intros [_ H]. apply nth_error_ext; rewrite !blanked_length; [now apply portion_length|].
    intros i Hi. rewrite !blanked_nth.
    assert (Hi' : (i < N.to_nat (e - b))%nat).
    { unfold portion in Hi. rewrite firstn_length in Hi. lia. }
    rewrite !portion_nth by exact Hi'.
    destruct ((xb <=? b + N.of_nat i) && (b + N.of_nat i <? xe)) eqn:E.
    + pose proof (nthN_nth_error f (b + N.of_nat i)) as Ef. pose proof (nthN_nth_error g (b + N.of_nat i)) as Eg.
      unfold portion in Hi. rewrite firstn_length, skipn_length in Hi.
      destruct (nthN f (b + N.of_nat i)) eqn:F; destruct (nthN g (b + N.of_nat i)) eqn:G; cbn; try reflexivity;
        exfalso; [symmetry in Eg; apply nth_error_None in Eg|symmetry in Ef; apply nth_error_None in Ef];
        unfold lenN in Hl; lia.
    + rewrite H; [reflexivity|]. lia.
Qed.

(** ** Numbers *)
Lemma le_dec_app a b : le_dec (a ++ b) = le_dec a + 256 ^ lenN a * le_dec b.
Proof.
  induction a as [|c a IH]; cbn [app le_dec].
  - change (lenN (@nil byte)) with 0. rewrite N.pow_0_r. lia.
  - rewrite IH, lenN_cons, N.add_1_l, N.pow_succ_r'. lia.
Qed.
Lemma big_endian_acc d : forall acc, fold_left (fun acc b => acc * 256 + bN b) d acc = acc * 256 ^ lenN d + be_dec d.
Proof.
  unfold be_dec. induction d as [|c d IH]; intros acc; cbn [fold_left rev].
  - change (lenN (@nil byte)) with 0. rewrite N.pow_0_r. cbn [le_dec]. lia.
  - rewrite IH, le_dec_app, lenN_cons, N.add_1_l, N.pow_succ_r'. cbn [le_dec].
    replace (lenN (rev d)) with (lenN d) by (unfold lenN; now rewrite rev_length). lia.
Qed.
Lemma big_endian_dec d : big_endian d = be_dec d.
Proof. unfold big_endian. rewrite big_endian_acc. lia. Qed.

Lemma modpow_spec s e n : n <> 0 -> modpow s e n = s ^ N.pos e mod n.
Proof.
  intros Hn. induction e as [e IH|e IH|]; cbn [modpow].
  - rewrite IH. replace (N.pos e~1) with (N.pos e + N.pos e + 1) by lia.
    rewrite !N.pow_add_r, N.pow_1_r.
    rewrite <- (N.mul_mod (s ^ N.pos e) (s ^ N.pos e)) by exact Hn. apply N.mul_mod_idemp_l. exact Hn.
  - rewrite IH. replace (N.pos e~0) with (N.pos e + N.pos e) by lia.
    rewrite N.pow_add_r, <- N.mul_mod by exact Hn. reflexivity.
  - now rewrite N.pow_1_r.
Qed.

Lemma size_bytes n : n <> 0 -> let k := (N.size n + 7) / 8 in
  256 ^ (k - 1) <= n < 256 ^ k /\ 1 <= k.
Proof.
  intros Hn k. pose proof (N.log2_spec n ltac:(lia)) as [H1 H2].
  assert (E : N.size n = N.succ (N.log2 n)) by (now apply N.size_log2).
  unfold k. rewrite E. set (l := N.log2 n) in *.
  change 256 with (2 ^ 8). rewrite <- !N.pow_mul_r.
  assert (K : 8 * ((N.succ l + 7) / 8 - 1) <= l /\ N.succ l <= 8 * ((N.succ l + 7) / 8) /\ 1 <= (N.succ l + 7) / 8).
  { pose proof (N.div_mod (N.succ l + 7) 8 ltac:(lia)). pose proof (N.mod_lt (N.succ l + 7) 8 ltac:(lia)). lia. }
  destruct K as (K1 & K2 & K3). split; [split|exact K3].
  - eapply N.le_trans; [|exact H1]. apply N.pow_le_mono_r; lia.
  - eapply N.lt_le_trans; [exact H2|]. apply N.pow_le_mono_r; lia.
Qed.

Lemma be_dec_to_bytes n : be_dec (to_bytes_be n) = n.
Proof.
  unfold be_dec, to_bytes_be. destruct (N.eqb_spec n 0) as [->|Hn]; [reflexivity|].
  rewrite rev_involutive, le_dec_enc, N2Nat.id. apply N.mod_small. now apply size_bytes.
Qed.

Lemma be_dec_bound d : be_dec d < 256 ^ lenN d.
Proof.
  unfold be_dec. pose proof (le_dec_lt (rev d)) as H. rewrite rev_length in H. exact H.
Qed.
Lemma be_dec_cons c t : be_dec (c :: t) = bN c * 256 ^ lenN t + be_dec t.
Proof.
  unfold be_dec. cbn [rev]. rewrite le_dec_app. cbn [le_dec].
  replace (lenN (rev t)) with (lenN t) by (unfold lenN; now rewrite rev_length). lia.
Qed.

Lemma pow256_inj a b n : 256 ^ (a - 1) <= n < 256 ^ a -> 256 ^ (b - 1) <= n < 256 ^ b -> 1 <= a -> 1 <= b -> a = b.
Proof.
  intros [H1 H2] [H3 H4] Ha Hb. destruct (N.lt_trichotomy a b) as [C|[C|C]]; [|exact C|].
  - exfalso. assert (256 ^ a <= 256 ^ (b - 1)) by (apply N.pow_le_mono_r; lia). lia.
  - exfalso. assert (256 ^ b <= 256 ^ (a - 1)) by (apply N.pow_le_mono_r; lia). lia.
Qed.

(** A byte string without leading zero is the one its number gives. *)
Lemma to_bytes_be_dec c t : c <> x00 -> to_bytes_be (be_dec (c :: t)) = c :: t.
Proof.
  intros Hc. assert (Hc' : 1 <= bN c).
  { destruct (N.eq_dec (bN c) 0) as [E|E]; [|lia]. exfalso. apply Hc. apply bN_inj. rewrite E. reflexivity. }
  set (d := c :: t). set (n := be_dec d).
  assert (Hr : 256 ^ (lenN d - 1) <= n < 256 ^ lenN d).
  { split; [|apply be_dec_bound]. unfold n, d. rewrite be_dec_cons, lenN_cons.
    replace (1 + lenN t - 1) with (lenN t) by lia.
    assert (1 * 256 ^ lenN t <= bN c * 256 ^ lenN t) by (now apply N.mul_le_mono_r). lia. }
  assert (Hn : n <> 0).
  { assert (0 < 256 ^ (lenN d - 1)) by (apply N.neq_0_lt_0, N.pow_nonzero; lia). lia. }
  unfold to_bytes_be. replace (n =? 0) with false by lia.
  destruct (size_bytes n Hn) as [Hs Hk]. set (k := (N.size n + 7) / 8) in *.
  assert (Hl : 1 <= lenN d) by (unfold d; rewrite lenN_cons; lia).
  rewrite (pow256_inj k (lenN d) n Hs Hr Hk Hl).
  replace (N.to_nat (lenN d)) with (length (rev d)) by (rewrite rev_length; unfold lenN; lia).
  unfold n, be_dec. rewrite le_enc_dec. apply rev_involutive.
Qed.

(** The bytes of a number do not start with zero, except for zero itself. *)
Lemma to_bytes_be_head n t : to_bytes_be n = x00 :: t -> t = [].
Proof.
  unfold to_bytes_be. destruct (N.eqb_spec n 0) as [->|Hn]; [intros [= <-]; reflexivity|].
  intros E. exfalso. destruct (size_bytes n Hn) as [[Hs _] Hk]. set (k := (N.size n + 7) / 8) in *.
  pose proof (be_dec_to_bytes n) as B. unfold to_bytes_be in B. replace (n =? 0) with false in B by lia.
  fold k in B. rewrite E, be_dec_cons in B. change (bN x00) with 0 in B.
  pose proof (be_dec_bound t) as Hb.
  assert (Hlt : lenN t = k - 1).
  { apply (f_equal lenN) in E. unfold lenN in E. rewrite rev_length, le_enc_length in E. cbn [length] in E.
    unfold lenN. lia. }
  rewrite Hlt in *. lia.
Qed.

(** ** Strong signatures *)
Lemma bytes_eqb_refl d : bytes_eqb d d = true.
Proof. now apply bytes_eqb_eq. Qed.
Lemma strong_padding_iff d hash : length hash = 20%nat ->
  (verify_strong_padding d hash = true <-> d = strong_text hash).
Proof.
  intros Hh. unfold verify_strong_padding, strong_text. split.
  - destruct (N.eqb_spec (lenN d) 256) as [Hl|]; cbn [negb]; [|discriminate].
    destruct d as [|c d]; [change (lenN (@nil byte)) with 0 in Hl; lia|].
    change (firstn 1 (c :: d)) with [c].
    destruct (bytes_eqb [c] [x0b]) eqn:E1; cbn [negb]; [|discriminate]. apply bytes_eqb_eq in E1. injection E1 as ->.
    change (skipn 1 (x0b :: d)) with d. destruct (forallb (beqb xbb) (firstn 235 d)) eqn:E2; cbn [negb]; [|discriminate].
    intros E3. apply bytes_eqb_eq in E3.
    change (skipn 236 (x0b :: d)) with (skipn 235 d) in E3.
    f_equal. rewrite <- (firstn_skipn 235 d). f_equal; [|exact E3].
    rewrite lenN_cons in Hl. unfold lenN in Hl.
    assert (L : length (firstn 235 d) = 235%nat) by (rewrite firstn_length; lia).
    rewrite <- L at 2. generalize dependent (firstn 235 d). clear. intros l E _.
    induction l as [|x l IH]; [reflexivity|]. cbn [forallb] in E. apply andb_prop in E as [E1 E2].
    apply beqb_eq in E1 as <-. cbn [length repeat]. f_equal. now apply IH.
  - intros ->.
    replace (lenN _ =? 256) with true; cbn [negb].
    2: { symmetry. apply N.eqb_eq. rewrite lenN_cons, lenN_app. unfold lenN. rewrite repeat_length. lia. }
    change (skipn 1 (x0b :: repeat xbb 235 ++ hash)) with (repeat xbb 235 ++ hash).
    change (firstn 1 (x0b :: repeat xbb 235 ++ hash)) with [x0b]. rewrite bytes_eqb_refl. cbn [negb].
    rewrite firstn_app. rewrite repeat_length, Nat.sub_diag.
    rewrite (firstn_all2 (repeat xbb 235)) by (rewrite repeat_length; lia). rewrite firstn_O, app_nil_r.
    assert (G : forallb (beqb xbb) (repeat xbb 235) = true) by (vm_compute; reflexivity).
    rewrite G. cbn [negb].
    change (skipn 236 (x0b :: repeat xbb 235 ++ hash)) with (skipn 235 (repeat xbb 235 ++ hash)).
    rewrite skipn_app, repeat_length, Nat.sub_diag.
    rewrite (skipn_all2 (repeat xbb 235)) by (rewrite repeat_length; lia). cbn [app skipn]. apply bytes_eqb_refl.
Qed.

(** ** The padding of weak signatures *)
Lemma find_sep_at d : forall i p, find_sep d i = SepAt p ->
  exists n t, d = repeat xff n ++ x00 :: t /\ p = i + N.of_nat n.
Proof.
  induction d as [|c d IH]; intros i p; cbn [find_sep]; [discriminate|].
  destruct (beqb c x00) eqn:E0; [|destruct (beqb c xff) eqn:E1; [|discriminate]].
  - apply beqb_eq in E0. subst c. intros [= <-]. exists O, d. split; [reflexivity|lia].
  - apply beqb_eq in E1. subst c. intros H. destruct (IH _ _ H) as (n & t & -> & ->).
    exists (S n), t. split; [reflexivity|lia].
Qed.
Lemma find_sep_repeat n t : forall i, find_sep (repeat xff n ++ x00 :: t) i = SepAt (i + N.of_nat n).
Proof.
  induction n as [|n IH]; intros i; cbn [repeat app find_sep].
  - change (beqb x00 x00) with true. cbv iota. f_equal. lia.
  - change (beqb xff x00) with false. change (beqb xff xff) with true. cbv iota. rewrite IH. f_equal. lia.
Qed.
Lemma weak_padding_iff d hash : length hash = 16%nat ->
  (verify_pkcs1_v15_md5 d hash = Ok true <-> exists n, (8 <= n)%nat /\ d = padded_text n hash).
Proof.
  intros Hh. unfold verify_pkcs1_v15_md5. change (11 + 16 + 18) with 45. split.
  - destruct (N.ltb_spec (lenN d) 45) as [|Hl]; [discriminate|].
    destruct (bytes_eqb (firstn 2 d) [x00; x01]) eqn:E; cbn [negb]; [|discriminate]. apply bytes_eqb_eq in E.
    destruct d as [|c0 [|c1 d]]; try discriminate. cbn [firstn] in E. injection E as -> ->. cbn [skipn].
    destruct (find_sep d 2) as [p| |] eqn:Es; try discriminate.
    apply find_sep_at in Es. destruct Es as (n & t & -> & ->).
    assert (Hlen : lenN (x00 :: x01 :: repeat xff n ++ x00 :: t) = 3 + N.of_nat n + lenN t).
    { rewrite !lenN_cons, lenN_app, lenN_cons. unfold lenN. rewrite repeat_length. lia. }
    rewrite Hlen. destruct (N.eqb_spec (2 + N.of_nat n + 1 + 18 + 16) (3 + N.of_nat n + lenN t)) as [Ht|]; cbn [negb]; [|discriminate].
    assert (Hsk : skipn (N.to_nat (2 + N.of_nat n + 1)) (x00 :: x01 :: repeat xff n ++ x00 :: t) = t).
    { replace (N.to_nat (2 + N.of_nat n + 1)) with (S (S (n + 1))) by lia. cbn [skipn].
      rewrite skipn_app, repeat_length. rewrite skipn_all2 by (rewrite repeat_length; lia).
      replace (n + 1 - n)%nat with 1%nat by lia. reflexivity. }
    assert (Hsk2 : skipn (N.to_nat (2 + N.of_nat n + 19)) (x00 :: x01 :: repeat xff n ++ x00 :: t) = skipn 18 t).
    { rewrite <- Hsk at 2. rewrite skipn_skipn. f_equal. lia. }
    rewrite Hsk, Hsk2. destruct (bytes_eqb (firstn 18 t) md5_digest_info) eqn:E1; cbn [negb]; [|discriminate].
    intros E2. apply Ok_inj in E2. apply bytes_eqb_eq in E1. apply bytes_eqb_eq in E2. exists n. split; [lia|].
    unfold padded_text. do 2 f_equal. f_equal. f_equal. rewrite <- (firstn_skipn 18 t), E1, E2. reflexivity.
  - intros (n & Hn & ->). unfold padded_text. set (t := [x30; _; _; _; _; _; _; _; _; _; _; _; _; _; _; _; _; _] ++ hash).
    assert (F1 : firstn 18 t = md5_digest_info) by reflexivity. assert (F2 : skipn 18 t = hash) by reflexivity.
    assert (Ht : lenN t = 34) by (unfold t; rewrite lenN_app; unfold lenN at 2; rewrite Hh; reflexivity). clearbody t.
    assert (Hlen : lenN (x00 :: x01 :: repeat xff n ++ x00 :: t) = 3 + N.of_nat n + lenN t).
    { rewrite !lenN_cons, lenN_app, lenN_cons. unfold lenN. rewrite repeat_length. lia. }
    rewrite Hlen, Ht. replace (3 + N.of_nat n + 34 <? 45) with false by lia.
    change (firstn 2 (x00 :: x01 :: repeat xff n ++ x00 :: t)) with [x00; x01].
    change (bytes_eqb [x00; x01] [x00; x01]) with true. cbn [negb]. change (skipn 2 (x00 :: x01 :: repeat xff n ++ x00 :: t)) with (repeat xff n ++ x00 :: t). rewrite find_sep_repeat.
    replace (2 + N.of_nat n + 1 + 18 + 16 =? 3 + N.of_nat n + 34) with true by lia. cbn [negb].
    assert (Hsk : skipn (N.to_nat (2 + N.of_nat n + 1)) (x00 :: x01 :: repeat xff n ++ x00 :: t) = t).
    { replace (N.to_nat (2 + N.of_nat n + 1)) with (S (S (n + 1))) by lia. cbn [skipn].
      rewrite skipn_app, repeat_length. rewrite skipn_all2 by (rewrite repeat_length; lia).
      replace (n + 1 - n)%nat with 1%nat by lia. reflexivity. }
    assert (Hsk2 : skipn (N.to_nat (2 + N.of_nat n + 19)) (x00 :: x01 :: repeat xff n ++ x00 :: t) = skipn 18 t).
    { rewrite <- Hsk at 2. rewrite skipn_skipn. f_equal. lia. }
    rewrite Hsk, Hsk2, F1, F2. now rewrite !bytes_eqb_refl.
Qed.

Lemma rsa_open_strong k s hash : k_n k <> 0 -> length hash = 20%nat ->
  (verify_strong_padding (rsa_open k s) hash = true <-> signs k s (strong_text hash)).
Proof.
  intros Hn Hh. rewrite strong_padding_iff by exact Hh. unfold rsa_open, signs, little_endian.
  rewrite modpow_spec by exact Hn. rewrite !big_endian_dec. split.
  - intros E. rewrite <- E. symmetry. apply be_dec_to_bytes.
  - intros ->. unfold strong_text. apply to_bytes_be_dec. discriminate.
Qed.

Lemma all_zero_repeat s : all_zero s = true -> s = repeat x00 (length s).
Proof.
  induction s as [|x l IH]; [reflexivity|]. unfold all_zero. cbn [forallb length repeat]. intros E. apply andb_prop in E as [E1 E2].
  apply beqb_eq in E1 as <-. f_equal. now apply IH.
Qed.
Lemma le_dec_zeros n : le_dec (repeat x00 n) = 0.
Proof. induction n as [|n IH]; [reflexivity|]. cbn [repeat le_dec]. rewrite IH. reflexivity. Qed.
Lemma zero_not_signed k s digest : k_n k <> 0 -> all_zero s = true -> ~ signs k s (strong_text digest).
Proof.
  intros Hn Hz E. unfold signs, little_endian in E. rewrite !big_endian_dec in E.
  assert (Z : be_dec (rev s) = 0).
  { unfold be_dec. rewrite rev_involutive, (all_zero_repeat s Hz). apply le_dec_zeros. }
  rewrite Z, N.pow_0_l in E by discriminate. rewrite N.mod_0_l in E by exact Hn.
  unfold strong_text in E. rewrite be_dec_cons in E. change (bN x0b) with 11 in E.
  assert (256 ^ lenN (repeat xbb 235 ++ digest) <> 0) by (apply N.pow_nonzero; lia). lia.
Qed.

Section S.
Variable sha1 : bytes -> bytes.
Hypothesis sha1_len : forall d, length (sha1 d) = 20%nat.

Lemma strong_iff rd k a : k_n k <> 0 -> reader_of (a_file a) rd -> lenN (a_file a) < 2 ^ 63 ->
  let fin := a_off a + get_archive_size (a_header a) in
  (archive_verify_strong sha1 rd k a = Ok StrongValid <->
   exists s, length s = 256%nat /\ slice fin 260 (a_file a) = Some (lit "NGIS" ++ s) /\
     signs k s (strong_text (sha1 (portion (a_off a) fin (a_file a))))).
Proof.
  intros Hn Hrd H63 fin. unfold archive_verify_strong, add64. fold fin.
  destruct (N.ltb_spec fin M64) as [C1|C1]; cbn [bind].
  2: { split; [discriminate|]. intros (s & _ & Hs & _). exfalso.
       assert (N : slice fin 260 (a_file a) = None).
       { apply slice_None. unfold M64 in C1. change (2 ^ 64) with 18446744073709551616 in C1.
         change (2 ^ 63) with 9223372036854775808 in H63. lia. }
       congruence. }
  change STRONG_SIGNATURE_SIZE with 260.
  destruct (N.ltb_spec (fin + 260) M64) as [C2|C2]; cbn [bind].
  2: { split; [discriminate|]. intros (s & _ & Hs & _). exfalso.
       assert (N : slice fin 260 (a_file a) = None).
       { apply slice_None. unfold M64 in C2. change (2 ^ 64) with 18446744073709551616 in C2.
         change (2 ^ 63) with 9223372036854775808 in H63. lia. }
       congruence. }
  destruct (N.ltb_spec (lenN (a_file a)) (fin + 260)) as [C3|C3].
  { split; [discriminate|]. intros (s & _ & Hs & _). exfalso.
    apply slice_None in C3. congruence. }
  destruct (slice_Some fin 260 (a_file a) C3) as (data & Hd). rewrite (read_at_slice _ _ _ _ Hd), Hd.
  pose proof (slice_length _ _ _ _ Hd) as Hl. unfold parse_strong_signature. rewrite Hl.
  change (260 <? STRONG_SIGNATURE_SIZE) with false. cbn [negb].
  destruct (bytes_eqb (firstn 4 data) STRONG_SIGNATURE_HEADER) eqn:Em; cbn [negb].
  2: { split; [discriminate|]. intros (s & _ & [= ->] & _). exfalso.
       change (firstn 4 (lit "NGIS" ++ s)) with (lit "NGIS") in Em. vm_compute in Em. discriminate. }
  apply bytes_eqb_eq in Em. set (s := firstn 256 (skipn 4 data)).
  assert (Ls : length s = 256%nat).
  { unfold s. rewrite firstn_length, skipn_length. unfold lenN in Hl. lia. }
  assert (Ed : data = lit "NGIS" ++ s).
  { rewrite <- (firstn_skipn 4 data), Em. f_equal. unfold s. symmetry. apply firstn_all2.
    rewrite skipn_length. unfold lenN in Hl. lia. }
  assert (Hs : forall s', Some data = Some (lit "NGIS" ++ s') -> s' = s).
  { intros s' E. assert (E' : data = lit "NGIS" ++ s') by congruence. rewrite Ed in E'. now apply app_inv_head in E'. }
  destruct (all_zero s) eqn:Ez.
  { split; [discriminate|]. intros (s' & _ & E & G). apply Hs in E. subst s'. exfalso.
    eapply zero_not_signed; eauto. }
  unfold verify_strong. rewrite stream_data_ok by exact Hrd. cbn [bind].
  replace (a_off a + (fin - a_off a)) with fin by (unfold fin; lia).
  set (h := sha1 _).
  pose proof (rsa_open_strong k s h Hn (sha1_len _)) as I.
  destruct (verify_strong_padding (rsa_open k s) h).
  - split; [|reflexivity]. intros _. exists s. split; [exact Ls|]. split; [now rewrite Ed|]. now apply I.
  - split; [discriminate|]. intros (s' & _ & E & G). apply Hs in E. subst s'. apply I in G. discriminate.
Qed.
End S.

(** ** Weak signatures *)
Lemma pkcs_never n hash : verify_pkcs1_v15_md5 (to_bytes_be n) hash <> Ok true.
Proof.
  unfold verify_pkcs1_v15_md5. destruct (N.ltb_spec (lenN (to_bytes_be n)) (11 + 16 + 18)) as [C|C]; [discriminate|].
  destruct (bytes_eqb (firstn 2 (to_bytes_be n)) [x00; x01]) eqn:E; cbn [negb]; [|discriminate].
  exfalso. apply bytes_eqb_eq in E. destruct (to_bytes_be n) as [|c t] eqn:F; [discriminate|].
  cbn [firstn] in E. injection E as -> E. apply to_bytes_be_head in F. subst t. discriminate.
Qed.
Lemma weak_never md5 rd k file s si : verify_weak_stormlib md5 rd k file s si <> Ok true.
Proof.
  unfold verify_weak_stormlib. destruct (digest_data rd file si) as [d| |]; cbn [bind]; try discriminate.
  apply pkcs_never.
Qed.
Lemma archive_weak_never L md5 rd k a : archive_verify_weak L md5 rd k a <> Ok WeakValid.
Proof.
  unfold archive_verify_weak. destruct (find_file a SIGNATURE) as [[fi|]| |]; cbn [bind]; try discriminate.
  destruct (read_file L a SIGNATURE) as [data| |]; cbn [bind]; try discriminate.
  destruct (parse_weak_signature data) as [s| |]; try discriminate.
  destruct (new_weak _ _ _ _) as [si| |]; cbn [bind]; try discriminate.
  pose proof (weak_never md5 rd k (a_file a) s si) as H.
  destruct (verify_weak_stormlib md5 rd k (a_file a) s si) as [[|]| |]; try discriminate. congruence.
Qed.

(** The digest an archive's weak signature is checked against. *)
Lemma archive_weak_digest L md5 rd k a fi data s :
  reader_of (a_file a) rd -> find_file a SIGNATURE = Ok (Some fi) -> read_file L a SIGNATURE = Ok data ->
  parse_weak_signature data = Ok s ->
  fi_pos fi + fi_csize fi < M64 -> a_off a + h_archive_size (a_header a) < M64 ->
  archive_verify_weak L md5 rd k a =
    match verify_pkcs1_v15_md5 (rsa_open k s)
            (md5 (blanked (fi_pos fi) (fi_pos fi + fi_csize fi) (a_off a)
                   (portion (a_off a) (a_off a + h_archive_size (a_header a)) (a_file a)))) with
    | Ok true => Ok WeakValid
    | Panic => Panic
    | _ => Ok WeakInvalid
    end.
Proof.
  intros Hrd Hf Hr Hp H1 H2. unfold archive_verify_weak. rewrite Hf. cbn [bind]. rewrite Hr. cbn [bind].
  rewrite Hp. unfold new_weak. rewrite !add64_ok by assumption. cbn [bind].
  unfold verify_weak_stormlib. rewrite digest_data_ok; [|exact Hrd|cbn [si_xbegin si_xend]; lia].
  cbn [bind si_xbegin si_xend si_begin si_end].
  destruct (verify_pkcs1_v15_md5 _ _) as [[|]| |]; reflexivity.
Qed.

Lemma digest_agree rd rd' si f g : reader_of f rd -> reader_of g rd' -> lenN f = lenN g ->
  si_xbegin si <= si_xend si ->
  (digest_data rd f si = digest_data rd' g si <->
   agree_at (fun p => si_begin si <= p < si_end si /\ (p < si_xbegin si \/ si_xend si <= p)) f g).
Proof.
  intros Hf Hg Hl Hx. rewrite !digest_data_ok by assumption.
  rewrite <- (blanked_agree (si_begin si) (si_end si) (si_xbegin si) (si_xend si) f g Hl).
  split; [intros E; now apply Ok_inj in E|intros ->; reflexivity].
Qed.

(** ** Concrete cases *)
(** A reader that gives at most three bytes at a time. *)
Definition slow (file : bytes) (pos n : N) : N := N.min (N.min n 3) (lenN file - pos).
Lemma slow_reader file : reader_of file (slow file).
Proof. intros pos n. unfold slow. split; lia. Qed.

(** A key for which everyone can sign. *)
Definition open_key (bits : N) : rsa_key := mkKey (2 ^ bits) 1.
Definition zero_md5 (d : bytes) : bytes := repeat x00 16.
Lemma weak_rejects : exists k s file si,
  length s = 64%nat /\ signs k s (weak_text (zero_md5 (blanked (si_xbegin si) (si_xend si) (si_begin si)
                               (portion (si_begin si) (si_end si) file)))) /\
  verify_weak_stormlib zero_md5 (slow file) k file s si = Ok false.
Proof.
  exists (open_key 512), (rev (weak_text (repeat x00 16))), (lit "archive data with signature"), (mkSI 0 20 8 16).
  split; [reflexivity|]. split; [vm_compute; reflexivity|vm_compute; reflexivity].
Qed.

(** ** The keys of the code *)
Lemma small_factors n : forallb (fun i => negb (n mod (2 + N.of_nat i) =? 0)) (seq 0 999) = true ->
  forall d, 1 < d <= 1000 -> ~ N.divide d n.
Proof.
  intros H d Hd D. rewrite forallb_forall in H. specialize (H (N.to_nat (d - 2))).
  assert (I : In (N.to_nat (d - 2)) (seq 0 999)) by (apply in_seq; lia).
  specialize (H I). replace (2 + N.of_nat (N.to_nat (d - 2))) with d in H by lia.
  apply N.mod_divide in D; [|lia]. rewrite D in H. discriminate H.
Qed.
Lemma keys_usual : usual_key 512 weak_public_key /\ usual_key 2048 strong_public_key.
Proof.
  split; (split; [reflexivity|]; split; [split; vm_compute; congruence|]; apply small_factors; vm_compute; reflexivity).
Qed.
