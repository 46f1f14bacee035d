(** * Facts about the extended tables: what the builder writes and what the
    reader makes of it. *)
From Verif Require Import Bytes Crypto CryptoFacts HashTable BlockTable HashTableFacts Compress
  HetBet SpecBits BitFacts.
Open Scope N_scope.

(** ** Lookups in the HET table *)
Lemma shiftr_land_mask v k : N.shiftr (N.land v (mask_sat k)) k = 0.
Proof.
  apply N.bits_inj. intros j. rewrite N.bits_0, N.shiftr_spec', N.land_spec, mask_sat_bits.
  replace (j + k <? N.min k 64) with false by lia. apply andb_false_r.
Qed.

(** The only file number a lookup can give is 0. *)
Lemma het_find_zero h name i : het_find h name = Ok (Some i) -> i = 0.
Proof.
  unfold het_find. destruct (chk32 _) as [bits| |]; cbn [bind]; try discriminate.
  destruct (het_hash_bits h =? 0); [discriminate|].
  destruct (_ =? 0); [discriminate|].
  unfold het_entry. destruct (slice _ _ _) as [s|]; [|discriminate].
  set (e := N.land _ (mask_sat (het_hash_bits h))).
  destruct (negb _); [discriminate|].
  unfold shr64. destruct (_ <? 64); cbn [bind]; [|discriminate].
  unfold e. rewrite shiftr_land_mask, N.land_0_l.
  destruct (_ <=? 0); [discriminate|]. intros H. apply Ok_inj in H. now injection H as <-.
Qed.

Lemma het_find_equiv h a b : jenkins_hash a = jenkins_hash b -> het_find h a = het_find h b.
Proof. intros H. unfold het_find. now rewrite H. Qed.

(** ** Widths *)
Lemma bits_needed_spec v : v < 2 ^ bits_needed v.
Proof.
  unfold bits_needed. destruct (N.eqb_spec v 0) as [->|H]; [reflexivity|].
  rewrite N.size_log2 by exact H. apply N.log2_spec. lia.
Qed.

Lemma bits_needed_pos v : 1 <= bits_needed v.
Proof.
  unfold bits_needed. destruct (N.eqb_spec v 0) as [->|H]; [lia|]. rewrite N.size_log2 by exact H. lia.
Qed.

Lemma bits_needed_le v k : 1 <= k -> v < 2 ^ k -> bits_needed v <= k.
Proof.
  intros Hk H. unfold bits_needed. destruct (N.eqb_spec v 0) as [->|Hz]; [exact Hk|].
  rewrite N.size_log2 by exact Hz. apply N.le_succ_l. apply N.log2_lt_pow2; lia.
Qed.

Lemma max_of_le f bt e : In e bt -> f e <= max_of f bt.
Proof.
  induction bt as [|x t IH]; [intros []|]. cbn [max_of fold_right].
  change (fold_right _ _ t) with (max_of f t). intros [->|H]; [lia|]. specialize (IH H). lia.
Qed.

Lemma max_of_bound f bt m : (forall e, In e bt -> f e <= m) -> max_of f bt <= m.
Proof.
  induction bt as [|x t IH]; intros H; cbn [max_of fold_right]; [lia|].
  change (fold_right _ _ t) with (max_of f t).
  specialize (IH (fun e He => H e (or_intror He))). specialize (H x (or_introl eq_refl)). lia.
Qed.

(** ** The flag array *)
Lemma insert_flag_in x y l : In y (insert_flag x l) <-> y = x \/ In y l.
Proof.
  induction l as [|z t IH]; cbn [insert_flag].
  - cbn. intuition.
  - destruct (N.eqb_spec x z) as [->|]; [cbn; intuition|].
    destruct (x <? z); cbn; [intuition|]. rewrite IH. intuition.
Qed.

Lemma insert_flag_len x l : lenN (insert_flag x l) <= 1 + lenN l.
Proof.
  induction l as [|z t IH]; cbn [insert_flag]; [unfold lenN; cbn; lia|].
  destruct (x =? z); [lia|]. destruct (x <? z); rewrite !lenN_cons in *; lia.
Qed.

Lemma flag_array_in bt e : In e bt -> In (be_flags e) (flag_array bt).
Proof.
  induction bt as [|x t IH]; [intros []|]. cbn [flag_array fold_right].
  change (fold_right _ _ t) with (flag_array t). rewrite insert_flag_in.
  intros [->|H]; [left; reflexivity|right; now apply IH].
Qed.

Lemma index_of_spec x l : forall i, In x l ->
  exists k, index_of x l i = Some (i + k) /\ nthN l k = Some x /\ k < lenN l.
Proof.
  induction l as [|y t IH]; intros i H; [destruct H|]. cbn [index_of].
  destruct (N.eqb_spec x y) as [->|Hn].
  - exists 0. rewrite N.add_0_r, lenN_cons. split; [reflexivity|]. split; [|lia].
    unfold nthN. rewrite lenN_cons. replace (0 <? 1 + lenN t) with true by lia. reflexivity.
  - destruct H as [->|H]; [congruence|]. destruct (IH (i + 1) H) as (k & E1 & E2 & E3).
    exists (1 + k). rewrite E1. split; [f_equal; lia|]. rewrite lenN_cons. split; [|lia].
    unfold nthN in *. rewrite lenN_cons. replace (1 + k <? 1 + lenN t) with (k <? lenN t) by lia.
    destruct (k <? lenN t); [|discriminate].
    replace (N.to_nat (1 + k)) with (S (N.to_nat k)) by lia. exact E2.
Qed.

(** ** Packing *)
(** The number packed for an entry. *)
Definition packed (e : bentry) (fi is_ ics ifl : N) : N :=
  N.lor (N.lor (N.lor (w64 (N.shiftl (be_pos e) 0)) (w64 (N.shiftl (be_size e) is_)))
               (w64 (N.shiftl (be_csize e) ics))) (w64 (N.shiftl fi ifl)).

Lemma lt_bits v n j : v < 2 ^ n -> n <= j -> N.testbit v j = false.
Proof.
  intros H Hj. destruct (N.eq_dec v 0) as [->|Hz]; [apply N.bits_0|].
  apply N.bits_above_log2. apply N.lt_le_trans with n; [|exact Hj]. apply N.log2_lt_pow2; lia.
Qed.

Lemma packed_bits e fi cp cs cc j :
  be_pos e < 2 ^ cp -> be_size e < 2 ^ cs -> be_csize e < 2 ^ cc -> j < 64 ->
  N.testbit (packed e fi cp (cp + cs) (cp + cs + cc)) j =
  if j <? cp then N.testbit (be_pos e) j
  else if j <? cp + cs then N.testbit (be_size e) (j - cp)
  else if j <? cp + cs + cc then N.testbit (be_csize e) (j - (cp + cs))
  else N.testbit fi (j - (cp + cs + cc)).
Proof.
  intros Hp Hs Hc Hj. unfold packed. rewrite !N.lor_spec, !w64_bits, !shiftl_bits.
  replace (j <? 64) with true by lia. cbn [andb].
  replace (0 <=? j) with true by lia. rewrite N.sub_0_r. cbn [andb].
  destruct (N.ltb_spec j cp) as [C|C].
  { replace (cp <=? j) with false by lia. replace (cp + cs <=? j) with false by lia.
    replace (cp + cs + cc <=? j) with false by lia. cbn [andb]. now rewrite !orb_false_r. }
  rewrite (lt_bits _ _ _ Hp C). cbn [orb]. replace (cp <=? j) with true by lia. cbn [andb].
  destruct (N.ltb_spec j (cp + cs)) as [D|D].
  { replace (cp + cs <=? j) with false by lia.
    replace (cp + cs + cc <=? j) with false by lia. cbn [andb]. now rewrite !orb_false_r. }
  rewrite (lt_bits _ _ (j - cp) Hs) by lia. cbn [orb]. replace (cp + cs <=? j) with true by lia. cbn [andb].
  destruct (N.ltb_spec j (cp + cs + cc)) as [E|E].
  { replace (cp + cs + cc <=? j) with false by lia. cbn [andb]. now rewrite !orb_false_r. }
  rewrite (lt_bits _ _ (j - (cp + cs)) Hc) by lia. cbn [orb].
  replace (cp + cs + cc <=? j) with true by lia. reflexivity.
Qed.

(** Extracting a field. *)
Lemma extract_field v off cnt x :
  off < 64 -> cnt < 64 -> x < 2 ^ cnt ->
  (forall j, j < cnt -> N.testbit v (off + j) = N.testbit x j) ->
  extract_bits v off cnt = Ok x.
Proof.
  intros Ho Hc Hx H. unfold extract_bits, mask_chk, shr64.
  replace (cnt <? 64) with true by lia. cbn [bind]. replace (off <? 64) with true by lia. cbn [bind].
  f_equal. apply N.bits_inj. intros j. rewrite N.land_spec, N.shiftr_spec'.
  assert (Hm : N.testbit (2 ^ cnt - 1) j = (j <? cnt)).
  { pose proof (mask_sat_bits cnt j) as M. unfold mask_sat in M.
    replace (64 <=? cnt) with false in M by lia. rewrite M. now rewrite N.min_l by lia. }
  rewrite Hm. destruct (N.ltb_spec j cnt) as [C|C].
  - rewrite andb_true_r, N.add_comm. now apply H.
  - rewrite andb_false_r. symmetry. now apply (lt_bits _ cnt).
Qed.

(** What the table looks like when all entries are written. *)
Lemma bet_fill_bits bt : forall i table flags is_ ics ifl iu table',
  iu <= 64 ->
  bet_fill bt i table flags is_ ics ifl iu = Ok table' ->
  lenN table' = lenN table /\
  (forall k, k < i * iu -> bit_of table' k = bit_of table k) /\
  forall m e, nth_error bt m = Some e ->
    exists fi, index_of (be_flags e) flags 0 = Some fi /\ is_ < 64 /\ ics < 64 /\ ifl < 64 /\
      let at_ := (i + N.of_nat m) * iu in
      forall j, j < iu -> at_ mod 8 + j < 64 ->
        bit_of table' (at_ + j) = N.testbit (packed e fi is_ ics ifl) j.
Proof.
  induction bt as [|e rest IH]; intros i table flags is_ ics ifl iu table' Hiu H; cbn [bet_fill] in H.
  - apply Ok_inj in H. subst table'. split; [reflexivity|]. split; [reflexivity|].
    intros [|m] e He; discriminate He.
  - destruct (index_of (be_flags e) flags 0) as [fi|] eqn:Ef; [|discriminate].
    unfold shl64 in H. cbn [N.ltb] in H.
    change (0 <? 64) with true in H. cbn [bind] in H.
    destruct (N.ltb_spec is_ 64) as [H1|]; cbn [bind] in H; [|discriminate].
    destruct (N.ltb_spec ics 64) as [H2|]; cbn [bind] in H; [|discriminate].
    destruct (N.ltb_spec ifl 64) as [H3|]; cbn [bind] in H; [|discriminate].
    fold (packed e fi is_ ics ifl) in H.
    destruct (write_bit_entry table i (packed e fi is_ ics ifl) iu) as [t1| |] eqn:Ew; cbn [bind] in H;
      try discriminate.
    destruct (write_bit_entry_bits _ _ _ _ _ Hiu Ew) as (L1 & _ & B1).
    destruct (IH _ _ _ _ _ _ _ _ Hiu H) as (L2 & B2 & B3).
    split; [congruence|]. split.
    + intros k Hk. rewrite B2 by (rewrite N.mul_add_distr_r; lia). rewrite B1.
      replace (i * iu <=? k) with false by lia. reflexivity.
    + intros [|m] e' He.
      * cbn [nth_error] in He. injection He as <-. exists fi.
        split; [exact Ef|]. do 3 (split; [assumption|]). cbv zeta.
        change (N.of_nat 0) with 0. rewrite N.add_0_r. intros j Hj Hs.
        rewrite B2 by (rewrite N.mul_add_distr_r; lia). rewrite B1.
        assert (Hbit : i * iu = 8 * (i * iu / 8) + i * iu mod 8) by (apply N.div_mod'; lia).
        replace (i * iu <=? i * iu + j) with true by lia.
        replace (i * iu + j <? N.min (i * iu + iu) (8 * (i * iu / 8) + 64)) with true by lia.
        cbn [andb]. f_equal. lia.
      * cbn [nth_error] in He. destruct (B3 m e' He) as (fi' & E1 & E2).
        exists fi'. split; [exact E1|].
        replace (i + N.of_nat (S m)) with (i + 1 + N.of_nat m) by lia. exact E2.
Qed.

(** ** Writing and reading the container *)
(** The table cipher restores everything but a last incomplete word. *)
Lemma table_crypt_prefix (x y : bytes) k : (length (x ++ y) mod 4 <= length y)%nat ->
  exists y', decrypt_table_data (encrypt_data (x ++ y) k) k = x ++ y' /\ length y' = length y.
Proof.
  intros Hm. set (d := x ++ y) in *.
  assert (HD : exists p r r', d = p ++ r /\ decrypt_table_data (encrypt_data d k) k = p ++ r' /\
                 length r' = length r /\ length r = (length d mod 4)%nat).
  { pose proof (words_of_bytes_spec d) as S.
    destruct (words_of_bytes d) as [ws r] eqn:E. destruct S as (S1 & S2 & S3 & S4).
    assert (Hr : length r = (length d mod 4)%nat).
    { rewrite S1, app_length, bytes_of_words_length, Nat.add_comm, Nat.mul_comm, Nat.mod_add by lia.
      symmetry. now apply Nat.mod_small. }
    destruct (N.eq_dec k 0) as [->|Hk].
    - exists (bytes_of_words ws), r, r. rewrite encrypt_data_0. unfold decrypt_table_data.
      rewrite E, decrypt_block_0. auto.
    - exists (bytes_of_words ws), r, (tail_crypt r (w32 (k + w32 (lenN ws)))).
      split; [exact S1|]. rewrite (encrypt_data_eq d k ws r E Hk). unfold decrypt_table_data.
      rewrite words_of_bytes_of_words; [|now apply encrypt_block_ok|rewrite tail_crypt_length; exact S3].
      rewrite decrypt_encrypt_block. split; [reflexivity|]. split; [now apply tail_crypt_length|exact Hr]. }
  destruct HD as (p & r & r' & H1 & H2 & H3 & H4).
  exists (skipn (length x) p ++ r').
  assert (Hx : (length x <= length p)%nat).
  { assert (length d = length p + length r)%nat by (rewrite H1; apply app_length).
    unfold d in *. rewrite app_length in *. lia. }
  assert (Hp : p = x ++ skipn (length x) p).
  { rewrite <- (firstn_skipn (length x) p) at 1. f_equal.
    unfold d in H1. apply (f_equal (firstn (length x))) in H1.
    rewrite firstn_app_exact in H1 by reflexivity. rewrite firstn_app in H1.
    replace (length x - length p)%nat with 0%nat in H1 by lia. cbn [firstn] in H1.
    now rewrite app_nil_r in H1. }
  split.
  - rewrite H2, Hp at 1. now rewrite <- app_assoc.
  - assert (length d = length p + length r)%nat by (rewrite H1; apply app_length).
    unfold d in *. rewrite !app_length, skipn_length in *. lia.
Qed.

Lemma ext_read_written L sig ds file off body key :
  let out := (le32 sig ++ le32 1 ++ le32 ds) ++ encrypt_data body key in
  slice off (lenN out) file = Some out ->
  sig < M32 -> ds < M32 -> ds <= lenN body -> (key =? 0) = false ->
  ext_read L sig file off (lenN out) key = Ok (decrypt_table_data (encrypt_data body key) key).
Proof.
  intros out Hs H1 H2 H3 Hk. unfold ext_read. rewrite (read_at_slice _ _ _ _ Hs). cbn [bind].
  assert (Hl : lenN out = 12 + lenN body).
  { unfold out. rewrite lenN_app. unfold lenN at 2. rewrite encrypt_data_length.
    unfold lenN. rewrite !app_length, !le32_length. lia. }
  replace (lenN out <? 12) with false by lia.
  assert (E1 : firstn 4 out = le32 sig).
  { unfold out. rewrite <- !app_assoc. apply firstn_app_exact, le32_length. }
  assert (E2 : skipn 8 out = le32 ds ++ encrypt_data body key).
  { unfold out. rewrite <- !app_assoc. change 8%nat with (4 + 4)%nat.
    rewrite skipn_add_app by apply le32_length. apply skipn_app_exact, le32_length. }
  assert (E3 : skipn 12 out = encrypt_data body key).
  { apply skipn_app_exact. rewrite !app_length, !le32_length. reflexivity. }
  rewrite E1, le32_dec by exact H1. rewrite N.eqb_refl. cbn [negb].
  rewrite E2, firstn_app_exact by apply le32_length. rewrite le32_dec by exact H2.
  replace (lenN out <? ds + 12) with false by lia. rewrite E3, Hk. reflexivity.
Qed.

Lemma concat_le32_length ws : length (concat (map le32 ws)) = (4 * length ws)%nat.
Proof.
  induction ws as [|w ws IH]; cbn [map concat length]; [reflexivity|].
  rewrite app_length, IH, le32_length. lia.
Qed.

Lemma word_at_le32 ws : forall rest i w, nth_error ws i = Some w -> w < M32 ->
  word_at (concat (map le32 ws) ++ rest) i = w.
Proof.
  induction ws as [|w0 ws IH]; intros rest i w Hi Hw; [destruct i; discriminate|].
  cbn [map concat]. rewrite <- app_assoc. destruct i as [|i]; cbn [nth_error] in Hi.
  - injection Hi as ->. unfold word_at. change (4 * 0)%nat with 0%nat. rewrite skipn_O.
    rewrite firstn_app_exact by apply le32_length. now apply le32_dec.
  - unfold word_at. replace (4 * S i)%nat with (4 + 4 * i)%nat by lia.
    rewrite skipn_add_app by apply le32_length. exact (IH rest i w Hi Hw).
Qed.

Lemma le_values_le32 ws : forall rest, Forall (fun w => w < M32) ws ->
  le_values 4 (length ws) (concat (map le32 ws) ++ rest) = ws.
Proof.
  induction ws as [|w ws IH]; intros rest H; [reflexivity|].
  apply Forall_cons_iff in H as [Hw H]. cbn [map concat length le_values].
  rewrite <- app_assoc, firstn_app_exact, skipn_app_exact by apply le32_length.
  rewrite le32_dec by exact Hw. f_equal. now apply IH.
Qed.

(** ** The BET table *)
Definition bet_is (b : bet) (bt : list bentry) : Prop :=
  let flags := flag_array bt in
  let cp := bits_needed (max_of be_pos bt) in
  let cs := bits_needed (max_of be_size bt) in
  let cc := bits_needed (max_of be_csize bt) in
  let cf := match flags with [] => 0 | _ => bits_needed (lenN flags - 1) end in
  let iu := cp + cs + cc + cf in
  bet_count b = lenN bt /\ bet_entry_bits b = iu /\
  (ix_pos b = 0 /\ ix_size b = cp /\ ix_csize b = cp + cs /\ ix_flag b = cp + cs + cc) /\
  (ct_pos b = cp /\ ct_size b = cs /\ ct_csize b = cc /\ ct_flag b = cf) /\
  bet_flag_count b = lenN flags /\ lenN flags < M32 /\ bet_flags b = flags /\
  lenN (bet_table b) = div_ceil (lenN bt * iu) 8 /\
  bet_fill bt 0 (zeros (div_ceil (lenN bt * iu) 8)) flags cp (cp + cs) (cp + cs + cc) iu
    = Ok (bet_table b).

Lemma write_bit_entry_length data i v b data' :
  write_bit_entry data i v b = Ok data' -> lenN data' = lenN data.
Proof.
  unfold write_bit_entry. set (need := div_ceil _ 8). destruct (_ <? _); [discriminate|].
  destruct (slice _ _ _) as [s|] eqn:Es; [|discriminate].
  set (ex := N.lor _ _). intros H. apply Ok_inj in H.
  assert (Hx : lenN (le_enc (N.to_nat (N.min need 8)) ex) = N.min need 8)
    by (unfold lenN; rewrite le_enc_length; lia).
  destruct (splice_split _ _ _ _ _ Es Hx) as (p & q & Hd & Hp & Hs & Hsp).
  rewrite Hsp in H. subst data'. rewrite Hd, !lenN_app. lia.
Qed.

Lemma bet_hash_fill_length hs : forall i d d', bet_hash_fill hs i d = Ok d' -> lenN d' = lenN d.
Proof.
  induction hs as [|h hs IH]; intros i d d' H; cbn [bet_hash_fill] in H; [apply Ok_inj in H; congruence|].
  destruct (write_bit_entry d i h 64) as [u| |] eqn:E; cbn [bind] in H; try discriminate.
  apply IH in H. apply write_bit_entry_length in E. congruence.
Qed.

Lemma bet_fill_length bt : forall i table flags is_ ics ifl iu table',
  bet_fill bt i table flags is_ ics ifl iu = Ok table' -> lenN table' = lenN table.
Proof.
  induction bt as [|e rest IH]; intros i table flags is_ ics ifl iu table' H; cbn [bet_fill] in H.
  - apply Ok_inj in H. congruence.
  - destruct (index_of _ _ _) as [fi|]; [|discriminate].
    destruct (shl64 (be_pos e) 0) as [a| |]; cbn [bind] in H; try discriminate.
    destruct (shl64 (be_size e) is_) as [b| |]; cbn [bind] in H; try discriminate.
    destruct (shl64 (be_csize e) ics) as [c| |]; cbn [bind] in H; try discriminate.
    destruct (shl64 fi ifl) as [d| |]; cbn [bind] in H; try discriminate.
    destruct (write_bit_entry _ _ _ _) as [u| |] eqn:E; cbn [bind] in H; try discriminate.
    apply IH in H. apply write_bit_entry_length in E. congruence.
Qed.

Lemma chk32_ok n m : chk32 n = Ok m -> m = n /\ n < M32.
Proof. unfold chk32. destruct (N.ltb_spec n M32); [|discriminate]. intros H'. apply Ok_inj in H'. auto. Qed.

Lemma div_ceil_8 n : 8 * div_ceil n 8 < n + 8 /\ n <= 8 * div_ceil n 8.
Proof.
  unfold div_ceil. pose proof (N.div_mod' (n + 8 - 1) 8).
  pose proof (N.mod_lt (n + 8 - 1) 8 ltac:(lia)). lia.
Qed.

Lemma insert_flag_ok x l : x < M32 -> Forall (fun w => w < M32) l -> Forall (fun w => w < M32) (insert_flag x l).
Proof.
  intros Hx H. apply Forall_forall. intros y Hy. apply insert_flag_in in Hy as [->|Hy]; [exact Hx|].
  rewrite Forall_forall in H. now apply H.
Qed.

Lemma flag_array_ok bt : Forall be_ok bt -> Forall (fun w => w < M32) (flag_array bt).
Proof.
  induction bt as [|e t IH]; intros H; [constructor|]. apply Forall_cons_iff in H as [He H].
  cbn [flag_array fold_right]. change (fold_right _ _ t) with (flag_array t).
  apply insert_flag_ok; [apply He|now apply IH].
Qed.

Lemma slice_at a b c n : lenN b = n -> slice (lenN a) n (a ++ b ++ c) = Some b.
Proof. intros <-. apply slice_mid. Qed.

Lemma bet_written L m names bt d out file off :
  create_bet_table names bt = Ok d -> write_ext_table L false m d bt_key = Ok out ->
  slice off (lenN out) file = Some out ->
  lenN names = lenN bt -> lenN names < M32 -> Forall be_ok bt ->
  exists b, bet_read L file off (lenN out) bt_key = Ok b /\ bet_is b bt.
Proof.
  intros HC HW Hs Hn Hn32 Hok. unfold create_bet_table in HC.
  rewrite (w32_small _ Hn32) in HC.
  set (flags := flag_array bt) in *.
  set (cp := bits_needed (max_of be_pos bt)) in *.
  set (cs := bits_needed (max_of be_size bt)) in *.
  set (cc := bits_needed (max_of be_csize bt)) in *.
  set (cf := match flags with [] => 0 | _ => bits_needed (lenN flags - 1) end) in *.
  cbv zeta in HC. set (iu := cp + cs + cc + cf) in *.
  destruct (chk32 (lenN names * iu)) as [tbits| |] eqn:E1; cbn [bind] in HC; try discriminate.
  apply chk32_ok in E1 as [-> E1].
  destruct (chk32 (lenN names * 64)) as [ht| |] eqn:E2; cbn [bind] in HC; try discriminate.
  apply chk32_ok in E2 as [-> E2].
  set (tsize := div_ceil (lenN names * iu) 8) in *. set (hsize := div_ceil (lenN names * 64) 8) in *.
  assert (Hhs : hsize = 8 * lenN names) by (unfold hsize; pose proof (div_ceil_8 (lenN names * 64)); lia).
  destruct (bet_fill _ _ _ _ _ _ _ _) as [table| |] eqn:E3; cbn [bind] in HC; try discriminate.
  pose proof (bet_fill_length _ _ _ _ _ _ _ _ _ E3) as Lt. rewrite zeros_length in Lt.
  destruct (chk32 (lenN flags * 4)) as [fs| |] eqn:E4; cbn [bind] in HC; try discriminate.
  apply chk32_ok in E4 as [-> E4].
  destruct (chk32 (76 + lenN flags * 4 + tsize + hsize)) as [ds| |] eqn:E5; cbn [bind] in HC; try discriminate.
  apply chk32_ok in E5 as [-> E5].
  destruct (chk32 (12 + _)) as [ts| |] eqn:E6; cbn [bind] in HC; try discriminate.
  apply chk32_ok in E6 as [-> E6].
  destruct (bet_hash_fill _ _ _) as [hashes| |] eqn:E7; cbn [bind] in HC; try discriminate.
  apply bet_hash_fill_length in E7. rewrite zeros_length in E7.
  apply Ok_inj in HC. set (ds := 76 + lenN flags * 4 + tsize + hsize) in *.
  set (ws := [12 + ds; lenN names; 16; iu; 0; cp; cp + cs; cp + cs + cc; iu; cp; cs; cc; cf; 0;
              lenN names * 64; 0; 64; hsize; lenN flags]) in HC.
  set (body := concat (map le32 ws) ++ concat (map le32 flags) ++ table ++ hashes) in HC.
  assert (Lw : lenN (concat (map le32 ws)) = 76).
  { unfold lenN. rewrite concat_le32_length. reflexivity. }
  assert (Lf : lenN (concat (map le32 flags)) = lenN flags * 4).
  { unfold lenN. rewrite concat_le32_length. lia. }
  assert (Lb : lenN body = ds).
  { unfold body. rewrite !lenN_app, Lw, Lf, Lt, E7. unfold ds. lia. }
  unfold write_ext_table in HW. rewrite <- HC in HW.
  assert (Ld : lenN (le32 BET_SIG ++ le32 1 ++ le32 ds ++ body) = 12 + ds).
  { rewrite !lenN_app, Lb. unfold lenN. rewrite !le32_length. lia. }
  rewrite Ld in HW. replace (12 + ds <? 12) with false in HW by lia. cbn [bind] in HW.
  change (le32 BET_SIG ++ le32 1 ++ le32 ds ++ body) with ((le32 BET_SIG ++ le32 1 ++ le32 ds) ++ body) in HW.
  rewrite firstn_app_exact, skipn_app_exact in HW by reflexivity.
  apply Ok_inj in HW. subst out.
  assert (Hds : ds <= lenN body) by (rewrite Lb; lia).
  pose proof (ext_read_written L BET_SIG ds file off body bt_key Hs eq_refl E5 Hds) as ER.
  cbv zeta in ER. 
  unfold bet_read. rewrite ER by (vm_compute; reflexivity). cbn [bind]. clear ER.
  destruct (table_crypt_prefix (concat (map le32 ws) ++ concat (map le32 flags) ++ table) hashes bt_key)
    as (hashes' & EC & Lh).
  { rewrite <- !app_assoc. fold body.
    destruct (N.eq_dec (lenN names) 0) as [Z|Z].
    - assert (Z2 : lenN body = 4 * (19 + lenN flags)).
      { rewrite Lb. unfold ds, tsize. rewrite Hhs, Z. rewrite N.mul_0_l.
        change (div_ceil 0 8) with 0. lia. }
      unfold lenN in Z2. replace (length body) with ((19 + length flags) * 4)%nat by lia.
      rewrite Nat.mod_mul by lia. lia.
    - pose proof (Nat.mod_upper_bound (length body) 4 ltac:(lia)).
      unfold lenN in E7, Hhs, Z. lia. }
  rewrite <- !app_assoc in EC. fold body in EC. rewrite EC.
  assert (Lb' : lenN (concat (map le32 ws) ++ concat (map le32 flags) ++ table ++ hashes') = ds).
  { assert (Lh' : lenN hashes' = hsize) by (unfold lenN in *; lia).
    rewrite !lenN_app, Lw, Lf, Lt, Lh'. unfold ds. lia. }
  rewrite Lb'. replace (ds <? 76) with false by (unfold ds; lia).
  assert (WF : cp < M32 /\ cs < M32 /\ cc < M32 /\ cf < M32 /\ iu < M32 /\ lenN flags < M32).
  { assert (B : forall f : bentry -> N, (forall e, In e bt -> f e < M32) -> bits_needed (max_of f bt) <= 32).
    { intros f Hf. apply bits_needed_le; [lia|]. apply N.le_lt_trans with (M32 - 1); [|reflexivity].
      apply max_of_bound. intros e He. specialize (Hf e He). lia. }
    rewrite Forall_forall in Hok.
    assert (cp <= 32) by (apply B; intros e He; apply (Hok e He)).
    assert (cs <= 32) by (apply B; intros e He; apply (Hok e He)).
    assert (cc <= 32) by (apply B; intros e He; apply (Hok e He)).
    assert (lenN flags < M32) by lia.
    assert (cf <= 32).
    { unfold cf. destruct flags; [lia|]. apply bits_needed_le; [lia|]. unfold M32 in *. lia. }
    unfold iu, M32. change (2 ^ 32) with 4294967296. unfold M32 in *. change (2 ^ 32) with 4294967296 in *. lia. }
  destruct WF as (W1 & W2 & W3 & W4 & W5 & W6).
  assert (W7 : cp + cs < M32 /\ cp + cs + cc < M32 /\ hsize < M32).
  { unfold iu in W5. unfold ds in E5. lia. }
  destruct W7 as (W7 & W8 & W9).
  set (rest := concat (map le32 flags) ++ table ++ hashes').
  assert (WA : forall i w, nth_error ws i = Some w -> w < M32 ->
             word_at (concat (map le32 ws) ++ rest) i = w) by (intros; now apply word_at_le32).
  rewrite (WA 18%nat _ eq_refl W6), (WA 1%nat _ eq_refl Hn32), (WA 3%nat _ eq_refl W5), (WA 17%nat _ eq_refl W9).
  rewrite (skipn_app_exact (concat (map le32 ws)) rest 76) by (rewrite concat_le32_length; reflexivity).
  fold tsize. unfold rest.
  assert (Hh8 : hsize / 8 = lenN names) by (rewrite Hhs, N.mul_comm; apply N.div_mul; lia).
  rewrite Hh8. 
  assert (S1 : slice 0 (lenN flags * 4) (concat (map le32 flags) ++ table ++ hashes') = Some (concat (map le32 flags))).
  { rewrite <- Lf. apply (slice_mid [] (concat (map le32 flags))). }
  rewrite S1. cbn [of_option bind].
  assert (S2 : slice (lenN flags * 4) tsize (concat (map le32 flags) ++ table ++ hashes') = Some table).
  { rewrite <- Lf. now apply slice_at. }
  rewrite S2. cbn [of_option bind].
  assert (S3 : slice (lenN flags * 4 + tsize) (lenN names * 8) (concat (map le32 flags) ++ table ++ hashes') = Some hashes').
  { rewrite <- Lf, <- Lt, <- lenN_app. rewrite app_assoc.
    rewrite <- (app_nil_r ((concat (map le32 flags) ++ table) ++ hashes')), <- app_assoc.
    apply slice_at. unfold lenN. rewrite Lh. unfold lenN in E7, Hhs. lia. }
  rewrite S3. cbn [of_option bind].
  eexists. split; [reflexivity|]. unfold bet_is. cbv zeta.
  cbn [bet_count bet_entry_bits ix_pos ix_size ix_csize ix_flag ct_pos ct_size ct_csize ct_flag
       bet_flag_count bet_flags bet_table]. fold flags cp cs cc. fold cf. fold iu. fold rest.
  rewrite (WA 4%nat _ eq_refl eq_refl), (WA 5%nat _ eq_refl W1), (WA 6%nat _ eq_refl W7), (WA 7%nat _ eq_refl W8),
    (WA 9%nat _ eq_refl W1), (WA 10%nat _ eq_refl W2), (WA 11%nat _ eq_refl W3), (WA 12%nat _ eq_refl W4).
  split; [exact Hn|]. split; [reflexivity|]. split; [auto|]. split; [auto|].
  split; [reflexivity|]. split; [exact W6|]. split.
  - unfold lenN. rewrite Nat2N.id. rewrite <- (app_nil_r (concat (map le32 flags))).
    apply le_values_le32. now apply flag_array_ok.
  - rewrite <- Hn. fold tsize. split; [exact Lt|exact E3].
Qed.

(** An entry whose eight bytes lie in the table is read back. *)
Lemma bet_get_ok b bt m e :
  bet_is b bt -> nth_error bt m = Some e ->
  let iu := bet_entry_bits b in
  iu < 64 -> N.of_nat m * iu mod 8 + iu <= 64 -> N.of_nat m * iu / 8 + 8 <= lenN (bet_table b) ->
  bet_get b (N.of_nat m) = Ok (Some (mkBI (be_pos e) (be_size e) (be_csize e) (be_flags e))).
Proof.
  intros HB He iu. unfold bet_is in HB.
  set (flags := flag_array bt) in *.
  set (cp := bits_needed (max_of be_pos bt)) in *.
  set (cs := bits_needed (max_of be_size bt)) in *.
  set (cc := bits_needed (max_of be_csize bt)) in *.
  set (cf := match flags with [] => 0 | _ => bits_needed (lenN flags - 1) end) in *.
  cbv zeta in HB.
  destruct HB as (Hc & Hiu & (I1 & I2 & I3 & I4) & (C1 & C2 & C3 & C4) & Fc & F32 & Fl & Lt & HF).
  fold iu in Hiu. intros H64 Hsh Hroom.
  assert (Hin : In e bt) by (eapply nth_error_In; eauto).
  assert (Hle : iu <= 64) by lia. rewrite <- Hiu in HF.
  destruct (bet_fill_bits _ _ _ _ _ _ _ _ _ Hle HF) as (_ & _ & HB).
  destruct (HB m e He) as (fi & Efi & _ & _ & _ & Hbits). cbv zeta in Hbits. rewrite N.add_0_l in Hbits.
  destruct (index_of_spec (be_flags e) flags 0 (flag_array_in _ _ Hin)) as (k & Ek & Hk & Hkl).
  rewrite N.add_0_l in Ek. rewrite Ek in Efi. injection Efi as <-.
  assert (Hm : N.of_nat m < lenN bt).
  { unfold lenN. assert (m < length bt)%nat by (apply nth_error_Some; congruence). lia. }
  unfold bet_get. rewrite Hc. replace (lenN bt <=? N.of_nat m) with false by lia.
  destruct (bet_entry b (N.of_nat m)) as [[v|]| |] eqn:Ee.
  2,3,4: exfalso; unfold bet_entry in Ee; fold iu in Ee;
    replace (lenN (bet_table b) <? N.of_nat m * iu / 8 + 8) with false in Ee by lia;
    destruct (slice _ _ _) eqn:Es in Ee;
    [unfold mask_chk in Ee; replace (iu <? 64) with true in Ee by lia; discriminate Ee
    |apply slice_None in Es; lia].
  cbn [bind]. destruct (bet_entry_reads _ _ _ Ee) as (_ & Hv). fold iu in Hv.
  assert (P1 : be_pos e < 2 ^ cp).
  { eapply N.le_lt_trans; [apply (max_of_le be_pos _ _ Hin)|apply bits_needed_spec]. }
  assert (P2 : be_size e < 2 ^ cs).
  { eapply N.le_lt_trans; [apply (max_of_le be_size _ _ Hin)|apply bits_needed_spec]. }
  assert (P3 : be_csize e < 2 ^ cc).
  { eapply N.le_lt_trans; [apply (max_of_le be_csize _ _ Hin)|apply bits_needed_spec]. }
  assert (P4 : k < 2 ^ cf).
  { unfold cf. assert (k <= lenN flags - 1) by lia. destruct flags; [unfold lenN in Hkl; cbn in Hkl; lia|].
    eapply N.le_lt_trans; [eassumption|apply bits_needed_spec]. }
  assert (V : forall j, j < iu -> N.testbit v j =
     if j <? cp then N.testbit (be_pos e) j
     else if j <? cp + cs then N.testbit (be_size e) (j - cp)
     else if j <? cp + cs + cc then N.testbit (be_csize e) (j - (cp + cs))
     else N.testbit k (j - (cp + cs + cc))).
  { intros j Hj. rewrite Hv, Hbits by lia.
    replace (j <? iu) with true by lia. replace (N.of_nat m * iu mod 8 + j <? 64) with true by lia.
    cbn [andb]. apply packed_bits; auto. lia. }
  assert (X1 : 1 <= cp /\ 1 <= cs /\ 1 <= cc) by (repeat split; apply bits_needed_pos).
  assert (X2 : 1 <= cf).
  { unfold cf. destruct flags; [unfold lenN in Hkl; cbn in Hkl; lia|apply bits_needed_pos]. }
  rewrite I1, I2, I3, I4, C1, C2, C3, C4, Fc, Fl.
  rewrite (extract_field v 0 cp (be_pos e)); [|lia|lia|exact P1|].
  2:{ intros j Hj. rewrite N.add_0_l, V by lia. now replace (j <? cp) with true by lia. }
  cbn [bind].
  rewrite (extract_field v cp cs (be_size e)); [|lia|lia|exact P2|].
  2:{ intros j Hj. rewrite V by lia. replace (cp + j <? cp) with false by lia.
      replace (cp + j <? cp + cs) with true by lia. f_equal. lia. }
  cbn [bind].
  rewrite (extract_field v (cp + cs) cc (be_csize e)); [|lia|lia|exact P3|].
  2:{ intros j Hj. rewrite V by lia. replace (cp + cs + j <? cp) with false by lia.
      replace (cp + cs + j <? cp + cs) with false by lia.
      replace (cp + cs + j <? cp + cs + cc) with true by lia. f_equal. lia. }
  cbn [bind].
  rewrite (extract_field v (cp + cs + cc) cf k); [|lia|lia|exact P4|].
  2:{ intros j Hj. rewrite V by lia. replace (cp + cs + cc + j <? cp) with false by lia.
      replace (cp + cs + cc + j <? cp + cs) with false by lia.
      replace (cp + cs + cc + j <? cp + cs + cc) with false by lia. f_equal. lia. }
  cbn [bind]. rewrite w32_small by lia. replace (k <? lenN flags) with true by lia.
  rewrite Hk. reflexivity.
Qed.

(** An entry whose eight bytes reach past the table is not found. *)
Lemma bet_get_short b i :
  lenN (bet_table b) < i * bet_entry_bits b / 8 + 8 -> bet_get b i = Ok None.
Proof.
  intros H. unfold bet_get. destruct (_ <=? i); [reflexivity|]. unfold bet_entry.
  replace (lenN (bet_table b) <? i * bet_entry_bits b / 8 + 8) with true by lia. reflexivity.
Qed.

(** With entries of fewer than 50 bits that is the fate of the last one. *)
Lemma bet_last_lost b bt :
  bet_is b bt -> bt <> [] -> bet_entry_bits b < 50 -> bet_get b (lenN bt - 1) = Ok None.
Proof.
  intros HB Hn H50. unfold bet_is in HB. cbv zeta in HB.
  destruct HB as (_ & Hiu & _ & _ & _ & _ & _ & Lt & _).
  apply bet_get_short. rewrite <- Hiu in Lt. rewrite Lt. set (iu := bet_entry_bits b) in *.
  assert (Hl : lenN bt = lenN bt - 1 + 1) by (destruct bt; [congruence|rewrite lenN_cons; lia]).
  set (n := lenN bt - 1) in *. rewrite Hl. rewrite N.mul_add_distr_r, N.mul_1_l.
  pose proof (div_ceil_8 (n * iu + iu)).
  pose proof (N.div_mod' (n * iu) 8). pose proof (N.mod_lt (n * iu) 8 ltac:(lia)). lia.
Qed.

(** ** The HET table *)
Definition het_is (h : het) (n : N) : Prop :=
  exists k, let hb := bits_needed (2 ^ k) in let ib := bits_needed n in
  k = N.log2_up (2 * n) /\
  het_max h = n /\ het_hash_bits h = hb /\ het_index_bits h = ib /\
  het_table_bytes h = div_ceil (2 ^ k * hb) 8 /\ 8 * het_table_bytes h < M32 /\
  lenN (het_hashes h) = het_table_bytes h.

(** From five entries on the hashes that are read are the bytes written: the bytes that decryption
    leaves garbled lie behind them. *)
Definition het_rows (h : het) (names : list bytes) : Prop :=
  let n := lenN names in let k := N.log2_up (n * 2) in
  let hb := bits_needed (2 ^ k) in let ib := bits_needed n in
  2 ^ k * (hb + ib) < M32 /\
  exists table, het_fill names 0 (repeat false (N.to_nat (2 ^ k))) (zeros (div_ceil (2 ^ k * (hb + ib)) 8)) (2 ^ k) hb ib = Ok table /\
    (4 < n -> slice 0 (het_table_bytes h) table = Some (het_hashes h)).

Lemma het_fill_length names : forall i used table entries hb ib table',
  het_fill names i used table entries hb ib = Ok table' -> lenN table' = lenN table.
Proof.
  induction names as [|n rest IH]; intros i used table entries hb ib table' H; cbn [het_fill] in H.
  - apply Ok_inj in H. congruence.
  - destruct (het_slot _ _ _ _ _) as [slot| |]; cbn [bind] in H; try discriminate.
    destruct (mask_chk hb) as [hm| |]; cbn [bind] in H; try discriminate.
    destruct (shl64 i hb) as [hi| |]; cbn [bind] in H; try discriminate.
    destruct (write_bit_entry _ _ _ _) as [u| |] eqn:E; cbn [bind] in H; try discriminate.
    apply IH in H. apply write_bit_entry_length in E. congruence.
Qed.

Lemma div_ceil_mono a b : a <= b -> div_ceil a 8 <= div_ceil b 8.
Proof. intros H. unfold div_ceil. apply N.div_le_mono; lia. Qed.

Lemma het_written L m names d out file off :
  create_het_table names = Ok d -> write_ext_table L false m d ht_key = Ok out ->
  slice off (lenN out) file = Some out -> lenN names < M32 ->
  exists h, het_read L file off (lenN out) ht_key = Ok h /\ (het_is h (lenN names) /\ het_rows h names).
Proof.
  intros HC HW Hs Hn32. unfold create_het_table in HC.
  rewrite (w32_small _ Hn32) in HC. set (n := lenN names) in *.
  destruct (chk32 (n * 2)) as [c2| |] eqn:E0; cbn [bind] in HC; try discriminate.
  apply chk32_ok in E0 as [-> E0]. unfold next_pow2_chk in HC.
  destruct (chk32 (next_power_of_two (n * 2))) as [en| |] eqn:E1; cbn [bind] in HC; try discriminate.
  apply chk32_ok in E1 as [-> E1].
  unfold next_power_of_two in HC, E1. set (k := N.log2_up (n * 2)) in *.
  cbv zeta in HC. set (hb := bits_needed (2 ^ k)) in *. set (ib := bits_needed n) in *.
  destruct (chk32 (2 ^ k * hb)) as [tb0| |] eqn:E2; cbn [bind] in HC; try discriminate.
  apply chk32_ok in E2 as [-> E2].
  destruct (chk32 (2 ^ k * (hb + ib))) as [at_| |] eqn:E3; cbn [bind] in HC; try discriminate.
  apply chk32_ok in E3 as [-> E3].
  destruct (chk32 (2 ^ k * ib)) as [ti| |] eqn:E4; cbn [bind] in HC; try discriminate.
  apply chk32_ok in E4 as [-> E4].
  set (tb := div_ceil (2 ^ k * hb) 8) in *. set (actual := div_ceil (2 ^ k * (hb + ib)) 8) in *.
  set (idx := div_ceil (2 ^ k * ib) 8) in *.
  assert (Hta : tb <= actual) by (apply div_ceil_mono, N.mul_le_mono_l; lia).
  destruct (het_fill _ _ _ _ _ _ _) as [table| |] eqn:E5; cbn [bind] in HC; try discriminate.
  pose proof E5 as E5'. apply het_fill_length in E5. rewrite zeros_length in E5.
  destruct (chk32 (32 + tb + idx)) as [ds| |] eqn:E6; cbn [bind] in HC; try discriminate.
  apply chk32_ok in E6 as [-> E6].
  destruct (chk32 (12 + _)) as [ts| |] eqn:E7; cbn [bind] in HC; try discriminate.
  apply chk32_ok in E7 as [-> E7].
  apply Ok_inj in HC. set (ds := 32 + tb + idx) in *.
  set (ws := [12 + ds; n; tb; hb; 2 ^ k * ib; 0; ib; 0]).
  set (tail := table ++ zeros idx) in HC.
  set (body := concat (map le32 ws) ++ tail).
  assert (HD : d = (le32 HET_SIG ++ le32 1 ++ le32 ds) ++ body).
  { rewrite <- HC. unfold body, ws. cbn [map concat]. rewrite <- !app_assoc. cbn [app]. reflexivity. }
  assert (Lw : lenN (concat (map le32 ws)) = 32).
  { unfold lenN. rewrite concat_le32_length. reflexivity. }
  assert (Ltail : lenN tail = actual + idx) by (unfold tail; rewrite lenN_app, zeros_length; lia).
  assert (Lb : lenN body = 32 + actual + idx) by (unfold body; rewrite lenN_app; lia).
  unfold write_ext_table in HW. rewrite HD in HW.
  rewrite lenN_app in HW.
  replace (lenN (le32 HET_SIG ++ le32 1 ++ le32 ds)) with 12 in HW
    by (unfold lenN; rewrite !app_length, !le32_length; reflexivity).
  replace (12 + lenN body <? 12) with false in HW by lia. cbn [bind] in HW.
  rewrite firstn_app_exact, skipn_app_exact in HW by reflexivity.
  apply Ok_inj in HW. subst out.
  assert (Hds : ds <= lenN body) by (rewrite Lb; unfold ds; lia).
  pose proof (ext_read_written L HET_SIG ds file off body ht_key Hs eq_refl E6 Hds) as ER.
  cbv zeta in ER.
  unfold het_read. rewrite ER by (vm_compute; reflexivity). cbn [bind]. clear ER.
  destruct (table_crypt_prefix (concat (map le32 ws)) tail ht_key) as (tail' & EC & Lt').
  { rewrite app_length. unfold lenN in Lw. replace (length (concat (map le32 ws))) with (8 * 4)%nat by lia.
    rewrite Nat.add_comm, Nat.mod_add by lia. apply Nat.mod_le. lia. }
  fold body in EC. rewrite EC.
  assert (Ltail' : lenN tail' = actual + idx) by (unfold lenN in *; lia).
  rewrite lenN_app, Lw, Ltail'. replace (32 + (actual + idx) <? 32) with false by lia.
  assert (Hk32 : k <= 32).
  { apply N.le_ngt. intros C. unfold M32 in E1.
    assert (2 ^ 32 < 2 ^ k) by (apply N.pow_lt_mono_r; lia). lia. }
  assert (Hhb : 1 <= hb <= 33).
  { split; [apply bits_needed_pos|]. apply bits_needed_le; [lia|]. apply N.pow_lt_mono_r; lia. }
  assert (Hib : 1 <= ib <= 32) by (split; [apply bits_needed_pos|apply bits_needed_le; [lia|exact Hn32]]).
  assert (WA : forall i w, nth_error ws i = Some w -> w < M32 ->
             word_at (concat (map le32 ws) ++ tail') i = w) by (intros; now apply word_at_le32).
  assert (Htb32 : tb < M32) by (unfold ds in E6; lia).
  assert (Hhb32 : hb < M32) by (unfold M32; change (2 ^ 32) with 4294967296; lia).
  assert (Hib32 : ib < M32) by (unfold M32; change (2 ^ 32) with 4294967296; lia).
  rewrite (WA 2%nat _ eq_refl Htb32), (WA 4%nat _ eq_refl E4). fold idx.
  replace (32 + (actual + idx) <? 32 + tb + idx) with false by lia.
  destruct (slice 32 tb (concat (map le32 ws) ++ tail')) as [hs|] eqn:S1.
  2:{ apply slice_None in S1. rewrite lenN_app, Lw, Ltail' in S1. lia. }
  destruct (slice (32 + tb) idx (concat (map le32 ws) ++ tail')) as [is_|] eqn:S2.
  2:{ apply slice_None in S2. rewrite lenN_app, Lw, Ltail' in S2. lia. }
  assert (HR : 4 < n -> exists y', tail' = table ++ y').
  { intros H4. destruct (table_crypt_prefix (concat (map le32 ws) ++ table) (zeros idx) ht_key) as (y' & EC' & _).
    - assert (Hi : 3 <= lenN (zeros idx)).
      { rewrite zeros_length. pose proof (div_ceil_8 (2 ^ k * ib)) as D. fold idx in D.
        assert (Hk3 : 2 ^ 3 < 2 ^ k).
        { apply N.lt_le_trans with (n * 2); [change (2 ^ 3) with 8; lia|]. apply N.log2_up_spec. lia. }
        assert (Hi3 : 3 <= ib).
        { apply N.nlt_ge. intros C. pose proof (bits_needed_spec n) as B. fold ib in B.
          assert (2 ^ ib <= 2 ^ 2) by (apply N.pow_le_mono_r; lia). change (2 ^ 2) with 4 in *. lia. }
        change (2 ^ 3) with 8 in Hk3. assert (9 * 3 <= 2 ^ k * ib) by (apply N.mul_le_mono; lia). lia. }
      pose proof (Nat.mod_upper_bound (length ((concat (map le32 ws) ++ table) ++ zeros idx)) 4 ltac:(lia)).
      unfold lenN in Hi. lia.
    - exists y'. apply (app_inv_head (concat (map le32 ws))). rewrite <- EC. unfold body, tail. rewrite app_assoc, EC', <- app_assoc. reflexivity. }
  eexists. split; [reflexivity|]. split; [|unfold het_rows; fold n; fold k; fold hb; fold ib; cbn [het_table_bytes het_hashes];
    split; [exact E3|]; exists table; split; [exact E5'|]; intros H4].
  2:{ destruct (HR H4) as (y' & ->). destruct (slice 0 tb table) as [u|] eqn:S3; [|apply slice_None in S3; lia].
      pose proof (slice_app_r 0 tb (concat (map le32 ws)) (table ++ y') u (slice_app_l 0 tb table y' u S3)) as X.
      rewrite Lw, N.add_0_r, S1 in X. congruence. }
  exists k. cbv zeta.
  cbn [het_max het_hash_bits het_index_bits het_table_bytes het_hashes].
  rewrite (WA 1%nat _ eq_refl Hn32), (WA 3%nat _ eq_refl Hhb32), (WA 6%nat _ eq_refl Hib32).
  split; [unfold k; f_equal; lia|]. do 4 (split; [reflexivity|]). split.
  - destruct (N.lt_ge_cases k 3) as [C|C].
    + assert (2 ^ k <= 2 ^ 2) by (apply N.pow_le_mono_r; lia).
      assert (2 ^ k * hb <= 2 ^ 2 * 33) by (apply N.mul_le_mono; lia).
      pose proof (div_ceil_8 (2 ^ k * hb)). fold tb in H1. unfold M32. change (2 ^ 32) with 4294967296.
      change (2 ^ 2) with 4 in *. lia.
    + pose proof (div_ceil_8 (2 ^ k * hb)) as H1. fold tb in H1.
      replace k with (3 + (k - 3)) in H1, E2 by lia. rewrite N.pow_add_r in H1, E2.
      change (2 ^ 3) with 8 in H1, E2.
      set (q := 2 ^ (k - 3)) in *. rewrite <- N.mul_assoc in H1, E2. lia.
  - exact (slice_length _ _ _ _ S1).
Qed.

(** Looking up never fails, and finds nothing in tables of fewer than eight
    bytes. *)
Lemma het_find_total h n name : het_is h n ->
  het_find h name = Ok None \/ het_find h name = Ok (Some 0).
Proof.
  intros (k & Hk & Hmax & Hhb & Hib & Htb & H32 & Hlen). unfold het_find.
  assert (Hb1 : 1 <= het_hash_bits h) by (rewrite Hhb; apply bits_needed_pos).
  assert (Hb64 : het_hash_bits h < 64).
  { rewrite Hhb. apply N.le_lt_trans with 33; [|lia]. apply bits_needed_le; [lia|].
    apply N.pow_lt_mono_r; [lia|]. apply N.nle_gt. intros C.
    assert (2 ^ 33 <= 2 ^ k) by (apply N.pow_le_mono_r; lia).
    assert (2 ^ 33 * 1 <= 2 ^ k * het_hash_bits h) by (apply N.mul_le_mono; lia).
    pose proof (div_ceil_8 (2 ^ k * het_hash_bits h)) as D. rewrite Hhb in D at 1 2 3 4.
    rewrite <- Htb in D. rewrite <- Hhb in D. unfold M32 in H32. change (2 ^ 32) with 4294967296 in H32.
    change (2 ^ 33) with 8589934592 in *. lia. }
  unfold chk32. replace (het_table_bytes h * 8 <? M32) with true by lia. cbn [bind].
  replace (het_hash_bits h =? 0) with false by lia.
  assert (Hent : het_table_bytes h * 8 / het_hash_bits h <> 0).
  { intros C. apply N.div_small_iff in C; [|lia].
    pose proof (div_ceil_8 (2 ^ k * bits_needed (2 ^ k))) as D. rewrite <- Htb in D.
    rewrite <- Hhb in D. assert (2 ^ k <> 0) by (apply N.pow_nonzero; lia).
    assert (1 * het_hash_bits h <= 2 ^ k * het_hash_bits h) by (apply N.mul_le_mono_r; lia). lia. }
  destruct (N.eqb_spec (het_table_bytes h * 8 / het_hash_bits h) 0) as [C|_]; [congruence|].
  destruct (het_entry h _) as [e|] eqn:Ee; [|left; reflexivity].
  destruct (negb _); [left; reflexivity|].
  unfold shr64. replace (het_hash_bits h <? 64) with true by lia. cbn [bind].
  unfold het_entry in Ee. destruct (slice _ _ _) as [s|]; [|discriminate]. injection Ee as <-.
  rewrite shiftr_land_mask, N.land_0_l. destruct (_ <=? 0); [left|right]; reflexivity.
Qed.

Lemma het_find_small h n name : het_is h n -> n <= 4 -> het_find h name = Ok None.
Proof.
  intros HI Hn. pose proof HI as (k & Hk & Hmax & Hhb & Hib & Htb & H32 & Hlen).
  assert (Hs : het_table_bytes h < 8).
  { rewrite Htb. assert (Hc : n = 0 \/ n = 1 \/ n = 2 \/ n = 3 \/ n = 4) by lia.
    destruct Hc as [->|[->|[->|[->| ->]]]]; rewrite Hk; vm_compute; reflexivity. }
  destruct (het_find_total h n name HI) as [E|E]; [exact E|exfalso].
  unfold het_find in E. destruct (chk32 _); cbn [bind] in E; try discriminate.
  destruct (_ =? 0) in E; [discriminate|]. destruct (_ =? 0) in E; [discriminate|].
  unfold het_entry in E. destruct (slice _ _ _) as [s|] eqn:Es; [|discriminate].
  assert (Hx := Es). unfold slice in Hx. destruct (N.leb_spec (N.land (jenkins_hash name)
        (a / het_hash_bits h - 1) * het_hash_bits h / 8 + 8) (lenN (het_hashes h))); [lia|discriminate].
Qed.
