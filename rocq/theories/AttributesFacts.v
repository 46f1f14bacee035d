(** * Attributes: the parser on arbitrary data, and the round trip. *)
From Verif Require Import Bytes Attributes SpecAttributes.
Open Scope N_scope.

(** ** Flags *)
Lemma a_has_bit flags k : a_has flags (2 ^ k) = N.testbit flags k.
Proof.
  unfold a_has. destruct (N.eqb_spec (N.land flags (2 ^ k)) 0) as [E|E]; cbn [negb].
  - apply (f_equal (fun x => N.testbit x k)) in E.
    rewrite N.land_spec, N.pow2_bits_true, andb_true_r, N.bits_0 in E. now rewrite E.
  - destruct (N.testbit flags k) eqn:B; [reflexivity|]. exfalso. apply E. apply N.bits_inj. intros j.
    rewrite N.land_spec, N.bits_0, N.pow2_bits_eqb. destruct (N.eqb_spec k j) as [->|]; [now rewrite B|].
    apply andb_false_r.
Qed.
Lemma has_flags flags : a_has flags A_CRC32 = has_crc flags /\ a_has flags A_FILETIME = has_time flags /\
  a_has flags A_MD5 = has_md5 flags /\ a_has flags A_PATCH = has_patch flags.
Proof.
  change A_CRC32 with (2 ^ 0). change A_FILETIME with (2 ^ 1). change A_MD5 with (2 ^ 2).
  change A_PATCH with (2 ^ 3). rewrite !a_has_bit. auto.
Qed.

Lemma attr_size_whole flags n : n < 2 ^ 59 -> attr_size flags n = Ok (whole_size flags n).
Proof.
  intros Hn. unfold attr_size. destruct (has_flags flags) as (-> & -> & -> & ->).
  assert (E : 8 + if_n (has_crc flags) (n * 4) + if_n (has_time flags) (n * 8)
     + if_n (has_md5 flags) (n * 16) + if_n (has_patch flags) (div_ceil n 8) = whole_size flags n).
  { unfold whole_size, patch_start, md5_start, time_start, crc_start, if_n, div_ceil.
    replace (n + 8 - 1) with (n + 7) by lia.
    destruct (has_crc flags), (has_time flags), (has_md5 flags), (has_patch flags); lia. }
  rewrite E. replace (whole_size flags n <? M64) with true; [reflexivity|]. symmetry. apply N.ltb_lt.
  rewrite <- E. assert (div_ceil n 8 <= n + 1).
  { unfold div_ceil. apply N.div_le_upper_bound; lia. }
  unfold if_n, M64. change (2 ^ 64) with 18446744073709551616. change (2 ^ 59) with 576460752303423488 in Hn.
  destruct (has_crc flags), (has_time flags), (has_md5 flags), (has_patch flags); lia.
Qed.

(** ** Columns *)
Lemma take_ok k d : (k <= length d)%nat -> take k d = Ok (firstn k d, skipn k d).
Proof. intros H. unfold take. destruct (Nat.ltb_spec (length d) k); [lia|reflexivity]. Qed.
Lemma take_app a d k : length a = k -> take k (a ++ d) = Ok (a, d).
Proof.
  intros <-. rewrite take_ok by (rewrite app_length; lia).
  rewrite firstn_app, skipn_app, Nat.sub_diag, firstn_all, skipn_all. cbn. now rewrite app_nil_r.
Qed.

Lemma skipn_add {A} (a b : nat) (d : list A) : skipn a (skipn b d) = skipn (b + a) d.
Proof.
  revert d. induction b as [|b IH]; intros d; [reflexivity|]. destruct d; [now rewrite !skipn_nil|]. cbn. apply IH.
Qed.

Lemma take_values_ok k : forall n d, (n * k <= length d)%nat ->
  exists vs, take_values k n d = Ok (vs, skipn (n * k) d) /\ length vs = n /\
    forall i, (i < n)%nat -> nth_error vs i = Some (firstn k (skipn (i * k) d)).
Proof.
  induction n as [|n IH]; intros d H; cbn [take_values].
  - exists []. split; [reflexivity|]. split; [reflexivity|]. intros i Hi. lia.
  - rewrite take_ok by lia. cbn [bind].
    destruct (IH (skipn k d)) as (vs & E & Hl & Hv). { rewrite skipn_length. lia. }
    rewrite E. cbn [bind]. eexists. split; [rewrite skipn_add; reflexivity|]. split; [cbn; lia|].
    intros [|i] Hi; cbn [nth_error]; [reflexivity|]. rewrite Hv by lia. rewrite skipn_add. reflexivity.
Qed.
Lemma take_values_app {A} (g : A -> bytes) k : (forall x, length (g x) = k) -> forall fs rest,
  take_values k (length fs) (concat (map g fs) ++ rest) = Ok (map g fs, rest).
Proof.
  intros Hg. induction fs as [|f fs IH]; intros rest; cbn [take_values length map concat]; [reflexivity|].
  rewrite <- app_assoc, take_app by apply Hg. cbn [bind]. rewrite IH. reflexivity.
Qed.

(** What is known of a column. *)
Definition column (present : bool) (k : nat) (off n : nat) (data : bytes) (v : option (list bytes)) : Prop :=
  if present then exists l, v = Some l /\
    forall i, (i < n)%nat -> nth_error l i = Some (firstn k (skipn (off + i * k) data))
  else v = None.
Definition width (b : bool) (k : nat) : nat := if b then k else 0%nat.

Lemma opt_values_ok present k n off data : (off + n * width present k <= length data)%nat ->
  exists v, opt_values present k n (skipn off data) = Ok (v, skipn (off + n * width present k) data) /\
    column present k off n data v.
Proof.
  intros H. unfold opt_values, column. destruct present; cbn [width] in *.
  - destruct (take_values_ok k n (skipn off data)) as (vs & E & _ & Hv). { rewrite skipn_length. lia. }
    rewrite E. cbn [bind]. eexists. split; [rewrite skipn_add; reflexivity|].
    exists vs. split; [reflexivity|]. intros i Hi. rewrite Hv by exact Hi. now rewrite skipn_add.
  - exists None. split; [|reflexivity]. do 3 f_equal. lia.
Qed.

Lemma val_at_column present k off n data v i : column present k off n data v -> (i < n)%nat ->
  val_at v i = Ok (if present then Some (firstn k (skipn (off + i * k) data)) else None).
Proof.
  unfold column. destruct present.
  - intros (l & -> & H) Hi. cbn [val_at]. now rewrite H.
  - intros -> _. reflexivity.
Qed.

(** ** The parser on arbitrary data *)
Lemma slice_firstn off k (data : bytes) : (N.to_nat off + k <= length data)%nat ->
  slice off (N.of_nat k) data = Some (firstn k (skipn (N.to_nat off) data)).
Proof.
  intros H. unfold slice. replace (off + N.of_nat k <=? lenN data) with true by (unfold lenN; lia).
  now rewrite Nat2N.id.
Qed.

Lemma bit_at_column (present : bool) off n data (i : nat) : (i < n)%nat ->
  (off + width present ((n + 7) / 8) <= length data)%nat ->
  exists o, bit_at (if present then Some (firstn ((n + 7) / 8) (skipn off data)) else None) i = Ok o /\
    bit_of present (N.of_nat off) (N.of_nat i) data o.
Proof.
  intros Hi H. destruct present; cbn [width bit_at bit_of] in *; [|eauto].
  assert (Hb : (i / 8 < (n + 7) / 8)%nat).
  { apply Nat.div_lt_upper_bound; [lia|]. 
    pose proof (Nat.div_mod (n + 7) 8 ltac:(lia)). pose proof (Nat.mod_upper_bound (n + 7) 8 ltac:(lia)). lia. }
  assert (Hlt : (off + i / 8 < length data)%nat) by lia.
  destruct (nth_error data (off + i / 8)) as [x|] eqn:Ex; [|apply nth_error_None in Ex; lia].
  assert (E : nth_error (firstn ((n + 7) / 8) (skipn off data)) (i / 8) = Some x).
  { rewrite <- Ex, <- (firstn_skipn ((n + 7) / 8) (skipn off data)) at 1.
    assert (Hf : nth_error (skipn off data) (i / 8) = nth_error data (off + i / 8)).
    { clear. revert data. induction off as [|o IH]; intros data; [reflexivity|].
      destruct data as [|y data]; [cbn [skipn]; destruct (i / 8)%nat; reflexivity|]. cbn. apply IH. }
    rewrite <- Hf. rewrite firstn_skipn. rewrite <- (firstn_skipn ((n + 7) / 8) (skipn off data)) at 2.
    rewrite nth_error_app1; [reflexivity|]. rewrite firstn_length, skipn_length. lia. }
  rewrite E. eexists. split; [reflexivity|]. exists x.
  replace (N.of_nat i / 8) with (N.of_nat (i / 8)) by (rewrite Nat2N.inj_div; reflexivity).
  replace (N.of_nat i mod 8) with (N.of_nat (i mod 8)) by (rewrite Nat2N.inj_mod; reflexivity).
  split; [|reflexivity]. rewrite <- Nat2N.inj_add. change 1 with (N.of_nat 1).
  rewrite slice_firstn by (rewrite Nat2N.id; lia). rewrite Nat2N.id. f_equal.
  clear - Ex. revert data Ex. induction (off + i / 8)%nat as [|m IH]; intros [|y data] Ex; cbn in *; try discriminate.
  - injection Ex as ->. reflexivity.
  - now apply IH.
Qed.

Lemma combine_all_ok crcs times md5s bits (P : nat -> fattr -> Prop) l :
  (forall i, In i l -> exists f, combine_attr crcs times md5s bits i = Ok f /\ P i f) ->
  exists fs, combine_all crcs times md5s bits l = Ok fs /\ Forall2 P l fs.
Proof.
  induction l as [|i l IH]; intros H; cbn [combine_all].
  - exists []. split; [reflexivity|constructor].
  - destruct (H i) as (f & E & Hf); [left; reflexivity|]. rewrite E. cbn [bind].
    destruct IH as (fs & E' & Hfs); [intros; apply H; now right|]. rewrite E'. cbn [bind].
    exists (f :: fs). split; [reflexivity|constructor; auto].
Qed.

Lemma Forall2_seq {A} (P : nat -> A -> Prop) n : forall s l, Forall2 P (seq s n) l ->
  length l = n /\ forall i x, nth_error l i = Some x -> P (s + i)%nat x.
Proof.
  induction n as [|n IH]; intros s l H; cbn [seq] in H; inversion H as [|? y ? l' Hy Hl]; subst.
  - split; [reflexivity|]. intros [|i] x E; discriminate.
  - apply IH in Hl as [E Hn]. split; [cbn; lia|]. intros [|i] x Ex; cbn in Ex.
    + injection Ex as <-. now rewrite Nat.add_0_r.
    + replace (s + S i)%nat with (S s + i)%nat by lia. now apply Hn.
Qed.

(** Either the data are refused as malformed, or they are long enough and every
    field is the one at its place. *)
Lemma attr_parse_total data n : n < 2 ^ 59 ->
  attr_parse data n = Err EInvalidFormat \/
  exists a s, attr_parse data n = Ok a /\ at_version a = 100 /\ slice 0 4 data = Some (le32 100) /\
    slice 4 4 data = Some s /\ at_flags a = le_dec s /\
    whole_size (at_flags a) n <= lenN data /\ lenN (at_files a) = n /\
    forall i f, nthN (at_files a) i = Some f -> file_at data (at_flags a) n i f.
Proof.
  intros Hn. unfold attr_parse.
  destruct (N.ltb_spec (lenN data) 8) as [C|C8]; [left; reflexivity|].
  rewrite take_ok by (unfold lenN in C8; lia). cbn [bind].
  destruct (N.eqb_spec (le_dec (firstn 4 data)) EXPECTED_VERSION) as [Ev|Ev]; cbn [negb]; [|left; reflexivity].
  rewrite take_ok by (rewrite skipn_length; unfold lenN in C8; lia). cbn [bind].
  set (s := firstn 4 (skipn 4 data)). set (flags := le_dec s).
  rewrite attr_size_whole by exact Hn. cbn [bind].
  destruct (N.ltb_spec (lenN data) (whole_size flags n)) as [C|Cw]; [left; reflexivity|].
  right. destruct (has_flags flags) as (Hc & Ht & Hm & Hp). rewrite Hc, Ht, Hm, Hp. clear Hc Ht Hm Hp Hn.
  set (cnt := N.to_nat n). rewrite skipn_add. change (4 + 4)%nat with 8%nat.
  assert (EN : N.of_nat cnt = n) by (unfold cnt; lia).
  assert (Hdc : N.to_nat (div_ceil n 8) = ((cnt + 7) / 8)%nat).
  { unfold div_ceil. replace (n + 8 - 1) with (N.of_nat (cnt + 7)) by lia.
    change 8 with (N.of_nat 8). rewrite <- Nat2N.inj_div. apply Nat2N.id. }
  set (o1 := (8 + cnt * width (has_crc flags) 4)%nat).
  set (o2 := (o1 + cnt * width (has_time flags) 8)%nat).
  set (o3 := (o2 + cnt * width (has_md5 flags) 16)%nat).
  assert (E1 : N.of_nat o1 = time_start flags n).
  { unfold o1, time_start, crc_start, width. destruct (has_crc flags); lia. }
  assert (E2 : N.of_nat o2 = md5_start flags n).
  { unfold o2, md5_start, width. rewrite <- E1. destruct (has_time flags); lia. }
  assert (E3 : N.of_nat o3 = patch_start flags n).
  { unfold o3, patch_start, width. rewrite <- E2. destruct (has_md5 flags); lia. }
  assert (Hd7 : N.of_nat ((cnt + 7) / 8) = (n + 7) / 8).
  { rewrite Nat2N.inj_div, Nat2N.inj_add, EN. reflexivity. }
  assert (Hw : (o3 + width (has_patch flags) ((cnt + 7) / 8) <= length data)%nat).
  { unfold whole_size in Cw. rewrite <- E3, <- Hd7 in Cw. unfold lenN in Cw. unfold width.
    destruct (has_patch flags); lia. }
  destruct (opt_values_ok (has_crc flags) 4 cnt 8 data) as (crcs & -> & K1); [fold o1; lia|]. cbn [bind]. fold o1.
  destruct (opt_values_ok (has_time flags) 8 cnt o1 data) as (times & -> & K2); [fold o2; lia|]. cbn [bind]. fold o2.
  destruct (opt_values_ok (has_md5 flags) 16 cnt o2 data) as (md5s & -> & K3); [fold o3; lia|]. cbn [bind]. fold o3.
  assert (Eb : exists bs, (if has_patch flags then '(b, _) <- take (N.to_nat (div_ceil n 8)) (skipn o3 data);; Ok (Some b) else Ok None) = Ok bs /\
     forall i, (i < cnt)%nat -> exists o, bit_at bs i = Ok o /\ bit_of (has_patch flags) (N.of_nat o3) (N.of_nat i) data o).
  { exists (if has_patch flags then Some (firstn ((cnt + 7) / 8) (skipn o3 data)) else None). split.
    - destruct (has_patch flags); [|reflexivity]. cbn [width] in Hw. rewrite Hdc, take_ok; [reflexivity|].
      rewrite skipn_length. lia.
    - intros i Hi. now apply bit_at_column with (n := cnt). }
  destruct Eb as (bs & Eb & Hbs). rewrite Eb. cbn [bind]. clear Eb.
  destruct (combine_all_ok crcs times md5s bs
    (fun i f => file_at data flags n (N.of_nat i) f) (seq 0 cnt)) as (fs & Efs & Hfs).
  { intros i Hi. apply in_seq in Hi. unfold combine_attr.
    rewrite (val_at_column _ _ _ _ _ _ i K1) by lia. cbn [bind].
    rewrite (val_at_column _ _ _ _ _ _ i K2) by lia. cbn [bind].
    rewrite (val_at_column _ _ _ _ _ _ i K3) by lia. cbn [bind].
    destruct (Hbs i) as (o & -> & Ho); [lia|]. cbn [bind].
    eexists. split; [reflexivity|]. unfold file_at. cbn [fa_crc fa_time fa_md5 fa_patch].
    assert (Hic : (i + 1 <= cnt)%nat) by lia.
    split; [|split; [|split]].
    - unfold number_at. destruct (has_crc flags); [|reflexivity]. cbn [option_map]. eexists. split; [|reflexivity].
      replace (crc_start + 4 * N.of_nat i) with (N.of_nat (8 + i * 4)) by (unfold crc_start; lia).
      change 4 with (N.of_nat 4). rewrite slice_firstn; rewrite Nat2N.id; [reflexivity|].
      unfold o3, o2, o1, width in Hw. lia.
    - unfold number_at. destruct (has_time flags); [|reflexivity]. cbn [option_map]. eexists. split; [|reflexivity].
      replace (time_start flags n + 8 * N.of_nat i) with (N.of_nat (o1 + i * 8)) by lia.
      change 8 with (N.of_nat 8). rewrite slice_firstn; rewrite Nat2N.id; [reflexivity|].
      unfold o3, o2, width in Hw. lia.
    - unfold bytes_at. destruct (has_md5 flags); [|reflexivity]. eexists. split; [|reflexivity].
      replace (md5_start flags n + 16 * N.of_nat i) with (N.of_nat (o2 + i * 16)) by lia.
      change 16 with (N.of_nat 16). rewrite slice_firstn; rewrite Nat2N.id; [reflexivity|].
      unfold o3, width in Hw. lia.
    - rewrite <- E3. exact Ho. }
  rewrite Efs. cbn [bind]. apply Forall2_seq in Hfs as [Hlen Hfs].
  exists (mkAttrs (le_dec (firstn 4 data)) flags fs), s. cbn [at_version at_flags at_files].
  split; [reflexivity|]. split; [exact Ev|]. split.
  { change 4 with (N.of_nat 4). rewrite slice_firstn by (unfold lenN in C8; cbn; lia). cbn [N.to_nat skipn].
    f_equal. unfold le32. change 100 with EXPECTED_VERSION. rewrite <- Ev.
    assert (E4 : length (firstn 4 data) = 4%nat) by (rewrite firstn_length; unfold lenN in C8; lia).
    pose proof (le_enc_dec (firstn 4 data)) as G. rewrite E4 in G. symmetry. exact G. }
  split. { change 4 with (N.of_nat 4). rewrite slice_firstn by (unfold lenN in C8; cbn; lia). reflexivity. }
  split; [reflexivity|]. split; [exact Cw|]. split; [unfold lenN; lia|].
  intros i f Hf. unfold nthN in Hf. destruct (i <? lenN fs); [|discriminate].
  apply Hfs in Hf. rewrite Nat.add_0_l, N2Nat.id in Hf. exact Hf.
Qed.

(** ** Serialising *)
Definition bitv (bits : bytes) (j : nat) : bool := N.testbit (bN (nth (j / 8) bits x00)) (N.of_nat (j mod 8)).

Lemma nth_upd {A} (l : list A) i x j d : (i < length l)%nat ->
  nth j (upd l i x) d = if (j =? i)%nat then x else nth j l d.
Proof.
  revert i j. induction l as [|y l IH]; intros [|i] [|j] H; cbn in *; try lia; try reflexivity.
  apply IH. lia.
Qed.

Lemma bN_lor_pow2 b k : (k < 8)%nat -> bN (Nb (N.lor (bN b) (N.shiftl 1 (N.of_nat k)))) = N.lor (bN b) (2 ^ N.of_nat k).
Proof.
  intros H. rewrite bN_Nb, N.shiftl_1_l. apply N.mod_small.
  pose proof (bN_lt b). 
  assert (N.of_nat k < 8) by lia.
  destruct (N.eq_dec (N.lor (bN b) (2 ^ N.of_nat k)) 0) as [->|Hz]; [lia|].
  change 256 with (2 ^ 8). apply N.log2_lt_pow2; [lia|].
  rewrite N.log2_lor. apply N.max_lub_lt.
  - destruct (N.eq_dec (bN b) 0) as [->|]; [cbn; lia|]. apply N.log2_lt_pow2; [lia|exact H0].
  - rewrite N.log2_pow2; lia.
Qed.

Lemma set_bits_ok l : forall i bits, (i + length l <= 8 * length bits)%nat ->
  exists bits', set_bits l i bits = Ok bits' /\ length bits' = length bits /\
    forall j, bitv bits' j = bitv bits j || ((i <=? j)%nat && nth (j - i) l false).
Proof.
  induction l as [|b l IH]; intros i bits H; cbn [set_bits length] in *.
  - exists bits. split; [reflexivity|]. split; [reflexivity|]. intros j.
    destruct (j - i)%nat; cbn; now rewrite andb_false_r, orb_false_r.
  - assert (Hi : (i / 8 < length bits)%nat) by (apply Nat.div_lt_upper_bound; lia).
    assert (Hm : (i mod 8 < 8)%nat) by (apply Nat.mod_upper_bound; lia).
    assert (G : forall c j, bitv bits j || ((i =? j)%nat && c) || ((S i <=? j)%nat && nth (j - S i) l false)
               = bitv bits j || ((i <=? j)%nat && nth (j - i) (c :: l) false)).
    { intros c j. rewrite <- orb_assoc. f_equal. destruct (Nat.lt_trichotomy i j) as [C|[<-|C]].
      - replace (i =? j)%nat with false by (symmetry; apply Nat.eqb_neq; lia).
        replace (S i <=? j)%nat with true by (symmetry; apply Nat.leb_le; lia).
        replace (i <=? j)%nat with true by (symmetry; apply Nat.leb_le; lia).
        replace (j - i)%nat with (S (j - S i)) by lia. reflexivity.
      - rewrite Nat.eqb_refl, Nat.leb_refl, Nat.sub_diag.
        replace (S i <=? i)%nat with false by (symmetry; apply Nat.leb_gt; lia). cbn. apply orb_false_r.
      - replace (i =? j)%nat with false by (symmetry; apply Nat.eqb_neq; lia).
        replace (S i <=? j)%nat with false by (symmetry; apply Nat.leb_gt; lia).
        replace (i <=? j)%nat with false by (symmetry; apply Nat.leb_gt; lia). reflexivity. }
    destruct b.
    + destruct (nth_error bits (i / 8)) as [x|] eqn:E; [|apply nth_error_None in E; lia]. cbn [bind].
      destruct (IH (S i) (upd bits (i / 8) (Nb (N.lor (bN x) (N.shiftl 1 (N.of_nat (i mod 8)))))))
        as (bits' & E' & Hl & Hb); [rewrite upd_length; lia|].
      exists bits'. split; [exact E'|]. split; [rewrite Hl; apply upd_length|].
      intros j. rewrite Hb. rewrite <- (G true j). f_equal. rewrite andb_true_r.
      unfold bitv. rewrite nth_upd by exact Hi. apply (nth_error_nth _ _ x00) in E.
      destruct (Nat.eqb_spec (j / 8) (i / 8)) as [C|C].
      * rewrite bN_lor_pow2 by exact Hm. rewrite N.lor_spec, N.pow2_bits_eqb, C, E. f_equal.
        pose proof (Nat.div_mod i 8 ltac:(lia)). pose proof (Nat.div_mod j 8 ltac:(lia)).
        destruct (Nat.eqb_spec i j) as [->|D]; [apply N.eqb_refl|]. apply N.eqb_neq. lia.
      * replace (i =? j)%nat with false; [now rewrite orb_false_r|]. symmetry. apply Nat.eqb_neq. congruence.
    + cbn [bind]. destruct (IH (S i) bits) as (bits' & E' & Hl & Hb); [lia|].
      exists bits'. split; [exact E'|]. split; [exact Hl|]. intros j. rewrite Hb. rewrite <- (G false j).
      now rewrite andb_false_r, orb_false_r.
Qed.

Lemma zeros_bit n j : bitv (zeros n) j = false.
Proof.
  unfold bitv. assert (nth (j / 8) (zeros n) x00 = x00) as ->.
  { unfold zeros. destruct (Nat.lt_ge_cases (j / 8) (N.to_nat n)) as [C|C].
    - apply (repeat_spec (N.to_nat n) x00). apply nth_In. now rewrite repeat_length.
    - apply nth_overflow. rewrite repeat_length. exact C. }
  apply N.bits_0.
Qed.

(** The record that the parser gives for a serialised record: announced fields
    with a default where missing, nothing else. *)
Definition shown (flags : N) (f : fattr) : fattr :=
  mkFA (if has_crc flags then Some (dflt 0 (fa_crc f)) else None)
       (if has_time flags then Some (dflt 0 (fa_time f)) else None)
       (if has_md5 flags then Some (dflt (repeat x00 16) (fa_md5 f)) else None)
       (if has_patch flags then Some (dflt false (fa_patch f)) else None).

Lemma combine_all_map crcs times md5s bits (g : nat -> fattr) l :
  (forall i, In i l -> combine_attr crcs times md5s bits i = Ok (g i)) ->
  combine_all crcs times md5s bits l = Ok (map g l).
Proof.
  induction l as [|i l IH]; intros H; cbn [combine_all map]; [reflexivity|].
  rewrite H by (left; reflexivity). cbn [bind]. rewrite IH; [reflexivity|]. intros; apply H; now right.
Qed.

Lemma map_nth_seq {A B} (g : A -> B) (l : list A) d : map (fun i => g (nth i l d)) (seq 0 (length l)) = map g l.
Proof.
  induction l as [|x l IH]; [reflexivity|]. cbn [length seq map]. f_equal.
  rewrite <- seq_shift, map_map. exact IH.
Qed.

Lemma opt_values_app {A} (present : bool) (g : A -> bytes) k fs rest : (forall x, In x fs -> length (g x) = k) ->
  opt_values present k (length fs) ((if present then concat (map g fs) else []) ++ rest) =
  Ok (if present then Some (map g fs) else None, rest).
Proof.
  intros Hg. unfold opt_values. destruct present; [|reflexivity].
  assert (E : take_values k (length fs) (concat (map g fs) ++ rest) = Ok (map g fs, rest)).
  { induction fs as [|f fs IH]; cbn [take_values length map concat]; [reflexivity|].
    rewrite <- app_assoc, take_app by (apply Hg; left; reflexivity). cbn [bind].
    rewrite IH by (intros; apply Hg; now right). reflexivity. }
  rewrite E. reflexivity.
Qed.

Lemma val_at_map {A} (present : bool) (g : A -> bytes) fs i d : (i < length fs)%nat ->
  val_at (if present then Some (map g fs) else None) i = Ok (if present then Some (g (nth i fs d)) else None).
Proof.
  intros Hi. destruct present; [|reflexivity]. cbn [val_at].
  rewrite nth_error_map, (nth_error_nth' fs d Hi). reflexivity.
Qed.

Lemma concat_lenN {A} (g : A -> bytes) k fs : (forall x, In x fs -> length (g x) = k) ->
  length (concat (map g fs)) = (length fs * k)%nat.
Proof.
  induction fs as [|f fs IH]; intros H; [reflexivity|]. cbn [map concat length].
  rewrite app_length, IH by (intros; apply H; now right). rewrite H by (left; reflexivity). lia.
Qed.

(** [lia] without the equations of flags *)
Local Ltac lia0 := repeat match goal with H : _ = _ :> bool |- _ => clear H end; repeat match goal with H : _ < 2 ^ 59 |- _ => clear H end; lia.
Lemma attr_round_trip a extra : at_version a = 100 -> attrs_typed a ->
  exists d, attr_bytes a = Ok d /\ lenN d = whole_size (at_flags a) (lenN (at_files a)) /\
    attr_parse (d ++ extra) (lenN (at_files a)) =
      Ok (mkAttrs 100 (at_flags a) (map (shown (at_flags a)) (at_files a))).
Proof.
  destruct a as [ver flags fs]. cbn [at_version at_flags at_files]. intros -> (Hf & Hn & Hty).
  cbn [at_version at_flags at_files] in Hf, Hn, Hty.
  destruct (has_flags flags) as (Hc & Ht & Hm & Hp).
  set (n := lenN fs) in *. set (cnt := length fs).
  assert (EN : n = N.of_nat cnt) by reflexivity.
  assert (Hd7 : N.of_nat ((cnt + 7) / 8) = (n + 7) / 8).
  { rewrite Nat2N.inj_div, Nat2N.inj_add, EN. reflexivity. }
  assert (Hdc : N.to_nat (div_ceil n 8) = ((cnt + 7) / 8)%nat).
  { unfold div_ceil. replace (n + 8 - 1) with (n + 7) by lia0. rewrite <- Hd7. apply Nat2N.id. }
  assert (Hmd : forall x, In x fs -> length (dflt (repeat x00 16) (fa_md5 x)) = 16%nat).
  { intros x Hx. destruct (Hty x Hx) as (_ & _ & H). destruct (fa_md5 x); cbn; [now apply H|reflexivity]. }
  assert (Hbits : exists bits, (if has_patch flags
           then set_bits (map (fun f => dflt false (fa_patch f)) fs) 0 (zeros (div_ceil n 8)) else Ok []) = Ok bits /\
           length bits = width (has_patch flags) ((cnt + 7) / 8) /\
           (has_patch flags = true -> forall j, bitv bits j = nth j (map (fun f => dflt false (fa_patch f)) fs) false)).
  { destruct (has_patch flags); [|exists []; auto; split; [reflexivity|]; split; [reflexivity|discriminate]].
    destruct (set_bits_ok (map (fun f => dflt false (fa_patch f)) fs) 0 (zeros (div_ceil n 8))) as (bits & E & Hl & Hb).
    { rewrite map_length. unfold zeros. rewrite repeat_length, Hdc. fold cnt.
      pose proof (Nat.div_mod (cnt + 7) 8 ltac:(lia0)). pose proof (Nat.mod_upper_bound (cnt + 7) 8 ltac:(lia0)). lia0. }
    exists bits. split; [exact E|]. split.
    - rewrite Hl. unfold zeros. rewrite repeat_length, Hdc. reflexivity.
    - intros _ j. rewrite Hb, zeros_bit, Nat.sub_0_r. reflexivity. }
  destruct Hbits as (bits & Eb & Hlb & Hb).
  unfold attr_bytes. cbn [at_version at_flags at_files]. fold n. rewrite Hc, Ht, Hm, Hp, Eb. cbn [bind].
  eexists. split; [reflexivity|].
  set (c1 := if has_crc flags then _ else _). set (c2 := if has_time flags then _ else _).
  set (c3 := if has_md5 flags then _ else _).
  assert (L1 : length c1 = (cnt * width (has_crc flags) 4)%nat).
  { unfold c1, width. destruct (has_crc flags); [|cbn; lia0]. apply concat_lenN. intros. apply le_enc_length. }
  assert (L2 : length c2 = (cnt * width (has_time flags) 8)%nat).
  { unfold c2, width. destruct (has_time flags); [|cbn; lia0]. apply concat_lenN. intros. apply le_enc_length. }
  assert (L3 : length c3 = (cnt * width (has_md5 flags) 16)%nat).
  { unfold c3, width. destruct (has_md5 flags); [|cbn; lia0]. apply concat_lenN. exact Hmd. }
  assert (Hlen : lenN (le32 100 ++ le32 flags ++ c1 ++ c2 ++ c3 ++ bits) = whole_size flags n).
  { rewrite !lenN_app. unfold lenN. rewrite L1, L2, L3, Hlb, !le32_length.
    unfold whole_size, patch_start, md5_start, time_start, crc_start. rewrite <- Hd7, EN. unfold width.
    destruct (has_crc flags), (has_time flags), (has_md5 flags), (has_patch flags); lia0. }
  split; [exact Hlen|].
  unfold attr_parse. rewrite lenN_app, Hlen.
  assert (H8 : 8 <= whole_size flags n).
  { unfold whole_size, patch_start, md5_start, time_start, crc_start. lia0. }
  replace (whole_size flags n + lenN extra <? 8) with false by lia0.
  rewrite <- !app_assoc, take_app by apply le32_length. cbn [bind].
  rewrite le32_dec by (vm_compute; reflexivity). change (100 =? EXPECTED_VERSION) with true. cbn [negb].
  rewrite take_app by apply le32_length. cbn [bind]. rewrite le32_dec by exact Hf.
  rewrite attr_size_whole by exact Hn. cbn [bind].
  replace (whole_size flags n + lenN extra <? whole_size flags n) with false by lia0.
  rewrite Hc, Ht, Hm, Hp.
  replace (N.to_nat n) with (length fs) by (unfold n, lenN; lia0).
  unfold c1. rewrite opt_values_app by (intros; apply le_enc_length). cbn [bind].
  unfold c2. rewrite opt_values_app by (intros; apply le_enc_length). cbn [bind].
  unfold c3. rewrite opt_values_app by exact Hmd. cbn [bind].
  assert (Et : (if has_patch flags then '(b, _) <- take (N.to_nat (div_ceil n 8)) (bits ++ extra);; Ok (Some b) else Ok None)
     = Ok (if has_patch flags then Some bits else None)).
  { destruct (has_patch flags); [|reflexivity]. rewrite Hdc, take_app by exact Hlb. reflexivity. }
  rewrite Et. cbn [bind]. clear Et.
  rewrite (combine_all_map _ _ _ _ (fun i => shown flags (nth i fs (mkFA None None None None)))).
  - cbn [bind]. rewrite (map_nth_seq (shown flags)). reflexivity.
  - intros i Hi. apply in_seq in Hi as [_ Hi]. cbn in Hi. unfold combine_attr.
    set (d0 := mkFA None None None None).
    rewrite !(val_at_map _ _ fs i d0) by exact Hi. cbn [bind].
    assert (Hin : In (nth i fs d0) fs) by (now apply nth_In).
    destruct (Hty _ Hin) as (T1 & T2 & _).
    assert (Ebit : bit_at (if has_patch flags then Some bits else None) i =
              Ok (if has_patch flags then Some (dflt false (fa_patch (nth i fs d0))) else None)).
    { destruct (has_patch flags) eqn:EP; [|reflexivity]. cbn [bit_at].
      specialize (Hb eq_refl i). unfold bitv in Hb. cbn [width] in Hlb.
      assert (Hlt : (i / 8 < length bits)%nat).
      { rewrite Hlb. fold cnt in Hi. clearbody cnt. clear - Hi. apply Nat.div_lt_upper_bound; [lia0|].
        pose proof (Nat.div_mod (cnt + 7) 8 ltac:(lia0)). pose proof (Nat.mod_upper_bound (cnt + 7) 8 ltac:(lia0)).
        lia0. }
      rewrite (nth_error_nth' bits x00 Hlt), Hb.
      do 2 f_equal. exact (map_nth (fun f => dflt false (fa_patch f)) fs d0 i). }
    rewrite Ebit. cbn [bind]. unfold shown. f_equal. f_equal.
    + destruct (has_crc flags); [|reflexivity]. cbn [option_map]. rewrite le32_dec; [reflexivity|].
      destruct (fa_crc (nth i fs d0)); cbn [dflt]; [now apply T1|reflexivity].
    + destruct (has_time flags); [|reflexivity]. cbn [option_map]. rewrite le64_dec; [reflexivity|].
      destruct (fa_time (nth i fs d0)); cbn [dflt]; [now apply T2|reflexivity].
Qed.

Lemma shown_carries flags f : carries flags f -> shown flags f = f.
Proof.
  destruct f as [c t m p]. unfold carries, shown. cbn [fa_crc fa_time fa_md5 fa_patch]. intros (<- & <- & <- & <-).
  destruct c, t, m, p; reflexivity.
Qed.

Lemma attr_same a extra : at_version a = 100 -> attrs_typed a -> Forall (carries (at_flags a)) (at_files a) ->
  exists d, attr_bytes a = Ok d /\ attr_parse (d ++ extra) (lenN (at_files a)) = Ok a.
Proof.
  intros Hv Ht Hc. destruct (attr_round_trip a extra Hv Ht) as (d & E & _ & Hp). exists d. split; [exact E|].
  rewrite Hp. destruct a as [v fl fs]. cbn [at_version at_flags at_files] in *. subst v. do 2 f_equal.
  induction Hc as [|f fs Hf Hc IH]; [reflexivity|]. cbn [map]. rewrite shown_carries by exact Hf. f_equal.
  clear -Hc. induction Hc as [|f fs Hf Hc IH]; [reflexivity|]. cbn [map]. rewrite shown_carries by exact Hf. f_equal. exact IH.
Qed.

(** No proper prefix of a serialised record is accepted. *)
Lemma attr_truncated a d p q : at_version a = 100 -> attrs_typed a -> attr_bytes a = Ok d ->
  d = p ++ q -> q <> [] -> attr_parse p (lenN (at_files a)) = Err EInvalidFormat.
Proof.
  intros Hv Ht Hd E Hq. destruct (attr_round_trip a [] Hv Ht) as (d' & Ed & Hl & _).
  rewrite Hd in Ed. apply Ok_inj in Ed. subst d'.
  assert (Hn : lenN (at_files a) < 2 ^ 59) by apply Ht.
  destruct (attr_parse_total p (lenN (at_files a)) Hn) as [H|(a' & s & _ & _ & _ & Hs & Hfl & Hw & _)]; [exact H|].
  exfalso. assert (Hfe : at_flags a' = at_flags a).
  { assert (S : slice 4 4 d = Some (le32 (at_flags a))).
    { unfold attr_bytes in Hd. destruct (if a_has _ _ then _ else _) in Hd; cbn [bind] in Hd; try discriminate.
      apply Ok_inj in Hd. subst d. rewrite Hv. apply (slice_mid' 4 4 (le32 100) (le32 (at_flags a))); reflexivity. }
    rewrite E in S. rewrite (slice_app_l 4 4 p q s Hs) in S. injection S as ->. rewrite Hfl.
    apply le32_dec. apply Ht. }
  rewrite Hfe in Hw. rewrite E, lenN_app in Hl. destruct q; [congruence|]. unfold lenN in *. cbn [length] in Hl. lia.
Qed.
