(** * Facts about files stored by other tools. *)
From Verif Require Import Bytes Crypto CryptoFacts HashTable BlockTable Header Compress SpecCompress CompressFacts
  Adler Listfile HetBet Attributes Builder BuilderFacts Archive ReadFacts SpecStored.
Open Scope N_scope.

Lemma on_flag flags k : has_flag flags (2 ^ k) = on flags k.
Proof.
  unfold has_flag, on. destruct (N.testbit flags k) eqn:E.
  - apply negb_true_iff, N.eqb_neq. intros H.
    assert (T : N.testbit (N.land flags (2 ^ k)) k = true) by (rewrite N.land_spec, E, N.pow2_bits_true; reflexivity).
    rewrite H, N.bits_0 in T. discriminate.
  - apply negb_false_iff, N.eqb_eq. apply N.bits_inj_0. intros j. rewrite N.land_spec, N.pow2_bits_eqb.
    destruct (N.eqb_spec k j) as [<-|]; [now rewrite E|now rewrite andb_false_r].
Qed.
Lemma flags_seen flags :
  is_compressed flags = on flags 8 || on flags 9 /\ is_encrypted flags = on flags 16 /\
  has_fix_key flags = on flags 17 /\ is_single_unit flags = on flags 24 /\ has_sector_crc flags = on flags 26.
Proof.
  unfold is_compressed, is_encrypted, has_fix_key, is_single_unit, has_sector_crc.
  rewrite <- !on_flag. repeat split; try reflexivity.
  change FLAG_IMPLODE with (2 ^ 8). change FLAG_COMPRESS with (2 ^ 9).
  unfold has_flag. rewrite N.land_lor_distr_r.
  destruct (N.eqb_spec (N.land flags (2 ^ 8)) 0) as [->|H1]; [now rewrite N.lor_0_l|].
  cbn [negb orb]. apply negb_true_iff, N.eqb_neq. intros H. apply N.lor_eq_0_iff in H as [H _]. contradiction.
Qed.

Lemma kept_whole flags key p s : key < M32 -> kept true flags key p s ->
  (if is_encrypted flags then decrypt_file_data s key else s) = p /\ lenN s = lenN p.
Proof.
  intros Hk H. unfold kept in H. destruct (flags_seen flags) as (_ & -> & _).
  destruct (on flags 16); [|subst; auto].
  destruct H as (ws & r & Hw & Hr & Hn & -> & ->). specialize (Hn eq_refl). subst r. rewrite !app_nil_r.
  split.
  - apply decrypt_words. exact Hw.
  - unfold lenN. now rewrite !bytes_of_words_length, encrypt_block_length.
Qed.

Lemma bits64 n : n < M32 -> n < 2 ^ 61.
Proof. unfold M32. change (2 ^ 32) with 4294967296. change (2 ^ 61) with 2305843009213693952. lia. Qed.

Lemma meant_read L m c s : meant L m c s -> lenN s < M32 -> decompress L c m (lenN s) = Ok s.
Proof.
  intros [Hc H] Hs. destruct c as [|x c]; [congruence|].
  destruct H as [[-> H]|[[-> H]|[[-> H]|[[-> H]|[[-> H]|[-> (p & H & Hp & H')]]]]]].
  - exact H.
  - exact H.
  - change (decompress L (x :: c) 0x10 (lenN s)) with (bz_decompress L (x :: c) (lenN s)).
    unfold bz_decompress. rewrite H. cbn [bind]. now rewrite N.eqb_refl.
  - exact H.
  - exact (sparse_reads_runs _ _ H).
  - change (decompress L (x :: c) 0x0A (lenN s)) with
      (cur <- (k <- scaled (lenN s) 4 ;; room k (zlib_decompress L (x :: c) k)) ;;
       cur <- pk_decompress L cur (N.max (lenN s) (lenN cur * 2)) ;; Ok cur).
    rewrite (scaled_enough _ (bits64 _ Hs)). cbn [bind]. rewrite (room_enough _ _ (bits64 _ Hs)).
    unfold zlib_decompress. rewrite H. cbn [bind]. unfold pk_decompress.
    destruct p as [|y p]; [congruence|]. rewrite H'. reflexivity.
Qed.

Definition take_piece (L : codecs) (flags csize expected : N) (data : bytes) : res bytes :=
  if is_compressed flags && (csize <? expected) then expand L data expected
  else Ok (firstn (N.to_nat (N.min expected (lenN data))) data).

Lemma piece_read L flags p s : piece L flags p s -> lenN s < M32 -> on flags 8 = false -> on flags 9 = true ->
  take_piece L flags (lenN p) (lenN s) p = Ok s.
Proof.
  intros H Hs H8 H9. unfold take_piece. destruct (flags_seen flags) as (-> & _). rewrite H8, H9. cbn [orb andb].
  destruct H as [->|[Hl [[_ (m & c & -> & Hm)]|[Hx _]]]]; [| |congruence].
  - rewrite N.ltb_irrefl, N.min_id. unfold lenN. now rewrite Nat2N.id, firstn_all.
  - replace (lenN (m :: c) <? lenN s) with true by lia. cbn [expand]. now apply meant_read.
Qed.

(** ** Sectors *)
Lemma sectors_concat ss secs : forall d, sectors ss d secs -> concat secs = d.
Proof.
  induction secs as [|s t IH]; intros d H; cbn in H; [now subst|].
  destruct H as (r & -> & _ & _ & H). cbn [concat]. now rewrite (IH r H).
Qed.
Lemma sectors_len ss secs : forall d i s, sectors ss d secs -> nth_error secs i = Some s ->
  lenN s = N.min (lenN d - lenN (concat (firstn i secs))) ss.
Proof.
  induction secs as [|x t IH]; intros d i s H E; [destruct i; discriminate|].
  destruct H as (r & -> & Hne & Hl & H). destruct i as [|i]; cbn [nth_error firstn concat] in *.
  - injection E as <-. rewrite lenN_nil, lenN_app. destruct Hl as [Hl|[Hl ->]]; [|rewrite lenN_nil]; lia.
  - rewrite (IH r i s H E), !lenN_app. f_equal. lia.
Qed.
Lemma sectors_count ss secs : forall d, 0 < ss -> sectors ss d secs -> lenN secs = div_ceil (lenN d) ss.
Proof.
  induction secs as [|s t IH]; intros d Hss H; cbn in H.
  - subst. rewrite lenN_nil. now rewrite div_ceil_0.
  - destruct H as (r & -> & Hne & Hl & H). rewrite lenN_cons, (IH r Hss H), lenN_app.
    assert (0 < lenN s) by (destruct s; [congruence|rewrite lenN_cons; lia]).
    rewrite (div_ceil_step (lenN s + lenN r) ss) by lia.
    replace (lenN s + lenN r - N.min ss (lenN s + lenN r)) with (lenN r); [lia|].
    destruct Hl as [Hl|[Hl ->]]; [lia|rewrite lenN_nil; lia].
Qed.

Lemma read_pieces L file pos total ss flags key :
  forall outs offs i out, length offs = S (length outs) -> lenN (out ++ concat outs) <= total -> lenN file < M64 ->
  (forall j r, nth_error outs j = Some r -> exists o e q,
     nth_error offs j = Some o /\ nth_error offs (S j) = Some e /\ o <= e /\
     slice (pos + o) (e - o) file = Some q /\
     take_piece L flags (e - o) (N.min (total - lenN (out ++ concat (firstn j outs))) ss)
       (if is_encrypted flags then decrypt_file_data q (w32 (key + w32 (i + N.of_nat j))) else q) = Ok r) ->
  read_sectors L file pos total ss flags key offs i out = Ok (out ++ concat outs).
Proof.
  induction outs as [|r t IH]; intros offs i out Hl Ht Hf H.
  - destruct offs as [|o [|? ?]]; try discriminate. cbn. now rewrite app_nil_r.
  - destruct (H 0%nat r eq_refl) as (o & e & q & E1 & E2 & Hoe & Hs & Hr).
    destruct offs as [|o' [|e' offs]]; try discriminate. cbn in E1, E2. injection E1 as ->. injection E2 as ->.
    rewrite read_sectors_step. replace (e <? o) with false by lia. cbv zeta.
    unfold sub_chk. rewrite lenN_app in Ht. replace (total <? lenN out) with false by lia. cbn [bind].
    assert (pos + o + (e - o) <= lenN file).
    { destruct (N.le_gt_cases (pos + o + (e - o)) (lenN file)) as [|G]; [assumption|].
      apply slice_None in G. congruence. }
    rewrite add64_ok by lia. cbn [bind]. rewrite (read_at_slice _ _ _ _ Hs). cbn [bind].
    cbn [firstn concat] in Hr. rewrite app_nil_r, N.add_0_r in Hr. unfold take_piece in Hr. rewrite Hr. cbn [bind].
    cbn [concat]. rewrite app_assoc. apply (IH (e :: offs) (i + 1) (out ++ r)).
    + cbn in *. lia.
    + rewrite <- app_assoc, lenN_app. cbn [concat] in Ht. exact Ht.
    + exact Hf.
    + intros j r' E. destruct (H (S j) r' E) as (o2 & e2 & q2 & F1 & F2 & F3 & F4 & F5).
      exists o2, e2, q2. do 4 (split; [assumption|]). cbn [firstn concat] in F5. rewrite app_assoc in F5.
      replace (i + 1 + N.of_nat j) with (i + N.of_nat (S j)) by lia. exact F5.
Qed.

Lemma m32 n : n mod 2 ^ 32 < M32.
Proof. apply N.mod_lt. discriminate. Qed.
Lemma key_w32 k i : w32 (k + w32 (0 + N.of_nat i)) = (k + N.of_nat i) mod 2 ^ 32.
Proof. rewrite N.add_0_l. unfold w32. fold M32. now rewrite N.add_mod_idemp_r. Qed.

(** The pieces that a table points to, and what they contribute. *)
Lemma read_table L whole a fi key ss d outs secs offs t :
  whole = true \/ on (fi_flags fi) 16 = false -> lenN (a_file a) < 2 ^ 63 ->
  sector_size (h_block_size (a_header a)) = Ok ss -> 0 < ss -> fi_size fi = lenN d ->
  sectors ss d secs -> length offs = S (length secs) -> words_ok offs ->
  slice (fi_pos fi) (4 * lenN offs) (a_file a) = Some t ->
  kept whole (fi_flags fi) ((key + (2 ^ 32 - 1)) mod 2 ^ 32) (bytes_of_words offs) t ->
  length outs = length secs -> lenN (concat outs) <= lenN d ->
  (forall j r, nth_error outs j = Some r -> exists o e p q,
     nth_error offs j = Some o /\ nth_error offs (S j) = Some e /\ o <= e /\
     slice (fi_pos fi + o) (e - o) (a_file a) = Some q /\
     kept whole (fi_flags fi) ((key + N.of_nat j) mod 2 ^ 32) p q /\
     take_piece L (fi_flags fi) (lenN p) (N.min (lenN d - lenN (concat (firstn j outs))) ss) p = Ok r) ->
  read_sectored_file L a fi key = Ok (concat outs).
Proof.
  intros Hw Hf Hss Hss0 Hsz Hsec Hlo Hok Ht Hkt Hout Hle H.
  assert (Hkept : forall k p q, k < M32 -> kept whole (fi_flags fi) k p q ->
    (if is_encrypted (fi_flags fi) then decrypt_file_data q k else q) = p /\ lenN q = lenN p).
  { intros k p q Hk K. destruct Hw as [->|Hw]; [now apply kept_whole|].
    unfold kept in K. rewrite Hw in K. subst. destruct (flags_seen (fi_flags fi)) as (_ & -> & _). now rewrite Hw. }
  unfold read_sectored_file. rewrite Hss. cbn [bind]. replace (ss =? 0) with false by lia.
  rewrite Hsz. rewrite <- (sectors_count _ _ _ Hss0 Hsec).
  assert (Hlo' : lenN offs = lenN secs + 1) by (unfold lenN; rewrite Hlo; lia).
  replace ((lenN secs + 1) * 4) with (4 * lenN offs) by lia.
  rewrite (read_at_slice _ _ _ _ Ht). cbn [bind].
  destruct (Hkept _ _ _ (m32 _) Hkt) as [Hd Hlt].
  replace (dec32 key) with ((key + (2 ^ 32 - 1)) mod 2 ^ 32) by reflexivity.
  rewrite Hd.
  assert (Hval : le_values 4 (N.to_nat (lenN secs + 1)) (bytes_of_words offs) = offs).
  { rewrite <- Hlo'. unfold lenN. rewrite Nat2N.id.
    rewrite <- (app_nil_r (bytes_of_words offs)). now apply le_values_words. }
  rewrite Hval.
  assert (Hread : read_sectors L (a_file a) (fi_pos fi) (lenN d) ss (fi_flags fi) key offs 0 [] = Ok (concat outs)).
  { apply (read_pieces L (a_file a) (fi_pos fi) (lenN d) ss (fi_flags fi) key outs offs 0 []).
    - congruence.
    - exact Hle.
    - change M64 with (2 * 2 ^ 63). lia.
    - intros j r E. destruct (H j r E) as (o & e & p & q & E1 & E2 & E3 & E4 & E5 & E6).
      exists o, e, q. do 4 (split; [assumption|]). rewrite key_w32.
      destruct (Hkept _ _ _ (m32 _) E5) as [-> Hq].
      pose proof (slice_length _ _ _ _ E4). cbn [app]. replace (e - o) with (lenN p) by lia. exact E6. }
  assert (Hcrc : exists x, (if has_sector_crc (fi_flags fi) && (4 * lenN offs + lenN secs * 4 <=? hd 0 offs)
     then read_at (a_file a) (fi_pos fi + 4 * lenN offs) (lenN secs * 4) else Ok []) = Ok x).
  { destruct (has_sector_crc _); cbn [andb]; [|eauto].
    destruct (N.leb_spec (4 * lenN offs + lenN secs * 4) (hd 0 offs)) as [Hh|]; [|eauto].
    destruct (slice (fi_pos fi + 4 * lenN offs) (lenN secs * 4) (a_file a)) as [x|] eqn:E;
      [exists x; now apply read_at_slice|].
    exfalso. apply slice_None in E.
    destruct outs as [|r outs].
    - destruct secs; [|discriminate]. rewrite lenN_nil in *.
      assert (fi_pos fi + 4 * lenN offs <= lenN (a_file a)).
      { destruct (N.le_gt_cases (fi_pos fi + 4 * lenN offs) (lenN (a_file a))) as [|G]; [assumption|].
        apply slice_None in G. congruence. }
      lia.
    - destruct (H 0%nat r eq_refl) as (o & e & p & q & E1 & E2 & E3 & E4 & _).
      destruct offs as [|o' offs]; [discriminate|]. cbn in E1. injection E1 as ->. cbn [hd] in Hh.
      assert (fi_pos fi + o + (e - o) <= lenN (a_file a)).
      { destruct (N.le_gt_cases (fi_pos fi + o + (e - o)) (lenN (a_file a))) as [|G]; [assumption|].
        apply slice_None in G. congruence. }
      lia. }
  destruct Hcrc as [x Hcrc]. rewrite Hcrc. cbn [bind]. exact Hread.
Qed.

(** ** Whole files *)
Lemma file_key_lt name flags pos size : size < M32 -> file_key name flags pos size < M32.
Proof.
  intros H. unfold file_key. destruct (on flags 17); [|apply hash_string_lt].
  apply lxor_lt32; [apply m32|exact H].
Qed.

Lemma read_file_found L a name fi : find_file a name = Ok (Some fi) -> fi_size fi < M32 ->
  read_file L a name =
    let key := read_key a name fi (fi_size fi) in
    if is_single_unit (fi_flags fi) || negb (is_compressed (fi_flags fi))
    then read_whole_file L a fi key (fi_size fi) else read_sectored_file L a fi key.
Proof.
  intros H Hs. unfold read_file. rewrite H. cbn [bind of_option].
  assert (Hc : find_file_classic a name = Ok (Some fi) ->
    (bt <- of_option EInvalidFormat (a_block a) ;; b <- of_option EBlockTable (nthN bt (fi_block fi)) ;;
     Ok (be_size b, be_size b)) = Ok (fi_size fi, fi_size fi)).
  { unfold find_file_classic. intros C. destruct (a_hash a) as [ht|]; [|discriminate].
    cbn [of_option bind] in C. destruct (a_block a) as [bt|]; [|discriminate]. cbn [of_option bind] in *.
    destruct (ht_find_file ht name 0) as [[[i e]|]| |]; try discriminate. cbn [bind] in C.
    destruct (nthN bt (he_block e)) as [b|] eqn:E; [|discriminate]. cbn [of_option bind] in C.
    destruct (add64 _ _) as [p| |]; try discriminate. cbn [bind] in C. apply Ok_inj in C. injection C as <-.
    cbn [fi_block fi_size]. rewrite E. reflexivity. }
  destruct (a_het a) as [h|] eqn:Eh; [destruct (a_bet a) as [b|] eqn:Eb|].
  - cbn [bind]. now rewrite w32_small.
  - rewrite Hc; [reflexivity|]. unfold find_file, valid_het_bet in H. rewrite Eh, Eb in H. exact H.
  - rewrite Hc; [reflexivity|]. unfold find_file, valid_het_bet in H. rewrite Eh in H. exact H.
Qed.

Lemma read_key_file a name fi size : is_encrypted (fi_flags fi) = true ->
  read_key a name fi size = file_key name (fi_flags fi) (fi_pos fi - a_off a) size.
Proof.
  intros He. unfold read_key, file_key. rewrite He.
  destruct (flags_seen (fi_flags fi)) as (_ & _ & -> & _). change HT_FILE_KEY with 3.
  destruct (on (fi_flags fi) 17); [|reflexivity]. f_equal. unfold w32. fold M32. now rewrite N.add_mod_idemp_r.
Qed.
Lemma kept_other flags whole k k' p q : on flags 16 = false -> kept whole flags k p q -> kept whole flags k' p q.
Proof. unfold kept. now intros ->. Qed.

Lemma row_whole file start ss secs : forall d i, sectors ss d secs -> secs <> [] ->
  (forall j s, nth_error secs j = Some s -> slice (start + ss * (i + N.of_nat j)) (lenN s) file = Some s) ->
  slice (start + ss * i) (lenN d) file = Some d.
Proof.
  induction secs as [|s t IH]; intros d i H Hne Hs; [congruence|].
  destruct H as (r & -> & Hn & Hl & H). pose proof (Hs 0%nat s eq_refl) as H0. rewrite N.add_0_r in H0.
  destruct t as [|s2 t].
  - cbn in H. subst r. rewrite app_nil_r. exact H0.
  - assert (Hls : lenN s = ss).
    { destruct Hl as [|[_ ->]]; [assumption|]. destruct H as (r & E & Hne2 & _).
      symmetry in E. apply app_eq_nil in E as [-> _]. congruence. }
    assert (H1 : slice (start + ss * (i + 1)) (lenN r) file = Some r).
    { apply IH; [exact H|discriminate|]. intros j x E. rewrite <- N.add_assoc.
      replace (1 + N.of_nat j) with (N.of_nat (S j)) by lia. exact (Hs (S j) x E). }
    apply slice_split in H0 as (p & q & -> & Hp). rewrite lenN_app.
    replace (start + ss * (i + 1)) with (lenN (p ++ s)) in H1 by (rewrite lenN_app; lia).
    rewrite app_assoc in H1. apply slice_split in H1 as (p' & q' & E & Hp').
    apply app_same_length in E as [<- ->]; [|unfold lenN in *; lia].
    rewrite <- Hp, <- lenN_app.
    replace (p ++ s ++ r ++ q') with (p ++ (s ++ r) ++ q') by now rewrite <- !app_assoc.
    apply slice_mid.
Qed.

Lemma sector_size_pow b ss : b < 55 -> ss = 512 * 2 ^ b -> sector_size b = Ok ss.
Proof.
  intros Hb ->. unfold sector_size. replace (b <? 64) with true by lia. f_equal.
  unfold w64. rewrite N.shiftl_mul_pow2. apply N.mod_small.
  apply N.lt_le_trans with (512 * 2 ^ 55); [|discriminate].
  apply N.mul_lt_mono_pos_l; [reflexivity|]. now apply N.pow_lt_mono_r.
Qed.
Lemma sectors_short ss secs d i s : sectors ss d secs -> nth_error secs i = Some s -> lenN s <= lenN d.
Proof. intros H E. rewrite (sectors_len _ _ _ _ _ H E). lia. Qed.

Theorem stored_read L a name fi d ss :
  find_file a name = Ok (Some fi) -> fi_size fi = lenN d -> lenN d < 2 ^ 32 -> lenN (a_file a) < 2 ^ 63 ->
  fi_pos fi <= lenN (a_file a) -> h_block_size (a_header a) < 55 -> ss = 512 * 2 ^ h_block_size (a_header a) ->
  stored_as L true (a_file a) (a_off a) ss name (fi_pos fi) (fi_csize fi) (fi_flags fi) d ->
  on (fi_flags fi) 8 = false ->
  (on (fi_flags fi) 24 = true -> on (fi_flags fi) 9 = true -> fi_csize fi < lenN d) ->
  (on (fi_flags fi) 24 = false -> on (fi_flags fi) 9 = false -> on (fi_flags fi) 16 = true -> lenN d <= ss) ->
  read_file L a name = Ok d.
Proof.
  intros Hfind Hsz Hd Hf Hp Hbs Ess Hst H8 Hshr Hrow.
  assert (Hss0 : 0 < ss).
  { rewrite Ess. assert (2 ^ h_block_size (a_header a) <> 0) by (apply N.pow_nonzero; discriminate). lia. }
  rewrite (read_file_found L a name fi Hfind) by (rewrite Hsz; exact Hd). cbv zeta. rewrite Hsz.
  set (key0 := file_key name (fi_flags fi) (fi_pos fi - a_off a) (lenN d)) in *.
  assert (Hk0 : key0 < M32) by (apply file_key_lt; exact Hd).
  set (key := read_key a name fi (lenN d)).
  destruct (flags_seen (fi_flags fi)) as (Fc & Fe & Ff & Fs & Fr).
  assert (Hkey : on (fi_flags fi) 16 = true -> key = key0).
  { intros E. apply read_key_file. now rewrite Fe. }
  unfold stored_as in Hst. fold key0 in Hst. rewrite Fs, Fc, H8. rewrite H8 in Hst. cbn [orb] in *.
  assert (Hdec : forall p q, kept true (fi_flags fi) key0 p q ->
     (if is_encrypted (fi_flags fi) then decrypt_file_data q key else q) = p /\ lenN q = lenN p).
  { intros p q K. apply (kept_whole _ key0 _ _ Hk0) in K. rewrite Fe in *.
    destruct (on (fi_flags fi) 16); [now rewrite (Hkey eq_refl)|exact K]. }
  destruct (on (fi_flags fi) 24) eqn:E24; cbn [orb].
  - destruct Hst as (p & s & Hs & Hk & Hpc & Hcrc). destruct (Hdec _ _ Hk) as [D Dl].
    pose proof (slice_length _ _ _ _ Hs) as Hsl.
    unfold read_whole_file. rewrite (read_at_slice _ _ _ _ Hs). cbn [bind]. rewrite D, Fr, Fs, Fc, H8.
    cbn [orb andb]. rewrite andb_true_r.
    assert (Hlast : (if on (fi_flags fi) 9 then expand L p (lenN d) else Ok p) = Ok d).
    { destruct (on (fi_flags fi) 9) eqn:E9.
      - specialize (Hshr eq_refl eq_refl).
        destruct Hpc as [->|[_ [[_ (m & c & -> & Hm)]|[Hx _]]]]; [exfalso; clear - Hshr Hsl Dl; lia| |congruence].
        cbn [expand]. now apply meant_read.
      - destruct Hpc as [->|[_ [[Hx _]|[Hx _]]]]; [reflexivity|congruence|congruence]. }
    rewrite Hlast. destruct (on (fi_flags fi) 26); [|reflexivity].
    rewrite (read_at_slice _ _ _ _ (Hcrc eq_refl)). cbn [bind].
    assert (Hplain : (if on (fi_flags fi) 9 then match p with [] => Panic | m :: c => decompress L c (bN m) (lenN d) end
                      else Ok p) = Ok d).
    { destruct (on (fi_flags fi) 9); [|exact Hlast]. destruct p; [discriminate|exact Hlast]. }
    rewrite Hplain. cbn [bind]. rewrite le32_dec by apply adler_lt. now rewrite N.eqb_refl.
  - destruct (on (fi_flags fi) 9) eqn:E9; cbn [negb].
    + destruct Hst as (secs & offs & t & Hsec & Hlo & Hok & Ht & Hkt & Hpcs).
      rewrite <- (sectors_concat _ _ _ Hsec) at 1.
      assert (Hk' : forall x p q, kept true (fi_flags fi) ((key0 + x) mod 2 ^ 32) p q ->
                      kept true (fi_flags fi) ((key + x) mod 2 ^ 32) p q).
      { intros x p q K. destruct (on (fi_flags fi) 16) eqn:E16; [now rewrite (Hkey eq_refl)|].
        eapply kept_other; [exact E16|exact K]. }
      apply (read_table L true a fi key ss d secs secs offs t); auto.
      * now apply sector_size_pow.
      * rewrite (sectors_concat _ _ _ Hsec). apply N.le_refl.
      * intros j s E. destruct (Hpcs j s E) as (o & e & p & q & E1 & E2 & E3 & E4 & E5 & E6).
        exists o, e, p, q. do 4 (split; [assumption|]). split; [now apply Hk'|].
        pose proof (sectors_len _ _ _ _ _ Hsec E) as Hmin.
        transitivity (take_piece L (fi_flags fi) (lenN p) (lenN s) p); [rewrite Hmin; reflexivity|].
        apply piece_read; auto. exact (N.le_lt_trans _ _ _ (sectors_short _ _ _ _ _ Hsec E) Hd).
    + destruct Hst as (Hcs & secs & Hsec & Hrows). rewrite Hcs in *.
      unfold read_whole_file. rewrite Fr, Fs, Fc, H8. cbn [orb]. rewrite andb_false_r. rewrite Hcs.
      destruct secs as [|s1 t].
      { cbn in Hsec. subst d. rewrite lenN_nil. unfold read_at, slice. rewrite N.add_0_r.
        rewrite (proj2 (N.leb_le _ _) Hp). change (N.to_nat 0) with 0%nat. cbn [firstn bind].
        destruct (is_encrypted _); reflexivity. }
      destruct (on (fi_flags fi) 16) eqn:E16.
      * specialize (Hrow eq_refl eq_refl eq_refl). destruct (Hrows 0%nat s1 eq_refl) as (q & Hq & Hkq).
        change (N.of_nat 0) with 0 in Hq, Hkq. rewrite N.mul_0_r, N.add_0_r in Hq. rewrite N.add_0_r, N.mod_small in Hkq by exact Hk0.
        assert (s1 = d) as ->.
        { destruct Hsec as (r & -> & Hn & Hl & Hr). rewrite lenN_app in Hrow.
          destruct Hl as [Hl|[_ ->]]; [|now rewrite app_nil_r].
          assert (r = []) as -> by (destruct r; [reflexivity|rewrite lenN_cons in Hrow; clear - Hrow Hl; lia]). now rewrite app_nil_r. }
        destruct (Hdec _ _ Hkq) as [D _]. rewrite (read_at_slice _ _ _ _ Hq). cbn [bind]. rewrite D. reflexivity.
      * assert (Hall : slice (fi_pos fi + ss * 0) (lenN d) (a_file a) = Some d).
        { apply (row_whole (a_file a) (fi_pos fi) ss (s1 :: t) d 0 Hsec); [discriminate|].
          intros j s E. destruct (Hrows j s E) as (q & Hq & Hkq). unfold kept in Hkq. rewrite E16 in Hkq. subst q.
          rewrite N.add_0_l. exact Hq. }
        rewrite N.mul_0_r, N.add_0_r in Hall. rewrite (read_at_slice _ _ _ _ Hall). cbn [bind]. rewrite Fe. reflexivity.
Qed.

(** ** Imploded files *)
Lemma kept_same whole flags key p q : on flags 16 = false -> kept whole flags key p q -> q = p.
Proof. unfold kept. now intros ->. Qed.

Lemma zero_taken L flags c n : on flags 8 = true -> c <> [] -> lenN (x00 :: c) < n ->
  take_piece L flags (lenN (x00 :: c)) n (x00 :: c) = Ok c.
Proof.
  intros H8 Hc Hl. unfold take_piece. destruct (flags_seen flags) as (-> & _). rewrite H8. cbn [orb andb].
  rewrite (proj2 (N.ltb_lt _ _) Hl). destruct c as [|x c]; [congruence|]. reflexivity.
Qed.

Lemma stream_is_piece L flags p s : on flags 8 = true -> binary_stream L p s -> piece L flags p s.
Proof. intros H8 (Hl & Hd & _). right. auto. Qed.
Lemma imploded_stored L file base ss name start csize flags d :
  imploded L file ss start csize flags d -> stored_as L true file base ss name start csize flags d.
Proof.
  intros (H8 & H9 & H16 & H26 & H). unfold stored_as. rewrite H8. cbn [orb]. destruct (on flags 24).
  - destruct H as (p & s & Hs & Hk & Hp & Hc). exists p, s. split; [exact Hs|]. split; [eapply kept_other; eauto|].
    split; [now apply stream_is_piece|exact Hc].
  - destruct H as (secs & offs & t & Hsec & Hlo & Hok & Ht & Hkt & H). exists secs, offs, t.
    do 4 (split; [assumption|]). split; [eapply kept_other; eauto|].
    intros i s E. destruct (H i s E) as (o & e & p & q & E1 & E2 & E3 & E4 & E5 & E6). exists o, e, p, q.
    do 4 (split; [assumption|]). split; [eapply kept_other; eauto|now apply stream_is_piece].
Qed.

Lemma nth_map_some {A B} (f : A -> B) l : forall i y, nth_error (map f l) i = Some y ->
  exists x, nth_error l i = Some x /\ y = f x.
Proof.
  induction l as [|a l IH]; intros [|i] y H; cbn in *; try discriminate; [injection H as <-; eauto|auto].
Qed.

(** In binary mode the streams begin with a zero, which is taken for the method
    byte of data that are not compressed. *)
Theorem imploded_lost L a name fi d ss :
  find_file a name = Ok (Some fi) -> fi_size fi = lenN d -> lenN d < 2 ^ 32 -> lenN (a_file a) < 2 ^ 63 ->
  h_block_size (a_header a) < 55 -> ss = 512 * 2 ^ h_block_size (a_header a) -> d <> [] ->
  imploded L (a_file a) ss (fi_pos fi) (fi_csize fi) (fi_flags fi) d ->
  exists out, read_file L a name = Ok out /\ lenN out < lenN d.
Proof.
  intros Hfind Hsz Hd Hf Hbs Ess Hne (H8 & H9 & H16 & H26 & H).
  assert (Hss0 : 0 < ss).
  { rewrite Ess. assert (2 ^ h_block_size (a_header a) <> 0) by (apply N.pow_nonzero; discriminate). lia. }
  rewrite (read_file_found L a name fi Hfind) by (rewrite Hsz; exact Hd). cbv zeta.
  destruct (flags_seen (fi_flags fi)) as (Fc & Fe & Ff & Fs & Fr). rewrite Fs, Fc, H8. cbn [orb negb].
  destruct (on (fi_flags fi) 24) eqn:E24; cbn [orb].
  - destruct H as (p & s & Hs & Hk & (Hl & _ & c & -> & Hc) & _). apply (kept_same _ _ _ _ _ H16) in Hk. subst s.
    exists c. split; [|rewrite lenN_cons in Hl; clear - Hl; lia].
    unfold read_whole_file. rewrite (read_at_slice _ _ _ _ Hs). cbn [bind].
    rewrite Fe, H16, Fr, H26, Fc, H8. cbn [orb andb bind]. destruct c as [|x c]; [congruence|]. reflexivity.
  - destruct H as (secs & offs & t & Hsec & Hlo & Hok & Ht & Hkt & H).
    set (key := read_key a name fi (fi_size fi)).
    assert (Hp : exists cs, length cs = length secs /\ forall i s, nth_error secs i = Some s ->
      exists o e c, nth_error cs i = Some c /\ nth_error offs i = Some o /\ nth_error offs (S i) = Some e /\ o <= e /\
        slice (fi_pos fi + o) (e - o) (a_file a) = Some (x00 :: c) /\ c <> [] /\ lenN (x00 :: c) < lenN s).
    { assert (G : forall (l : list bytes) k, (forall i s, nth_error l i = Some s -> exists o e c,
          nth_error offs (k + i) = Some o /\ nth_error offs (S (k + i)) = Some e /\ o <= e /\
          slice (fi_pos fi + o) (e - o) (a_file a) = Some (x00 :: c) /\ c <> [] /\ lenN (x00 :: c) < lenN s) ->
        exists cs, length cs = length l /\ forall i s, nth_error l i = Some s ->
          exists o e c, nth_error cs i = Some c /\ nth_error offs (k + i) = Some o /\ nth_error offs (S (k + i)) = Some e /\
            o <= e /\ slice (fi_pos fi + o) (e - o) (a_file a) = Some (x00 :: c) /\ c <> [] /\ lenN (x00 :: c) < lenN s).
      { induction l as [|s l IH]; intros k G.
        - exists []. split; [reflexivity|]. intros [|i] s E; discriminate.
        - destruct (IH (S k)) as (cs & Hcs & G').
          { intros i s' E. specialize (G (S i) s' E). rewrite Nat.add_succ_r in G. exact G. }
          destruct (G 0%nat s eq_refl) as (o & e & c & G1). rewrite Nat.add_0_r in G1.
          exists (c :: cs). split; [cbn; congruence|]. intros [|i] s' E.
          + cbn in E. injection E as <-. rewrite Nat.add_0_r. exists o, e, c. split; [reflexivity|exact G1].
          + rewrite Nat.add_succ_r. exact (G' i s' E). }
      destruct (G secs 0%nat) as (cs & Hcs & G').
      - intros i s E. destruct (H i s E) as (o & e & p & q & E1 & E2 & E3 & E4 & E5 & (E6 & _ & c & -> & Hc)).
        apply (kept_same _ _ _ _ _ H16) in E5. subst q. exists o, e, c. do 5 (split; [assumption|]). exact E6.
      - exists cs. split; [exact Hcs|exact G']. }
    destruct Hp as (cs & Hcs & Hp).
    assert (Hlen : forall k, lenN (concat (firstn k cs)) <= lenN (concat (firstn k secs)) /\
              (firstn k secs <> [] -> lenN (concat (firstn k cs)) < lenN (concat (firstn k secs)))).
    { assert (G : forall (l m : list bytes), length m = length l -> (forall i s, nth_error l i = Some s -> exists c : bytes,
          nth_error m i = Some c /\ lenN c < lenN s) -> forall k, lenN (concat (firstn k m)) <= lenN (concat (firstn k l)) /\
              (firstn k l <> [] -> lenN (concat (firstn k m)) < lenN (concat (firstn k l)))).
      { induction l as [|s l IH]; intros [|c m] Hm G k; try discriminate.
        - rewrite !firstn_nil. split; [apply N.le_refl|congruence].
        - destruct k as [|k]; cbn [firstn concat]; [split; [apply N.le_refl|congruence]|].
          destruct (G 0%nat s eq_refl) as (c' & E & Hc). cbn in E. injection E as ->.
          destruct (IH m) with (k := k) as [I1 I2]; [now injection Hm|exact (fun i s' E => G (S i) s' E)|].
          rewrite !lenN_app. clear - Hc I1. split; [|intros _]; lia. }
      intros k. apply G; [exact Hcs|]. intros i s E.
      destruct (Hp i s E) as (o & e & c & E1 & _ & _ & _ & _ & _ & E2). exists c. split; [exact E1|].
      rewrite lenN_cons in E2. clear - E2. lia. }
    exists (concat cs). split.
    + apply (read_table L true a fi key ss d cs secs offs t); auto.
      * now apply sector_size_pow.
      * eapply kept_other; eauto.
      * rewrite <- (sectors_concat _ _ _ Hsec). destruct (Hlen (length secs)) as [Hl _].
        rewrite <- Hcs in Hl at 1. rewrite !firstn_all in Hl. exact Hl.
      * intros j c E.
        assert (Hj : exists s, nth_error secs j = Some s).
        { destruct (nth_error secs j) eqn:F; [eauto|]. apply nth_error_None in F. rewrite <- Hcs in F.
          apply nth_error_None in F. congruence. }
        destruct Hj as [s Hj]. destruct (Hp j s Hj) as (o & e & c' & E1 & E2 & E3 & E4 & E5 & E6 & E7).
        assert (c' = c) as -> by congruence. exists o, e, (x00 :: c), (x00 :: c).
        do 4 (split; [assumption|]). split; [unfold kept; now rewrite H16|].
        apply zero_taken; auto. rewrite (sectors_len _ _ _ _ _ Hsec Hj) in E7.
        destruct (Hlen j) as [Hl _]. clear - E7 Hl. lia.
    + destruct (Hlen (length secs)) as [_ Hl]. rewrite <- Hcs in Hl at 2. rewrite !firstn_all in Hl.
      rewrite (sectors_concat _ _ _ Hsec) in Hl. apply Hl. intros ->. cbn in Hsec. congruence.
Qed.

(** ** Streams without their heads *)
Lemma implode_first L c n s : c <> [] ->
  (decompress L c 0x04 n = Ok s <->
   exists before h after, heads = before ++ h :: after /\ pk_dec L (h ++ c) = Ok s /\
     forall g, In g before -> exists e, pk_dec L (g ++ c) = Err e).
Proof.
  intros Hc. destruct c as [|x c]; [congruence|]. set (d := x :: c).
  change (decompress L d 0x04 n) with
    ((fix try (hs : list (N * N)) : res bytes :=
         match hs with
         | [] => Err ECompression
         | (ty, dict) :: hs' =>
             match pk_dec L (Nb ty :: Nb dict :: d) with
             | Ok r => Ok r
             | Err _ => try hs'
             | Panic => Panic
             end
         end) [(0, 4); (0, 5); (0, 6); (1, 4); (1, 5); (1, 6)]).
  change heads with (map (fun p => [Nb (fst p); Nb (snd p)]) [(0, 4); (0, 5); (0, 6); (1, 4); (1, 5); (1, 6)]).
  generalize [(0, 4); (0, 5); (0, 6); (1, 4); (1, 5); (1, 6)]. clearbody d.
  induction l as [|[ty dict] l IH].
  - split; [discriminate|]. intros ([|? ?] & h & after & E & _); discriminate.
  - cbn [map fst snd]. split.
    + intros H. destruct (pk_dec L (Nb ty :: Nb dict :: d)) as [r|e|] eqn:E; [| |discriminate].
      * apply Ok_inj in H. subst r. exists [], [Nb ty; Nb dict]. eexists. split; [reflexivity|].
        split; [exact E|]. intros g [].
      * apply IH in H as (before & h & after & -> & H1 & H2).
        exists ([Nb ty; Nb dict] :: before), h, after. split; [reflexivity|]. split; [exact H1|].
        intros g [<-|Hg]; [exists e; exact E|auto].
    + intros (before & h & after & E & H1 & H2). destruct before as [|b before]; cbn [app] in E.
      * injection E as <- _. cbn [app] in H1. rewrite H1. reflexivity.
      * injection E as <- E. destruct (H2 _ (or_introl eq_refl)) as [e He]. cbn [app] in He. rewrite He.
        apply IH. exists before, h, after. split; [exact E|]. split; [exact H1|]. intros g Hg. apply H2. now right.
Qed.
