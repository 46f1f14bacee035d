(** * Facts about reading one file back. *)
From Verif Require Import Bytes Crypto CryptoFacts SpecNames NameFacts HashTable BlockTable Header
  Compress HashTableFacts TableMap SpecCompress CompressFacts Adler Listfile HetBet Builder
  BuilderFacts Attributes Archive.
Open Scope N_scope.

(** Decompression undoes compression of [d] by method [m]. *)
Definition undoes (L : codecs) (m : N) (d : bytes) : Prop :=
  forall r, compress L d m = Ok r -> r <> d ->
    exists c, r = Nb m :: c /\ decompress L c m (lenN d) = Ok d.

Lemma le32_lt n : le_dec (le32 n) < M32.
Proof. unfold le32. rewrite le_dec_enc. apply N.mod_lt. discriminate. Qed.

Lemma adler_lt d : adler32 d < M32.
Proof.
  unfold adler32. destruct (adler_state d) as [a b] eqn:E.
  assert (H : a < 65521 /\ b < 65521).
  { unfold adler_state in E.
    assert (G : forall l s, fst s < 65521 /\ snd s < 65521 ->
              let r := fold_left adler_step l s in fst r < 65521 /\ snd r < 65521).
    { induction l as [|x l IH]; intros s Hs; cbn [fold_left]; [exact Hs|].
      apply IH. unfold adler_step. destruct s as [u v]. cbn [fst snd].
      split; apply N.mod_lt; discriminate. }
    specialize (G d (1, 0) ltac:(cbn; lia)). rewrite E in G. exact G. }
  destruct H. apply lor_lt32; unfold M32.
  - rewrite N.shiftl_mul_pow2. change (2 ^ 16) with 65536. change (2 ^ 32) with 4294967296. lia.
  - change (2 ^ 32) with 4294967296. lia.
Qed.

(** The flags of a single-unit file, and what the reader sees in them. *)
Definition single_flags (crc comp enc fix_ : bool) : N :=
  N.lor (N.lor (N.lor (N.lor (N.lor FLAG_SINGLE_UNIT (flag_if crc FLAG_SECTOR_CRC))
                     (flag_if comp FLAG_COMPRESS)) (flag_if enc FLAG_ENCRYPTED))
                     (flag_if (enc && fix_) FLAG_FIX_KEY)) FLAG_EXISTS.
Definition multi_flags (crc comp enc fix_ : bool) : N :=
  N.lor (N.lor (N.lor (N.lor (flag_if crc FLAG_SECTOR_CRC)
                     (flag_if comp FLAG_COMPRESS)) (flag_if enc FLAG_ENCRYPTED))
                     (flag_if (enc && fix_) FLAG_FIX_KEY)) FLAG_EXISTS.

Lemma single_flags_ok crc comp enc fix_ :
  let g := single_flags crc comp enc fix_ in
  is_single_unit g = true /\ is_compressed g = comp /\ is_encrypted g = enc /\
  has_fix_key g = enc && fix_ /\ has_sector_crc g = crc /\ g < M32.
Proof. destruct crc, comp, enc, fix_; vm_compute; auto 10. Qed.

Lemma multi_flags_ok crc comp enc fix_ :
  let g := multi_flags crc comp enc fix_ in
  is_single_unit g = false /\ is_compressed g = comp /\ is_encrypted g = enc /\
  has_fix_key g = enc && fix_ /\ has_sector_crc g = crc /\ g < M32.
Proof. destruct crc, comp, enc, fix_; vm_compute; auto 10. Qed.

Lemma fix_key_exists g : has_flag (N.lor g FLAG_EXISTS) FLAG_FIX_KEY = has_flag g FLAG_FIX_KEY.
Proof.
  unfold has_flag. rewrite N.land_lor_distr_l.
  change (N.land FLAG_EXISTS FLAG_FIX_KEY) with 0. now rewrite N.lor_0_r.
Qed.

(** The key the reader computes is the one the builder used. *)
Lemma key_agrees a name f fi pos flags size :
  fi_flags fi = N.lor flags FLAG_EXISTS -> is_encrypted (fi_flags fi) = true ->
  fi_pos fi = a_off a + pos -> name_equiv name (pf_name f) ->
  read_key a name fi size = calculate_file_key (pf_name f) pos size flags.
Proof.
  intros Hf He Hp Hn. unfold read_key, calculate_file_key. rewrite He.
  rewrite (name_equiv_hash _ _ _ Hn). unfold has_fix_key. rewrite Hf, fix_key_exists.
  rewrite Hp. replace (a_off a + pos - a_off a) with pos by lia. reflexivity.
Qed.

Section R.
Variable L : codecs.

Lemma slice_prefix off n file out x y :
  slice off n file = Some out -> out = x ++ y -> slice off (lenN x) file = Some x.
Proof.
  intros H ->. pose proof (slice_length _ _ _ _ H) as E.
  rewrite <- (N.add_0_r off). eapply slice_slice; [exact H|].
  apply slice_app_l. apply slice_full.
Qed.

Lemma slice_suffix off n file out x y :
  slice off n file = Some out -> out = x ++ y -> slice (off + lenN x) (lenN y) file = Some y.
Proof.
  intros H ->. eapply slice_slice; [exact H|].
  replace (x ++ y) with (x ++ y ++ []) by now rewrite app_nil_r. apply slice_mid.
Qed.

Lemma read_single c f pos out csize flags a name fi :
  write_single L c f pos = Ok (out, csize, flags) ->
  slice (a_off a + pos) (lenN out) (a_file a) = Some out ->
  lenN (pf_data f) < M32 -> pf_comp f < 256 -> undoes L (pf_comp f) (pf_data f) ->
  name_equiv name (pf_name f) ->
  fi_pos fi = a_off a + pos -> fi_csize fi = w32 csize ->
  fi_flags fi = N.lor flags FLAG_EXISTS ->
  is_single_unit (fi_flags fi) = true /\
  read_whole_file L a fi (read_key a name fi (w32 (lenN (pf_data f)))) (w32 (lenN (pf_data f)))
    = Ok (pf_data f).
Proof.
  intros W Hs Hlen Hc Hu Hn Hp Hcs Hf.
  unfold write_single in W.
  destruct (store_form L (pf_data f) (pf_comp f)) as [[body comp]| |] eqn:E; cbn [bind] in W;
    try discriminate.
  apply Ok_inj in W. injection W as W1 W2 W3.
  assert (Hg : fi_flags fi = single_flags (c_crcs c) comp (pf_encrypt f) (pf_fix f)).
  { rewrite Hf, <- W3. reflexivity. }
  destruct (single_flags_ok (c_crcs c) comp (pf_encrypt f) (pf_fix f)) as (G1 & G2 & G3 & G4 & G5 & _).
  rewrite <- Hg in G1, G2, G3, G4, G5. split; [exact G1|].
  unfold read_whole_file.
  set (d := pf_data f) in *. 
  set (k := read_key a name fi (w32 (lenN d))).
  set (final := if pf_encrypt f then _ else body) in W1, W2.
  assert (Hfin : (if pf_encrypt f then decrypt_file_data final k else final) = body).
  { unfold final. destruct (pf_encrypt f) eqn:Een; [|reflexivity].
    assert (k = calculate_file_key (pf_name f) pos (w32 (lenN d)) flags) as ->.
    { unfold k. now apply key_agrees. }
    rewrite <- W3. apply decrypt_encrypt_data. }
  assert (Hl : lenN final = lenN body).
  { unfold final. destruct (pf_encrypt f); [apply lenN_encrypt_data|reflexivity]. }
  assert (Hb : lenN body <= lenN d) by (now apply store_form_le in E).
  assert (Hcsv : fi_csize fi = lenN final) by (rewrite Hcs, <- W2; apply w32_small; lia).
  rewrite Hp, Hcsv.
  rewrite (read_at_slice _ _ _ final)
    by (eapply slice_prefix; [exact Hs|symmetry; exact W1]).
  cbn [bind]. rewrite G3. rewrite Hfin.
  rewrite G5, G1, andb_true_r.
  assert (Hex : (if is_compressed (fi_flags fi) then expand L body (w32 (lenN d)) else Ok body) = Ok d /\
     (if is_compressed (fi_flags fi) then match body with [] => Panic | m :: c0 => decompress L c0 (bN m) (w32 (lenN d)) end
      else Ok body) = Ok d).
  { rewrite G2, w32_small by exact Hlen.
    apply store_form_result in E as [[-> ->]|(-> & _ & C & Ne)]; [auto|].
    destruct (Hu _ C Ne) as (c' & -> & D). unfold expand. rewrite bN_Nb, N.mod_small by exact Hc. auto. }
  destruct Hex as [Hx1 Hx2].
  destruct (c_crcs c).
  - rewrite (read_at_slice _ _ _ (le32 (adler32 d))).
    + cbn [bind]. rewrite Hx2. cbn [bind]. rewrite le32_dec by apply adler_lt.
      rewrite N.eqb_refl. cbn [bind]. exact Hx1.
    + change 4 with (lenN (le32 (adler32 d))) at 1.
      eapply slice_suffix; [exact Hs|symmetry; exact W1].
  - cbn [bind]. exact Hx1.
Qed.

(** ** Several sectors *)
Fixpoint all_stored (m : N) (secs stored : list bytes) : Prop :=
  match secs, stored with
  | [], [] => True
  | s :: t, b :: u => (exists x, store_form L s m = Ok (b, x)) /\ all_stored m t u
  | _, _ => False
  end.

Lemma store_sectors_all m secs : forall stored x,
  store_sectors L secs m = Ok (stored, x) -> all_stored m secs stored.
Proof.
  induction secs as [|s t IH]; intros stored x H; cbn [store_sectors] in H.
  - apply Ok_inj in H. injection H as <- <-. exact I.
  - destruct (store_form L s m) as [[b y]| |] eqn:E; cbn [bind] in H; try discriminate.
    destruct (store_sectors L t m) as [[r z]| |] eqn:F; cbn [bind] in H; try discriminate.
    apply Ok_inj in H. injection H as <- <-. cbn [all_stored]. eauto.
Qed.

(** A sector comes back if compression, where it is used, undoes and makes the
    sector strictly shorter. *)
Definition sector_safe (m : N) (s : bytes) : Prop :=
  undoes L m s /\ forall r, compress L s m = Ok r -> r <> s -> lenN r < lenN s.

Lemma read_sectors_step file pos fsize ss flags key s e r i out :
  read_sectors L file pos fsize ss flags key (s :: e :: r) i out =
  if e <? s then Err EInvalidFormat
  else
    let csize := e - s in
    remaining <- sub_chk fsize (lenN out) ;;
    let expected := N.min remaining ss in
    p <- add64 pos s ;;
    raw <- read_at file p csize ;;
    let data := if is_encrypted flags then decrypt_file_data raw (w32 (key + w32 i)) else raw in
    sec <- (if is_compressed flags && (csize <? expected)
            then expand L data expected
            else Ok (firstn (N.to_nat (N.min expected (lenN data))) data)) ;;
    read_sectors L file pos fsize ss flags key (e :: r) (i + 1) (out ++ sec).
Proof. reflexivity. Qed.

Lemma app_same_length {A} (a b c d : list A) : length a = length b -> a ++ c = b ++ d -> a = b /\ c = d.
Proof.
  revert b. induction a as [|x a IH]; intros [|y b] Hl H; try discriminate; [auto|].
  injection Hl as Hl. injection H as -> H. destruct (IH b Hl H) as [-> ->]. auto.
Qed.

(** What reading makes of sectors stored in this form: one that is as long as the
    sector is taken for the sector itself. *)
Fixpoint reread (secs stored : list bytes) : bytes :=
  match secs, stored with
  | s :: t, b :: u => (if lenN b <? lenN s then s else b) ++ reread t u
  | _, _ => []
  end.

Lemma read_sectors_exact file pos ss flags key m total : m < 256 -> is_compressed flags = true ->
  forall secs stored at_ i out,
  all_stored m secs stored -> Forall (undoes L m) secs ->
  cut ss (total - lenN out) secs -> lenN out <= total ->
  at_ + lenN (concat stored) < M32 -> pos + at_ + lenN (concat stored) < M64 ->
  (let fin := if is_encrypted flags then enc_each key i stored else stored in
   slice (pos + at_) (lenN (concat fin)) file = Some (concat fin)) ->
  read_sectors L file pos total ss flags key (sector_offsets at_ stored) i out
  = Ok (out ++ reread secs stored).
Proof.
  intros Hm Hcomp. induction secs as [|s t IH]; intros stored at_ i out Ha Hs Hcut Hout H32 H64 Hsl.
  - destruct stored; [|contradiction]. cbn. now rewrite app_nil_r.
  - destruct stored as [|b u]; [contradiction|]. destruct Ha as [[x Hb] Ha].
    apply Forall_cons_iff in Hs as [Hu Hs].
    inversion Hcut as [|tot s' t' Hpos Hlen Hcut' E1 E2]; subst.
    rewrite lenN_concat_cons in H32, H64.
    cbn [sector_offsets]. destruct (sector_offsets_shape (at_ + lenN b) u) as [r Er].
    pose proof (IH u (at_ + lenN b) (i + 1) (out ++ (if lenN b <? lenN s then s else b)) Ha Hs) as IH'.
    rewrite Er in IH' |- *. rewrite read_sectors_step. rewrite !w32_small in * by lia.
    replace (at_ + lenN b <? at_) with false by lia.
    replace (at_ + lenN b - at_) with (lenN b) by lia. cbv zeta.
    unfold sub_chk. replace (total <? lenN out) with false by lia. cbn [bind].
    rewrite add64_ok by lia. cbn [bind].
    set (fb := if is_encrypted flags then encrypt_data b (w32 (key + w32 i)) else b).
    assert (Hfb : lenN fb = lenN b) by (unfold fb; destruct (is_encrypted flags); [apply lenN_encrypt_data|reflexivity]).
    set (fu := if is_encrypted flags then enc_each key (i + 1) u else u).
    assert (Hfin : concat (if is_encrypted flags then enc_each key i (b :: u) else b :: u) = fb ++ concat fu).
    { unfold fb, fu. destruct (is_encrypted flags); reflexivity. }
    assert (Hsl' : slice (pos + at_) (lenN (fb ++ concat fu)) file = Some (fb ++ concat fu))
      by (rewrite <- Hfin; exact Hsl).
    clear Hsl. rename Hsl' into Hsl.
    rewrite (read_at_slice _ _ _ fb).
    2:{ rewrite <- Hfb. eapply slice_prefix; [exact Hsl|reflexivity]. }
    cbn [bind].
    assert (Hdec : (if is_encrypted flags then decrypt_file_data fb (w32 (key + w32 i)) else fb) = b).
    { unfold fb. destruct (is_encrypted flags); [apply decrypt_encrypt_data|reflexivity]. }
    rewrite Hdec. rewrite Hcomp. cbn [andb]. rewrite <- Hlen.
    assert (Hbs : lenN b <= lenN s /\ (lenN b < lenN s -> expand L b (lenN s) = Ok s)).
    { apply store_form_result in Hb as [[_ ->]|(_ & _ & C & Ne)]; [split; [lia|intros H; lia]|].
      split; [exact (compress_never_longer L _ _ _ C)|]. intros _.
      destruct (Hu _ C Ne) as (c' & -> & D). unfold expand. rewrite bN_Nb, N.mod_small by exact Hm.
      exact D. }
    destruct Hbs as [Hbs Hex].
    assert (Hsec : (if lenN b <? lenN s then expand L b (lenN s)
             else Ok (firstn (N.to_nat (N.min (lenN s) (lenN b))) b)) = Ok (if lenN b <? lenN s then s else b)).
    { destruct (N.ltb_spec (lenN b) (lenN s)) as [Hlt|Hge]; [exact (Hex Hlt)|].
      rewrite N.min_r by exact Hbs. unfold lenN. rewrite Nat2N.id, firstn_all. reflexivity. }
    assert (Hsl' : lenN (if lenN b <? lenN s then s else b) = lenN s).
    { destruct (N.ltb_spec (lenN b) (lenN s)); lia. }
    rewrite Hsec. cbn [bind].
    etransitivity; [apply IH'|].
    + rewrite lenN_app, Hsl', N.sub_add_distr. exact Hcut'.
    + rewrite lenN_app, Hsl'. lia.
    + lia.
    + lia.
    + cbv zeta. fold fu. rewrite N.add_assoc, <- Hfb. eapply slice_suffix; [exact Hsl|reflexivity].
    + cbn [reread]. now rewrite <- app_assoc.
Qed.

Lemma reread_safe m secs : forall stored, all_stored m secs stored -> Forall (sector_safe m) secs ->
  reread secs stored = concat secs.
Proof.
  induction secs as [|s t IH]; intros stored Ha Hs; destruct stored as [|b u]; try contradiction; [reflexivity|].
  destruct Ha as [[x Hb] Ha]. apply Forall_cons_iff in Hs as [[_ Hlt] Hs]. cbn [reread concat].
  rewrite (IH u Ha Hs). f_equal.
  apply store_form_result in Hb as [[_ ->]|(_ & _ & C & Ne)]; [now rewrite N.ltb_irrefl|].
  specialize (Hlt _ C Ne). now replace (lenN b <? lenN s) with true by lia.
Qed.
Lemma reread_same m secs : forall stored, all_stored m secs stored -> reread secs stored = concat secs ->
  m <> 0 -> forall s r, In s secs -> s <> [] -> compress L s m = Ok r -> r <> s -> lenN r < lenN s.
Proof.
  induction secs as [|s t IH]; intros stored Ha Hr Hm s0 r Hin Hne Hc Hrs; destruct stored as [|b u]; try contradiction.
  destruct Ha as [[x Hb] Ha]. cbn [reread concat] in Hr.
  assert (Hl : lenN b <= lenN s).
  { pose proof Hb as Hb'. apply store_form_result in Hb' as [[_ ->]|(_ & _ & C & Ne)]; [lia|].
    exact (compress_never_longer L _ _ _ C). }
  assert (E : (if lenN b <? lenN s then s else b) = s /\ reread t u = concat t).
  { apply app_same_length; [|exact Hr]. destruct (N.ltb_spec (lenN b) (lenN s)); unfold lenN in *; lia. }
  destruct E as [E1 E2]. destruct Hin as [<-|Hin]; [|eapply IH; eauto].
  destruct (N.ltb_spec (lenN b) (lenN s)) as [Hlt|Hge].
  - unfold store_form in Hb. replace (m =? 0) with false in Hb by lia.
    destruct (N.eqb_spec (lenN s) 0) as [E0|E0]; cbn [orb] in Hb.
    { exfalso. lia. }
    rewrite Hc in Hb. cbn [bind] in Hb.
    destruct (bytes_eqb r s) eqn:B; [apply bytes_eqb_eq in B; congruence|].
    apply Ok_inj in Hb. now injection Hb as -> _.
  - subst b. exfalso. unfold store_form in Hb. replace (m =? 0) with false in Hb by lia.
    destruct (N.eqb_spec (lenN s) 0) as [E0|E0]; cbn [orb] in Hb.
    { apply Hne. destruct s; [reflexivity|]. rewrite lenN_cons in E0. lia. }
    rewrite Hc in Hb. cbn [bind] in Hb.
    destruct (bytes_eqb r s) eqn:B; [apply bytes_eqb_eq in B; congruence|].
    apply Ok_inj in Hb. injection Hb as Hb _. congruence.
Qed.

Lemma le_values_words ws rest : words_ok ws ->
  le_values 4 (length ws) (bytes_of_words ws ++ rest) = ws.
Proof.
  induction 1 as [|w ws Hw H IH]; [reflexivity|].
  cbn [length le_values bytes_of_words]. rewrite <- app_assoc.
  rewrite firstn_app_exact by apply le32_length.
  rewrite skipn_app_exact by apply le32_length.
  rewrite le32_dec by exact Hw. now rewrite IH.
Qed.

Lemma sector_offsets_ok at_ l : words_ok (sector_offsets at_ l).
Proof.
  revert at_. induction l as [|s t IH]; intros at_; cbn [sector_offsets];
    constructor; try apply w32_lt; [constructor|apply IH].
Qed.
Lemma sector_offsets_length at_ l : length (sector_offsets at_ l) = S (length l).
Proof. revert at_. induction l as [|s t IH]; intros at_; cbn [sector_offsets length]; auto. Qed.

Lemma decrypt_words ws k : words_ok ws ->
  decrypt_file_data (bytes_of_words (encrypt_block ws k)) k = bytes_of_words ws.
Proof.
  intros H. destruct (N.eq_dec k 0) as [->|Hk]; [now rewrite decrypt_data_0, encrypt_block_0|].
  assert (E : words_of_bytes (bytes_of_words (encrypt_block ws k)) = (encrypt_block ws k, [])).
  { rewrite <- (app_nil_r (bytes_of_words _)). apply words_of_bytes_of_words.
    - now apply encrypt_block_ok.
    - cbn. lia. }
  rewrite (decrypt_data_eq _ _ _ _ E Hk), decrypt_encrypt_block.
  unfold tail_crypt. cbn [length firstn]. apply app_nil_r.
Qed.

Lemma crcs_length (secs : list bytes) :
  lenN (concat (map (fun s => le32 (adler32 s)) secs)) = 4 * lenN secs.
Proof.
  induction secs as [|s t IH]; [reflexivity|]. cbn [map]. rewrite lenN_concat_cons, IH, lenN_cons.
  unfold lenN at 1. rewrite le32_length. lia.
Qed.

Lemma words_bytes_lenN ws : lenN (bytes_of_words ws) = 4 * lenN ws.
Proof. unfold lenN. rewrite bytes_of_words_length. lia. Qed.

(** A file of several sectors, at least one of them compressed. *)
Lemma read_multi_exact c f pos out csize flags a name fi ss :
  write_multi L c ss f pos = Ok (out, csize, flags) ->
  slice (a_off a + pos) (lenN out) (a_file a) = Some out ->
  sector_size (h_block_size (a_header a)) = Ok ss ->
  a_off a + pos + lenN out < M64 ->
  lenN (pf_data f) + 8 * (div_ceil (lenN (pf_data f)) ss + 1) < M32 -> pf_comp f < 256 ->
  is_compressed flags = true ->
  Forall (undoes L (pf_comp f)) (chunks (length (pf_data f)) ss (pf_data f)) ->
  name_equiv name (pf_name f) ->
  fi_pos fi = a_off a + pos -> fi_size fi = w32 (lenN (pf_data f)) ->
  fi_flags fi = N.lor flags FLAG_EXISTS ->
  is_single_unit (fi_flags fi) = false /\ is_compressed (fi_flags fi) = true /\
  exists stored, all_stored (pf_comp f) (chunks (length (pf_data f)) ss (pf_data f)) stored /\
    read_sectored_file L a fi (read_key a name fi (w32 (lenN (pf_data f))))
    = Ok (reread (chunks (length (pf_data f)) ss (pf_data f)) stored).
Proof.
  intros W Hs Hss Hoff Hlen Hc Hco Hu Hn Hp Hsz Hf.
  unfold write_multi in W. destruct (N.eqb_spec ss 0) as [|Hss0]; [discriminate|].
  set (d := pf_data f) in *. set (secs := chunks (length d) ss d) in *.
  set (n := div_ceil (lenN d) ss) in *.
  assert (Hn_ : lenN secs = n) by (apply chunks_count; lia).
  destruct (store_sectors L secs (pf_comp f)) as [[stored comp]| |] eqn:E; cbn [bind] in W;
    try discriminate.
  destruct (store_sectors_le _ _ _ _ _ E) as [Hlst Hle].
  assert (Hcc : concat secs = d) by (apply chunks_concat; lia).
  rewrite Hcc in Hle.
  set (ds := (n + 1) * 4 + (if c_crcs c then n * 4 else 0)) in *.
  assert (Hds : ds <= 8 * (n + 1)) by (unfold ds; destruct (c_crcs c); lia).
  assert (Hd32 : lenN d < M32) by lia.
  assert (Hssb : (ss =? 0) = false) by lia.
  assert (Hcut : cut ss (lenN d) secs) by (apply chunks_cut; lia).
  assert (Hst32 : ds + lenN (concat stored) < M32) by lia.
  set (key := calculate_file_key _ _ _ _) in W.
  assert (Henc : enc_sectors key ds (concat stored) (sector_offsets ds stored) 0
                 = Ok (concat (enc_each key 0 stored))).
  { pose proof (enc_sectors_eq key ds stored [] 0) as H. rewrite lenN_nil, N.add_0_r in H.
    apply H. lia. }
  set (offs := sector_offsets ds stored) in *.
  assert (Hoffs : lenN offs = n + 1).
  { unfold offs, lenN. rewrite sector_offsets_length. unfold lenN in Hn_. lia. }
  set (crcb := if c_crcs c then concat (map (fun s => le32 (adler32 s)) secs) else []) in *.
  assert (Hcrcb : lenN crcb = if c_crcs c then n * 4 else 0).
  { unfold crcb. destruct (c_crcs c); [rewrite crcs_length; lia|reflexivity]. }
  set (fin := if pf_encrypt f then enc_each key 0 stored else stored).
  assert (Hdata : (if pf_encrypt f then enc_sectors key ds (concat stored) offs 0 else Ok (concat stored))
                  = Ok (concat fin)).
  { unfold fin. destruct (pf_encrypt f); [exact Henc|reflexivity]. }
  rewrite Hdata in W. cbn [bind] in W. apply Ok_inj in W. injection W as W1 W2 W3.
  set (fl0 := N.lor _ (flag_if (pf_encrypt f && pf_fix f) FLAG_FIX_KEY)) in *.
  assert (Hg : fi_flags fi = multi_flags (c_crcs c) comp (pf_encrypt f) (pf_fix f)).
  { rewrite Hf, <- W3. reflexivity. }
  destruct (multi_flags_ok (c_crcs c) comp (pf_encrypt f) (pf_fix f)) as (G1 & G2 & G3 & G4 & G5 & _).
  rewrite <- Hg in G1, G2, G3, G4, G5. split; [exact G1|].
  assert (Hcomp : is_compressed (fi_flags fi) = true).
  { rewrite Hf. unfold is_compressed, has_flag in *. rewrite N.land_lor_distr_l.
    change (N.land FLAG_EXISTS (N.lor FLAG_IMPLODE FLAG_COMPRESS)) with 0.
    now rewrite N.lor_0_r. }
  split; [exact Hcomp|].
  exists stored. split; [eapply store_sectors_all; exact E|].
  unfold read_sectored_file. rewrite Hss. cbn [bind].
  rewrite Hssb.
  rewrite Hsz, w32_small by exact Hd32. fold n.
  set (k := read_key a name fi (lenN d)).
  assert (Hk : pf_encrypt f = true -> k = key).
  { intros He. unfold k, key. rewrite w32_small by exact Hd32.
    apply key_agrees; auto; congruence. }
  set (tab := if pf_encrypt f then encrypt_block offs (dec32 key) else offs) in *.
  assert (Htab : lenN (bytes_of_words tab) = (n + 1) * 4).
  { rewrite words_bytes_lenN. unfold tab. destruct (pf_encrypt f); [rewrite lenN_encrypt_block|]; rewrite Hoffs; apply N.mul_comm. }
  rewrite Hp.
  rewrite (read_at_slice _ _ _ (bytes_of_words tab)).
  2:{ rewrite <- Htab. eapply slice_prefix; [exact Hs|symmetry; exact W1]. }
  cbn [bind]. rewrite G3.
  assert (Hdec : (if pf_encrypt f then decrypt_file_data (bytes_of_words tab) (dec32 k) else bytes_of_words tab)
                 = bytes_of_words offs).
  { unfold tab. destruct (pf_encrypt f) eqn:Een; [|reflexivity].
    rewrite (Hk eq_refl). apply decrypt_words. apply sector_offsets_ok. }
  rewrite Hdec.
  assert (Hval : le_values 4 (N.to_nat (n + 1)) (bytes_of_words offs) = offs).
  { rewrite <- Hoffs. unfold lenN. rewrite Nat2N.id.
    rewrite <- (app_nil_r (bytes_of_words offs)). apply le_values_words. apply sector_offsets_ok. }
  rewrite Hval.
  assert (Hs2 : slice (a_off a + pos + (n + 1) * 4) (lenN (crcb ++ concat fin)) (a_file a) = Some (crcb ++ concat fin)).
  { rewrite <- Htab. eapply slice_suffix; [exact Hs|symmetry; exact W1]. }
  assert (Hcrc : exists x, (if has_sector_crc (fi_flags fi) && ((n + 1) * 4 + n * 4 <=? hd 0 offs)
     then read_at (a_file a) (a_off a + pos + (n + 1) * 4) (n * 4) else Ok []) = Ok x).
  { rewrite G5. destruct (c_crcs c); cbn [andb]; [|eauto].
    destruct (_ <=? _); [|eauto]. exists crcb. apply read_at_slice. rewrite <- Hcrcb.
    eapply slice_prefix; [exact Hs2|reflexivity]. }
  destruct Hcrc as [x Hcrc]. rewrite Hcrc. cbn [bind].
  assert (Hfinlen : lenN (concat fin) = lenN (concat stored)).
  { unfold fin. destruct (pf_encrypt f); [apply enc_each_concat_length|reflexivity]. }
  rewrite (read_sectors_exact _ _ _ _ _ (pf_comp f) _ Hc Hcomp secs stored ds 0 []).
  - reflexivity.
  - eapply store_sectors_all; eauto.
  - exact Hu.
  - rewrite lenN_nil, N.sub_0_r. exact Hcut.
  - apply N.le_0_l.
  - exact Hst32.
  - pose proof (slice_length _ _ _ _ Hs) as Hol. rewrite <- W1 in Hoff.
    rewrite !lenN_app, Htab, Hcrcb, Hfinlen in Hoff. fold ds in Hoff.
    unfold ds. clear - Hoff. lia.
  - cbv zeta. rewrite G3.
    replace (if pf_encrypt f then enc_each k 0 stored else stored) with fin.
    2:{ unfold fin. destruct (pf_encrypt f) eqn:Een; [|reflexivity]. now rewrite (Hk eq_refl). }
    replace (a_off a + pos + ds) with (a_off a + pos + (n + 1) * 4 + lenN crcb)
      by (rewrite Hcrcb; unfold ds; apply N.add_assoc || (clear; lia)).
    eapply slice_suffix; [exact Hs2|reflexivity].
Qed.

Lemma read_multi c f pos out csize flags a name fi ss :
  write_multi L c ss f pos = Ok (out, csize, flags) ->
  slice (a_off a + pos) (lenN out) (a_file a) = Some out ->
  sector_size (h_block_size (a_header a)) = Ok ss ->
  a_off a + pos + lenN out < M64 ->
  lenN (pf_data f) + 8 * (div_ceil (lenN (pf_data f)) ss + 1) < M32 -> pf_comp f < 256 ->
  is_compressed flags = true ->
  Forall (sector_safe (pf_comp f)) (chunks (length (pf_data f)) ss (pf_data f)) ->
  name_equiv name (pf_name f) ->
  fi_pos fi = a_off a + pos -> fi_size fi = w32 (lenN (pf_data f)) ->
  fi_flags fi = N.lor flags FLAG_EXISTS ->
  is_single_unit (fi_flags fi) = false /\ is_compressed (fi_flags fi) = true /\
  read_sectored_file L a fi (read_key a name fi (w32 (lenN (pf_data f)))) = Ok (pf_data f).
Proof.
  intros W Hs Hss Hoff Hlen Hc Hco Hu Hn Hp Hsz Hf.
  destruct (read_multi_exact c f pos out csize flags a name fi ss) as (G1 & G2 & stored & G3 & G4); auto.
  { eapply Forall_impl; [|exact Hu]. now intros x []. }
  split; [exact G1|]. split; [exact G2|]. rewrite G4, (reread_safe _ _ _ G3 Hu). f_equal.
  apply chunks_concat; [|lia]. unfold write_multi in W. destruct (N.eqb_spec ss 0); [discriminate|lia].
Qed.

End R.
