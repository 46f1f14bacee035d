(** * Facts about the ADPCM codec: the decoder follows the encoder. *)
From Verif Require Import Bytes Adpcm AdpcmBits HashTableFacts.
Open Scope Z_scope.

Lemma chan_back ch cc : (ch < cc)%nat -> (1 <= cc <= 2)%nat ->
  ((((ch + 1) mod cc) + cc - 1) mod cc)%nat = ch.
Proof.
  intros H C. assert (E : cc = 1%nat \/ cc = 2%nat) by lia. destruct E as [-> | ->].
  - assert (ch = 0%nat) by lia. subst. reflexivity.
  - assert (ch = 0%nat \/ ch = 1%nat) by lia. destruct H0 as [-> | ->]; reflexivity.
Qed.
Lemma chan_lt ch cc : (1 <= cc)%nat -> ((ch + 1) mod cc < cc)%nat.
Proof. intros. apply Nat.mod_upper_bound. lia. Qed.

(** The 0x81 markers move the decoder's index to the encoder's. *)
Lemma grow_dec bs cc out osz : (1 <= cc <= 2)%nat -> (out < osz)%N ->
  forall f d idx pre idx1, grow f d idx = Ok (pre, idx1) -> (idx <= 88)%N ->
  (idx1 <= 88)%N /\
  forall sts ch pred rest, (ch < cc)%nat -> length sts = cc ->
  nth_error sts ((ch + 1) mod cc) = Some (pred, idx) ->
  dec_loop bs cc sts ch (pre ++ rest) out osz =
  dec_loop bs cc (upd sts ((ch + 1) mod cc) (pred, idx1)) ch rest out osz.
Proof.
  intros Hcc Ho. induction f as [|f IH]; intros d idx pre idx1 H Hi; [discriminate|].
  cbn [grow] in H.
  destruct (step_at_ok idx Hi) as (s & Es & _). rewrite Es in H. cbn [bind] in H.
  destruct (d >? s * 2).
  - destruct (N.leb_spec 0x58 idx) as [L|L].
    + apply Ok_inj in H. injection H as <- <-. split; [exact Hi|].
      intros sts ch pred rest Hch Hl Hn. cbn [app]. now rewrite upd_same.
    + destruct (grow f d (N.min (idx + 8) 0x58)) as [[o i]| |] eqn:Eg; cbn [bind] in H; try discriminate.
      apply Ok_inj in H. injection H as <- <-.
      destruct (IH _ _ _ _ Eg ltac:(lia)) as [H1 H2]. split; [exact H1|].
      intros sts ch pred rest Hch Hl Hn. cbn [app dec_loop].
      replace ((out <? osz)%N) with true by (symmetry; apply N.ltb_lt; exact Ho).
      rewrite Hn. change (bN (Nb 0x81) =? 0x80)%N with false. change (bN (Nb 0x81) =? 0x81)%N with true.
      cbn iota. rewrite chan_back by assumption.
      assert (Hlt : ((ch + 1) mod cc < length sts)%nat) by (rewrite Hl; apply chan_lt; lia).
      rewrite H2 with (pred := pred).
      * now rewrite upd_upd.
      * exact Hch.
      * now rewrite upd_length.
      * now apply nth_error_upd_eq.
  - apply Ok_inj in H. injection H as <- <-. split; [exact Hi|].
    intros sts ch pred rest Hch Hl Hn. cbn [app]. now rewrite upd_same.
Qed.

(** One sample. *)
Lemma one_dec level bs cc out osz st s o st' :
  (1 <= cc <= 2)%nat -> (out < osz)%N -> st_ok st ->
  enc_one level bs st s = Ok (o, st') ->
  st_ok st' /\
  forall sts ch rest, (ch < cc)%nat -> length sts = cc ->
  nth_error sts ((ch + 1) mod cc) = Some st ->
  dec_loop bs cc sts ch (o ++ rest) out osz =
  (r <- dec_loop bs cc (upd sts ((ch + 1) mod cc) st') ((ch + 1) mod cc)%nat rest (out + 2) osz ;;
   Ok (write_sample (fst st') ++ r)).
Proof.
  intros Hcc Ho [Hp Hi] H. destruct st as [pred idx]. cbn [fst snd] in *.
  unfold enc_one in H.
  destruct (step_at_ok idx Hi) as (st0 & Es & _). rewrite Es in H. cbn [bind] in H.
  destruct (sar32 st0 level) as [th| |]; cbn [bind] in H; try discriminate.
  destruct (Z.abs (s - pred) <? th).
  { apply Ok_inj in H. injection H as <- <-. split; [split; cbn [fst snd]; [exact Hp|lia]|].
    intros sts ch rest Hch Hl Hn. cbn [app dec_loop].
    replace ((out <? osz)%N) with true by (symmetry; apply N.ltb_lt; exact Ho).
    rewrite Hn. change (bN (Nb 0x80) =? 0x80)%N with true. reflexivity. }
  destruct (grow 13 (Z.abs (s - pred)) idx) as [[pre idx1]| |] eqn:Eg; cbn [bind] in H; try discriminate.
  destruct (grow_dec bs cc out osz Hcc Ho _ _ _ _ _ Eg Hi) as [Hi1 Hg].
  destruct (step_at_ok idx1 Hi1) as (st1 & Es1 & _). rewrite Es1 in H. cbn [bind] in H.
  destruct (max_bit_mask bs) as [m| |] eqn:Em; cbn [bind] in H; try discriminate.
  destruct (max_bit_mask_cases _ _ Em) as (Hm & Hm0 & Hbs).
  destruct (sar32 st1 bs) as [base| |] eqn:Eb; cbn [bind] in H; try discriminate.
  set (sgn := if s - pred <? 0 then 64%N else 0%N) in *.
  assert (Hsgn : (sgn = 0 \/ sgn = 0x40)%N) by (unfold sgn; destruct (s - pred <? 0); auto).
  destruct (if (0 <? m)%N then enc_bits 8 (Z.abs (s - pred)) st1 0 1 m sgn else (0, sgn))
    as [total enc] eqn:Ebits.
  assert (HB : total = bits_sum enc st1 /\ (enc < 128)%N /\ N.land enc 0x40 = sgn).
  { destruct (N.ltb_spec 0 m).
    - exact (enc_bits_spec m sgn _ st1 total enc Hm Hsgn Ebits).
    - injection Ebits as <- <-. destruct Hsgn as [-> | ->]; vm_compute; auto. }
  clear Ebits. destruct HB as (Ht & He & _).
  destruct (next_step_ok idx1 enc) as (idx2 & E2 & Hi2). rewrite E2 in H. cbn [bind] in H.
  apply Ok_inj in H. injection H as <- <-. cbn [fst].
  split; [split; cbn [fst snd]; [apply update_i16|exact Hi2]|].
  intros sts ch rest Hch Hl Hn.
  rewrite <- app_assoc. rewrite (Hg sts ch pred ([Nb enc] ++ rest) Hch Hl Hn).
  cbn [app dec_loop].
  replace ((out <? osz)%N) with true by (symmetry; apply N.ltb_lt; exact Ho).
  assert (Hlt : ((ch + 1) mod cc < length sts)%nat) by (rewrite Hl; apply chan_lt; lia).
  rewrite nth_error_upd_eq by exact Hlt.
  assert (Hb : bN (Nb enc) = enc) by (rewrite bN_Nb; apply N.mod_small; lia).
  rewrite Hb.
  replace (enc =? 128)%N with false by (symmetry; apply N.eqb_neq; lia).
  replace (enc =? 129)%N with false by (symmetry; apply N.eqb_neq; lia).
  rewrite Es1. cbn [bind]. rewrite Eb. cbn [bind].
  rewrite decode_sample_sum, <- Ht, E2. cbn [bind]. rewrite upd_upd. reflexivity.
Qed.

Lemma enc_dec level bs cc osz : (1 <= cc <= 2)%nat ->
  forall samples sts ch out o preds tail,
  enc_loop level bs cc sts ch samples = Ok (o, preds) ->
  Forall st_ok sts -> length sts = cc -> (ch < cc)%nat ->
  (out + 2 * N.of_nat (length samples) = osz)%N ->
  dec_loop bs cc sts ch (o ++ tail) out osz = Ok (concat (map write_sample preds)) /\
  length preds = length samples /\ Forall i16 preds.
Proof.
  intros Hcc. induction samples as [|s samples IH]; intros sts ch out o preds tail H Hst Hl Hch Ho.
  - cbn in H. apply Ok_inj in H. injection H as <- <-. split; [|auto].
    cbn [app map concat]. destruct tail as [|b tail]; [reflexivity|]. cbn [dec_loop].
    replace (out <? osz)%N with false; [reflexivity|].
    symmetry. apply N.ltb_ge. cbn in Ho. lia.
  - cbn [enc_loop] in H.
    destruct (nth_error sts ((ch + 1) mod cc)) as [st|] eqn:En; [|discriminate].
    assert (Hs : st_ok st).
    { apply nth_error_In in En. rewrite Forall_forall in Hst. auto. }
    destruct (enc_one level bs st s) as [[o1 st']| |] eqn:E1; cbn [bind] in H; try discriminate.
    destruct (enc_loop level bs cc (upd sts _ st') _ samples) as [[o2 ps]| |] eqn:E2;
      cbn [bind] in H; try discriminate.
    apply Ok_inj in H. injection H as <- <-. cbn [length] in Ho.
    destruct (one_dec level bs cc out osz st s o1 st' Hcc ltac:(lia) Hs E1) as [Hs' Hd].
    destruct (IH _ _ (out + 2)%N _ _ tail E2) as (D & L & F).
    + apply Forall_forall. intros x Hx. rewrite Forall_forall in Hst.
      apply In_nth_error in Hx as [n Hn].
      destruct (Nat.eq_dec ((ch + 1) mod cc) n) as [<-|Ne].
      * rewrite nth_error_upd_eq in Hn by (apply nth_error_Some; congruence). congruence.
      * rewrite nth_error_upd_neq in Hn by exact Ne. apply Hst. eapply nth_error_In; eauto.
    + now rewrite upd_length.
    + apply chan_lt. lia.
    + lia.
    + split; [|split].
      * rewrite <- app_assoc, (Hd sts ch (o2 ++ tail) Hch Hl En), D. reflexivity.
      * cbn. now rewrite L.
      * constructor; [apply Hs'|exact F].
Qed.

(** Bytes and samples *)
Lemma sample_write s : i16 s -> exists lo hi, write_sample s = [lo; hi] /\ sample_of lo hi = s.
Proof.
  intros H. unfold write_sample. cbn [le_enc]. do 2 eexists. split; [reflexivity|].
  unfold i16, sample_of in *. rewrite !bN_Nb.
  pose proof (Z.mod_pos_bound s 65536 ltac:(lia)) as B.
  set (n := Z.to_N (s mod 65536)) in *.
  assert (Hn : (n < 65536)%N) by lia.
  assert (E : (n mod 256 + 256 * ((n / 256) mod 256) = n)%N).
  { rewrite (N.mod_small (n / 256) 256) by (apply N.div_lt_upper_bound; lia).
    rewrite N.add_comm. symmetry. apply N.div_mod. lia. }
  rewrite E.
  destruct (Z.ltb_spec (Z.of_N n) 32768) as [L|L]; unfold n in *.
  - assert (s mod 65536 = s \/ s mod 65536 = s + 65536).
    { destruct (Z.lt_ge_cases s 0).
      - right. symmetry. apply Z.mod_unique with (q := -1); lia.
      - left. apply Z.mod_small. lia. }
    lia.
  - assert (s mod 65536 = s \/ s mod 65536 = s + 65536).
    { destruct (Z.lt_ge_cases s 0).
      - right. symmetry. apply Z.mod_unique with (q := -1); lia.
      - left. apply Z.mod_small. lia. }
    lia.
Qed.

Lemma sample_i16 lo hi : i16 (sample_of lo hi).
Proof.
  unfold i16, sample_of. pose proof (bN_lt lo). pose proof (bN_lt hi).
  destruct (Z.ltb_spec (Z.of_N (bN lo + 256 * bN hi)) 32768); lia.
Qed.

Lemma samples_write l : Forall i16 l -> samples_of (concat (map write_sample l)) = l.
Proof.
  induction 1 as [|s l Hs _ IH]; [reflexivity|].
  destruct (sample_write s Hs) as (lo & hi & E & E2). cbn [map concat]. rewrite E. cbn. congruence.
Qed.

Lemma write_samples_length l : length (concat (map write_sample l)) = (2 * length l)%nat.
Proof. induction l as [|s l IH]; [reflexivity|]. cbn [map concat length]. rewrite app_length, IH. cbn. lia. Qed.

Lemma samples_pairs : forall n d, (length d = 2 * n)%nat ->
  Forall i16 (samples_of d) /\ length (samples_of d) = n /\ concat (map write_sample (samples_of d)) = d.
Proof.
  induction n as [|n IH]; intros d L.
  - destruct d; [|cbn in L; lia]. cbn. auto.
  - destruct d as [|lo [|hi d]]; cbn in L; try lia.
    destruct (IH d ltac:(lia)) as (F & Ln & E). cbn [samples_of map concat length].
    split; [|split].
    + constructor; [apply sample_i16|exact F].
    + now rewrite Ln.
    + rewrite E. f_equal.
      pose proof (sample_i16 lo hi) as Hi. destruct (sample_write _ Hi) as (lo' & hi' & E1 & E2).
      rewrite E1. 
      assert (lo' = lo /\ hi' = hi) as [-> ->]; [|reflexivity].
      { assert (I : (bN lo + 256 * bN hi = bN lo' + 256 * bN hi')%N).
        { unfold sample_of in E2. pose proof (bN_lt lo). pose proof (bN_lt hi).
          pose proof (bN_lt lo'). pose proof (bN_lt hi').
          destruct (Z.ltb_spec (Z.of_N (bN lo' + 256 * bN hi')) 32768);
          destruct (Z.ltb_spec (Z.of_N (bN lo + 256 * bN hi)) 32768); lia. }
        pose proof (bN_lt lo). pose proof (bN_lt hi). pose proof (bN_lt lo'). pose proof (bN_lt hi').
        split; apply bN_inj; lia. }
Qed.

Lemma adpcm_sync_tail input level cc out preds tail :
  adpcm_encode input level cc = Ok (out, preds) -> (level < 256)%N -> (input = [] -> tail = []) ->
  adpcm_decompress (out ++ tail) (lenN input) cc = Ok (concat (map write_sample preds)) /\
  length preds = length (samples_of input) /\
  firstn cc preds = firstn cc (samples_of input) /\
  Forall i16 preds /\ lenN input = (2 * N.of_nat (length preds))%N.
Proof.
  unfold adpcm_encode. intros H Hlev Htl.
  destruct ((cc =? 0) || (2 <? cc))%nat eqn:Ecc; [discriminate|].
  apply orb_false_iff in Ecc as [C1 C2]. apply Nat.eqb_neq in C1. apply Nat.ltb_ge in C2.
  destruct (N.eqb_spec (lenN input mod 2) 0) as [Ev|Ev]; cbn [negb] in H; [|discriminate].
  assert (Hn : exists n, (length input = 2 * n)%nat).
  { apply N.mod_divides in Ev as [k Hk]; [|lia]. exists (N.to_nat k). unfold lenN in Hk. lia. }
  destruct Hn as [n Hn]. destruct (samples_pairs n input Hn) as (Fs & Ls & Es).
  assert (Hlen : lenN input = (2 * N.of_nat (length (samples_of input)))%N) by (unfold lenN; lia).
  destruct (samples_of input) as [|s0 ss] eqn:Ess.
  { apply Ok_inj in H. injection H as <- <-.
    assert (Hi : input = []) by (destruct input; [reflexivity|cbn in Hn, Ls; lia]).
    rewrite (Htl Hi), Hi.
    unfold adpcm_decompress. rewrite (proj2 (Nat.eqb_neq cc 0) C1), (proj2 (Nat.ltb_ge 2 cc) C2).
    cbn. auto 6. }
  rewrite <- Ess in *. set (samples := samples_of input) in *.
  assert (Hne : (0 < length samples)%nat) by (rewrite Ess; cbn; lia). clearbody samples.
  destruct (Nat.eqb_spec (length samples mod cc) 0) as [Em|Em]; cbn [negb] in H; [|discriminate].
  assert (Hge : (cc <= length samples)%nat).
  { apply Nat.mod_divides in Em as [k Hk]; [|exact C1]. destruct k; [lia|]. nia. }
  set (bs := (if level =? 0 then 0 else level - 1)%N) in *.
  assert (Hbs : (bs < 256)%N) by (unfold bs; destruct (level =? 0)%N; lia). clearbody bs.
  destruct (enc_loop level bs cc _ (cc - 1) (skipn cc samples)) as [[o ps]| |] eqn:E;
    cbn [bind] in H; try discriminate.
  apply Ok_inj in H. injection H as <- <-.
  assert (Lf : length (firstn cc samples) = cc) by (rewrite firstn_length; lia).
  assert (Ff : Forall i16 (firstn cc samples)).
  { rewrite <- (firstn_skipn cc samples) in Fs. apply Forall_app in Fs. apply Fs. }
  destruct (enc_dec level bs cc (lenN input) ltac:(lia) _ _ _ (2 * N.of_nat cc)%N _ _ tail E)
    as (D & Lp & Fp).
  { apply Forall_forall. intros x Hx. apply in_map_iff in Hx as (s & <- & Hs).
    rewrite Forall_forall in Ff. split; cbn; [auto|unfold INITIAL_STEP_INDEX; lia]. }
  { now rewrite map_length. }
  { lia. }
  { rewrite skipn_length, Hlen. lia. }
  split; [|split; [|split; [|split]]].
  - unfold adpcm_decompress. rewrite (proj2 (Nat.eqb_neq cc 0) C1), (proj2 (Nat.ltb_ge 2 cc) C2).
    cbn [orb app]. rewrite <- app_assoc.
    assert (Lw : length (concat (map write_sample (firstn cc samples))) = (2 * cc)%nat)
      by (rewrite write_samples_length, Lf; reflexivity).
    rewrite !lenN_cons, lenN_app.
    replace (lenN (concat (map write_sample (firstn cc samples)))) with (2 * N.of_nat cc)%N
      by (unfold lenN; rewrite Lw; lia).
    replace (_ <? 4)%N with false by (symmetry; apply N.ltb_ge; lia).
    replace (_ <? 2 + 2 * N.of_nat cc)%N with false by (symmetry; apply N.ltb_ge; lia).
    rewrite firstn_app_exact, skipn_app_exact by exact Lw.
    rewrite samples_write by exact Ff.
    rewrite bN_Nb, (N.mod_small bs 256) by exact Hbs.
    rewrite D. cbn [bind]. rewrite map_app, concat_app. reflexivity.
  - rewrite app_length, Lf, Lp, skipn_length. lia.
  - apply firstn_app_exact. exact Lf.
  - apply Forall_app. auto.
  - rewrite Hlen, app_length, Lf, Lp, skipn_length. lia.
Qed.

Lemma adpcm_sync input level cc out preds :
  adpcm_encode input level cc = Ok (out, preds) -> (level < 256)%N ->
  adpcm_decompress out (lenN input) cc = Ok (concat (map write_sample preds)) /\
  length preds = length (samples_of input) /\
  firstn cc preds = firstn cc (samples_of input) /\
  Forall i16 preds /\ lenN input = (2 * N.of_nat (length preds))%N.
Proof.
  intros H L. pose proof (adpcm_sync_tail _ _ _ _ _ [] H L (fun _ => eq_refl)) as K.
  now rewrite app_nil_r in K.
Qed.

(** ** The encoder accepts every valid input at the usable levels *)
Lemma grow_ok : forall f d idx, (idx <= 88)%N -> (96 <= idx + 8 * N.of_nat f)%N ->
  exists pre idx1, grow f d idx = Ok (pre, idx1) /\ (idx <= idx1 <= 88)%N /\
    (forall s, step_at idx1 = Ok s -> d <= s * 2 \/ idx1 = 88%N).
Proof.
  induction f as [|f IH]; intros d idx Hi Hf; [lia|].
  cbn [grow]. destruct (step_at_ok idx Hi) as (s & Es & _). rewrite Es. cbn [bind].
  rewrite Z.gtb_ltb. destruct (Z.ltb_spec (s * 2) d) as [L|L].
  - destruct (N.leb_spec 0x58 idx) as [L2|L2].
    + exists [], idx. split; [reflexivity|]. split; [lia|]. intros. right. lia.
    + destruct (IH d (N.min (idx + 8) 0x58) ltac:(lia)) as (pre & i & -> & Hb & Hd).
      { lia. }
      cbn [bind]. exists (Nb 0x81 :: pre), i. split; [reflexivity|]. split; [lia|exact Hd].
  - exists [], idx. split; [reflexivity|]. split; [lia|]. intros s' Hs'. left. congruence.
Qed.

Lemma sar32_ok x k : (k < 32)%N -> sar32 x k = Ok (x / 2 ^ Z.of_N k).
Proof.
  intros H. unfold sar32. replace (k <? 32)%N with true by (symmetry; apply N.ltb_lt; exact H).
  f_equal. apply Z.shiftr_div_pow2. lia.
Qed.

Lemma max_bit_mask_ok bs : (bs <= 8)%N -> exists m, max_bit_mask bs = Ok m.
Proof.
  intros H. unfold max_bit_mask. destruct (0 <? bs)%N eqn:E; [|eauto].
  replace (bs - 1 <? 8)%N with true by (symmetry; apply N.ltb_lt; lia). eauto.
Qed.

Lemma enc_one_total level bs st s : (level < 32)%N -> (bs <= 8)%N -> st_ok st ->
  exists o st', enc_one level bs st s = Ok (o, st').
Proof.
  intros HL Hb [Hp Hi]. destruct st as [pred idx]. cbn [fst snd] in *.
  unfold enc_one. destruct (step_at_ok idx Hi) as (st0 & Es & _). rewrite Es. cbn [bind].
  rewrite sar32_ok by exact HL. cbn [bind].
  destruct (_ <? _); [eauto|].
  destruct (grow_ok 13 (Z.abs (s - pred)) idx Hi ltac:(lia)) as (pre & i1 & Eg & Hi1 & _).
  rewrite Eg. cbn [bind].
  destruct (step_at_ok i1 ltac:(lia)) as (st1 & Es1 & _). rewrite Es1. cbn [bind].
  destruct (max_bit_mask_ok bs Hb) as [m Em]. rewrite Em. cbn [bind].
  rewrite sar32_ok by lia. cbn [bind].
  destruct (if (0 <? m)%N then _ else _) as [t e].
  destruct (next_step_ok i1 e) as (i2 & -> & _). cbn [bind]. eauto.
Qed.

Lemma enc_loop_total level bs cc : (level < 32)%N -> (bs <= 8)%N -> (1 <= cc <= 2)%nat ->
  forall samples sts ch, Forall st_ok sts -> length sts = cc -> (ch < cc)%nat ->
  exists o ps, enc_loop level bs cc sts ch samples = Ok (o, ps).
Proof.
  intros HL Hb Hcc. induction samples as [|s samples IH]; intros sts ch Hst Hl Hch; cbn [enc_loop]; [eauto|].
  pose proof (chan_lt ch cc ltac:(lia)) as Hlt.
  destruct (nth_error sts ((ch + 1) mod cc)) as [st|] eqn:En.
  2:{ apply nth_error_None in En. lia. }
  assert (Hs : st_ok st).
  { apply nth_error_In in En. rewrite Forall_forall in Hst. auto. }
  destruct (enc_one_total level bs st s HL Hb Hs) as (o & st' & E1). rewrite E1. cbn [bind].
  destruct (one_dec level bs cc 0 1 st s o st' Hcc ltac:(lia) Hs E1) as [Hs' _].
  destruct (IH (upd sts ((ch + 1) mod cc) st') ((ch + 1) mod cc)%nat) as (o2 & ps & ->).
  - apply Forall_forall. intros x Hx. rewrite Forall_forall in Hst.
    apply In_nth_error in Hx as [n Hn].
    destruct (Nat.eq_dec ((ch + 1) mod cc) n) as [<-|Ne].
    + rewrite nth_error_upd_eq in Hn by lia. congruence.
    + rewrite nth_error_upd_neq in Hn by exact Ne. apply Hst. eapply nth_error_In; eauto.
  - now rewrite upd_length.
  - exact Hlt.
  - cbn [bind]. eauto.
Qed.

Lemma adpcm_encode_total input level cc : (level <= 9)%N -> (1 <= cc <= 2)%nat ->
  (lenN input mod (2 * N.of_nat cc) = 0)%N ->
  exists out preds, adpcm_encode input level cc = Ok (out, preds).
Proof.
  intros HL Hcc Hm. apply N.mod_divides in Hm as [k Hk]; [|lia].
  assert (Hn : length input = (2 * (cc * N.to_nat k))%nat).
  { unfold lenN in Hk. lia. }
  destruct (samples_pairs _ _ Hn) as (F & L & _).
  unfold adpcm_encode.
  rewrite (proj2 (Nat.eqb_neq cc 0)) by lia. rewrite (proj2 (Nat.ltb_ge 2 cc)) by lia. cbn [orb].
  replace (lenN input mod 2)%N with 0%N.
  2:{ symmetry. rewrite Hk. apply N.mod_divides; [lia|]. exists (N.of_nat cc * k)%N. lia. }
  cbn [N.eqb negb].
  destruct (samples_of input) as [|s0 ss] eqn:E; [do 2 eexists; reflexivity|].
  assert (Hnz : length (samples_of input) <> 0%nat) by (rewrite E; cbn; lia).
  rewrite <- E in L, F |- *.
  replace (length (samples_of input) mod cc)%nat with 0%nat.
  2:{ rewrite L. symmetry. rewrite Nat.mul_comm. apply Nat.mod_mul. lia. }
  cbn [Nat.eqb negb].
  set (bs := (if level =? 0 then 0 else level - 1)%N).
  assert (Hge : (cc <= length (samples_of input))%nat).
  { rewrite L in *. destruct (N.to_nat k); [rewrite Nat.mul_0_r in Hnz; lia|]. nia. }
  destruct (enc_loop_total level bs cc ltac:(lia)
     ltac:(unfold bs; destruct (level =? 0)%N; lia) Hcc (skipn cc (samples_of input))
     (map (fun s => (s, INITIAL_STEP_INDEX)) (firstn cc (samples_of input))) (cc - 1)) as (o & ps & ->).
  - apply Forall_forall. intros x Hx. apply in_map_iff in Hx as (s & <- & Hs).
    rewrite <- (firstn_skipn cc (samples_of input)) in F. apply Forall_app in F as [F _].
    rewrite Forall_forall in F. split; cbn; [auto|unfold INITIAL_STEP_INDEX; lia].
  - rewrite map_length, firstn_length. lia.
  - lia.
  - do 2 eexists. reflexivity.
Qed.

(** ** Accuracy at the level the archive code uses *)
Lemma step_88 : step_at 88 = Ok 32767. Proof. reflexivity. Qed.

Lemma enc_bits_residual d step total enc sgn :
  0 <= d -> d <= 2 * step + 1 -> 7 <= step ->
  enc_bits 8 d step 0 1 8 sgn = (total, enc) ->
  0 <= d - total <= step / 8 + 4.
Proof.
  intros Hd0 Hd Hs H.
  assert (S2 : forall k, 0 <= k -> Z.shiftr (Z.shiftr step k) 1 = Z.shiftr step (k + 1))
    by (intros; rewrite Z.shiftr_shiftr by lia; reflexivity).
  cbn [enc_bits] in H. repeat rewrite S2 in H by lia.
  assert (W1 : Z.shiftr step 1 = step / 2) by (now rewrite Z.shiftr_div_pow2).
  assert (W2 : Z.shiftr step (1 + 1) = step / 2 / 2)
    by (rewrite Z.shiftr_div_pow2, Z.div_div by lia; reflexivity).
  assert (W3 : Z.shiftr step (1 + 1 + 1) = step / 2 / 2 / 2)
    by (rewrite Z.shiftr_div_pow2, !Z.div_div by lia; reflexivity).
  assert (W3' : step / 8 = step / 2 / 2 / 2) by (rewrite !Z.div_div by lia; reflexivity).
  rewrite W1, W2, W3 in H. rewrite W3'.
  change (1 <=? 8)%N with true in H. change (N.shiftl 1 1 <=? 8)%N with true in H.
  change (N.shiftl (N.shiftl 1 1) 1 <=? 8)%N with true in H.
  change (N.shiftl (N.shiftl (N.shiftl 1 1) 1) 1 <=? 8)%N with true in H.
  change (N.shiftl (N.shiftl (N.shiftl (N.shiftl 1 1) 1) 1) 1 <=? 8)%N with false in H.
  cbn iota in H.
  set (w1 := step / 2) in *. set (w2 := w1 / 2) in *. set (w3 := w2 / 2) in *.
  assert (B1 : 2 * w1 <= step <= 2 * w1 + 1) by (unfold w1; lia).
  assert (B2 : 2 * w2 <= w1 <= 2 * w2 + 1) by (unfold w2; lia).
  assert (B3 : 2 * w3 <= w2 <= 2 * w3 + 1) by (unfold w3; lia).
  clearbody w1 w2 w3. clear S2 W1 W2 W3 W3'.
  repeat match type of H with
  | context [if (?a <=? ?b)%Z then _ else _] => destruct (Z.leb_spec a b)
  end; injection H as <- <-; lia.
Qed.

Lemma enc_one_accuracy st s o st' :
  st_ok st -> i16 s -> enc_one 5 4 st s = Ok (o, st') -> Z.abs (fst st' - s) <= 2052.
Proof.
  intros [Hp Hi] Hs H. destruct st as [pred idx]. cbn [fst snd] in *.
  unfold enc_one in H. destruct (step_at_ok idx Hi) as (st0 & Es & Hst0). rewrite Es in H. cbn [bind] in H.
  rewrite sar32_ok in H by lia. cbn [bind] in H.
  change (2 ^ Z.of_N 5) with 32 in H.
  destruct (Z.ltb_spec (Z.abs (s - pred)) (st0 / 32)) as [L|L].
  { apply Ok_inj in H. injection H as <- <-. cbn [fst]. lia. }
  destruct (grow_ok 13 (Z.abs (s - pred)) idx Hi ltac:(lia)) as (pre & i1 & Eg & Hi1 & Hd).
  rewrite Eg in H. cbn [bind] in H.
  destruct (step_at_ok i1 ltac:(lia)) as (st1 & Es1 & Hst1). rewrite Es1 in H. cbn [bind] in H.
  change (max_bit_mask 4) with (Ok 8%N) in H. cbn [bind] in H.
  rewrite sar32_ok in H by lia. cbn [bind] in H. change (2 ^ Z.of_N 4) with 16 in H.
  change (0 <? 8)%N with true in H. cbn iota in H.
  set (sgn := if s - pred <? 0 then 64%N else 0%N) in *.
  destruct (enc_bits 8 (Z.abs (s - pred)) st1 0 1 8 sgn) as [t e] eqn:Eb.
  destruct (next_step_ok i1 e) as (i2 & E2 & _). rewrite E2 in H. cbn [bind] in H.
  apply Ok_inj in H. injection H as <- <-. cbn [fst].
  assert (Hsgn : (sgn = 0 \/ sgn = 0x40)%N) by (unfold sgn; destruct (s - pred <? 0); auto).
  destruct (enc_bits_spec 8 sgn _ _ _ _ ltac:(cbn; tauto) Hsgn Eb) as (_ & _ & Hland).
  assert (Hle : Z.abs (s - pred) <= 2 * st1 + 1).
  { destruct (Hd _ Es1) as [Hd1| ->]; [lia|].
    rewrite step_88 in Es1. apply Ok_inj in Es1. unfold i16 in *. lia. }
  pose proof (enc_bits_residual _ _ _ _ _ (Z.abs_nonneg _) Hle ltac:(lia) Eb) as R.
  unfold update_predicted. rewrite Hland. cbv zeta.
  assert (B : 2 * (st1 / 16) <= st1 / 8 <= 2 * (st1 / 16) + 1).
  { replace (st1 / 16) with (st1 / 8 / 2) by (rewrite Z.div_div by lia; reflexivity). lia. }
  assert (B8 : st1 / 8 <= 4095) by lia.
  unfold i16, sgn in *. destruct (Z.ltb_spec (s - pred) 0) as [Ln|Ln].
  - change (64 =? 0)%N with false. cbn [negb]. lia.
  - change (0 =? 0)%N with true. cbn [negb]. lia.
Qed.

Lemma enc_loop_accuracy cc : (1 <= cc <= 2)%nat ->
  forall samples sts ch o ps, Forall st_ok sts -> length sts = cc -> (ch < cc)%nat ->
  Forall i16 samples -> enc_loop 5 4 cc sts ch samples = Ok (o, ps) ->
  Forall2 (fun p s => Z.abs (p - s) <= 2052) ps samples.
Proof.
  intros Hcc. induction samples as [|s samples IH]; intros sts ch o ps Hst Hl Hch Hs H; cbn [enc_loop] in H.
  - apply Ok_inj in H. injection H as <- <-. constructor.
  - inversion Hs as [|? ? Hs1 Hs2]; subst.
    pose proof (chan_lt ch (length sts) ltac:(lia)) as Hlt.
    destruct (nth_error sts ((ch + 1) mod length sts)) as [st|] eqn:En; [|discriminate].
    assert (Hst1 : st_ok st).
    { apply nth_error_In in En. rewrite Forall_forall in Hst. auto. }
    destruct (enc_one 5 4 st s) as [[o1 st']| |] eqn:E1; cbn [bind] in H; try discriminate.
    destruct (enc_loop 5 4 _ (upd sts _ st') _ samples) as [[o2 ps2]| |] eqn:E2;
      cbn [bind] in H; try discriminate.
    apply Ok_inj in H. injection H as <- <-.
    destruct (one_dec 5 4 (length sts) 0 1 st s o1 st' Hcc ltac:(lia) Hst1 E1) as [Hs' _].
    constructor; [exact (enc_one_accuracy st s o1 st' Hst1 Hs1 E1)|].
    eapply IH; [| | |exact Hs2|exact E2].
    + apply Forall_forall. intros x Hx. rewrite Forall_forall in Hst.
      apply In_nth_error in Hx as [n Hn].
      destruct (Nat.eq_dec ((ch + 1) mod length sts) n) as [<-|Ne].
      * rewrite nth_error_upd_eq in Hn by lia. congruence.
      * rewrite nth_error_upd_neq in Hn by exact Ne. apply Hst. eapply nth_error_In; eauto.
    + now rewrite upd_length.
    + exact Hlt.
Qed.

Lemma Forall2_app_same {A} (R : A -> A -> Prop) l a b : (forall x, R x x) ->
  Forall2 R a b -> Forall2 R (l ++ a) (l ++ b).
Proof. intros Hr H. induction l; cbn; auto. Qed.

Lemma adpcm_accuracy input cc out preds :
  adpcm_encode input 5 cc = Ok (out, preds) ->
  Forall2 (fun p s => Z.abs (p - s) <= 2052) preds (samples_of input).
Proof.
  unfold adpcm_encode. intros H.
  destruct ((cc =? 0) || (2 <? cc))%nat eqn:Ecc; [discriminate|].
  apply orb_false_iff in Ecc as [C1 C2]. apply Nat.eqb_neq in C1. apply Nat.ltb_ge in C2.
  destruct (N.eqb_spec (lenN input mod 2) 0) as [Ev|Ev]; cbn [negb] in H; [|discriminate].
  assert (Hn : exists n, (length input = 2 * n)%nat).
  { apply N.mod_divides in Ev as [k Hk]; [|lia]. exists (N.to_nat k). unfold lenN in Hk. lia. }
  destruct Hn as [n Hn]. destruct (samples_pairs n input Hn) as (Fs & Ls & Es).
  destruct (samples_of input) as [|s0 ss] eqn:Ess.
  { apply Ok_inj in H. injection H as <- <-. constructor. }
  rewrite <- Ess in *. set (samples := samples_of input) in *.
  assert (Hne : (0 < length samples)%nat) by (rewrite Ess; cbn; lia). clearbody samples.
  destruct (Nat.eqb_spec (length samples mod cc) 0) as [Em|Em]; cbn [negb] in H; [|discriminate].
  assert (Hge : (cc <= length samples)%nat).
  { apply Nat.mod_divides in Em as [k Hk]; [|exact C1]. destruct k; [lia|]. nia. }
  change (if (5 =? 0)%N then 0%N else (5 - 1)%N) with 4%N in H.
  destruct (enc_loop 5 4 cc _ (cc - 1) (skipn cc samples)) as [[o ps]| |] eqn:E;
    cbn [bind] in H; try discriminate.
  apply Ok_inj in H. injection H as <- <-.
  rewrite <- (firstn_skipn cc samples) at 2.
  rewrite <- (firstn_skipn cc samples) in Fs. apply Forall_app in Fs as [Ff Fs].
  apply Forall2_app_same; [intros; lia|].
  eapply enc_loop_accuracy; [| | | |exact Fs|exact E].
  - lia.
  - apply Forall_forall. intros x Hx. apply in_map_iff in Hx as (s & <- & Hx).
    rewrite Forall_forall in Ff. split; cbn; [auto|unfold INITIAL_STEP_INDEX; lia].
  - rewrite map_length, firstn_length. lia.
  - lia.
Qed.

(** ** How long the encoding gets *)
Lemma grow_length : forall f d idx pre idx1, grow f d idx = Ok (pre, idx1) -> (idx <= 88)%N ->
  (idx <= idx1 <= 88)%N /\ (8 * lenN pre <= idx1 - idx + 7)%N.
Proof.
  induction f as [|f IH]; intros d idx pre idx1 H Hi; [discriminate|].
  cbn [grow] in H. destruct (step_at_ok idx Hi) as (s & Es & _). rewrite Es in H. cbn [bind] in H.
  destruct (d >? s * 2).
  - destruct (N.leb_spec 0x58 idx) as [L|L].
    + apply Ok_inj in H. injection H as <- <-. unfold lenN. cbn [length]. lia.
    + destruct (grow f d (N.min (idx + 8) 0x58)) as [[o i]| |] eqn:Eg; cbn [bind] in H; try discriminate.
      apply Ok_inj in H. injection H as <- <-.
      destruct (IH _ _ _ _ Eg ltac:(lia)) as [H1 H2]. rewrite lenN_cons.
      destruct (N.le_gt_cases (idx + 8) 88).
      * lia.
      * split; [lia|]. assert (i = 88%N) by lia. subst i.
        assert (lenN o = 0%N) by lia. lia.
  - apply Ok_inj in H. injection H as <- <-. unfold lenN. cbn [length]. lia.
Qed.

Lemma next_step_down idx enc i : (idx <= 88)%N -> next_step_index idx enc = Ok i -> (idx <= i + 1)%N.
Proof.
  unfold next_step_index. intros Hi H.
  destruct (nthN NEXT_STEP_TABLE (N.land enc 0x1F)) as [c|] eqn:E; [|discriminate].
  apply Ok_inj in H. subst i.
  assert (Hc : -1 <= c).
  { unfold nthN in E. destruct (_ <? _)%N; [|discriminate]. apply nth_error_In in E.
    assert (F : forallb (fun c => -1 <=? c) NEXT_STEP_TABLE = true) by reflexivity.
    rewrite forallb_forall in F. specialize (F _ E). lia. }
  destruct (Z.ltb_spec (Z.of_N idx + c) 0); [lia|]. destruct (Z.ltb_spec 88 (Z.of_N idx + c)); lia.
Qed.

Lemma enc_one_length level bs st s o st' : st_ok st -> enc_one level bs st s = Ok (o, st') ->
  (8 * lenN o + snd st <= snd st' + 16)%N.
Proof.
  intros [Hp Hi] H. destruct st as [pred idx]. cbn [fst snd] in *.
  unfold enc_one in H. destruct (step_at_ok idx Hi) as (st0 & Es & Hst0). rewrite Es in H. cbn [bind] in H.
  destruct (sar32 st0 level) as [th| |]; cbn [bind] in H; try discriminate.
  destruct (Z.abs (s - pred) <? th).
  { apply Ok_inj in H. injection H as <- <-. cbn [snd]. rewrite lenN_cons, lenN_nil. lia. }
  destruct (grow 13 (Z.abs (s - pred)) idx) as [[pre idx1]| |] eqn:Eg; cbn [bind] in H; try discriminate.
  destruct (grow_length _ _ _ _ _ Eg Hi) as [B1 B2].
  destruct (step_at idx1) as [st1| |]; cbn [bind] in H; try discriminate.
  destruct (max_bit_mask bs) as [m| |]; cbn [bind] in H; try discriminate.
  destruct (sar32 st1 bs) as [base| |]; cbn [bind] in H; try discriminate.
  destruct (if (0 <? m)%N then _ else _) as [t e].
  destruct (next_step_index idx1 e) as [i2| |] eqn:E2; cbn [bind] in H; try discriminate.
  apply Ok_inj in H. injection H as <- <-. cbn [snd].
  pose proof (next_step_down idx1 e i2 (proj2 B1) E2).
  rewrite lenN_app, lenN_cons, lenN_nil. lia.
Qed.

Fixpoint idx_sum (sts : list (Z * N)) : N :=
  match sts with [] => 0%N | st :: t => (snd st + idx_sum t)%N end.
Lemma idx_sum_upd sts i st st' : nth_error sts i = Some st ->
  (idx_sum (upd sts i st') + snd st = idx_sum sts + snd st')%N.
Proof.
  revert i. induction sts as [|a sts IH]; intros [|i] H; cbn in *; try discriminate.
  - injection H as ->. lia.
  - specialize (IH i H). lia.
Qed.
Lemma idx_sum_le sts : Forall st_ok sts -> (idx_sum sts <= 88 * lenN sts)%N.
Proof.
  induction 1 as [|st sts [_ H] _ IH]; [cbn; lia|]. rewrite lenN_cons. cbn [idx_sum]. lia.
Qed.

Lemma enc_loop_length level bs cc : (1 <= cc <= 2)%nat ->
  forall samples sts ch o ps, Forall st_ok sts -> length sts = cc -> (ch < cc)%nat ->
  enc_loop level bs cc sts ch samples = Ok (o, ps) ->
  (8 * lenN o + idx_sum sts <= 16 * N.of_nat (length samples) + 88 * N.of_nat cc)%N.
Proof.
  intros Hcc. induction samples as [|s samples IH]; intros sts ch o ps Hst Hl Hch H; cbn [enc_loop] in H.
  - apply Ok_inj in H. injection H as <- <-. change (lenN (@nil byte)) with 0%N.
    pose proof (idx_sum_le sts Hst). unfold lenN in H. rewrite Hl in H. cbn [length]. lia.
  - pose proof (chan_lt ch cc ltac:(lia)) as Hlt.
    destruct (nth_error sts ((ch + 1) mod cc)) as [st|] eqn:En; [|discriminate].
    assert (Hst1 : st_ok st).
    { apply nth_error_In in En. rewrite Forall_forall in Hst. auto. }
    destruct (enc_one level bs st s) as [[o1 st']| |] eqn:E1; cbn [bind] in H; try discriminate.
    destruct (enc_loop level bs _ (upd sts _ st') _ samples) as [[o2 ps2]| |] eqn:E2;
      cbn [bind] in H; try discriminate.
    apply Ok_inj in H. injection H as <- <-.
    destruct (one_dec level bs cc 0 1 st s o1 st' Hcc ltac:(lia) Hst1 E1) as [Hs' _].
    pose proof (enc_one_length _ _ _ _ _ _ Hst1 E1) as L1.
    pose proof (idx_sum_upd sts _ st st' En) as U.
    assert (L2 := IH (upd sts ((ch + 1) mod cc) st') ((ch + 1) mod cc)%nat o2 ps2).
    rewrite lenN_app. cbn [length].
    enough (8 * lenN o2 + idx_sum (upd sts ((ch + 1) mod cc) st') <= 16 * N.of_nat (length samples) + 88 * N.of_nat cc)%N by lia.
    apply L2; [| | |exact E2].
    + apply Forall_forall. intros x Hx. rewrite Forall_forall in Hst.
      apply In_nth_error in Hx as [n Hn].
      destruct (Nat.eq_dec ((ch + 1) mod cc) n) as [<-|Ne].
      * rewrite nth_error_upd_eq in Hn by lia. congruence.
      * rewrite nth_error_upd_neq in Hn by exact Ne. apply Hst. eapply nth_error_In; eauto.
    + now rewrite upd_length.
    + exact Hlt.
Qed.

Lemma adpcm_length input level cc out preds :
  adpcm_encode input level cc = Ok (out, preds) -> (lenN out <= 4 * lenN input)%N.
Proof.
  unfold adpcm_encode. intros H.
  destruct ((cc =? 0) || (2 <? cc))%nat eqn:Ecc; [discriminate|].
  apply orb_false_iff in Ecc as [C1 C2]. apply Nat.eqb_neq in C1. apply Nat.ltb_ge in C2.
  destruct (N.eqb_spec (lenN input mod 2) 0) as [Ev|Ev]; cbn [negb] in H; [|discriminate].
  assert (Hn : exists n, (length input = 2 * n)%nat).
  { apply N.mod_divides in Ev as [k Hk]; [|lia]. exists (N.to_nat k). unfold lenN in Hk. lia. }
  destruct Hn as [n Hn]. destruct (samples_pairs n input Hn) as (Fs & Ls & Es).
  destruct (samples_of input) as [|s0 ss] eqn:Ess.
  { apply Ok_inj in H. injection H as <- <-. change (lenN (@nil byte)) with 0%N. lia. }
  rewrite <- Ess in *. set (samples := samples_of input) in *.
  assert (Hne : (0 < length samples)%nat) by (rewrite Ess; cbn; lia). clearbody samples.
  destruct (Nat.eqb_spec (length samples mod cc) 0) as [Em|Em]; cbn [negb] in H; [|discriminate].
  assert (Hk : exists k, (length samples = cc * k)%nat) by (apply Nat.mod_divides in Em; auto).
  destruct Hk as [k Hk].
  destruct (enc_loop level _ cc _ (cc - 1) (skipn cc samples)) as [[o ps]| |] eqn:E;
    cbn [bind] in H; try discriminate.
  apply Ok_inj in H. injection H as <- <-.
  rewrite <- (firstn_skipn cc samples) in Fs. apply Forall_app in Fs as [Ff Fs].
  assert (Lf : length (firstn cc samples) = cc).
  { rewrite firstn_length. destruct k; [lia|]. nia. }
  assert (Lo := enc_loop_length level (if (level =? 0)%N then 0%N else (level - 1)%N) cc ltac:(lia) (skipn cc samples)
    (map (fun s => (s, INITIAL_STEP_INDEX)) (firstn cc samples)) (cc - 1)%nat o ps).
  assert (Hidx : idx_sum (map (fun s => (s, INITIAL_STEP_INDEX)) (firstn cc samples)) = (44 * N.of_nat cc)%N).
  { rewrite <- Lf at 2. generalize (firstn cc samples). intros l. induction l as [|x l IHl]; [reflexivity|].
    cbn [map idx_sum snd length].
    rewrite IHl. unfold INITIAL_STEP_INDEX. lia. }
  assert (Lo' : (8 * lenN o + 44 * N.of_nat cc <= 16 * N.of_nat (length (skipn cc samples)) + 88 * N.of_nat cc)%N).
  { rewrite <- Hidx. apply Lo; [| |lia|exact E].
    - apply Forall_forall. intros x Hx. apply in_map_iff in Hx as (s & <- & Hx).
      rewrite Forall_forall in Ff. split; cbn; [auto|unfold INITIAL_STEP_INDEX; lia].
    - now rewrite map_length. }
  cbn [app]. rewrite !lenN_cons, !lenN_app.
  assert (Lw : lenN (concat (map write_sample (firstn cc samples))) = (2 * N.of_nat cc)%N)
    by (unfold lenN; rewrite write_samples_length, Lf; lia).
  rewrite Lw. rewrite skipn_length in Lo'.
  assert (Hin : lenN input = (2 * N.of_nat (length samples))%N) by (unfold lenN; lia).
  rewrite Hin.
  destruct k as [|[|k]].
  - lia.
  - assert (Hs : skipn cc samples = []).
    { apply length_zero_iff_nil. rewrite skipn_length. lia. }
    rewrite Hs in E. cbn in E. apply Ok_inj in E. injection E as <- <-. change (lenN (@nil byte)) with 0%N. lia.
  - assert (2 * cc <= length samples)%nat by nia. lia.
Qed.
