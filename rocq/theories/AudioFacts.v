(** * The audio decoder against the description of the format. *)
From Verif Require Import Bytes Adpcm AdpcmBits AdpcmFacts HashTableFacts Compress SpecAudio.
From Coq Require Import ZifyBool ZifyN ZifyNat.
Open Scope Z_scope.

Lemma below n (f : nat -> bool) : forallb f (seq 0 n) = true -> forall i, (i < n)%nat -> f i = true.
Proof. intros H i Hi. rewrite forallb_forall in H. apply H, in_seq. lia. Qed.

(** ** Tables and bits *)
Lemma steps_check : forallb (fun i => match step_at (N.of_nat i) with Ok s => s =? step_size (Z.of_nat i) | _ => false end) (seq 0 89) = true.
Proof. vm_compute. reflexivity. Qed.
Lemma step_is i : (i <= 88)%N -> step_at i = Ok (step_size (Z.of_N i)).
Proof.
  intros H. pose proof (below _ _ steps_check (N.to_nat i) ltac:(lia)) as G. cbn beta in G. rewrite N2Nat.id in G.
  destruct (step_at i); try discriminate. apply Z.eqb_eq in G. rewrite G. do 2 f_equal. lia.
Qed.
Lemma change_check : forallb (fun i => match nthN NEXT_STEP_TABLE (N.land (N.of_nat i) 0x1F) with Some s => s =? change (Z.of_nat i) | _ => false end) (seq 0 256) = true.
Proof. vm_compute. reflexivity. Qed.
Lemma change_is c : (c < 256)%N -> nthN NEXT_STEP_TABLE (N.land c 0x1F) = Some (change (Z.of_N c)).
Proof.
  intros H. pose proof (below _ _ change_check (N.to_nat c) ltac:(lia)) as G. cbn beta in G. rewrite N2Nat.id in G.
  destruct (nthN _ _); try discriminate. apply Z.eqb_eq in G. rewrite G. do 2 f_equal. lia.
Qed.
Lemma bit_check : forallb (fun i => forallb (fun k => Bool.eqb (negb (N.land (N.of_nat i) (2 ^ N.of_nat k) =? 0)%N) (Z.testbit (Z.of_nat i) (Z.of_nat k))) (seq 0 7)) (seq 0 256) = true.
Proof. vm_compute. reflexivity. Qed.
Lemma bit_is c k : (c < 256)%N -> (k < 7)%nat -> negb (N.land c (2 ^ N.of_nat k) =? 0)%N = Z.testbit (Z.of_N c) (Z.of_nat k).
Proof.
  intros H Hk. pose proof (below _ _ bit_check (N.to_nat c) ltac:(lia)) as G. cbn beta in G.
  pose proof (below _ _ G k Hk) as G2. cbn beta in G2. rewrite N2Nat.id in G2. apply Bool.eqb_prop in G2. rewrite G2. f_equal. lia.
Qed.
Lemma add_if (b : bool) d x : (if b then d + x else d) = d + (if b then x else 0).
Proof. destruct b; ring. Qed.
Lemma decode_is p c s b : (c < 256)%N ->
  decode_sample p c s b =
  (let part k := if Z.testbit (Z.of_N c) k then s / 2 ^ k else 0 in
   let diff := b + (part 0 + part 1 + part 2 + part 3 + part 4 + part 5) in
   between (-32768) 32767 (if Z.testbit (Z.of_N c) 6 then p - diff else p + diff)).
Proof.
  intros H. unfold decode_sample, update_predicted, between.
  pose proof (bit_is c 0 H ltac:(lia)) as B0. pose proof (bit_is c 1 H ltac:(lia)) as B1. pose proof (bit_is c 2 H ltac:(lia)) as B2.
  pose proof (bit_is c 3 H ltac:(lia)) as B3. pose proof (bit_is c 4 H ltac:(lia)) as B4. pose proof (bit_is c 5 H ltac:(lia)) as B5.
  pose proof (bit_is c 6 H ltac:(lia)) as B6.
  change (2 ^ N.of_nat 0)%N with 0x01%N in B0. change (2 ^ N.of_nat 1)%N with 0x02%N in B1. change (2 ^ N.of_nat 2)%N with 0x04%N in B2.
  change (2 ^ N.of_nat 3)%N with 0x08%N in B3. change (2 ^ N.of_nat 4)%N with 0x10%N in B4. change (2 ^ N.of_nat 5)%N with 0x20%N in B5.
  change (2 ^ N.of_nat 6)%N with 0x40%N in B6. cbv zeta. rewrite B0, B1, B2, B3, B4, B5, B6.
  change (Z.of_nat 0) with 0. change (Z.of_nat 1) with 1. change (Z.of_nat 2) with 2. change (Z.of_nat 3) with 3. change (Z.of_nat 4) with 4.
  change (Z.of_nat 5) with 5. change (Z.of_nat 6) with 6. rewrite !Z.shiftr_div_pow2 by lia. change (2 ^ 0) with 1. rewrite Z.div_1_r.
  rewrite !add_if. do 2 f_equal. destruct (Z.testbit (Z.of_N c) 6); ring.
Qed.
Lemma next_is i c : (i <= 88)%N -> (c < 256)%N -> next_step_index i c = Ok (Z.to_N (between 0 88 (Z.of_N i + change (Z.of_N c)))).
Proof.
  intros Hi H. unfold next_step_index. rewrite (change_is c H). unfold between. f_equal.
  destruct (Z.ltb_spec (Z.of_N i + change (Z.of_N c)) 0); [lia|]. destruct (Z.ltb_spec 88 (Z.of_N i + change (Z.of_N c))); lia.
Qed.
Lemma word_is s : write_sample s = word16 s.
Proof.
  unfold write_sample, word16. cbn [le_enc]. f_equal; [|f_equal].
  - apply bN_inj. rewrite !bN_Nb. Z.to_euclidean_division_equations; lia.
  - apply bN_inj. rewrite !bN_Nb. Z.to_euclidean_division_equations; lia.
Qed.

(** ** One unit *)
Lemma play_index sh p i u : 0 <= i <= 88 -> 0 <= snd (play_unit sh (p, i) u) <= 88.
Proof. intros H. unfold play_unit, between. destruct (_ =? _); cbn [snd]; lia. Qed.
Lemma unit_dec bs cc osz u : (1 <= cc <= 2)%nat -> (bs < 32)%N -> unit_ok u ->
  forall sts ch pred idx rest out, (ch < cc)%nat -> length sts = cc -> (out < osz)%N -> (idx <= 88)%N ->
  nth_error sts ((ch + 1) mod cc) = Some (pred, idx) ->
  let st' := play_unit (Z.of_N bs) (pred, Z.of_N idx) u in
  dec_loop bs cc sts ch (unit_bytes u ++ rest) out osz =
  (r <- dec_loop bs cc (upd sts ((ch + 1) mod cc) (fst st', Z.to_N (snd st'))) ((ch + 1) mod cc)%nat rest (out + 2) osz ;;
   Ok (word16 (fst st') ++ r)).
Proof.
  intros Hcc Hbs. destruct u as [n code]. intros [Hc H81]. cbn [snd] in Hc, H81. unfold unit_bytes. cbn [fst snd].
  induction n as [|n IH]; intros sts ch pred idx rest out Hch Hl Ho Hi Hn; cbv zeta.
  - cbn [repeat app dec_loop]. replace ((out <? osz)%N) with true by lia. rewrite Hn.
    assert (Eb : bN (Nb (Z.to_N code)) = Z.to_N code) by (rewrite bN_Nb; apply N.mod_small; lia). rewrite Eb.
    unfold play_unit. cbn [fst snd]. replace (Z.min 88 (Z.of_N idx + 8 * Z.of_nat 0)) with (Z.of_N idx) by lia.
    destruct (Z.eqb_spec code 0x80) as [E|E].
    + subst code. change (Z.to_N 128 =? 128)%N with true. cbn iota. cbn [fst snd]. rewrite word_is.
      replace (Z.to_N (Z.max 0 (Z.of_N idx - 1))) with (idx - 1)%N by lia. reflexivity.
    + replace ((Z.to_N code =? 0x80)%N) with false by lia. replace ((Z.to_N code =? 0x81)%N) with false by lia.
      rewrite (step_is idx Hi). cbn [bind]. rewrite (sar32_ok _ bs Hbs). cbn [bind].
      rewrite decode_is, next_is by lia. rewrite Z2N.id by lia. cbn [bind]. cbv zeta. cbn [fst snd]. rewrite word_is. reflexivity.
  - cbn [repeat app dec_loop]. replace ((out <? osz)%N) with true by lia. rewrite Hn.
    change (bN x81 =? 0x80)%N with false. change (bN x81 =? 0x81)%N with true. cbn iota. rewrite chan_back by assumption.
    assert (Hlt : ((ch + 1) mod cc < length sts)%nat) by (rewrite Hl; apply chan_lt; lia).
    rewrite (IH (upd sts ((ch + 1) mod cc) (pred, N.min (idx + 8) 0x58)) ch pred (N.min (idx + 8) 0x58) rest out Hch
      ltac:(now rewrite upd_length) Ho ltac:(lia) ltac:(now apply nth_error_upd_eq)).
    cbv zeta. rewrite upd_upd.
    assert (E : play_unit (Z.of_N bs) (pred, Z.of_N (N.min (idx + 8) 0x58)) (n, code) = play_unit (Z.of_N bs) (pred, Z.of_N idx) (S n, code)).
    { unfold play_unit. cbn [fst snd].
      replace (Z.min 88 (Z.of_N (N.min (idx + 8) 0x58) + 8 * Z.of_nat n)) with (Z.min 88 (Z.of_N idx + 8 * Z.of_nat (S n))) by lia. reflexivity. }
    rewrite E. reflexivity.
Qed.

(** ** All units *)
Lemma rises_end bs cc osz : (1 <= cc <= 2)%nat -> forall n sts ch out, (ch < cc)%nat -> length sts = cc ->
  dec_loop bs cc sts ch (repeat x81 n) out osz = Ok [].
Proof.
  intros Hcc. induction n as [|n IH]; intros sts ch out Hch Hl; [reflexivity|]. cbn [repeat dec_loop].
  destruct (out <? osz)%N; [|reflexivity].
  destruct (nth_error sts ((ch + 1) mod cc)) as [[p i]|] eqn:E.
  - change (bN x81 =? 0x80)%N with false. change (bN x81 =? 0x81)%N with true. cbn iota. rewrite chan_back by assumption.
    apply IH; [exact Hch|now rewrite upd_length].
  - apply nth_error_None in E. pose proof (chan_lt ch cc ltac:(lia)). lia.
Qed.
Lemma full_end bs cc sts ch d out osz : (osz <= out)%N -> dec_loop bs cc sts ch d out osz = Ok [].
Proof. intros H. destruct d; [reflexivity|]. cbn [dec_loop]. now replace ((out <? osz)%N) with false by lia. Qed.

Definition wanted (out osz : N) : nat := N.to_nat ((osz + 1) / 2) - N.to_nat (out / 2).
Lemma units_dec bs cc osz n : (1 <= cc <= 2)%nat -> (bs < 32)%N -> forall us, Forall unit_ok us ->
  forall sts ch out, (ch < cc)%nat -> length sts = cc -> Forall (fun st => (snd st <= 88)%N) sts -> (out mod 2 = 0)%N ->
  exists outs, dec_loop bs cc sts ch (concat (map unit_bytes us) ++ repeat x81 n) out osz = Ok (concat (map word16 outs)) /\
    length outs = length (firstn (wanted out osz) us) /\
    forall j st, (j < cc)%nat -> nth_error sts ((ch + 1 + j) mod cc) = Some st ->
      every cc j outs = play (Z.of_N bs) (fst st, Z.of_N (snd st)) (every cc j (firstn (wanted out osz) us)).
Proof.
  intros Hcc Hbs. induction us as [|u us IH]; intros Hu sts ch out Hch Hl Hs Hp.
  - exists []. cbn [map concat app]. split; [now apply rises_end|]. rewrite firstn_nil. split; [reflexivity|]. intros j st _ _. reflexivity.
  - inversion Hu as [|? ? Hu1 Hu2]; subst. destruct (N.lt_ge_cases out osz) as [Ho|Ho].
    2:{ exists []. rewrite full_end by exact Ho. assert (wanted out osz = 0%nat) as -> by (unfold wanted; Z.to_euclidean_division_equations; lia).
        split; [reflexivity|]. split; [reflexivity|]. intros j st _ _. reflexivity. }
    assert (Ew : wanted out osz = S (wanted (out + 2) osz)) by (unfold wanted; Z.to_euclidean_division_equations; lia).
    set (c := ((ch + 1) mod length sts)%nat). assert (Hc : (c < length sts)%nat) by (apply chan_lt; lia).
    destruct (nth_error sts c) as [[p i]|] eqn:En; [|apply nth_error_None in En; lia].
    assert (Hi : (i <= 88)%N) by (apply nth_error_In in En; rewrite Forall_forall in Hs; exact (Hs _ En)).
    cbn [map concat]. rewrite <- app_assoc.
    rewrite (unit_dec bs (length sts) osz u Hcc Hbs Hu1 sts ch p i _ out Hch eq_refl Ho Hi En). cbv zeta. fold c.
    set (st' := play_unit (Z.of_N bs) (p, Z.of_N i) u). pose proof (play_index (Z.of_N bs) p (Z.of_N i) u ltac:(lia)) as Hx. fold st' in Hx.
    destruct (IH Hu2 (upd sts c (fst st', Z.to_N (snd st'))) c (out + 2)%N Hc ltac:(now rewrite upd_length)) as (outs & E & El & Ee).
    { apply Forall_forall. intros x Hxi. apply In_nth_error in Hxi as (k & Hk). destruct (Nat.eq_dec k c) as [->|Kc].
      - rewrite nth_error_upd_eq in Hk by exact Hc. injection Hk as <-. cbn [snd]. lia.
      - rewrite nth_error_upd_neq in Hk by auto. apply nth_error_In in Hk. rewrite Forall_forall in Hs. now apply Hs. }
    { Z.to_euclidean_division_equations; lia. }
    rewrite E. cbn [bind]. exists (fst st' :: outs). split; [reflexivity|]. rewrite Ew. cbn [firstn length]. split; [now rewrite El|].
    intros j st Hj Hst. destruct j as [|j]; cbn [every play].
    + rewrite Nat.add_0_r in Hst. fold c in Hst. rewrite En in Hst. injection Hst as <-. cbn [fst snd]. fold st'. f_equal.
      rewrite (Ee (length sts - 1)%nat (fst st', Z.to_N (snd st'))); [|lia|].
      * cbn [fst snd]. rewrite Z2N.id by lia. now destruct st'.
      * replace ((c + 1 + (length sts - 1)) mod length sts)%nat with c; [now apply nth_error_upd_eq|].
        replace (c + 1 + (length sts - 1))%nat with (c + 1 * length sts)%nat by lia. rewrite Nat.mod_add by lia. symmetry. now apply Nat.mod_small.
    + apply Ee; [lia|]. rewrite nth_error_upd_neq.
      * rewrite <- Hst. f_equal. unfold c. rewrite <- (Nat.add_assoc _ 1 j), Nat.add_mod_idemp_l by lia. f_equal; lia.
      * clear - Hcc Hj Hch. subst c. assert (K : length sts = 2%nat) by lia. rewrite K in *. assert (j = 0%nat) by lia. subst j.
        assert (H : ch = 0%nat \/ ch = 1%nat) by lia. destruct H as [-> | ->]; discriminate.
Qed.

(** ** The whole stream *)
Lemma words_len l : length (concat (map word16 l)) = (2 * length l)%nat.
Proof. induction l as [|s l IH]; [reflexivity|]. cbn [map concat]. rewrite app_length, IH. cbn [length word16]. lia. Qed.
Lemma every_app {A} cc : (1 <= cc)%nat -> forall (a b : list A) k, (k < cc)%nat -> length a = cc -> every cc k (a ++ b) =
  match nth_error a k with Some x => x :: every cc k b | None => [] end.
Proof.
  intros Hcc a b k Hk Hl. 
  assert (G : forall (a : list A) k, (k < length a)%nat -> every cc k (a ++ b) = match nth_error a k with Some x => x :: every cc (cc - 1) (skipn (S k) a ++ b) | None => [] end).
  { clear. induction a as [|x a IH]; intros k Hk; [cbn in Hk; lia|]. destruct k as [|k]; cbn [app every nth_error skipn]; [reflexivity|].
    rewrite IH by (cbn in Hk; lia). reflexivity. }
  rewrite G by lia. destruct (nth_error a k) as [x|] eqn:E; [|reflexivity]. f_equal.
  assert (S1 : forall (a : list A) n, (length a <= n)%nat -> every cc n (a ++ b) = every cc (n - length a) b).
  { clear. induction a as [|x a IH]; intros n Hn; [cbn [app length]; now rewrite Nat.sub_0_r|]. cbn [length] in Hn. destruct n as [|n]; [lia|].
    cbn [app every length]. rewrite IH by lia. reflexivity. }
  rewrite S1; rewrite skipn_length; [f_equal; lia|lia].
Qed.

Theorem audio_decoded unused shift first us n size :
  0 <= shift < 32 -> (1 <= length first <= 2)%nat -> Forall i16 first -> Forall unit_ok us ->
  exists out, adpcm_decompress (stream unused shift first us ++ repeat x81 n) size (length first) = Ok (concat (map word16 out)) /\
    sounds shift first (firstn (N.to_nat ((size + 1) / 2) - length first) us) out.
Proof.
  intros Hs Hcc Hf Hu. set (cc := length first) in *. unfold adpcm_decompress, stream. rewrite <- !app_assoc. cbn [app].
  assert (E0 : (cc =? 0)%nat || (2 <? cc)%nat = false) by lia. rewrite E0.
  assert (Hw : length (concat (map word16 first)) = (2 * cc)%nat) by apply words_len.
  match goal with |- context [lenN (unused :: ?x)] => assert (Hl : (2 + 2 * N.of_nat cc <= lenN (unused :: x))%N) by (unfold lenN; cbn [length]; rewrite app_length, Hw; lia) end.
  match goal with |- context [(?a <? 4)%N] => replace (a <? 4)%N with false by (clear - Hl Hcc; lia) end.
  match goal with |- context [(?a <? 2 + 2 * N.of_nat cc)%N] => replace (a <? 2 + 2 * N.of_nat cc)%N with false by (clear - Hl; lia) end. cbv zeta. clear Hl.
  rewrite firstn_app_exact, skipn_app_exact by exact Hw.
  assert (Ew : concat (map word16 first) = concat (map write_sample first)) by (f_equal; apply map_ext; intros; symmetry; apply word_is).
  rewrite Ew, samples_write by exact Hf. rewrite <- Ew.
  assert (Eb : bN (Nb (Z.to_N shift)) = Z.to_N shift) by (rewrite bN_Nb; apply N.mod_small; lia). rewrite Eb.
  destruct (units_dec (Z.to_N shift) cc size n Hcc ltac:(lia) us Hu (map (fun s => (s, INITIAL_STEP_INDEX)) first) (cc - 1) (2 * N.of_nat cc)%N)
    as (outs & E & El & Ee); [lia|now rewrite map_length| | |].
  { apply Forall_forall. intros x Hx. apply in_map_iff in Hx as (s & <- & _). cbn [snd]. unfold INITIAL_STEP_INDEX. lia. }
  { Z.to_euclidean_division_equations; lia. }
  assert (Ek : wanted (2 * N.of_nat cc) size = (N.to_nat ((size + 1) / 2) - cc)%nat).
  { unfold wanted. f_equal. Z.to_euclidean_division_equations; lia. }
  rewrite Ek in *. rewrite E. cbn [bind]. exists (first ++ outs). rewrite map_app, concat_app. split; [reflexivity|]. split; [rewrite app_length, El; reflexivity|].
  intros k f Hk. assert (Kc : (k < cc)%nat) by (apply nth_error_Some; congruence). fold cc.
  rewrite every_app by (auto; lia). rewrite Hk. f_equal. rewrite (Ee k (f, INITIAL_STEP_INDEX)); [|exact Kc|].
  - cbn [fst snd]. rewrite Z2N.id by lia. reflexivity.
  - replace ((cc - 1 + 1 + k) mod cc)%nat with k by (replace (cc - 1 + 1 + k)%nat with (k + 1 * cc)%nat by lia; rewrite Nat.mod_add by lia; symmetry; now apply Nat.mod_small).
    rewrite nth_error_map, Hk. reflexivity.
Qed.

(** Every string of bytes is a stream. *)
Lemma any_units d : exists us n, Forall unit_ok us /\ d = concat (map unit_bytes us) ++ repeat x81 n.
Proof.
  induction d as [|b d (us & n & Hu & E)]; [exists [], 0%nat; split; [constructor|reflexivity]|].
  destruct (beqb b x81) eqn:B.
  - apply beqb_eq in B. subst b. destruct us as [|[k c] us].
    + exists [], (S n). split; [constructor|]. cbn [map concat app repeat] in *. now rewrite E.
    + exists ((S k, c) :: us), n. inversion Hu as [|? ? H1 H2]; subst. split; [constructor; [exact H1|exact H2]|]. reflexivity.
  - exists ((0%nat, Z.of_N (bN b)) :: us), n. split.
    + constructor; [|exact Hu]. split; cbn [snd]; [pose proof (bN_lt b); lia|]. intros K. assert (b = x81) as ->; [|discriminate].
      apply bN_inj. change (bN x81) with 129%N. lia.
    + cbn [map concat]. unfold unit_bytes at 1. cbn [fst snd repeat app]. rewrite N2Z.id, Nb_bN, <- E. reflexivity.
Qed.
Theorem any_stream cc d : (1 <= cc <= 2)%nat -> (2 + 2 * N.of_nat cc <= lenN d)%N ->
  exists unused shift first us n, d = stream unused shift first us ++ repeat x81 n /\ 0 <= shift < 256 /\ length first = cc /\
    Forall i16 first /\ Forall unit_ok us.
Proof.
  intros Hcc Hl. unfold lenN in Hl. destruct d as [|u [|s d]]; cbn [length] in Hl; try lia.
  assert (Hd : (2 * cc <= length d)%nat) by lia. destruct (any_units (skipn (2 * cc) d)) as (us & n & Hu & E).
  exists u, (Z.of_N (bN s)), (samples_of (firstn (2 * cc) d)), us, n.
  assert (P := samples_pairs cc (firstn (2 * cc) d) ltac:(rewrite firstn_length; lia)).
  split; [|split; [pose proof (bN_lt s); lia|]].
  - unfold stream. rewrite N2Z.id, Nb_bN. cbn [app]. do 2 f_equal. rewrite <- app_assoc, <- E.
    rewrite <- (firstn_skipn (2 * cc) d) at 1. f_equal.
    transitivity (concat (map write_sample (samples_of (firstn (2 * cc) d)))); [symmetry; apply P|].
    f_equal. apply map_ext. intros. apply word_is.
  - split; [apply P|]. split; [apply P|exact Hu].
Qed.

Theorem audio_unpacked L unused shift first us n size m :
  0 <= shift < 32 -> length first = 1%nat /\ m = 0x40%N \/ length first = 2%nat /\ m = 0x80%N -> Forall i16 first -> Forall unit_ok us ->
  exists out, decompress L (stream unused shift first us ++ repeat x81 n) m size = Ok (concat (map word16 out)) /\
    sounds shift first (firstn (N.to_nat ((size + 1) / 2) - length first) us) out.
Proof.
  intros Hs Hm Hf Hu. destruct (audio_decoded unused shift first us n size Hs ltac:(lia) Hf Hu) as (out & E & H). exists out. split; [|exact H].
  destruct Hm as [[K ->]|[K ->]]; rewrite K in E; exact E.
Qed.
