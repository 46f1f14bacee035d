(** * Extended tables that any tool wrote. *)
From Verif Require Import Bytes Crypto CryptoFacts HashTable BlockTable Header Compress SpecCompress SpecStored StoredFacts
  HetBet HashTableFacts ReadFacts SpecBits BitFacts HetBetFacts SpecCipher CipherFacts Adler Listfile Attributes Archive SpecExtended.
Open Scope N_scope.

(** ** The stored form *)
Lemma deciphered key p s : enciphered false key p s -> decrypt_table_data s key = p.
Proof.
  intros (ws & r & Hw & Hr & _ & -> & ->). unfold decrypt_table_data.
  rewrite words_of_bytes_of_words by (try exact Hr; now apply encrypt_block_ok).
  now rewrite decrypt_encrypt_block.
Qed.
Lemma undecrypted p s : enciphered false 0 p s -> s = p.
Proof. intros (ws & r & _ & _ & _ & -> & ->). now rewrite encrypt_block_0. Qed.
Lemma enciphered_length w key p s : enciphered w key p s -> lenN s = lenN p.
Proof.
  intros (ws & r & _ & _ & _ & -> & ->). rewrite !lenN_app. f_equal.
  unfold lenN. now rewrite !bytes_of_words_length, encrypt_block_length.
Qed.

Lemma table_read L sig key stored body file off :
  table_stored L sig key stored body -> sig < 2 ^ 32 -> lenN body < 2 ^ 32 -> slice off (lenN stored) file = Some stored ->
  ext_read L sig file off (lenN stored) key = Ok body.
Proof.
  intros (ver & p & payload & -> & Hv & He & Hp) Hs Hb Hf.
  set (st := le32 sig ++ ver ++ le32 (lenN body) ++ payload) in *.
  assert (Hlen : lenN st = 12 + lenN payload).
  { unfold st. rewrite !lenN_app. unfold lenN at 1 2 3. rewrite Hv, !le32_length. lia. }
  unfold ext_read, read_at. rewrite Hf. cbn [of_option bind].
  replace (lenN st <? 12) with false by lia.
  assert (F : firstn 4 st = le32 sig) by reflexivity. rewrite F.
  rewrite le32_dec by exact Hs. rewrite N.eqb_refl. cbn [negb].
  assert (D : firstn 4 (skipn 8 st) = le32 (lenN body)).
  { unfold st. do 5 (destruct ver as [|? ver]; try discriminate Hv). reflexivity. }
  assert (B : skipn 12 st = payload).
  { unfold st. do 5 (destruct ver as [|? ver]; try discriminate Hv). reflexivity. }
  rewrite D, B. rewrite le32_dec by exact Hb.
  assert (E : (if key =? 0 then payload else decrypt_table_data payload key) = p).
  { destruct (N.eqb_spec key 0) as [->|_]; [now apply undecrypted|now apply deciphered]. }
  rewrite E. pose proof (enciphered_length _ _ _ _ He) as Hl.
  destruct Hp as [->|(Hlt & m & c & -> & Hm)].
  - replace (lenN st <? lenN body + 12) with false by lia. reflexivity.
  - replace (lenN st <? lenN body + 12) with true by lia. now apply meant_read.
Qed.

(** ** Words *)
Lemma word_at_nth ws r : words_ok ws -> forall k, (k < length ws)%nat -> word_at (bytes_of_words ws ++ r) k = at_word ws k.
Proof.
  unfold word_at, at_word. induction 1 as [|w ws Hw Hws IH]; intros k Hk; [cbn in Hk; lia|].
  cbn [bytes_of_words]. rewrite <- app_assoc. destruct k as [|k].
  - change (4 * 0)%nat with 0%nat. cbn [skipn nth]. rewrite firstn_app, le32_length, Nat.sub_diag.
    rewrite firstn_all2 by (rewrite le32_length; lia). cbn [firstn]. rewrite app_nil_r. now apply le32_dec.
  - cbn [nth]. rewrite <- IH by (cbn [length] in Hk; lia). f_equal. f_equal.
    replace (4 * S k)%nat with (4 * k + 4)%nat by lia. rewrite <- skipn_skipn.
    rewrite skipn_app_exact by apply le32_length. reflexivity.
Qed.
Lemma lenN_words ws : lenN (bytes_of_words ws) = 4 * lenN ws.
Proof. unfold lenN. rewrite bytes_of_words_length. lia. Qed.

Lemma fields_of L (file body : bytes) off size key ws flags table hashes :
  ext_read L BET_SIG file off size key = Ok body -> block_layout body ws flags table hashes ->
  exists b, bet_read L file off size key = Ok b /\
    bet_count b = b_count ws /\ bet_entry_bits b = b_width ws /\
    ix_pos b = at_word ws 4 /\ ix_size b = at_word ws 5 /\ ix_csize b = at_word ws 6 /\ ix_flag b = at_word ws 7 /\
    ct_pos b = at_word ws 9 /\ ct_size b = at_word ws 10 /\ ct_csize b = at_word ws 11 /\ ct_flag b = at_word ws 12 /\
    bet_flag_count b = lenN flags /\ bet_flags b = flags /\ bet_table b = table.
Proof.
  intros R (Hl & Hw & Hf & E & Hc & T1 & T2 & Hh). unfold bet_read. rewrite R. cbn [bind].
  assert (W : forall k, (k < 19)%nat -> word_at body k = at_word ws k).
  { intros k Hk. rewrite E. apply word_at_nth; [exact Hw|lia]. }
  assert (S : skipn 76 body = bytes_of_words flags ++ table ++ hashes).
  { rewrite E. apply skipn_app_exact. now rewrite bytes_of_words_length, Hl. }
  assert (N76 : lenN body <? 76 = false).
  { rewrite E, lenN_app, lenN_words. unfold lenN at 1. rewrite Hl. lia. }
  rewrite N76. cbv zeta. rewrite S. rewrite !W by lia.
  fold (b_count ws). fold (b_width ws).
  assert (Ts : div_ceil (b_count ws * b_width ws) 8 = lenN table).
  { clear - T1 T2. unfold div_ceil. symmetry. apply N.div_unique with (r := b_count ws * b_width ws + 8 - 1 - 8 * lenN table); lia. }
  rewrite Ts, <- Hc, <- Hh.
  replace (lenN flags * 4) with (lenN (bytes_of_words flags)) by (rewrite lenN_words; lia).
  pose proof (slice_mid [] (bytes_of_words flags) (table ++ hashes)) as S1. change (lenN []) with 0 in S1. cbn [app] in S1.
  rewrite S1. cbn [of_option bind].
  rewrite (slice_mid (bytes_of_words flags) table hashes). cbn [of_option bind].
  destruct (slice (lenN (bytes_of_words flags) + lenN table) (lenN hashes / 8 * 8) (bytes_of_words flags ++ table ++ hashes)) as [hs|] eqn:Sh.
  2:{ exfalso. apply slice_None in Sh. rewrite !lenN_app in Sh. pose proof (N.mul_div_le (lenN hashes) 8 ltac:(lia)). lia. }
  cbn [of_option bind]. eexists. split; [reflexivity|]. cbn [bet_count bet_entry_bits ix_pos ix_size ix_csize ix_flag ct_pos ct_size ct_csize ct_flag bet_flag_count bet_flags bet_table].
  repeat (split; [reflexivity|]). split; [|reflexivity].
  pose proof (le_values_words flags [] Hf) as V. rewrite app_nil_r in V. unfold lenN. now rewrite Nat2N.id.
Qed.

(** ** Entries *)
Lemma extracted e off cnt v : cnt < 64 -> off < 64 -> v < 2 ^ cnt ->
  (forall j, j < cnt -> N.testbit e (off + j) = N.testbit v j) -> extract_bits e off cnt = Ok v.
Proof.
  intros Hc Ho Hv H. unfold extract_bits, mask_chk, shr64.
  replace (cnt <? 64) with true by lia. replace (off <? 64) with true by lia. cbn [bind]. f_equal.
  apply N.bits_inj. intros j. rewrite N.sub_1_r, <- N.ones_equiv, N.land_ones.
  destruct (N.lt_ge_cases j cnt) as [C|C].
  - rewrite N.mod_pow2_bits_low by exact C. rewrite N.shiftr_spec', N.add_comm. now apply H.
  - rewrite N.mod_pow2_bits_high by exact C. symmetry.
    destruct (N.eq_dec v 0) as [->|Hz]; [apply N.bits_0|]. apply N.bits_above_log2.
    apply N.log2_lt_pow2; [lia|]. apply N.lt_le_trans with (2 ^ cnt); [exact Hv|]. apply N.pow_le_mono_r; lia.
Qed.
Lemma entry_there t i : bet_entry_bits t < 64 -> i * bet_entry_bits t / 8 + 8 <= lenN (bet_table t) ->
  exists v, bet_entry t i = Ok (Some v).
Proof.
  intros Hb H. unfold bet_entry. set (w := bet_entry_bits t) in *.
  replace (lenN (bet_table t) <? i * w / 8 + 8) with false by lia.
  destruct (slice (i * w / 8) (N.min (div_ceil (i * w mod 8 + w) 8) 8) (bet_table t)) as [b|] eqn:S.
  - unfold mask_chk. replace (w <? 64) with true by lia. cbn [bind]. eexists. reflexivity.
  - apply slice_None in S. lia.
Qed.

Section Any.
Variable L : codecs.
Variables (file body stored : bytes) (off key : N) (ws flags : list N) (table hashes : bytes) (b : bet).
Hypothesis K : bet_read L file off (lenN stored) key = Ok b.
Hypothesis Kc : bet_count b = b_count ws.
Hypothesis Kw : bet_entry_bits b = b_width ws.
Hypothesis Kf : ix_pos b = at_word ws 4 /\ ix_size b = at_word ws 5 /\ ix_csize b = at_word ws 6 /\ ix_flag b = at_word ws 7 /\
    ct_pos b = at_word ws 9 /\ ct_size b = at_word ws 10 /\ ct_csize b = at_word ws 11 /\ ct_flag b = at_word ws 12.
Hypothesis Kn : bet_flag_count b = lenN flags.
Hypothesis Kl : bet_flags b = flags.
Hypothesis Kt : bet_table b = table.

Lemma entry_read i pos size csize fl : lenN flags < 2 ^ 32 ->
  block_entry_is ws flags table i pos size csize fl ->
  b_width ws < 64 -> i * b_width ws mod 8 + b_width ws <= 64 -> i * b_width ws / 8 + 8 <= lenN table ->
  bet_get b i = Ok (Some (mkBI pos size csize fl)).
Proof.
  intros Hfl (Hi & Fp & Fs & Fc & n & Fn & En) Hw Hc Hr.
  destruct (entry_there b i) as [e E]; [now rewrite Kw|now rewrite Kw, Kt|].
  destruct (bet_entry_reads b i e E) as [_ R]. rewrite Kw, Kt in R.
  assert (X : forall k v, field ws table i k v -> extract_bits e (at_word ws (4 + k)) (at_word ws (9 + k)) = Ok v).
  { intros k v (F1 & F2 & F3). apply extracted; [lia|lia|exact F2|]. intros j Hj. rewrite R.
    replace (at_word ws (4 + k) + j <? b_width ws) with true by lia.
    replace (i * b_width ws mod 8 + (at_word ws (4 + k) + j) <? 64) with true by lia. cbn [andb].
    rewrite N.add_assoc. now apply F3. }
  unfold bet_get. rewrite Kc. replace (b_count ws <=? i) with false by lia. rewrite E. cbn [bind].
  destruct Kf as (-> & -> & -> & -> & -> & -> & -> & ->).
  pose proof (X 0%nat _ Fp) as Xp. pose proof (X 1%nat _ Fs) as Xs. pose proof (X 2%nat _ Fc) as Xc. pose proof (X 3%nat _ Fn) as Xn.
  cbn [Nat.add] in Xp, Xs, Xc, Xn. rewrite Xp, Xs, Xc, Xn. cbn [bind]. rewrite Kn, Kl.
  assert (Hn : n < lenN flags).
  { assert (H : nth_error flags (N.to_nat n) <> None) by now rewrite En. apply nth_error_Some in H. unfold lenN. lia. }
  rewrite w32_small by (unfold M32; lia). replace (n <? lenN flags) with true by lia.
  unfold nthN. replace (n <? lenN flags) with true by lia. rewrite En. reflexivity.
Qed.
(** The bits of an entry behind the eighth byte are not looked at, the last eight bytes of a
    table hold no entry, entries of 64 bits stop the program. *)
Lemma entry_late i : lenN table < i * b_width ws / 8 + 8 -> bet_get b i = Ok None.
Proof.
  intros H. unfold bet_get. destruct (_ <=? i); [reflexivity|]. unfold bet_entry. rewrite Kw, Kt.
  replace (lenN table <? i * b_width ws / 8 + 8) with true by lia. reflexivity.
Qed.
Lemma entry_wide i : i < b_count ws -> 64 <= b_width ws -> i * b_width ws / 8 + 8 <= lenN table -> bet_get b i = Panic.
Proof.
  intros Hi H Hr. unfold bet_get. rewrite Kc. replace (b_count ws <=? i) with false by lia. unfold bet_entry. rewrite Kw, Kt.
  replace (lenN table <? i * b_width ws / 8 + 8) with false by lia.
  destruct (slice _ _ _) as [s|]; [|reflexivity]. unfold mask_chk. replace (b_width ws <? 64) with false by lia. reflexivity.
Qed.
End Any.

(** ** Names *)
Lemma name_fields L (file body : bytes) off size key ws table numbers :
  ext_read L HET_SIG file off size key = Ok body -> name_layout body ws table numbers ->
  exists h, het_read L file off size key = Ok h /\
    het_max h = n_max ws /\ het_hash_bits h = n_bits ws /\ het_table_bytes h = at_word ws 2 /\
    het_index_bits h = at_word ws 6 /\ het_hashes h = table.
Proof.
  intros R (Hl & Hw & E & Ht & Hn). unfold het_read. rewrite R. cbn [bind].
  assert (W : forall k, (k < 8)%nat -> word_at body k = at_word ws k).
  { intros k Hk. rewrite E. apply word_at_nth; [exact Hw|lia]. }
  assert (H32 : lenN (bytes_of_words ws) = 32) by (rewrite lenN_words; unfold lenN; rewrite Hl; reflexivity).
  assert (Lb : lenN body = 32 + lenN table + lenN numbers) by (rewrite E, !lenN_app, H32; lia).
  rewrite !W by lia. cbv zeta.
  assert (D : div_ceil (at_word ws 4) 8 <= lenN numbers).
  { clear - Hn. unfold div_ceil. apply N.lt_succ_r. apply N.div_lt_upper_bound; lia. }
  replace (lenN body <? 32) with false by lia.
  replace (lenN body <? 32 + at_word ws 2 + div_ceil (at_word ws 4) 8) with false by lia.
  pose proof (slice_mid (bytes_of_words ws) table numbers) as S1. rewrite H32, <- E, Ht in S1. rewrite S1.
  destruct (slice (32 + at_word ws 2) (div_ceil (at_word ws 4) 8) body) as [ix|] eqn:S2.
  - eexists. split; [reflexivity|]. repeat split.
  - apply slice_None in S2. lia.
Qed.

Lemma mask_low k n : k <= 64 -> N.land n (mask_sat k) = n mod 2 ^ k.
Proof.
  intros H. unfold mask_sat. destruct (N.leb_spec 64 k) as [C|C].
  - replace k with 64 by lia. change (2 ^ 64 - 1) with (N.ones 64). apply N.land_ones.
  - rewrite N.sub_1_r, <- N.ones_equiv. apply N.land_ones.
Qed.

(** What a table of names says of a name: nothing, or number 0. *)
Lemma name_found h ws table name :
  het_max h = n_max ws -> het_hash_bits h = n_bits ws -> het_table_bytes h = at_word ws 2 -> het_hashes h = table ->
  8 * at_word ws 2 < 2 ^ 32 -> 0 < n_bits ws <= 64 -> 0 < n_slots ws -> 0 < n_max ws ->
  slot_of ws name * n_bits ws mod 8 + n_bits ws <= 64 ->
  let hit := slot_of ws name * n_bits ws / 8 + 8 <= lenN table /\
             spells table (slot_of ws name * n_bits ws) (n_bits ws) (extended_hash name mod 2 ^ n_bits ws) in
  (hit -> het_find h name = if n_bits ws =? 64 then Panic else Ok (Some 0)) /\ (~ hit -> het_find h name = Ok None).
Proof.
  intros Km Kb Kt Kh Hb Hn Hs Hm Hc hit. unfold het_find. rewrite Km, Kb, Kt. unfold chk32.
  replace (at_word ws 2 * 8 <? M32) with true by (unfold M32; lia). cbn [bind].
  replace (n_bits ws =? 0) with false by lia. rewrite (N.mul_comm (at_word ws 2)). fold (n_slots ws).
  replace (n_slots ws =? 0) with false by lia. rewrite jenkins_is. fold (slot_of ws name).
  unfold het_entry. rewrite Kb, Kh.
  destruct (slice (slot_of ws name * n_bits ws / 8) 8 table) as [s|] eqn:S.
  2:{ apply slice_None in S. split; [intros [H _]; exfalso; lia|reflexivity]. }
  assert (Sl : slot_of ws name * n_bits ws / 8 + 8 <= lenN table).
  { apply N.nlt_ge. intros C. apply slice_None in C. congruence. }
  rewrite !mask_low by lia. rewrite N.mod_mod by (apply N.pow_nonzero; lia).
  set (e := N.shiftr (le_dec s) (slot_of ws name * n_bits ws mod 8)).
  assert (Bits : forall j, j < n_bits ws -> N.testbit e j = bit_of table (slot_of ws name * n_bits ws + j)).
  { intros j Hj. unfold e. rewrite N.shiftr_spec', (slice_bits _ _ _ _ _ S).
    replace (j + _ <? 8 * 8) with true by lia. cbn [andb]. f_equal.
    pose proof (N.div_mod' (slot_of ws name * n_bits ws) 8). lia. }
  assert (Eq : e mod 2 ^ n_bits ws = extended_hash name mod 2 ^ n_bits ws <->
               spells table (slot_of ws name * n_bits ws) (n_bits ws) (extended_hash name mod 2 ^ n_bits ws)).
  { split.
    - intros E. split; [apply N.mod_lt, N.pow_nonzero; lia|]. intros j Hj. rewrite <- E, <- Bits by exact Hj.
      symmetry. now apply N.mod_pow2_bits_low.
    - intros [_ H]. apply N.bits_inj. intros j. destruct (N.lt_ge_cases j (n_bits ws)) as [C|C].
      + rewrite N.mod_pow2_bits_low by exact C. rewrite Bits by exact C. now apply H.
      + now rewrite !N.mod_pow2_bits_high. }
  destruct (N.eqb_spec (e mod 2 ^ n_bits ws) (extended_hash name mod 2 ^ n_bits ws)) as [E|E]; cbn [negb].
  - split; [|intros H; exfalso; apply H; split; [exact Sl|now apply Eq]]. intros _.
    unfold shr64. destruct (N.eqb_spec (n_bits ws) 64) as [C|C].
    + replace (n_bits ws <? 64) with false by lia. reflexivity.
    + replace (n_bits ws <? 64) with true by lia. cbn [bind].
      rewrite N.shiftr_div_pow2, N.div_small by (apply N.mod_lt, N.pow_nonzero; lia).
      rewrite N.land_0_l. replace (n_max ws <=? 0) with false by lia. reflexivity.
  - split; [intros [_ H]; exfalso; apply E; now apply Eq|reflexivity].
Qed.

(** ** Any archive *)
Lemma het_no_err h name e : het_find h name <> Err e.
Proof.
  unfold het_find, chk32, shr64. intros H.
  repeat match type of H with context [if ?c then _ else _] => destruct c; cbn [bind] in H; try discriminate
    | context [match ?c with Some _ => _ | None => _ end] => destruct c; cbn [bind] in H; try discriminate end.
Qed.
Lemma bet_no_err b i e : bet_get b i <> Err e.
Proof.
  unfold bet_get, bet_entry, extract_bits, mask_chk, shr64. intros H.
  repeat match type of H with context [if ?c then _ else _] => destruct c; cbn [bind] in H; try discriminate
    | context [match ?c with Some _ => _ | None => _ end] => destruct c; cbn [bind] in H; try discriminate end.
Qed.

Lemma any_lookup a name h b : valid_het_bet a = Some (h, b) ->
  find_file a name = Panic \/
  (find_file a name = find_file_classic a name /\ a_hash a <> None /\ a_block a <> None) \/
  (find_file a name = Ok None /\ (a_hash a = None \/ a_block a = None)) \/
  exists bi pos, bet_get b 0 = Ok (Some bi) /\ add64 (a_off a) (bi_pos bi) = Ok pos /\
    find_file a name = Ok (Some (mkFI 0 0 pos (bi_csize bi) (bi_size bi) (bi_flags bi) 0)).
Proof.
  intros V. unfold find_file. rewrite V.
  assert (C : match a_hash a, a_block a with Some _, Some _ => find_file_classic a name | _, _ => Ok None end = find_file_classic a name /\ a_hash a <> None /\ a_block a <> None \/
              match a_hash a, a_block a with Some _, Some _ => find_file_classic a name | _, _ => Ok None end = Ok None /\ (a_hash a = None \/ a_block a = None)).
  { destruct (a_hash a), (a_block a); [left; repeat split; discriminate|right; auto|right; auto|right; auto]. }
  destruct (het_find h name) as [[i|]|e|] eqn:F; cbn [bind].
  - assert (i = 0) as -> by (eapply het_find_zero; exact F).
    destruct (bet_get b 0) as [[bi|]|e|] eqn:B; cbn [bind option_map].
    + destruct (add64 (a_off a) (bi_pos bi)) as [pos|e|] eqn:A; cbn [bind].
      * do 3 right. exists bi, pos. auto.
      * unfold add64 in A. destruct (_ <? _); discriminate.
      * now left.
    + destruct C as [C|C]; auto.
    + exfalso. exact (bet_no_err _ _ _ B).
    + now left.
  - destruct C as [C|C]; auto.
  - exfalso. exact (het_no_err _ _ _ F).
  - now left.
Qed.

(** ** Stored tables *)
Theorem blocks_read L stored body file off key ws flags table hashes :
  table_stored L 0x1A544542 key stored body -> lenN body < 2 ^ 32 -> slice off (lenN stored) file = Some stored ->
  block_layout body ws flags table hashes ->
  exists b, bet_read L file off (lenN stored) key = Ok b /\ bet_count b = b_count ws /\
    (forall i pos size csize fl, block_entry_is ws flags table i pos size csize fl -> b_width ws < 64 ->
       i * b_width ws mod 8 + b_width ws <= 64 -> i * b_width ws / 8 + 8 <= lenN table ->
       bet_get b i = Ok (Some (mkBI pos size csize fl))) /\
    (forall i, lenN table < i * b_width ws / 8 + 8 -> bet_get b i = Ok None) /\
    (forall i, i < b_count ws -> 64 <= b_width ws -> i * b_width ws / 8 + 8 <= lenN table -> bet_get b i = Panic).
Proof.
  intros Hs Hb Hf Hl. pose proof (table_read L 0x1A544542 key stored body file off Hs eq_refl Hb Hf) as R.
  destruct (fields_of L file body off (lenN stored) key ws flags table hashes R Hl)
    as (b & Kb & Kc & Kw & K1 & K2 & K3 & K4 & K5 & K6 & K7 & K8 & Kn & Kl & Kt).
  assert (Hfl : lenN flags < 2 ^ 32).
  { destruct Hl as (H1 & H2 & _ & _ & -> & _). unfold at_word. unfold words_ok in H2. rewrite Forall_forall in H2.
    apply H2. apply nth_In. rewrite H1. lia. }
  exists b. split; [exact Kb|]. split; [exact Kc|]. split; [|split].
  - intros i pos size csize fl He Hw H1 H2. eapply (entry_read ws flags table b); auto. repeat split; assumption.
  - intros i H. apply (entry_late ws flags table b); auto. repeat split; assumption.
  - intros i Hi Hw H. apply (entry_wide ws flags table b); auto. repeat split; assumption.
Qed.

Theorem names_read L stored body file off key ws table numbers :
  table_stored L 0x1A544548 key stored body -> lenN body < 2 ^ 32 -> slice off (lenN stored) file = Some stored ->
  name_layout body ws table numbers -> 8 * lenN table < 2 ^ 32 -> 0 < n_bits ws <= 64 -> 0 < n_slots ws -> 0 < n_max ws ->
  exists h, het_read L file off (lenN stored) key = Ok h /\ het_max h = n_max ws /\
    forall name, slot_of ws name * n_bits ws mod 8 + n_bits ws <= 64 ->
    let hit := slot_of ws name * n_bits ws / 8 + 8 <= lenN table /\
               spells table (slot_of ws name * n_bits ws) (n_bits ws) (extended_hash name mod 2 ^ n_bits ws) in
    (hit -> het_find h name = if n_bits ws =? 64 then Panic else Ok (Some 0)) /\ (~ hit -> het_find h name = Ok None).
Proof.
  intros Hs Hb Hf Hl H1 H2 H3 H4. pose proof (table_read L 0x1A544548 key stored body file off Hs eq_refl Hb Hf) as R.
  destruct (name_fields L file body off (lenN stored) key ws table numbers R Hl) as (h & Kh & Km & Kb & Kt & _ & Ks).
  exists h. split; [exact Kh|]. split; [exact Km|]. intros name Hc.
  apply (name_found h ws table name Km Kb Kt Ks); auto. destruct Hl as (_ & _ & _ & E & _). now rewrite <- E.
Qed.

(** Every name that a table lists leads to the first entry. *)
Theorem all_first L a stored body off key ws table numbers h b name i bi pos :
  table_stored L 0x1A544548 key stored body -> lenN body < 2 ^ 32 -> slice off (lenN stored) (a_file a) = Some stored ->
  name_layout body ws table numbers -> 8 * lenN table < 2 ^ 32 -> 0 < n_bits ws < 64 -> 0 < n_max ws ->
  het_read L (a_file a) off (lenN stored) key = Ok h -> a_het a = Some h -> a_bet a = Some b -> 0 < bet_count b ->
  numbered ws table numbers name i ->
  slot_of ws name * n_bits ws mod 8 + n_bits ws <= 64 -> slot_of ws name * n_bits ws / 8 + 8 <= lenN table ->
  bet_get b 0 = Ok (Some bi) -> add64 (a_off a) (bi_pos bi) = Ok pos ->
  find_file a name = Ok (Some (mkFI 0 0 pos (bi_csize bi) (bi_size bi) (bi_flags bi) 0)).
Proof.
  intros Hs Hb Hf Hl H1 H2 H4 Kh Ah Ab Hcnt [N1 _] Hc Hr B A.
  assert (Hslots : 0 < n_slots ws).
  { unfold n_slots. destruct Hl as (_ & _ & _ & E & _). rewrite <- E. apply N.div_str_pos. split; [lia|].
    pose proof (N.le_0_l (slot_of ws name * n_bits ws / 8)). lia. }
  destruct (names_read L stored body (a_file a) off key ws table numbers Hs Hb Hf Hl H1 ltac:(lia) Hslots H4) as (h' & Kh' & Km & F).
  rewrite Kh in Kh'. apply Ok_inj in Kh'. subst h'. destruct (F name Hc) as [F1 _]. specialize (F1 (conj Hr N1)).
  replace (n_bits ws =? 64) with false in F1 by lia.
  unfold find_file, valid_het_bet. rewrite Ah, Ab, Km. replace (0 <? n_max ws) with true by lia. replace (0 <? bet_count b) with true by lia.
  cbn [andb]. rewrite F1. cbn [bind]. rewrite B. cbn [bind option_map]. rewrite A. reflexivity.
Qed.
