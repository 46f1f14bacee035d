(** * Every loop ends with what the functions of the model give. *)
From Verif Require Import Bytes Crypto HashTable HashTableFacts Header HeaderSearch HetBet Sparse SparseFacts Adpcm AdpcmFacts Huffman HuffmanFacts Signature Percent
  AdpcmBits SpecSignature Archive CliList Builder BuilderFacts BuildCalm OpenFacts HostileFacts InfoLoad BlockTable Loops SpecLoops.
Open Scope N_scope.

Lemma ends_now {S R} (body : S -> outcome S R) s k r : body s = Done r -> 1 <= k -> ends body s k r.
Proof. intros H K. exists 1. split; [exact K|now constructor]. Qed.
Lemma ends_later {S R} (body : S -> outcome S R) s s' k k' r :
  body s = Again s' -> ends body s' k r -> k + 1 <= k' -> ends body s k' r.
Proof. intros H (n & Hn & Hr) K. exists (n + 1). split; [lia|]. now apply one_more with s'. Qed.

(** ** Tables of names *)
Lemma find_ends t a b loc start f : forall idx r,
  find_loop f t a b loc start idx = r -> r <> Panic -> ends (find_round t a b loc start) idx (N.of_nat f) r.
Proof.
  induction f as [|f IH]; intros idx r H Hr; cbn [find_loop] in H; [congruence|].
  destruct (nthN t idx) as [e|] eqn:E; [|congruence].
  destruct (he_matches a b loc e) eqn:E1.
  { apply ends_now; [|lia]. unfold find_round. now rewrite E, E1, H. }
  destruct (is_empty e) eqn:E2.
  { apply ends_now; [|lia]. unfold find_round. now rewrite E, E1, E2, H. }
  cbv zeta in H. destruct (N.land (idx + 1) (lenN t - 1) =? start) eqn:E3.
  { apply ends_now; [|lia]. unfold find_round. now rewrite E, E1, E2, E3, H. }
  eapply ends_later; [|exact (IH _ _ H Hr)|lia]. unfold find_round. now rewrite E, E1, E2, E3.
Qed.

Lemma lookup_ends t k name loc : lenN t = 2 ^ k ->
  let start := N.land (hash_string name HT_TABLE_OFFSET) (lenN t - 1) in
  ends (find_round t (hash_string name HT_NAME_A) (hash_string name HT_NAME_B) loc start) start (lenN t) (ht_find_file t name loc).
Proof.
  intros Ht start. apply find_ends.
  - unfold ht_find_file. replace (lenN t =? 0) with false; [reflexivity|].
    symmetry. apply N.eqb_neq. rewrite Ht. apply N.pow_nonzero. discriminate.
  - rewrite (ht_find_search t k Ht). discriminate.
Qed.

Lemma add_ends t a b loc blk f : forall idx r,
  add_loop f t a b loc blk idx = r -> r <> Panic -> ends (add_round t a b loc blk) idx (N.of_nat f) r.
Proof.
  induction f as [|f IH]; intros idx r H Hr; cbn [add_loop] in H; [congruence|].
  destruct (nthN t idx) as [e|] eqn:E.
  2:{ apply ends_now; [|lia]. unfold add_round. now rewrite E, H. }
  destruct (is_empty e) eqn:E1.
  { apply ends_now; [|lia]. unfold add_round. now rewrite E, E1, H. }
  destruct ((he_name1 e =? a) && (he_name2 e =? b) && (he_locale e =? loc)) eqn:E2.
  { apply ends_now; [|lia]. unfold add_round. now rewrite E, E1, E2, H. }
  eapply ends_later; [|exact (IH _ _ H Hr)|lia]. unfold add_round. now rewrite E, E1, E2.
Qed.

Lemma entering_ends t name blk loc : lenN t <> 0 -> add_to_hash_table t name blk loc <> Panic ->
  ends (add_round t (hash_string name HT_NAME_A) (hash_string name HT_NAME_B) loc blk)
       (N.land (hash_string name HT_TABLE_OFFSET) (lenN t - 1)) (lenN t) (add_to_hash_table t name blk loc).
Proof.
  intros Ht. unfold add_to_hash_table. replace (lenN t =? 0) with false by (symmetry; now apply N.eqb_neq).
  intros H. now apply add_ends.
Qed.

Lemma rounds_inv {S R} (body : S -> outcome S R) s n r : rounds body s n r ->
  match body s with Done r' => r = r' | Again s' => exists m, n = m + 1 /\ rounds body s' m r end.
Proof. intros H. destruct H as [s r H|s s' n r H H']; rewrite H; [reflexivity|eauto]. Qed.

Lemma endless_by {S R} (body : S -> outcome S R) (I : S -> Prop) :
  (forall s, I s -> exists s', body s = Again s' /\ I s') -> forall s, I s -> endless body s.
Proof.
  intros H s Hs n r Hr. induction Hr as [s r E|s s' n r E Hr IH].
  - destruct (H s Hs) as (s' & E' & _). congruence.
  - destruct (H s Hs) as (s2 & E' & I2). rewrite E in E'. injection E' as ->. exact (IH I2).
Qed.

Lemma full_endless t k a b loc blk idx : lenN t = 2 ^ k -> idx < lenN t ->
  (forall e, In e t -> is_empty e = false /\ ~ (he_name1 e = a /\ he_name2 e = b /\ he_locale e = loc)) ->
  endless (add_round t a b loc blk) idx.
Proof.
  intros Ht Hi Hall. apply endless_by with (I := fun i => i < lenN t); [|exact Hi].
  intros i Hlt. unfold add_round. unfold nthN. replace (i <? lenN t) with true by (symmetry; now apply N.ltb_lt).
  destruct (nth_error t (N.to_nat i)) as [e|] eqn:E.
  - destruct (Hall e (nth_error_In _ _ E)) as [-> Hn].
    destruct ((he_name1 e =? a) && (he_name2 e =? b) && (he_locale e =? loc)) eqn:E2.
    { exfalso. apply Hn. rewrite !andb_true_iff, !N.eqb_eq in E2. tauto. }
    eexists. split; [reflexivity|]. rewrite Ht, N.sub_1_r, <- N.ones_equiv, N.land_ones. apply N.mod_lt, N.pow_nonzero. discriminate.
  - apply nth_error_None in E. unfold lenN in Hlt. lia.
Qed.

(** ** Slots of the HET table *)
Lemma slot_ends used entries start : lenN used = entries -> start < entries -> forall f i, (N.of_nat f + i = entries)%N -> (0 < f)%nat ->
  ends (slot_round used entries start) ((start + i) mod entries) (N.of_nat f) (het_slot f used entries start ((start + i) mod entries)).
Proof.
  intros Hu Hs. induction f as [|f IH]; intros i Hi Hf; [lia|]. cbn [het_slot].
  assert (C : (start + i) mod entries < lenN used) by (rewrite Hu; apply N.mod_lt; lia).
  set (cur := (start + i) mod entries) in *.
  unfold nthN. replace (cur <? lenN used) with true by (symmetry; now apply N.ltb_lt).
  destruct (nth_error used (N.to_nat cur)) as [u|] eqn:E.
  2:{ apply nth_error_None in E. unfold lenN in C. lia. }
  assert (B : nthN used cur = Some u).
  { unfold nthN. replace (cur <? lenN used) with true by (symmetry; now apply N.ltb_lt). exact E. }
  destruct u.
  2:{ apply ends_now; [|lia]. unfold slot_round. now rewrite B. }
  cbv zeta. assert (Nx : (cur + 1) mod entries = (start + (i + 1)) mod entries).
  { unfold cur. rewrite N.add_mod_idemp_l by lia. f_equal. lia. }
  destruct ((cur + 1) mod entries =? start) eqn:E1.
  { apply ends_now; [|lia]. unfold slot_round. now rewrite B, E1. }
  assert (Hf' : (0 < f)%nat).
  { destruct f; [|lia]. exfalso. apply N.eqb_neq in E1. apply E1. rewrite Nx. replace (start + (i + 1)) with (start + 1 * entries) by lia.
    rewrite N.mod_add by lia. now apply N.mod_small. }
  rewrite Nx. eapply ends_later; [|exact (IH (i + 1) ltac:(lia) Hf')|lia].
  unfold slot_round. rewrite B. cbv zeta. rewrite E1. now rewrite Nx.
Qed.

Lemma slots_end used start : start < lenN used ->
  ends (slot_round used (lenN used) start) start (lenN used) (het_slot (length used) used (lenN used) start start).
Proof.
  intros H. pose proof (slot_ends used (lenN used) start eq_refl H (length used) 0 ltac:(unfold lenN; lia) ltac:(unfold lenN in H; lia)) as E.
  rewrite N.add_0_r, N.mod_small in E by exact H. exact E.
Qed.

(** ** The search for the header *)
Lemma header_body file off : lenN file <=? off = false ->
  header_round file off = Again (off + HEADER_ALIGNMENT) \/
  exists r, header_round file off = Done r /\ forall f, find_header_loop (S f) file off = r.
Proof.
  intros C. unfold header_round. cbn [find_header_loop]. rewrite C. cbv zeta.
  destruct (take_le 4 (from file off)) as [[sig d]|e|]; auto.
  destruct (sig =? MPQ_HEADER_SIGNATURE).
  { right. destruct (header_read (from file off)); cbn [bind try]; eauto. }
  destruct (sig =? MPQ_USERDATA_SIGNATURE); auto.
  destruct (take_le 4 d) as [[us d1]|e|]; cbn [bind try]; eauto.
  destruct (take_le 4 d1) as [[ho d2]|e|]; cbn [bind try]; eauto.
  destruct (take_le 4 d2) as [[uh d3]|e|]; cbn [bind try]; eauto.
  destruct (off + ho <? lenN file); auto.
  destruct (take_le 4 (from file (off + ho))) as [[sig2 d4]|e|]; cbn [bind try]; eauto.
  destruct (sig2 =? MPQ_HEADER_SIGNATURE); auto.
  right. destruct (header_read (from file (off + ho))); cbn [bind try]; eauto.
Qed.
Lemma header_again file off : lenN file <=? off = false -> header_round file off = Again (off + HEADER_ALIGNMENT) ->
  forall f, find_header_loop (S f) file off = find_header_loop f file (off + HEADER_ALIGNMENT).
Proof.
  intros C. unfold header_round. intros H f. cbn [find_header_loop]. rewrite C in *. cbv zeta in *.
  destruct (take_le 4 (from file off)) as [[sig d]|e|]; auto.
  destruct (sig =? MPQ_HEADER_SIGNATURE).
  { destruct (header_read (from file off)); cbn [bind try] in *; congruence. }
  destruct (sig =? MPQ_USERDATA_SIGNATURE); auto.
  destruct (take_le 4 d) as [[us d1]|e|]; cbn [bind try] in *; try congruence.
  destruct (take_le 4 d1) as [[ho d2]|e|]; cbn [bind try] in *; try congruence.
  destruct (take_le 4 d2) as [[uh d3]|e|]; cbn [bind try] in *; try congruence.
  destruct (off + ho <? lenN file); auto.
  destruct (take_le 4 (from file (off + ho))) as [[sig2 d4]|e|]; cbn [bind try] in *; try congruence.
  destruct (sig2 =? MPQ_HEADER_SIGNATURE); auto.
  destruct (header_read (from file (off + ho))); cbn [bind try] in *; congruence.
Qed.

Lemma search_ends file : forall f off, lenN file / 512 + 1 < N.of_nat f + off / 512 -> (0 < f)%nat -> off mod 512 = 0 ->
  ends (header_round file) off (N.max 1 (lenN file / 512 + 2 - off / 512)) (find_header_loop f file off).
Proof.
  induction f as [|f IH]; intros off Hf Hp Hm; [lia|].
  destruct (lenN file <=? off) eqn:C.
  { apply ends_now; [|lia]. unfold header_round. cbn [find_header_loop]. now rewrite C. }
  apply N.leb_gt in C. assert (Hd : off / 512 <= lenN file / 512) by (apply N.div_le_mono; lia).
  assert (Hn : (off + 512) / 512 = off / 512 + 1) by (replace (off + 512) with (off + 1 * 512) by lia; now rewrite N.div_add).
  destruct (header_body file off ltac:(now apply N.leb_gt)) as [E|(r & E & Er)].
  - rewrite (header_again file off ltac:(now apply N.leb_gt) E f).
    eapply ends_later; [exact E|apply IH|]; unfold HEADER_ALIGNMENT; rewrite ?Hn; try lia.
  - rewrite Er. apply ends_now; [exact E|lia].
Qed.

Lemma header_ends file : ends (header_round file) 0 (lenN file / 512 + 2) (find_header file).
Proof.
  unfold find_header. pose proof (search_ends file (S (S (length file / 512))) 0) as H.
  replace (N.max 1 (lenN file / 512 + 2 - 0 / 512)) with (lenN file / 512 + 2) in H.
  - apply H; [|lia|reflexivity]. unfold lenN. change 512 with (N.of_nat 512) at 1. rewrite <- (Nat2N.inj_div (length file) 512). change (0 / 512) with 0. lia.
  - change (0 / 512) with 0. lia.
Qed.

(** ** Digests *)
Definition behind (fed : bytes) (x : res bytes) : res bytes := d <- x ;; Ok (fed ++ d).
Lemma behind_more fed c x : behind fed (r <- x ;; Ok (c ++ r)) = behind (fed ++ c) x.
Proof. destruct x; cbn; rewrite ?app_assoc; reflexivity. Qed.
Lemma behind_none fed : behind fed (Ok []) = Ok fed.
Proof. cbn. now rewrite app_nil_r. Qed.

Lemma digest_ends rd file si : reader_of file rd -> forall f pos fed, lenN file - pos < N.of_nat f ->
  ends (digest_round rd file si) (pos, fed) (lenN file - pos + 1) (behind fed (digest_loop rd f file si pos)).
Proof.
  intros Hr. induction f as [|f IH]; intros pos fed Hf; [lia|].
  destruct (digest_round rd file si (pos, fed)) as [s'|r] eqn:E.
  - unfold digest_round in E. cbn [digest_loop]. destruct (pos <? si_end si) eqn:E0; [|discriminate].
    set (n := rd pos (N.min (si_end si - pos) DIGEST_UNIT_SIZE)) in *. cbv zeta in *.
    destruct (n =? 0) eqn:E1; [discriminate|].
    destruct (of_option EIo (slice pos n file)) as [c|e|] eqn:E2; cbn [bind try] in *; try discriminate.
    match type of E with try ?x _ = _ => destruct x as [c'|e|] eqn:E3 end; cbn [bind try] in *; try discriminate.
    injection E as <-. rewrite behind_more.
    apply N.eqb_neq in E1. apply N.ltb_lt in E0. destruct (Hr pos (N.min (si_end si - pos) DIGEST_UNIT_SIZE)) as [Z P]. fold n in Z, P.
    destruct (N.le_gt_cases (lenN file) pos) as [K|K]; [now apply Z in K|].
    destruct (P K ltac:(unfold DIGEST_UNIT_SIZE; lia)) as (P1 & P2 & P3).
    eapply ends_later; [|apply IH; lia|lia].
    unfold digest_round. apply N.ltb_lt in E0. rewrite E0. fold n. cbv zeta. apply N.eqb_neq in E1. rewrite E1, E2. cbn [try]. now rewrite E3.
  - apply ends_now; [|lia]. rewrite E. f_equal. unfold digest_round in E. cbn [digest_loop].
    destruct (pos <? si_end si) eqn:E0; [|injection E as <-; now rewrite behind_none].
    set (n := rd pos (N.min (si_end si - pos) DIGEST_UNIT_SIZE)) in *. cbv zeta in *.
    destruct (n =? 0) eqn:E1; [injection E as <-; now rewrite behind_none|].
    destruct (of_option EIo (slice pos n file)) as [c|e|] eqn:E2; cbn [bind try] in *; try (injection E as <-; reflexivity).
    match type of E with try ?x _ = _ => destruct x as [c'|e|] eqn:E3 end; cbn [bind try] in *; try discriminate; injection E as <-; reflexivity.
Qed.

Lemma weak_digest_ends rd file si : reader_of file rd ->
  ends (digest_round rd file si) (si_begin si, []) (lenN file - si_begin si + 1) (digest_data rd file si).
Proof.
  intros H. unfold digest_data. pose proof (digest_ends rd file si H (S (length file)) (si_begin si) [] ltac:(unfold lenN; lia)) as E.
  unfold behind in E. cbn [app] in E. destruct (digest_loop rd (S (length file)) file si (si_begin si)); exact E.
Qed.

Lemma stream_ends rd file : reader_of file rd -> forall f pos n fed, lenN file - pos < N.of_nat f ->
  ends (stream_round rd file) (pos, n, fed) (N.min n (lenN file - pos) + 1) (behind fed (stream_loop rd f file pos n)).
Proof.
  intros Hr. induction f as [|f IH]; intros pos n fed Hf; [lia|].
  destruct (stream_round rd file (pos, n, fed)) as [s'|r] eqn:E.
  - unfold stream_round in E. cbn [stream_loop]. destruct (0 <? n) eqn:E0; [|discriminate].
    set (m := rd pos (N.min n 65536)) in *. cbv zeta in *.
    destruct (m =? 0) eqn:E1; [discriminate|].
    destruct (of_option EIo (slice pos m file)) as [c|e|] eqn:E2; cbn [bind try] in *; try discriminate.
    injection E as <-. rewrite behind_more.
    apply N.eqb_neq in E1. apply N.ltb_lt in E0. destruct (Hr pos (N.min n 65536)) as [Z P]. fold m in Z, P.
    destruct (N.le_gt_cases (lenN file) pos) as [K|K]; [now apply Z in K|].
    destruct (P K ltac:(lia)) as (P1 & P2 & P3).
    eapply ends_later; [|apply IH; lia|lia].
    unfold stream_round. apply N.ltb_lt in E0. rewrite E0. fold m. cbv zeta. apply N.eqb_neq in E1. now rewrite E1, E2.
  - apply ends_now; [|lia]. rewrite E. f_equal. unfold stream_round in E. cbn [stream_loop].
    destruct (0 <? n) eqn:E0; [|injection E as <-; now rewrite behind_none].
    set (m := rd pos (N.min n 65536)) in *. cbv zeta in *.
    destruct (m =? 0) eqn:E1; [injection E as <-; now rewrite behind_none|].
    destruct (of_option EIo (slice pos m file)) as [c|e|] eqn:E2; cbn [bind try] in *; try discriminate; injection E as <-; reflexivity.
Qed.

Lemma strong_digest_ends rd file pos n : reader_of file rd ->
  ends (stream_round rd file) (pos, n, []) (N.min n (lenN file - pos) + 1) (stream_data rd file pos n).
Proof.
  intros H. unfold stream_data. pose proof (stream_ends rd file H (S (length file)) pos n [] ltac:(unfold lenN; lia)) as E.
  unfold behind in E. cbn [app] in E. destruct (stream_loop rd (S (length file)) file pos n); exact E.
Qed.

(** ** Sparse *)
Lemma unsparse_ends expected : forall f data out, (length data < f)%nat ->
  ends (unsparse_round expected) (data, out) (lenN data + 1) (behind out (sparse_dec_loop f data (lenN out) expected)).
Proof.
  induction f as [|f IH]; intros data out Hf; [lia|]. destruct data as [|c rest].
  { apply ends_now; [|lia]. cbn [unsparse_round sparse_dec_loop]. now rewrite behind_none. }
  cbn [sparse_dec_loop]. cbn [length] in Hf.
  destruct (lenN out <? expected) eqn:E0.
  2:{ apply ends_now; [|lia]. unfold unsparse_round. rewrite E0. now rewrite behind_none. }
  destruct (bN c =? 255) eqn:E1.
  { apply ends_now; [|lia]. unfold unsparse_round. rewrite E0, E1. now rewrite behind_none. }
  destruct (negb (N.land (bN c) 128 =? 0)) eqn:E2.
  { cbv zeta. rewrite behind_more. replace (lenN out + N.land (bN c) 127) with (lenN (out ++ zeros (N.land (bN c) 127))).
    - eapply ends_later; [|apply IH; lia|unfold lenN; cbn [length]; lia]. unfold unsparse_round. now rewrite E0, E1, E2.
    - rewrite lenN_app, zeros_length. reflexivity. }
  cbv zeta. destruct (lenN rest <? bN c) eqn:E3.
  { apply ends_now; [|lia]. unfold unsparse_round. cbv zeta. now rewrite E0, E1, E2, E3. }
  rewrite behind_more. replace (lenN out + bN c) with (lenN (out ++ firstn (N.to_nat (bN c)) rest)).
  - eapply ends_later; [|apply IH|].
    + unfold unsparse_round. cbv zeta. now rewrite E0, E1, E2, E3.
    + rewrite skipn_length. lia.
    + unfold lenN. rewrite skipn_length. cbn [length]. lia.
  - apply N.ltb_ge in E3. unfold lenN in *. rewrite app_length, firstn_length. lia.
Qed.

Lemma unsparse_all data expected : exists r,
  ends (unsparse_round expected) (data, []) (lenN data + 1) r /\
  sparse_decompress data expected = (out <- r ;; Ok (out ++ zeros (expected - lenN out))).
Proof.
  exists (sparse_dec_loop (S (length data)) data 0 expected). split.
  - pose proof (unsparse_ends expected (S (length data)) data [] ltac:(lia)) as E. unfold behind in E. cbn [app] in E.
    change (lenN []) with 0 in E. destruct (sparse_dec_loop _ data 0 expected); exact E.
  - unfold sparse_decompress. destruct (sparse_dec_loop _ data 0 expected) as [out|e|]; cbn [bind]; try reflexivity.
    f_equal. f_equal. destruct (N.ltb_spec (lenN out) expected); [reflexivity|]. replace (expected - lenN out) with 0 by lia. reflexivity.
Qed.

Lemma zeros_ends : forall d n, ends zeros_round (n, d) (lenN d + 1) (let (m, r) := zero_run d in ((n + m)%nat, r)).
Proof.
  induction d as [|c d IH]; intros n.
  - apply ends_now; [|lia]. cbn. rewrite Nat.add_0_r. reflexivity.
  - cbn [zero_run]. destruct (bN c =? 0) eqn:E.
    + specialize (IH (S n)). destruct (zero_run d) as [m r]. replace (n + S m)%nat with (S n + m)%nat by lia.
      eapply ends_later; [|exact IH|unfold lenN; cbn [length]; lia]. cbn. rewrite E. reflexivity.
    + apply ends_now; [|lia]. cbn. rewrite E, Nat.add_0_r. reflexivity.
Qed.
Lemma chunks_end : forall f count out, count <= N.of_nat f ->
  ends chunk_round (count, out) (div_ceil count 127 + 1) (out ++ zero_chunks f count).
Proof.
  induction f as [|f IH]; intros count out H.
  - assert (count = 0) as -> by lia. apply ends_now; [|lia]. cbn. now rewrite app_nil_r.
  - cbn [zero_chunks]. destruct (N.eqb_spec count 0) as [->|Hn].
    { apply ends_now; [|lia]. cbn. now rewrite app_nil_r. }
    cbv zeta. eapply ends_later with (s' := (count - N.min count 127, out ++ [Nb (N.lor 128 (N.min count 127))])).
    + unfold chunk_round. replace (0 <? count) with true by (symmetry; apply N.ltb_lt; lia). reflexivity.
    + replace (out ++ Nb (N.lor 128 (N.min count 127)) :: zero_chunks f (count - N.min count 127))
        with ((out ++ [Nb (N.lor 128 (N.min count 127))]) ++ zero_chunks f (count - N.min count 127)) by (rewrite <- app_assoc; reflexivity).
      apply IH. lia.
    + unfold div_ceil. destruct (N.le_gt_cases count 127).
      * replace (count - N.min count 127) with 0 by lia. change ((0 + 127 - 1) / 127) with 0.
        assert (1 <= (count + 127 - 1) / 127) by (apply N.div_le_lower_bound; lia). lia.
      * replace (count - N.min count 127) with (count - 127) by lia.
        replace (count + 127 - 1) with ((count - 127 + 127 - 1) + 1 * 127) by lia. rewrite N.div_add by lia. lia.
Qed.
Lemma literals_end : forall m l d, (length l + m = 127)%nat ->
  ends literal_round (l, d) (N.of_nat m + 1) (let (a, r) := lit_run m d in (l ++ a, r)).
Proof.
  induction m as [|m IH]; intros l d H.
  - apply ends_now; [|lia]. cbn [lit_run]. unfold literal_round. destruct d as [|c d]; [now rewrite app_nil_r|].
    replace (lenN l <? 127) with false by (symmetry; apply N.ltb_ge; unfold lenN; lia). rewrite andb_false_r, app_nil_r. reflexivity.
  - destruct d as [|c d].
    { apply ends_now; [|lia]. cbn. now rewrite app_nil_r. }
    cbn [lit_run]. destruct (bN c =? 0) eqn:E.
    { apply ends_now; [|lia]. unfold literal_round. rewrite E. cbn [negb andb]. now rewrite app_nil_r. }
    specialize (IH (l ++ [c]) d ltac:(rewrite app_length; cbn [length]; lia)).
    destruct (lit_run m d) as [a r]. rewrite <- app_assoc in IH. cbn [app] in IH.
    eapply ends_later; [|exact IH|lia]. unfold literal_round. rewrite E.
    replace (lenN l <? 127) with true by (symmetry; apply N.ltb_lt; unfold lenN; lia). reflexivity.
Qed.
Lemma zero_run_length d : let (z, r) := zero_run d in (z + length r = length d)%nat.
Proof. induction d as [|c d IH]; cbn [zero_run]; [reflexivity|]. destruct (bN c =? 0); [destruct (zero_run d)|]; cbn [length]; lia. Qed.
Lemma zero_run_stop d : match snd (zero_run d) with [] => True | c :: _ => bN c <> 0 end.
Proof.
  induction d as [|c d IH]; cbn [zero_run]; [exact I|]. destruct (N.eqb_spec (bN c) 0).
  - destruct (zero_run d). exact IH.
  - exact n.
Qed.
Lemma lit_run_length m : forall d, let (l, r) := lit_run m d in (length l + length r = length d)%nat.
Proof.
  induction m as [|m IH]; intros d; cbn [lit_run]; [destruct d; reflexivity|]. destruct d as [|c d]; [reflexivity|].
  destruct (bN c =? 0); [reflexivity|]. specialize (IH d). destruct (lit_run m d). cbn [length]. lia.
Qed.
Lemma sparse_progress c d : let (z, r) := zero_run (c :: d) in let (l, r') := lit_run 127 r in (length r' <= length d)%nat.
Proof.
  pose proof (zero_run_length (c :: d)) as Hz. pose proof (zero_run_stop (c :: d)) as Hs.
  destruct (zero_run (c :: d)) as [z r]. cbn [snd] in Hs. cbn [length] in Hz.
  pose proof (lit_run_length 127 r) as Hl. destruct (lit_run 127 r) as [l r'] eqn:E.
  destruct z; [|lia]. destruct r as [|x r]; [cbn [length] in *; lia|].
  enough (l <> []) by (destruct l; [congruence|cbn [length] in *; lia]).
  clear - E Hs. intros ->. revert E.
  change 127%nat with (S 126). generalize 126%nat. intros m. cbn [lit_run].
  destruct (N.eqb_spec (bN x) 0) as [Ex|_]; [contradiction|]. destruct (lit_run m r). discriminate.
Qed.
Lemma sparse_ends : forall f d out, (length d < f)%nat -> ends sparse_round (d, out) (lenN d + 1) (out ++ sparse_enc_loop f d).
Proof.
  induction f as [|f IH]; intros d out Hf; [lia|]. destruct d as [|c d].
  { apply ends_now; [|lia]. cbn. now rewrite app_nil_r. }
  cbn [sparse_enc_loop]. pose proof (sparse_progress c d) as P. unfold sparse_round. 
  destruct (zero_run (c :: d)) as [z r] eqn:Ez. destruct (lit_run 127 r) as [l r'] eqn:El.
  eapply ends_later with (s' := (r', out ++ zero_chunks (S z) (N.of_nat z) ++ match l with [] => [] | _ => Nb (lenN l) :: l end)).
  - rewrite Ez, El. reflexivity.
  - replace (out ++ zero_chunks (S z) (N.of_nat z) ++ match l with [] => [] | _ => Nb (lenN l) :: l end ++ sparse_enc_loop f r')
      with ((out ++ zero_chunks (S z) (N.of_nat z) ++ match l with [] => [] | _ => Nb (lenN l) :: l end) ++ sparse_enc_loop f r')
      by (rewrite <- !app_assoc; reflexivity).
    apply IH. cbn [length] in Hf. lia.
  - unfold lenN. cbn [length]. lia.
Qed.

Lemma sparse_enc_cons f c d : sparse_enc_loop (S f) (c :: d) =
  let (z, r) := zero_run (c :: d) in
  let (l, r') := lit_run 127 r in
  zero_chunks (S z) (N.of_nat z) ++ match l with [] => [] | _ => Nb (lenN l) :: l end ++ sparse_enc_loop f r'.
Proof. reflexivity. Qed.
Lemma sparse_enc_fuel : forall f d, (length d <= f)%nat -> sparse_enc_loop (S f) d = sparse_enc_loop f d.
Proof.
  induction f as [|f IH]; intros d H.
  - destruct d; [reflexivity|cbn [length] in H; lia].
  - destruct d as [|c d]; [reflexivity|]. pose proof (sparse_progress c d) as P. cbn [length] in H.
    rewrite !sparse_enc_cons.
    destruct (zero_run (c :: d)) as [z r]. destruct (lit_run 127 r) as [l r']. rewrite IH by lia. reflexivity.
Qed.
Lemma sparse_all d : ends sparse_round (d, []) (lenN d + 1) (sparse_enc_loop (length d) d).
Proof. pose proof (sparse_ends (S (length d)) d [] ltac:(lia)) as E. rewrite sparse_enc_fuel in E by lia. exact E. Qed.

(** ** Audio *)
Lemma grow_ends difference : forall f idx out, idx <= 88 -> 96 <= idx + 8 * N.of_nat f ->
  ends (grow_round difference) (idx, out) (N.of_nat f)
       (' (o, i) <- grow f difference idx ;; Ok (out ++ o, i)).
Proof.
  induction f as [|f IH]; intros idx out Hi Hf; [lia|].
  cbn [grow]. destruct (step_at_ok idx Hi) as (st & Es & _). rewrite Es. cbn [bind].
  destruct (difference >? st * 2)%Z eqn:Ed.
  2:{ apply ends_now; [|lia]. unfold grow_round, try. rewrite Es, Ed. cbn [bind]. now rewrite app_nil_r. }
  destruct (88 <=? idx) eqn:E8.
  { apply ends_now; [|lia]. unfold grow_round, try. rewrite Es, Ed, E8. cbn [bind]. now rewrite app_nil_r. }
  apply N.leb_gt in E8. cbv zeta. eapply ends_later with (s' := (N.min (idx + 8) 88, out ++ [Nb 129])).
  - unfold grow_round, try. rewrite Es, Ed. replace (88 <=? idx) with false by (symmetry; apply N.leb_gt; lia). reflexivity.
  - destruct (N.le_gt_cases 96 (idx + 8)).
    + exfalso. lia.
    + specialize (IH (N.min (idx + 8) 88) (out ++ [Nb 129]) ltac:(lia) ltac:(lia)).
      destruct (grow f difference (N.min (idx + 8) 88)) as [[o i]|e|]; cbn [bind] in IH |- *; try exact IH.
      rewrite <- app_assoc in IH. exact IH.
  - lia.
Qed.

Lemma bits_end difference max : max <= 32 -> forall f work total b enc,
  b <= 64 -> 64 < b * 2 ^ N.of_nat f ->
  ends (bits_round difference max) (work, total, b, enc) (N.of_nat f) (enc_bits f difference work total b max enc).
Proof.
  intros Hm. induction f as [|f IH]; intros work total b enc Hb Hf; [cbn in Hf; lia|].
  cbn [enc_bits]. destruct (b <=? max) eqn:E.
  2:{ apply ends_now; [|lia]. unfold bits_round. now rewrite E. }
  apply N.leb_le in E. assert (Em : (b * 2) mod 256 = N.shiftl b 1) by (rewrite N.shiftl_mul_pow2, N.mod_small; [reflexivity|lia]).
  assert (P : N.shiftl b 1 <= 64) by (rewrite N.shiftl_mul_pow2; change (2 ^ 1) with 2; lia).
  assert (Q : 64 < N.shiftl b 1 * 2 ^ N.of_nat f).
  { rewrite N.shiftl_mul_pow2. change (2 ^ 1) with 2. rewrite Nat2N.inj_succ, N.pow_succ_r' in Hf. lia. }
  apply N.leb_le in E.
  destruct (total + work <=? difference)%Z eqn:Et.
  - eapply ends_later; [|apply IH; [exact P|exact Q]|lia]. unfold bits_round. rewrite E, Et, Em. reflexivity.
  - eapply ends_later; [|apply IH; [exact P|exact Q]|lia]. unfold bits_round. rewrite E, Et, Em. reflexivity.
Qed.

Definition audio_result (out : bytes) (x : res (bytes * list Z)) : res bytes := ' (o, _) <- x ;; Ok (out ++ o).
Lemma audio_ends level bit_shift cc : forall samples sts ch out,
  ends (audio_round level bit_shift cc) (sts, ch, samples, out) (lenN samples + 1)
       (audio_result out (enc_loop level bit_shift cc sts ch samples)).
Proof.
  induction samples as [|x rest IH]; intros sts ch out.
  - apply ends_now; [|lia]. cbn. now rewrite app_nil_r.
  - cbn [enc_loop]. destruct (nth_error sts ((ch + 1) mod cc)) as [st|] eqn:En.
    2:{ apply ends_now; [|lia]. unfold audio_round. now rewrite En. }
    destruct (enc_one level bit_shift st x) as [[o st']|e|] eqn:Ee.
    2,3: apply ends_now; [unfold audio_round, try; rewrite En, Ee; reflexivity|lia].
    specialize (IH (upd sts ((ch + 1) mod cc) st') ((ch + 1) mod cc)%nat (out ++ o)). unfold audio_result in *. cbn [bind].
    destruct (enc_loop level bit_shift cc (upd sts ((ch + 1) mod cc) st') ((ch + 1) mod cc)%nat rest) as [[os ps]|e|]; cbn [bind] in *.
    1: rewrite <- app_assoc in IH.
    all: eapply ends_later; [unfold audio_round, try; rewrite En, Ee; reflexivity|exact IH|rewrite lenN_cons; lia].
Qed.

Lemma lenN_sample z : lenN (write_sample z) = 2.
Proof. reflexivity. Qed.
Lemma unaudio_ends bit_shift cc size : forall input sts ch out,
  ends (unaudio_round bit_shift cc size) (sts, ch, input, out) (lenN input + 1)
       (behind out (dec_loop bit_shift cc sts ch input (lenN out) size)).
Proof.
  induction input as [|b rest IH]; intros sts ch out.
  - apply ends_now; [|lia]. cbn [unaudio_round dec_loop]. now rewrite behind_none.
  - assert (K : lenN rest + 1 + 1 <= lenN (b :: rest) + 1) by (rewrite lenN_cons; lia).
    assert (K1 : 1 <= lenN (b :: rest) + 1) by lia. revert K K1. generalize (lenN (b :: rest) + 1). intros k K K1.
    cbn [dec_loop]. destruct (lenN out <? size) eqn:E0.
    2:{ apply ends_now; [|exact K1]. unfold unaudio_round. rewrite E0. now rewrite behind_none. }
    cbv zeta. destruct (nth_error sts ((ch + 1) mod cc)) as [[pred idx]|] eqn:En.
    2:{ apply ends_now; [|exact K1]. unfold unaudio_round. cbv zeta. rewrite E0, En. reflexivity. }
    destruct (bN b =? 128) eqn:E1.
    { rewrite behind_more. replace (lenN out + 2) with (lenN (out ++ write_sample pred)) by (rewrite lenN_app; reflexivity).
      eapply ends_later; [|apply IH|exact K]. unfold unaudio_round. cbv zeta. rewrite E0, En, E1. reflexivity. }
    destruct (bN b =? 129) eqn:E2.
    { eapply ends_later; [|apply IH|exact K]. unfold unaudio_round. cbv zeta. rewrite E0, En, E1, E2. reflexivity. }
    destruct (step_at idx) as [step|e|] eqn:Es.
    2,3: apply ends_now; [|exact K1]; unfold unaudio_round, try; cbv zeta; rewrite E0, En, E1, E2, Es; reflexivity.
    cbn [bind]. destruct (sar32 step bit_shift) as [base|e|] eqn:Eb.
    2,3: apply ends_now; [|exact K1]; unfold unaudio_round, try; cbv zeta; rewrite E0, En, E1, E2, Es, Eb; reflexivity.
    cbn [bind]. destruct (next_step_index idx (bN b)) as [idx'|e|] eqn:Ei.
    2,3: apply ends_now; [|exact K1]; unfold unaudio_round, try; cbv zeta; rewrite E0, En, E1, E2, Es, Eb, Ei; reflexivity.
    cbn [bind]. rewrite behind_more.
    replace (lenN out + 2) with (lenN (out ++ write_sample (decode_sample pred (bN b) step base))) by (rewrite lenN_app; reflexivity).
    eapply ends_later; [|apply IH|exact K]. unfold unaudio_round, try. cbv zeta. rewrite E0, En, E1, E2, Es, Eb, Ei. reflexivity.
Qed.

(** ** Huffman *)
Lemma peek_ends r : ends peek_round r 2 (peek_7_bits r).
Proof.
  unfold peek_7_bits. destruct (rd_count r <? 7) eqn:E.
  - destruct (rd_rest r) as [|b t] eqn:Et.
    + apply ends_now; [|lia]. unfold peek_round. now rewrite E, Et.
    + eapply ends_later with (k := 1); [unfold peek_round; rewrite E, Et; reflexivity| |lia].
      apply ends_now; [|lia]. unfold peek_round. cbn [rd_count rd_buf].
      replace (rd_count r + 8 <? 7) with false by (symmetry; apply N.ltb_ge; lia). reflexivity.
  - apply ends_now; [|lia]. unfold peek_round. now rewrite E.
Qed.
Lemma parents_end : forall work items, ends parent_round (items, work) (N.max 1 (N.of_nat work)) (items ++ parents work).
Proof.
  induction work as [|w IH]; intros items.
  - apply ends_now; [|lia]. cbn. now rewrite app_nil_r.
  - destruct w as [|w].
    + apply ends_now; [|lia]. cbn. now rewrite app_nil_r.
    + eapply ends_later; [reflexivity| |].
      * specialize (IH (items ++ [mkItem 0 0 (Some (N.of_nat (S w)))])). rewrite <- app_assoc in IH. exact IH.
      * lia.
Qed.
Lemma walk_ends k r : k < 3 -> exists items v, build_tree k = Ok items /\ first_value k = Some v /\
  ends (tree_round items) (Some 0, r) 1 (Ok (v, r)) /\ decode_one items r = Ok (v, snd (peek_7_bits r)).
Proof.
  intros H. destruct (first_leaf k H) as (w & tl & v & Ev & Et). exists (mkItem v w None :: tl), v. split; [exact Et|]. split; [exact Ev|]. split.
  - apply ends_now; [reflexivity|lia].
  - unfold decode_one. destruct (peek_7_bits r) as [[l|] r1]; reflexivity.
Qed.
(** Going down any tree takes at most one round more than there are bits left. *)
Lemma get_bit_left r : get_bit r = Err ECompression /\ rd_count r = 0 /\ rd_rest r = [] \/
  exists b r', get_bit r = Ok (b, r') /\ 8 * lenN (rd_rest r') + rd_count r' + 1 = 8 * lenN (rd_rest r) + rd_count r.
Proof.
  unfold get_bit. destruct (N.eqb_spec (rd_count r) 0) as [E|E].
  - destruct (rd_rest r) as [|b t]; [now left|right]. cbn [bind rd_rest rd_buf rd_count].
    eexists _, _. split; [reflexivity|]. cbn [rd_rest rd_count]. unfold lenN. cbn [length]. lia.
  - right. cbn [bind]. eexists _, _. split; [reflexivity|]. cbn [rd_rest rd_count]. lia.
Qed.
Lemma any_walk_ends items : forall n cur r, 8 * lenN (rd_rest r) + rd_count r <= N.of_nat n ->
  exists v, ends (tree_round items) (cur, r) (N.of_nat n + 1) v /\ v <> Panic /\ forall m, (n < m)%nat -> tree_walk m items cur r = v.
Proof.
  induction n as [|n IH]; intros cur r H.
  - destruct cur as [i|].
    2:{ eexists. split; [apply ends_now; [reflexivity|lia]|]. split; [discriminate|]. intros [|m] Hm; [lia|reflexivity]. }
    destruct (nthN items i) as [it|] eqn:Ei.
    2:{ exists (Err ECompression). split; [apply ends_now; [unfold tree_round; now rewrite Ei|lia]|]. split; [discriminate|].
        intros [|m] Hm; [lia|]. cbn [tree_walk]. now rewrite Ei. }
    destruct (it_child_lo it) as [lo|] eqn:El.
    2:{ exists (Ok (it_value it, r)). split; [apply ends_now; [unfold tree_round; now rewrite Ei, El|lia]|]. split; [discriminate|].
        intros [|m] Hm; [lia|]. cbn [tree_walk]. now rewrite Ei, El. }
    destruct (get_bit_left r) as [(Eb & _)|(b & r' & _ & Hl)]; [|lia].
    exists (Err ECompression). split; [apply ends_now; [unfold tree_round; now rewrite Ei, El, Eb|lia]|]. split; [discriminate|].
    intros [|m] Hm; [lia|]. cbn [tree_walk]. now rewrite Ei, El, Eb.
  - destruct cur as [i|].
    2:{ eexists. split; [apply ends_now; [reflexivity|lia]|]. split; [discriminate|]. intros [|m] Hm; [lia|reflexivity]. }
    destruct (nthN items i) as [it|] eqn:Ei.
    2:{ exists (Err ECompression). split; [apply ends_now; [unfold tree_round; now rewrite Ei|lia]|]. split; [discriminate|].
        intros [|m] Hm; [lia|]. cbn [tree_walk]. now rewrite Ei. }
    destruct (it_child_lo it) as [lo|] eqn:El.
    2:{ exists (Ok (it_value it, r)). split; [apply ends_now; [unfold tree_round; now rewrite Ei, El|lia]|]. split; [discriminate|].
        intros [|m] Hm; [lia|]. cbn [tree_walk]. now rewrite Ei, El. }
    destruct (get_bit_left r) as [(Eb & _)|(b & r' & Eb & Hl)].
    + exists (Err ECompression). split; [apply ends_now; [unfold tree_round; now rewrite Ei, El, Eb|lia]|]. split; [discriminate|].
      intros [|m] Hm; [lia|]. cbn [tree_walk]. now rewrite Ei, El, Eb.
    + destruct (IH (if b =? 0 then Some lo else Some (if lo + 1 <? lenN items then lo + 1 else lo)) r' ltac:(lia)) as (v & Hv & Hp & Hm).
      exists v. split; [eapply ends_later; [unfold tree_round; rewrite Ei, El, Eb; reflexivity|exact Hv|lia]|]. split; [exact Hp|].
      intros [|m] Hn; [lia|]. cbn [tree_walk]. rewrite Ei, El, Eb. cbn [bind]. apply Hm. lia.
Qed.
Lemma walks_end items cur r : exists v,
  ends (tree_round items) (cur, r) (8 * lenN (rd_rest r) + rd_count r + 1) v /\ v <> Panic /\
  forall m, 8 * lenN (rd_rest r) + rd_count r < N.of_nat m -> tree_walk m items cur r = v.
Proof.
  destruct (any_walk_ends items (N.to_nat (8 * lenN (rd_rest r) + rd_count r)) cur r ltac:(lia)) as (v & H & Hp & Hm).
  exists v. split; [now rewrite N2Nat.id in H|]. split; [exact Hp|]. intros m K. apply Hm. lia.
Qed.
Lemma huff_const_ends v w tl expected : v <= 255 -> forall n r out,
  lenN out + N.of_nat n + 1 = N.max (lenN out + 1) expected ->
  rounds (huff_round (mkItem v w None :: tl) expected) (r, out) (N.of_nat n + 1) (Ok (out ++ repeat (Nb v) (S n))).
Proof.
  intros Hv. induction n as [|n IH]; intros r out He.
  - apply last_round. unfold huff_round, try. destruct (decode_one_const v tl r (mkItem v w None :: tl) eq_refl) as [r' ->].
    replace (v =? 256) with false by (symmetry; apply N.eqb_neq; lia). replace (v =? 511) with false by (symmetry; apply N.eqb_neq; lia).
    replace (v =? 257) with false by (symmetry; apply N.eqb_neq; lia). replace (255 <? v) with false by (symmetry; apply N.ltb_ge; lia).
    replace (expected <=? lenN out + 1) with true by (symmetry; apply N.leb_le; lia). reflexivity.
  - rewrite Nat2N.inj_succ, <- N.add_1_r. destruct (decode_one_const v tl r (mkItem v w None :: tl) eq_refl) as [r' Ed].
    eapply one_more with (s' := (r', out ++ [Nb v])).
    + unfold huff_round, try. rewrite Ed.
      replace (v =? 256) with false by (symmetry; apply N.eqb_neq; lia). replace (v =? 511) with false by (symmetry; apply N.eqb_neq; lia).
      replace (v =? 257) with false by (symmetry; apply N.eqb_neq; lia). replace (255 <? v) with false by (symmetry; apply N.ltb_ge; lia).
      replace (expected <=? lenN out + 1) with false by (symmetry; apply N.leb_gt; lia). reflexivity.
    + specialize (IH r' (out ++ [Nb v])). rewrite <- app_assoc in IH. cbn [app] in IH. cbn [repeat]. apply IH.
      rewrite lenN_app. change (lenN [Nb v]) with 1. lia.
Qed.
Lemma huffman_ends t rest expected items : build_tree (bN t) = Ok items ->
  exists n, rounds (huff_round items expected) (mkReader rest 0 0, []) n (huffman_decompress (t :: rest) expected) /\
            n = (if N.land (bN t) 15 =? 0 then 1 else N.max 1 expected).
Proof.
  intros Hb. rewrite huffman_const. rewrite build_tree_low in Hb.
  assert (C : N.land (bN t) 15 < 3).
  { destruct (N.lt_ge_cases (N.land (bN t) 15) 3) as [C|C]; [exact C|exfalso]. unfold build_tree in Hb.
    replace (N.land (N.land (bN t) 15) 15) with (N.land (bN t) 15) in Hb by (rewrite <- N.land_assoc; reflexivity).
    rewrite (proj2 (nth_error_None _ _)) in Hb; [discriminate|cbn [length WEIGHT_TABLES]; lia]. }
  destruct (first_leaf _ C) as (w & tl & v & Ev & Et). rewrite Hb in Et. injection Et as ->.
  assert (D : N.land (bN t) 15 = 0 \/ N.land (bN t) 15 = 1 \/ N.land (bN t) 15 = 2) by lia.
  destruct first_values as (F0 & F1 & F2).
  destruct D as [D|[D|D]]; rewrite D in *; cbn [N.eqb].
  - exists 1. split; [|reflexivity]. apply last_round. rewrite F0 in Ev. injection Ev as <-.
    unfold huff_round, try. destruct (decode_one_const 256 tl (mkReader rest 0 0) (mkItem 256 w None :: tl) eq_refl) as [r' ->]. reflexivity.
  - exists (N.max 1 expected). split; [|reflexivity]. rewrite F1 in Ev. injection Ev as <-.
    pose proof (huff_const_ends 89 w tl expected ltac:(lia) (N.to_nat (N.max 1 expected - 1)) (mkReader rest 0 0) []) as K.
    change (lenN []) with 0 in K. specialize (K ltac:(lia)). cbn [app] in K.
    replace (N.of_nat (N.to_nat (N.max 1 expected - 1)) + 1) with (N.max 1 expected) in K by lia.
    replace (S (N.to_nat (N.max 1 expected - 1))) with (N.to_nat (N.max 1 expected)) in K by lia. exact K.
  - exists (N.max 1 expected). split; [|reflexivity]. rewrite F2 in Ev. injection Ev as <-.
    pose proof (huff_const_ends 33 w tl expected ltac:(lia) (N.to_nat (N.max 1 expected - 1)) (mkReader rest 0 0) []) as K.
    change (lenN []) with 0 in K. specialize (K ltac:(lia)). cbn [app] in K.
    replace (N.of_nat (N.to_nat (N.max 1 expected - 1)) + 1) with (N.max 1 expected) in K by lia.
    replace (S (N.to_nat (N.max 1 expected - 1))) with (N.to_nat (N.max 1 expected)) in K by lia. exact K.
Qed.

(** ** Sizes *)
Lemma sizes_end : forall units x, ends size_round (x, units) (N.max 1 (lenN units)) (shrink units x).
Proof.
  induction units as [|u units IH]; intros x.
  - apply ends_now; [reflexivity|lia].
  - destruct units as [|v units].
    + apply ends_now; [reflexivity|lia].
    + cbn [shrink]. destruct (1024 * UNIT <=? x) eqn:E.
      * eapply ends_later; [|apply IH|].
        -- cbn [size_round tl]. rewrite E. reflexivity.
        -- rewrite (lenN_cons u (v :: units)). pose proof (lenN_cons v units). lia.
      * apply ends_now; [|lia]. cbn [size_round tl]. rewrite E. reflexivity.
Qed.
Lemma size_ends n : exists y u,
  ends size_round (of_u64 n, [lit "B"; lit "KB"; lit "MB"; lit "GB"; lit "TB"]) 5 (y, u) /\
  (u = lit "B" /\ format_size n = decimal n \/ u <> lit "B" /\ format_size n = fixed2 y ++ lit " " ++ u).
Proof.
  pose proof (sizes_end [lit "B"; lit "KB"; lit "MB"; lit "GB"; lit "TB"] (of_u64 n)) as H.
  change (N.max 1 _) with 5 in H. unfold format_size.
  assert (Hb : shrink [lit "B"; lit "KB"; lit "MB"; lit "GB"; lit "TB"] (of_u64 n) =
    if 1024 * UNIT <=? of_u64 n then shrink [lit "KB"; lit "MB"; lit "GB"; lit "TB"] (fdiv (of_u64 n) (1024 * UNIT)) else (of_u64 n, lit "B"))
    by reflexivity.
  rewrite Hb in H. clear Hb. destruct (1024 * UNIT <=? of_u64 n) eqn:E.
  - assert (Hs : forall x, snd (shrink [lit "KB"; lit "MB"; lit "GB"; lit "TB"] x) <> lit "B").
    { intros x. cbn [shrink]. repeat (destruct (_ <=? _); [|discriminate]). discriminate. }
    specialize (Hs (fdiv (of_u64 n) (1024 * UNIT))).
    destruct (shrink [lit "KB"; lit "MB"; lit "GB"; lit "TB"] (fdiv (of_u64 n) (1024 * UNIT))) as [y u].
    exists y, u. split; [exact H|]. right. split; [exact Hs|reflexivity].
  - exists (of_u64 n), (lit "B"). split; [exact H|]. left. split; reflexivity.
Qed.

(** ** Tables that are opened or built *)
Lemma opened_power L file a t : open_archive L file = Ok a -> a_hash a = Some t -> exists k, lenN t = 2 ^ k.
Proof.
  intros H Ht. unfold open_archive, open_with_options in H.
  destruct (find_header file) as [[[off ud] h]| |]; cbn [bind] in H; try discriminate.
  unfold load_tables in H. cbv zeta in H.
  match type of H with bind ?x _ = _ => destruct x as [[het bet]| |] end; cbn [bind] in H; try discriminate.
  match type of H with bind (if ?c then _ else _) _ = _ => destruct c end.
  - cbn [a_off a_file a_header] in H.
    destruct (add64 off (get_hash_table_pos h)) as [ho| |]; cbn [bind] in H; try discriminate.
    destruct (ht_read file ho (h_hash_count h)) as [ht| |] eqn:Eh; cbn [bind] in H; try discriminate.
    destruct (add64 off (get_block_table_pos h)) as [bo| |]; cbn [bind] in H; try discriminate.
    destruct (bt_read file bo (h_block_count h)) as [bt| |]; cbn [bind] in H; try discriminate.
    match type of H with bind ?x _ = _ => destruct x as [hi| |] end; cbn [bind] in H; try discriminate.
    apply load_attributes_tables in H as [H _]. cbn [a_hash] in H. rewrite Ht in H. injection H as ->. exact (ht_read_pow _ _ _ _ Eh).
  - cbn [bind] in H. match type of H with bind ?x _ = _ => destruct x as [hi| |] end; cbn [bind] in H; try discriminate.
    apply load_attributes_tables in H as [H _]. cbn [a_hash] in H. rewrite Ht in H. discriminate.
Qed.
Lemma opened_lookup_ends L file a t name loc : open_archive L file = Ok a -> a_hash a = Some t ->
  let start := N.land (hash_string name HT_TABLE_OFFSET) (lenN t - 1) in
  ends (find_round t (hash_string name HT_NAME_A) (hash_string name HT_NAME_B) loc start) start (lenN t) (ht_find_file t name loc).
Proof. intros Ho Ht. destruct (opened_power L file a t Ho Ht) as (k & Hk). exact (lookup_ends t k name loc Hk). Qed.

Lemma add_files_app : forall a b t i, add_files t (a ++ b) i = (t' <- add_files t a i ;; add_files t' b (i + lenN a)).
Proof.
  induction a as [|f a IH]; intros b t i; cbn [app add_files bind].
  - now rewrite N.add_0_r.
  - destruct (add_to_hash_table t (pf_name f) (w32 i) (pf_locale f)) as [t'| |]; cbn [bind]; try reflexivity.
    rewrite IH, lenN_cons. rewrite N.add_assoc. reflexivity.
Qed.
Lemma builder_entering_ends c fs before f after t0 t : table_count c fs < 2 ^ 30 -> fs = before ++ f :: after ->
  ht_new (calculate_hash_table_size (table_count c fs)) = Ok t0 -> add_files t0 before 0 = Ok t ->
  ends (add_round t (hash_string (pf_name f) HT_NAME_A) (hash_string (pf_name f) HT_NAME_B) (pf_locale f) (w32 (lenN before)))
       (N.land (hash_string (pf_name f) HT_TABLE_OFFSET) (lenN t - 1)) (lenN t)
       (add_to_hash_table t (pf_name f) (w32 (lenN before)) (pf_locale f)).
Proof.
  intros Hc E H0 Ht. assert (Hn : lenN t <> 0).
  { assert (Hle : lenN before <= table_count c fs) by (rewrite E; unfold table_count; rewrite lenN_app; lia).
    pose proof Ht as Ht'. rewrite add_files_all in Ht' by (unfold M32; change (2 ^ 32) with 4294967296; change (2 ^ 30) with 1073741824 in Hc; lia).
    destruct (builder_inv (table_count c fs) (map file_key before) t0 t) as (k & _ & _ & Hk & _).
    { rewrite map_lenN. exact Hle. } { exact Hc. } { exact H0. } { exact Ht'. }
    rewrite Hk. apply N.pow_nonzero. lia. }
  destruct (names_calm c fs Hc) as (t0' & E0 & Hp). rewrite H0 in E0. injection E0 as <-.
  apply entering_ends; [exact Hn|]. intros Hbad. apply Hp. rewrite E, add_files_app, Ht. cbn [bind add_files].
  rewrite N.add_0_l, Hbad. reflexivity.
Qed.

(** ** In the words of the properties *)
Lemma grow_all difference idx : idx <= 88 -> ends (grow_round difference) (idx, []) 13 (grow 13 difference idx).
Proof.
  intros H. pose proof (grow_ends difference 13 idx [] H ltac:(lia)) as E. change (N.of_nat 13) with 13 in E.
  destruct (grow 13 difference idx) as [[o i]| |]; exact E.
Qed.
Lemma bits_all difference step shift max enc : max_bit_mask shift = Ok max ->
  ends (bits_round difference max) (step, 0%Z, 1, enc) 8 (enc_bits 8 difference step 0 1 max enc).
Proof.
  intros H. assert (Hm : max <= 32).
  { unfold max_bit_mask in H. destruct (0 <? shift); [|injection H as <-; lia]. destruct (shift - 1 <? 8); [|discriminate]. injection H as <-. lia. }
  pose proof (bits_end difference max Hm 8 step 0%Z 1 enc ltac:(lia) eq_refl) as E. change (N.of_nat 8) with 8 in E. exact E.
Qed.
Lemma audio_all level shift cc samples sts ch : exists r,
  ends (audio_round level shift cc) (sts, ch, samples, []) (lenN samples + 1) r /\
  r = (' (o, _) <- enc_loop level shift cc sts ch samples ;; Ok o).
Proof. eexists. split; [apply audio_ends|]. unfold audio_result. destruct (enc_loop level shift cc sts ch samples) as [[o p]| |]; reflexivity. Qed.
Lemma unaudio_all shift cc size input sts ch :
  ends (unaudio_round shift cc size) (sts, ch, input, []) (lenN input + 1) (dec_loop shift cc sts ch input 0 size).
Proof.
  pose proof (unaudio_ends shift cc size input sts ch []) as E. unfold behind in E. change (lenN []) with 0 in E.
  destruct (dec_loop shift cc sts ch input 0 size); exact E.
Qed.
Lemma zeros_all d : ends zeros_round (0%nat, d) (lenN d + 1) (zero_run d).
Proof. pose proof (zeros_ends d 0) as E. destruct (zero_run d). exact E. Qed.
Lemma chunks_all z : ends chunk_round (N.of_nat z, []) (div_ceil (N.of_nat z) 127 + 1) (zero_chunks (S z) (N.of_nat z)).
Proof. exact (chunks_end (S z) (N.of_nat z) [] ltac:(lia)). Qed.
Lemma literals_all d : ends literal_round ([], d) 128 (lit_run 127 d).
Proof. pose proof (literals_end 127 [] d eq_refl) as E. change (N.of_nat 127 + 1) with 128 in E. destruct (lit_run 127 d). exact E. Qed.
Lemma one_byte_many n : 1 <= n -> exists items, build_tree 1 = Ok items /\
  rounds (huff_round items n) (mkReader [] 0 0, []) n (huffman_decompress [Nb 1] n).
Proof.
  intros H. destruct (first_leaf 1 ltac:(lia)) as (w & tl & v & _ & Et). exists (mkItem v w None :: tl). split; [exact Et|].
  destruct (huffman_ends (Nb 1) [] n _ Et) as (m & Hm & Em). change (N.land (bN (Nb 1)) 15 =? 0) with false in Em. cbv iota in Em.
  replace (N.max 1 n) with n in Em by lia. subst m. exact Hm.
Qed.
