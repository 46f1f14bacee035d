(** * Lemmas on the errors of opening and reading. *)
From Verif Require Import Bytes Crypto CryptoFacts HashTable HashTableFacts BlockTable Header Sparse Huffman Adpcm Compress Adler Listfile
  Attributes AttributesFacts SpecAttributes HetBet Archive SpecHostile HostileFacts InfoFacts Archive34Facts Error SpecErrors MemoryFacts SpecMemory AcceptFacts ArchiveFacts TableMap SpecHostile34 Hostile34Facts
  HeaderFields HeaderSearch SpecHeader SpecFields SpecDigest.
Open Scope N_scope.

(** ** Decoders *)
Definition onlyC {A} (r : res A) : Prop := forall e, r = Err e -> e = ECompression.
Lemma onlyC_ok {A} (x : A) : onlyC (Ok x).
Proof. intros e H. discriminate H. Qed.
Lemma onlyC_panic {A} : @onlyC A Panic.
Proof. intros e H. discriminate H. Qed.
Lemma onlyC_err {A} : @onlyC A (Err ECompression).
Proof. intros e H. now injection H as <-. Qed.
Lemma onlyC_bind {A B} (r : res A) (f : A -> res B) : onlyC r -> (forall x, onlyC (f x)) -> onlyC (bind r f).
Proof. destruct r as [x|e|]; cbn [bind]; intros H1 H2; [apply H2| |apply onlyC_panic]. intros e' H. injection H as <-. now apply H1. Qed.
Ltac oc := first [apply onlyC_ok | apply onlyC_panic | apply onlyC_err].

Lemma sparse_onlyC d n : onlyC (sparse_decompress d n).
Proof.
  unfold sparse_decompress. apply onlyC_bind; [|intros; oc]. generalize 0. generalize (S (length d)). intros f. revert d.
  induction f as [|f IH]; intros d o; cbn [sparse_dec_loop]; [oc|]. destruct d as [|c d]; [oc|]. destruct (_ <? _); [|oc].
  destruct (_ =? _); [oc|]. destruct (negb _); cbv zeta.
  - apply onlyC_bind; [apply IH|intros; oc].
  - destruct (_ <? _); [oc|]. apply onlyC_bind; [apply IH|intros; oc].
Qed.
Lemma get_bit_onlyC r : onlyC (get_bit r).
Proof. unfold get_bit. apply onlyC_bind; [|intros; oc]. destruct (_ =? _); [|oc]. destruct (rd_rest r); oc. Qed.
Lemma tree_walk_onlyC f : forall items cur r, onlyC (tree_walk f items cur r).
Proof.
  induction f as [|f IH]; intros items cur r; cbn [tree_walk]; [oc|]. destruct cur; [|oc]. destruct (nthN _ _) as [it|]; [|oc].
  destruct (it_child_lo it); [|oc]. apply onlyC_bind; [apply get_bit_onlyC|]. intros [b r']. apply IH.
Qed.
Lemma huffman_onlyC d n : onlyC (huffman_decompress d n).
Proof.
  unfold huffman_decompress. destruct d as [|t rest]; [oc|]. apply onlyC_bind.
  { unfold build_tree. destruct (nth_error _ _); oc. }
  intros items. generalize (mkReader rest 0 0). generalize 0. generalize (S (S (N.to_nat n + length (t :: rest)))). intros f.
  induction f as [|f IH]; intros o r; cbn [huff_loop]; [oc|]. apply onlyC_bind.
  { unfold decode_one. destruct (peek_7_bits r) as [[|] ?]; [destruct (_ <? _); [oc|]|]; apply tree_walk_onlyC. }
  intros [v r1]. destruct (_ =? _); [oc|]. destruct (_ =? _); [oc|]. destruct (_ =? _).
  - apply onlyC_bind; [unfold get_8_bits; destruct (rd_rest r1); oc|]. intros [b r2]. apply onlyC_bind; [apply IH|intros; oc].
  - destruct (_ <? _); [oc|]. destruct (_ <=? _); [oc|]. apply onlyC_bind; [apply IH|intros; oc].
Qed.
Lemma dec_loop_onlyC bs cc input : forall sts ch o n, onlyC (dec_loop bs cc sts ch input o n).
Proof.
  induction input as [|b r IH]; intros; cbn [dec_loop]; [oc|]. destruct (_ <? _)%N; [|oc]. destruct (nth_error _ _) as [[pred idx]|]; [|oc].
  destruct (_ =? _)%N; [apply onlyC_bind; [apply IH|intros; oc]|]. destruct (_ =? _)%N; [apply IH|].
  apply onlyC_bind; [unfold step_at; destruct (nthN _ _); oc|]. intros step.
  apply onlyC_bind; [unfold sar32; destruct (_ <? _)%N; oc|]. intros base.
  apply onlyC_bind; [|intros i; apply onlyC_bind; [apply IH|intros; oc]].
  unfold next_step_index. destruct (nthN _ _); oc.
Qed.
Lemma adpcm_onlyC d n cc : onlyC (adpcm_decompress d n cc).
Proof.
  unfold adpcm_decompress. destruct (_ || _); [oc|]. destruct d as [|b d]; [destruct (_ =? _); oc|].
  destruct (_ <? _); [oc|]. destruct (_ <? _); [oc|]. destruct d as [|b2 d]; [oc|]. cbv zeta.
  apply onlyC_bind; [apply dec_loop_onlyC|intros; oc].
Qed.

Section L.
Variable L : codecs.
Hypothesis HL : plain_failures L.
Lemma zlib_onlyC d n : onlyC (zlib_decompress L d n).
Proof. intros e H. apply (HL d). auto. Qed.
Lemma bz_onlyC d n : onlyC (bz_decompress L d n).
Proof. unfold bz_decompress. apply onlyC_bind; [intros e H; apply (HL d); auto|]. intros x. destruct (_ =? _); oc. Qed.
Lemma lzma_onlyC d n : onlyC (lzma_decompress L d n).
Proof. intros e H. apply (HL d). auto. Qed.
Lemma pk_onlyC d n : onlyC (pk_decompress L d n).
Proof. destruct d as [|b d]; [oc|]. intros e H. apply (HL (b :: d)). auto. Qed.
Lemma implode_onlyC d n : onlyC (implode_decompress L d n).
Proof.
  unfold implode_decompress. destruct d as [|b d]; [oc|].
  repeat (match goal with |- context [match pk_dec L ?z with _ => _ end] => destruct (pk_dec L z); [oc| |oc] end). oc.
Qed.
Lemma room_onlyC n r : onlyC r -> onlyC (room n r).
Proof. unfold room. destruct (_ <? _); [auto|intros; oc]. Qed.
Lemma scaled_onlyC n k : onlyC (scaled n k).
Proof. unfold scaled. destruct (_ <? _); oc. Qed.
Lemma decompress_onlyC d m n : onlyC (decompress L d m n).
Proof.
  unfold decompress. destruct d as [|b d]; [oc|].
  destruct (from_flags m);
    first [oc | apply zlib_onlyC | apply bz_onlyC | apply lzma_onlyC | apply sparse_onlyC | apply implode_onlyC
          | apply pk_onlyC | apply huffman_onlyC | apply adpcm_onlyC | idtac].
  unfold decompress_multiple. apply onlyC_bind.
  { repeat (destruct (bit _ _); [apply onlyC_bind; [apply scaled_onlyC|intros k]; cbv zeta;
      first [apply implode_onlyC | apply room_onlyC; first [apply huffman_onlyC|apply zlib_onlyC|apply bz_onlyC|apply sparse_onlyC]]|]). oc. }
  intros c1. apply onlyC_bind; [destruct (bit _ _); [apply pk_onlyC|oc]|]. intros c2.
  apply onlyC_bind; [destruct (bit _ _); [|destruct (bit _ _); [|oc]]; apply adpcm_onlyC|]. intros c3.
  destruct (_ =? _); [apply adpcm_onlyC|]. destruct (_ =? _); [apply adpcm_onlyC|]. destruct (_ && _); [|oc].
  destruct (bit _ _); [apply huffman_onlyC|]. destruct (bit _ _); [apply zlib_onlyC|]. destruct (bit _ _); [apply bz_onlyC|apply sparse_onlyC].
Qed.
Lemma expand_onlyC d n : onlyC (expand L d n).
Proof. destruct d; [oc|apply decompress_onlyC]. Qed.

(** ** Lookup *)
Lemma het_find_noerr h name e : het_find h name <> Err e.
Proof.
  unfold het_find. cbv zeta. unfold chk32. destruct (_ <? _); cbn [bind]; [|discriminate].
  destruct (_ =? _); [discriminate|]. destruct (_ =? _); [discriminate|]. destruct (het_entry _ _); [|discriminate].
  destruct (negb _); [discriminate|]. unfold shr64. destruct (_ <? _); cbn [bind]; [|discriminate]. destruct (_ <=? _); discriminate.
Qed.
Lemma bet_get_noerr b i e : bet_get b i <> Err e.
Proof.
  unfold bet_get. destruct (_ <=? _); [discriminate|].
  unfold bet_entry. cbv zeta. destruct (_ <? _); cbn [bind]; [discriminate|]. destruct (slice _ _ _); cbn [bind]; [|discriminate].
  unfold extract_bits, mask_chk, shr64.
  repeat (match goal with |- context [if ?x then _ else _] => destruct x end; cbn [bind]; try discriminate).
  all: repeat (match goal with |- context [match ?x with _ => _ end] => destruct x end; cbn [bind]; try discriminate).
Qed.
Lemma find_errors a name e : find_file a name = Err e -> e <> EFileNotFound.
Proof.
  assert (C : find_file_classic a name = Err e -> e <> EFileNotFound).
  { unfold find_file_classic. destruct (a_hash a) as [ht|]; cbn [of_option bind]; [|congruence].
    destruct (a_block a) as [bt|]; cbn [of_option bind]; [|congruence]. unfold ht_find_file. cbv zeta.
    destruct (_ =? _); cbn [bind]; [discriminate|].
    assert (F : forall fuel x y l s i e', find_loop fuel ht x y l s i <> Err e').
    { induction fuel as [|f IH]; intros; cbn [find_loop]; [discriminate|].
      repeat (match goal with |- context [match ?x with _ => _ end] => destruct x end; try discriminate; try apply IH). }
    destruct (find_loop _ _ _ _ _ _ _) as [[[hi he]|]|e'|] eqn:E; cbn [bind]; [|discriminate|elim (F _ _ _ _ _ _ _ E)|discriminate].
    destruct (nthN bt (he_block he)); cbn [of_option bind]; [|congruence].
    unfold add64. destruct (_ <? _); cbn [bind]; discriminate. }
  unfold find_file. destruct (valid_het_bet a) as [[h b]|]; [|exact C].
  destruct (het_find h name) as [i|e'|] eqn:E1; cbn [bind]; [|now apply het_find_noerr in E1|discriminate].
  destruct i as [i|]; cbn [bind].
  - destruct (bet_get b i) as [[bi|]|e'|] eqn:E2; cbn [bind option_map]; [| |now apply bet_get_noerr in E2|discriminate].
    + unfold add64. destruct (_ <? _); cbn [bind]; discriminate.
    + destruct (a_hash a), (a_block a); try discriminate; exact C.
  - destruct (a_hash a), (a_block a); try discriminate; exact C.
Qed.

(** ** Reading *)
Lemma read_at_err file o n e : read_at file o n = Err e -> e = EIo /\ lenN file < o + n.
Proof.
  unfold read_at. destruct (slice o n file) eqn:E; [discriminate|]. apply slice_None in E.
  destruct (2 ^ 63 <=? o); [intros H; injection H as <-; auto|]. destruct (2 ^ 63 <=? n); [discriminate|].
  destruct (n =? 0); [discriminate|]. intros H; injection H as <-; auto.
Qed.

Lemma read_sectors_fails a fi key ss er : forall offs i out,
  read_sectors L (a_file a) (fi_pos fi) (fi_size fi) ss (fi_flags fi) key offs i out = Err er ->
  exists j s e, nth_error offs j = Some s /\ nth_error offs (S j) = Some e /\
    ((er = EInvalidFormat /\ e < s) \/ (er = EIo /\ lenN (a_file a) < fi_pos fi + e) \/ (er = ECompression /\ e = s) \/
     (er = ECompression /\ exists raw m c size, slice (fi_pos fi + s) (e - s) (a_file a) = Some raw /\
        m :: c = deciphered (fi_flags fi) (w32 (key + w32 (i + N.of_nat j))) raw /\ decompress L c (bN m) size = Err ECompression)).
Proof.
  induction offs as [|s offs IH]; intros i out H; [discriminate H|]. destruct offs as [|e r]; [discriminate H|].
  cbn [read_sectors] in H. fold (read_sectors L) in H.
  destruct (N.ltb_spec e s) as [C|C].
  { injection H as <-. exists 0%nat, s, e. repeat (split; [reflexivity|]). left. auto. }
  unfold sub_chk in H. destruct (N.ltb_spec (fi_size fi) (lenN out)) as [C1|_]; [discriminate H|]. cbn [bind] in H.
  set (size := N.min (fi_size fi - lenN out) ss) in *.
  unfold add64 in H. destruct (_ <? _); cbn [bind] in H; [|discriminate H].
  destruct (read_at (a_file a) (fi_pos fi + s) (e - s)) as [raw|er'|] eqn:Er; cbn [bind] in H; [| |discriminate H].
  2:{ injection H as ->. apply read_at_err in Er as [-> Er]. exists 0%nat, s, e. repeat (split; [reflexivity|]). right; left. split; [reflexivity|lia]. }
  pose proof (read_at_length _ _ _ _ Er) as Hlen.
  set (data := deciphered (fi_flags fi) (w32 (key + w32 i)) raw).
  change (if is_encrypted (fi_flags fi) then decrypt_file_data raw (w32 (key + w32 i)) else raw) with data in H.
  set (sec := if is_compressed (fi_flags fi) && (e - s <? size) then expand L data size
              else Ok (firstn (N.to_nat (N.min size (lenN data))) data)) in *.
  destruct sec as [x|er'|] eqn:Es; cbn [bind] in H; [| |discriminate H].
  - destruct (IH (i + 1) (out ++ x) H) as (j & s' & e' & K1 & K2 & K3). exists (S j), s', e'.
    split; [exact K1|]. split; [exact K2|]. replace (i + N.of_nat (S j)) with (i + 1 + N.of_nat j) by lia. exact K3.
  - injection H as ->. unfold sec in Es. destruct (is_compressed (fi_flags fi) && (e - s <? size)); [|discriminate Es].
    pose proof (expand_onlyC _ _ _ Es) as ->. exists 0%nat, s, e. repeat (split; [reflexivity|]). right; right.
    destruct data as [|m c] eqn:Ed.
    + left. split; [reflexivity|]. assert (lenN data = lenN raw) as X by (unfold lenN, data; now rewrite deciphered_length).
      rewrite Ed, Hlen in X. unfold lenN in X. cbn [length] in X. lia.
    + right. split; [reflexivity|]. exists raw, m, c, size. split.
      * unfold read_at in Er. destruct (slice _ _ _) as [y|]; [congruence|]. destruct (2 ^ 63 <=? fi_pos fi + s); [discriminate|].
        destruct (2 ^ 63 <=? e - s); [discriminate|]. destruct (e - s =? 0); [|discriminate]. apply Ok_inj in Er. subst raw.
        exfalso. revert Ed. unfold data, deciphered. destruct (negb _); discriminate.
      * split; [|exact Es]. change (N.of_nat 0) with 0. rewrite N.add_0_r. symmetry. exact Ed.
Qed.

Lemma sectored_fails a fi key e : is_compressed (fi_flags fi) = true -> is_single_unit (fi_flags fi) = false ->
  read_sectored_file L a fi key = Err e -> fault L a fi key e.
Proof.
  intros Hc Hs H. apply flag_compressed in Hc. apply flag_pieces in Hs.
  unfold read_sectored_file in H. destruct (sector_size _) as [ss| |] eqn:Es; cbn [bind] in H; [| |discriminate H].
  2:{ unfold sector_size in Es. destruct (_ <? _); discriminate Es. }
  destruct (N.eqb_spec ss 0) as [Z|Z]; [discriminate H|].
  assert (B : h_block_size (a_header a) < 55).
  { destruct (N.lt_ge_cases (h_block_size (a_header a)) 55) as [B|B]; [exact B|]. elim Z. clear - Es B.
    unfold sector_size in Es. destruct (_ <? _); [|discriminate Es]. apply Ok_inj in Es. subst ss.
    rewrite N.shiftl_mul_pow2. unfold w64. change 512 with (2 ^ 9). rewrite <- N.pow_add_r.
    replace (9 + h_block_size (a_header a)) with (64 + (h_block_size (a_header a) - 55)) by lia. rewrite N.pow_add_r.
    rewrite N.mul_comm. apply N.mod_mul. discriminate. }
  rewrite (sector_size_small _ B) in Es. apply Ok_inj in Es. subst ss.
  change (512 * 2 ^ h_block_size (a_header a)) with (full_sector a) in H.
  change (div_ceil (fi_size fi) (full_sector a)) with (sectors a fi) in H. set (n := sectors a fi) in *.
  destruct (read_at (a_file a) (fi_pos fi) ((n + 1) * 4)) as [raw|e'|] eqn:Er; cbn [bind] in H; [| |discriminate H].
  2:{ injection H as ->. apply read_at_err in Er as [-> Er]. apply fault_cut_off with (2 := Er).
      rewrite (N.mul_comm (n + 1) 4). now apply needed_table. }
  pose proof (read_at_length _ _ _ _ Er) as Hl.
  assert (Et : slice (fi_pos fi) (4 * (n + 1)) (a_file a) = Some raw).
  { rewrite N.mul_comm. unfold read_at in Er. destruct (slice (fi_pos fi) ((n + 1) * 4) (a_file a)); [congruence|].
    destruct (2 ^ 63 <=? fi_pos fi); [discriminate|]. destruct (2 ^ 63 <=? (n + 1) * 4); [discriminate|].
    destruct (N.eqb_spec ((n + 1) * 4) 0); [lia|discriminate]. }
  set (tab := deciphered (fi_flags fi) (dec32 key) raw).
  change (if is_encrypted (fi_flags fi) then decrypt_file_data raw (dec32 key) else raw) with tab in H.
  match type of H with bind ?X _ = _ => destruct X as [y|e'|] eqn:Ec end; cbn [bind] in H; [| |discriminate H].
  2:{ injection H as ->. destruct (has_sector_crc (fi_flags fi)) eqn:K; [|discriminate Ec]. cbn [andb] in Ec.
      destruct (_ <=? _); [|discriminate Ec]. apply read_at_err in Ec as [-> Ec]. apply flag_checked in K.
      apply fault_cut_off with (2 := Ec). rewrite (N.mul_comm (n + 1) 4), (N.mul_comm n 4). now apply needed_checksums. }
  clear Ec y. apply read_sectors_fails in H. destruct H as (j & s & e' & K1 & K2 & K3).
  assert (Hj : (S j < N.to_nat (n + 1))%nat).
  { rewrite <- (le_values_length 4 (N.to_nat (n + 1)) tab). apply nth_error_Some. rewrite K2. discriminate. }
  assert (Htab : lenN tab = 4 * N.of_nat (N.to_nat (n + 1))).
  { unfold lenN, tab in *. rewrite deciphered_length. lia. }
  assert (M1 : sector_mark a fi key (N.of_nat j) s).
  { destruct (le_values_slice _ _ _ _ Htab K1) as (x & X1 & X2). exists raw, x. auto. }
  assert (M2 : sector_mark a fi key (N.of_nat j + 1) e').
  { destruct (le_values_slice _ _ _ _ Htab K2) as (x & X1 & X2). exists raw, x.
    replace (N.of_nat j + 1) with (N.of_nat (S j)) by lia. auto. }
  assert (Hjn : N.of_nat j < n) by lia.
  destruct K3 as [[-> K3]|[[-> K3]|[[-> ->]|(-> & rw & m & c & size & K3 & K4 & K5)]]].
  - now apply (fault_disorder L a fi key (N.of_nat j) s e').
  - apply fault_cut_off with (2 := K3). now apply (needed_sector a fi key (N.of_nat j + 1)).
  - now apply (fault_empty_sector L a fi key (N.of_nat j) s).
  - apply (fault_sector L a fi key (N.of_nat j) m c size); auto. rewrite N.add_0_l in K4.
    exists raw, s, e', rw. split; [exact Et|]. cbv zeta. fold tab.
    split; [exact (le_values_slice _ _ _ _ Htab K1)|]. split; [|now split].
    replace (N.of_nat j + 1) with (N.of_nat (S j)) by lia. exact (le_values_slice _ _ _ _ Htab K2).
Qed.

Lemma whole_fails a fi key e : is_single_unit (fi_flags fi) || negb (is_compressed (fi_flags fi)) = true ->
  read_whole_file L a fi key (fi_size fi) = Err e -> fault L a fi key e.
Proof.
  intros Hcase H. unfold read_whole_file in H.
  destruct (read_at (a_file a) (fi_pos fi) (fi_csize fi)) as [raw|e'|] eqn:Er; cbn [bind] in H; [| |discriminate H].
  2:{ injection H as ->. apply read_at_err in Er as [-> Er]. apply fault_cut_off with (2 := Er). apply needed_content.
      apply orb_prop in Hcase as [C|C]; [left; now apply flag_one_piece|right]. unfold is_compressed, has_flag in C. rewrite negb_involutive in C.
      apply N.eqb_eq in C. intros D. exact (D C). }
  pose proof (read_at_length _ _ _ _ Er) as Hl.
  set (data := deciphered (fi_flags fi) key raw).
  change (if is_encrypted (fi_flags fi) then decrypt_file_data raw key else raw) with data in H.
  assert (Hd : lenN data = fi_csize fi) by (unfold lenN, data in *; rewrite deciphered_length; exact Hl).
  assert (Hp1 : data <> [] -> whole_piece a fi key data).
  { intros Hn. exists raw. split; [|reflexivity]. unfold read_at in Er.
    destruct (slice (fi_pos fi) (fi_csize fi) (a_file a)); [congruence|].
    destruct (2 ^ 63 <=? fi_pos fi); [discriminate|]. destruct (2 ^ 63 <=? fi_csize fi); [discriminate|].
    destruct (N.eqb_spec (fi_csize fi) 0) as [C|]; [|discriminate]. elim Hn.
    destruct data; [reflexivity|]. unfold lenN in Hd. cbn [length] in Hd. lia. }
  assert (Hone : is_compressed (fi_flags fi) = true -> is_single_unit (fi_flags fi) = true).
  { intros C. rewrite C, orb_false_r in Hcase. exact Hcase. }
  assert (Hex : is_compressed (fi_flags fi) = true -> forall m c e, data = m :: c -> decompress L c (bN m) (fi_size fi) = Err e -> fault L a fi key e).
  { intros C m c e0 E D. pose proof (decompress_onlyC _ _ _ _ D) as ->. rewrite E in Hp1.
    apply (fault_whole L a fi key m c); [now apply flag_compressed|now apply flag_one_piece, Hone|now apply Hp1|exact D]. }
  match type of H with bind ?X _ = _ => destruct X as [[]|e'|] eqn:Ec end; cbn [bind] in H; [| |discriminate H].
  - destruct (is_compressed (fi_flags fi)) eqn:C; [|discriminate H]. unfold expand in H.
    destruct data as [|m c] eqn:Ed; [|exact (Hex eq_refl m c e eq_refl H)]. injection H as <-.
    apply fault_nothing; [now apply flag_compressed|now apply flag_one_piece, Hone|].
    rewrite <- Hd. reflexivity.
  - injection H as ->. destruct (has_sector_crc (fi_flags fi)) eqn:K; [|discriminate Ec].
    destruct (is_single_unit (fi_flags fi)) eqn:S; [|discriminate Ec]. cbn [andb] in Ec. apply flag_checked in K. apply flag_one_piece in S.
    destruct (read_at (a_file a) (fi_pos fi + fi_csize fi) 4) as [crc|e'|] eqn:E4; cbn [bind] in Ec; [| |discriminate Ec].
    2:{ injection Ec as ->. apply read_at_err in E4 as [-> E4]. apply fault_cut_off with (2 := E4). now apply needed_checksum. }
    assert (E5 : slice (fi_pos fi + fi_csize fi) 4 (a_file a) = Some crc).
    { unfold read_at in E4. destruct (slice _ 4 _); [congruence|]. destruct (2 ^ 63 <=? _); [discriminate|]. discriminate E4. }
    match type of Ec with bind ?X _ = _ => destruct X as [plain|e'|] eqn:Ep end; cbn [bind] in Ec; [| |discriminate Ec].
    + destruct (N.eqb_spec (adler32 plain) (le_dec crc)) as [A|A]; [discriminate Ec|]. injection Ec as <-.
      apply (fault_checksum L a fi key data plain crc); auto.
      change (negb (N.land (fi_flags fi) 0x00000300 =? 0)) with (is_compressed (fi_flags fi)).
      destruct (is_compressed (fi_flags fi)); [|now apply Ok_inj in Ep]. destruct data as [|m c]; [discriminate Ep|]. eauto.
    + injection Ec as ->. destruct (is_compressed (fi_flags fi)) eqn:C; [|discriminate Ep].
      destruct data as [|m c] eqn:Ed; [discriminate Ep|]. exact (Hex eq_refl m c e eq_refl Ep).
Qed.

(** The classic tables are there unless the extended ones answer. *)
Definition there (a : archive) : Prop := valid_het_bet a = None -> a_hash a <> None /\ a_block a <> None.
Lemma classic_err a name e : neat a -> find_file_classic a name = Err e ->
  a_hash a = None \/ a_block a = None \/
  exists ht bt i h, e = EBlockTable /\ a_hash a = Some ht /\ a_block a = Some bt /\ ht_find_file ht name 0 = Ok (Some (i, h)) /\ lenN bt <= he_block h.
Proof.
  intros T. unfold find_file_classic.
  destruct (a_hash a) as [ht|] eqn:Eh; [|auto]. destruct (a_block a) as [bt|] eqn:Hbt; [|auto]. cbn [of_option bind].
  destruct (n_hash a T ht Eh) as (k & Hk). destruct (ht_find_lookup ht k name 0 Hk) as (r & Er & _). rewrite Er. cbn [bind].
  destruct r as [[i h]|]; [|discriminate]. unfold nthN.
  destruct (N.ltb_spec (he_block h) (lenN bt)) as [C|C]; cbn [of_option bind].
  - destruct (nth_error bt (N.to_nat (he_block h))) as [b|] eqn:Eb; cbn [of_option bind].
    + unfold add64. destruct (_ <? _); discriminate.
    + apply nth_error_None in Eb. unfold lenN in C. lia.
  - intros H. injection H as <-. right; right. exists ht, bt, i, h. auto.
Qed.
Lemma find_neat_err a name e : neat a -> there a -> find_file a name = Err e ->
  exists ht bt i h, e = EBlockTable /\ a_hash a = Some ht /\ a_block a = Some bt /\ ht_find_file ht name 0 = Ok (Some (i, h)) /\ lenN bt <= he_block h.
Proof.
  intros T Th H. unfold find_file in H. unfold there in Th. destruct (valid_het_bet a) as [[h b]|] eqn:V.
  2:{ destruct (Th eq_refl) as [T1 T2]. destruct (classic_err a name e T H) as [K|[K|K]]; [congruence|congruence|exact K]. }
  assert (C : (match a_hash a, a_block a with Some _, Some _ => find_file_classic a name | _, _ => Ok None end) = Err e ->
    exists ht bt i h, e = EBlockTable /\ a_hash a = Some ht /\ a_block a = Some bt /\ ht_find_file ht name 0 = Ok (Some (i, h)) /\ lenN bt <= he_block h).
  { clear - T. destruct (a_hash a) as [ht|] eqn:E1; [|discriminate]. destruct (a_block a) as [bt|] eqn:E2; [|discriminate]. intros H.
    rewrite <- E1, <- E2. destruct (classic_err a name e T H) as [K|[K|K]]; [congruence|congruence|exact K]. }
  destruct (het_find h name) as [i|e'|] eqn:E1; cbn [bind] in H; [|elim (het_find_noerr _ _ _ E1)|discriminate].
  destruct i as [i|]; cbn [bind] in H; [|exact (C H)].
  destruct (bet_get b i) as [[bi|]|e'|] eqn:E2; cbn [bind option_map] in H; [|exact (C H)|elim (bet_get_noerr _ _ _ E2)|discriminate].
  unfold add64 in H. destruct (_ <? _); cbn [bind] in H; discriminate.
Qed.

Lemma read_fails a name e : neat a -> there a -> read_file L a name = Err e -> reason L a name e.
Proof.
  intros T Th H. unfold read_file in H. destruct (find_neat a name T) as [_ Hok].
  destruct (find_file a name) as [[fi|]|e'|] eqn:F; cbn [of_option bind] in H; [| | |discriminate H].
  2:{ injection H as <-. now apply reason_absent. }
  2:{ injection H as ->. destruct (find_neat_err a name e T Th F) as (ht & bt & i & h & -> & H1 & H2 & H3 & H4).
      exact (reason_entry L a name ht bt i h H1 H2 H3 H4). }
  specialize (Hok fi eq_refl). apply (reason_fault L a name fi e F).
  assert (K : (match a_het a, a_bet a with
     | Some _, Some _ => Ok (w32 (fi_size fi), fi_size fi)
     | _, _ => bt <- of_option EInvalidFormat (a_block a) ;; b <- of_option EBlockTable (nthN bt (fi_block fi)) ;;
               Ok (be_size b, be_size b)
     end) = Ok (w32 (fi_size fi), fi_size fi)).
  { destruct Hok as [(Sm & bt & b & Hb & Hn & Hs)|(_ & h & b & -> & ->)]; [|reflexivity].
    assert (W : w32 (fi_size fi) = fi_size fi) by (unfold w32; apply N.mod_small; apply Sm).
    rewrite Hb. cbn [of_option bind]. rewrite Hn. cbn [of_option bind]. rewrite Hs, W.
    destruct (a_het a), (a_bet a); reflexivity. }
  rewrite K in H. cbn [bind] in H. clear K.
  change (read_key a name fi (w32 (fi_size fi))) with (reading_key a name fi) in H.
  destruct (is_single_unit (fi_flags fi) || negb (is_compressed (fi_flags fi))) eqn:C.
  - exact (whole_fails _ _ _ _ C H).
  - apply orb_false_iff in C as [C1 C2]. apply negb_false_iff in C2. exact (sectored_fails _ _ _ _ C2 C1 H).
Qed.

(** ** "File not found", for all archives *)
Definition notF {A} (r : res A) : Prop := r <> Err EFileNotFound.
Lemma onlyC_notF {A} (r : res A) : onlyC r -> notF r.
Proof. intros H E. apply H in E. discriminate E. Qed.
Lemma read_sectors_notF file pos fsize ss flags key : forall offs i out, notF (read_sectors L file pos fsize ss flags key offs i out).
Proof.
  induction offs as [|s offs IH]; intros i out; [discriminate|]. destruct offs as [|e r]; [discriminate|].
  cbn [read_sectors]. fold (read_sectors L). destruct (_ <? _); [discriminate|].
  unfold sub_chk. destruct (_ <? _); [discriminate|]. cbn [bind]. unfold add64. destruct (_ <? _); cbn [bind]; [|discriminate].
  destruct (read_at _ _ _) as [raw|e'|] eqn:R; cbn [bind]; [| |discriminate].
  2:{ apply read_at_err in R as [-> _]. discriminate. }
  destruct (is_compressed flags && _).
  - match goal with |- context [expand L ?d ?n] => pose proof (expand_onlyC d n) as C; destruct (expand L d n) as [x|e'|]; cbn [bind] end;
      [apply IH| |discriminate]. rewrite (C _ eq_refl). discriminate.
  - cbn [bind]. apply IH.
Qed.
Lemma read_notF a name fi : find_file a name = Ok (Some fi) -> notF (read_file L a name).
Proof.
  intros F. unfold read_file. rewrite F. cbn [of_option bind].
  assert (W : forall key size, notF (read_whole_file L a fi key size)).
  { intros key size. unfold read_whole_file. destruct (read_at _ _ _) as [raw|e'|] eqn:R; cbn [bind]; [| |discriminate].
    2:{ apply read_at_err in R as [-> _]. discriminate. }
    set (data := if is_encrypted _ then _ else _).
    match goal with |- notF (bind ?X _) => assert (notF X) as N; [|destruct X as [[]|e'|]; cbn [bind]; [| |discriminate]] end.
    - destruct (_ && _); [|discriminate]. destruct (read_at _ _ 4) as [crc|e'|] eqn:R4; cbn [bind]; [| |discriminate].
      2:{ apply read_at_err in R4 as [-> _]. discriminate. }
      match goal with |- notF (bind ?X _) => assert (onlyC X) as N; [|destruct X as [p|e'|]; cbn [bind]; [| |discriminate]] end.
      + destruct (is_compressed _); [|oc]. destruct data; [oc|apply decompress_onlyC].
      + destruct (_ =? _); discriminate.
      + rewrite (N _ eq_refl). discriminate.
    - destruct (is_compressed _); [apply onlyC_notF, expand_onlyC|discriminate].
    - intros H. injection H as ->. now apply N. }
  assert (S : forall key, notF (read_sectored_file L a fi key)).
  { intros key. unfold read_sectored_file. unfold sector_size. destruct (_ <? 64); cbn [bind]; [|discriminate]. destruct (_ =? 0); [discriminate|].
    destruct (read_at _ _ _) as [raw|e'|] eqn:R; cbn [bind]; [| |discriminate].
    2:{ apply read_at_err in R as [-> _]. discriminate. }
    match goal with |- notF (bind ?X _) => destruct X as [y|e'|] eqn:E; cbn [bind]; [| |discriminate] end; [apply read_sectors_notF|].
    destruct (_ && _); [|discriminate E]. apply read_at_err in E as [-> _]. discriminate. }
  match goal with |- notF (bind ?X _) => assert (notF X) as N; [|destruct X as [[k sz]|e'|]; cbn [bind]; [| |discriminate]] end.
  - assert (B : notF (bt <- of_option EInvalidFormat (a_block a);; b <- of_option EBlockTable (nthN bt (fi_block fi));; Ok (be_size b, be_size b))).
    { destruct (a_block a) as [bt|]; cbn [of_option bind]; [|discriminate]. destruct (nthN _ _); cbn [of_option bind]; discriminate. }
    destruct (a_het a); [destruct (a_bet a); [discriminate|exact B]|exact B].
  - destruct (_ || _); [apply W|apply S].
  - intros H. injection H as ->. now apply N.
Qed.
Lemma read_absent a name : read_file L a name = Err EFileNotFound <-> find_file a name = Ok None.
Proof.
  split; intros H.
  - destruct (find_file a name) as [[fi|]|e|] eqn:F; [|reflexivity| |].
    + now apply (read_notF a name fi F) in H.
    + unfold read_file in H. rewrite F in H. cbn [bind] in H. injection H as ->. now apply find_errors in F.
    + unfold read_file in H. rewrite F in H. discriminate H.
  - unfold read_file. now rewrite H.
Qed.

(** ** The header *)
Lemma read_header_err d e : field d 0 4 = 0x1A51504D -> header_read d = Err e ->
  (e = EIo /\ lenN d < 32) \/ (e = EUnsupportedVersion /\ 4 <= field d 12 2) \/
  exists v, field d 12 2 = match v with V1 => 0 | V2 => 1 | V3 => 2 | V4 => 3 end /\
    ((e = EInvalidFormat /\ field d 4 4 < header_length v) \/ (e = EIo /\ lenN d < header_length v)).
Proof.
  intros Hs. unfold header_read. change d with (skipn (N.to_nat 0) d) at 1.
  assert (Short : forall n, lenN d < n -> n <= 32 -> @Err header EIo = Err e -> 
     (e = EIo /\ lenN d < 32) \/ (e = EUnsupportedVersion /\ 4 <= field d 12 2) \/
     exists v, field d 12 2 = match v with V1 => 0 | V2 => 1 | V3 => 2 | V4 => 3 end /\
    ((e = EInvalidFormat /\ field d 4 4 < header_length v) \/ (e = EIo /\ lenN d < header_length v))).
  { intros n H1 H2 H. injection H as <-. left. split; [reflexivity|lia]. }
  tk; [|eapply Short; eauto; lia]. rewrite Hs. change (negb (_ =? _)) with false. cbn iota.
  do 8 (tk; [|eapply Short; eauto; lia]). clear Short.
  destruct (version_of_raw (field d 12 2)) as [v|] eqn:Ev.
  2:{ intros H'. injection H' as <-. right; left. split; [reflexivity|]. clear -Ev. unfold version_of_raw in Ev.
      destruct (field d 12 2) as [|[[p|p|]|[p|p|]|]]; try discriminate; lia. }
  assert (Hv : field d 12 2 = match v with V1 => 0 | V2 => 1 | V3 => 2 | V4 => 3 end).
  { clear -Ev. unfold version_of_raw in Ev.
    destruct (field d 12 2) as [|[[p|p|]|[p|p|]|]]; try discriminate; now injection Ev as <-. }
  change (header_size_of v) with (header_length v).
  destruct (N.ltb_spec (field d 4 4) (header_length v)) as [Hl|Hl].
  { intros H'. injection H' as <-. right; right. exists v. split; [exact Hv|]. left. auto. }
  assert (Long : lenN d < header_length v -> @Err header EIo = Err e ->
     (e = EIo /\ lenN d < 32) \/ (e = EUnsupportedVersion /\ 4 <= field d 12 2) \/
     exists v, field d 12 2 = match v with V1 => 0 | V2 => 1 | V3 => 2 | V4 => 3 end /\
    ((e = EInvalidFormat /\ field d 4 4 < header_length v) \/ (e = EIo /\ lenN d < header_length v))).
  { intros X H'. injection H' as <-. right; right. exists v. auto. }
  destruct v; cbn [version_ge version_raw negb header_length] in *;
    unfold version_ge; cbn [version_raw N.leb N.compare Pos.compare Pos.compare_cont negb].
  - discriminate.
  - do 3 (tk; [|apply Long; lia]). discriminate.
  - do 6 (tk; [|apply Long; lia]). discriminate.
  - do 6 (tk; [|apply Long; lia]). unfold v4_read.
    do 12 (tk; [|apply Long; lia]). discriminate.
Qed.
Lemma leads_magic file off pos : leads_to file off pos -> magic_at file pos archive_magic.
Proof. intros [[H ->]|(dist & _ & _ & H)]; exact H. Qed.
Lemma magic_field file pos : magic_at file pos archive_magic -> field file pos 4 = 0x1A51504D /\ pos + 4 <= lenN file.
Proof.
  unfold magic_at, slice, field, part. destruct (N.leb_spec (pos + 4) (lenN file)) as [C|C]; [|discriminate].
  intros H. split; [|exact C]. apply (f_equal (fun o => match o with Some b => le_dec b | None => 0 end)) in H. exact H.
Qed.
Lemma lenN_from file pos : pos <= lenN file -> lenN (from file pos) = lenN file - pos.
Proof. intros H. unfold from. rewrite (proj2 (N.leb_le _ _) H). unfold lenN in *. rewrite skipn_length. lia. Qed.
Lemma first_header_err file pos e : first_header file pos -> header_read (from file pos) = Err e -> header_reason file e.
Proof.
  intros F H. pose proof F as (k & _ & Ld). destruct (magic_field _ _ (leads_magic _ _ _ Ld)) as [Hm Hp].
  apply read_header_err in H; [|rewrite field_from, N.add_0_r; exact Hm]. rewrite !field_from, lenN_from in H by lia.
  destruct H as [[-> H]|[[-> H]|(v & Hv & [[-> H]|[-> H]])]].
  - apply (cut_off_header file pos F). lia.
  - exact (other_version file pos F H).
  - exact (too_short_stated file pos v F Hv H).
  - apply (cut_off_long_header file pos v F Hv). lia.
Qed.
Lemma stuck file off : off < lenN file -> ~ passes file off -> (forall pos, ~ leads_to file off pos) ->
  magic_at file off user_magic /\ (lenN file < off + 16 \/ exists dist, user_block file off dist /\ lenN file < off + dist + 4).
Proof.
  intros Hoff P NL.
  assert (Na : ~ magic_at file off archive_magic) by (intros H; apply (NL off); left; auto).
  assert (U : magic_at file off user_magic).
  { destruct (slice off 4 file) as [b|] eqn:E.
    - destruct (list_eq_dec Byte.byte_eq_dec b user_magic) as [->|D]; [exact E|]. elim P. split; [exact Na|]. intros H.
      unfold magic_at in H. congruence.
    - elim P. split; [exact Na|]. intros H. unfold magic_at in H. congruence. }
  split; [exact U|]. destruct (N.lt_ge_cases (lenN file) (off + 16)) as [C|C]; [now left|right].
  assert (S : exists b, slice (off + 8) 4 file = Some b).
  { unfold slice. replace (off + 8 + 4 <=? lenN file) with true by (symmetry; apply N.leb_le; lia). eauto. }
  destruct S as (b & S). exists (le_dec b).
  assert (B : user_block file off (le_dec b)) by (split; [exact U|split; [exact C|eauto]]).
  split; [exact B|]. destruct (N.lt_ge_cases (lenN file) (off + le_dec b + 4)) as [D|D]; [exact D|]. exfalso.
  assert (S2 : exists x, slice (off + le_dec b) 4 file = Some x).
  { unfold slice. rewrite (proj2 (N.leb_le _ _) D). eauto. }
  destruct S2 as (x & S2). destruct (list_eq_dec Byte.byte_eq_dec x archive_magic) as [->|X].
  - apply (NL (off + le_dec b)). right. exists (le_dec b). auto.
  - apply P. split; [exact Na|]. intros _. exists (le_dec b). split; [exact B|]. right. eauto.
Qed.
Lemma loop_err fuel : forall file off i e, off = 512 * N.of_nat i -> (forall j, (j < i)%nat -> passes file (512 * N.of_nat j)) ->
  find_header_loop fuel file off = Err e -> header_reason file e.
Proof.
  induction fuel as [|fuel IH]; intros file off i e Hi Hp H; [discriminate|].
  rewrite find_header_loop_round in H. destruct (N.leb_spec (lenN file) off) as [C|C].
  { injection H as <-. apply no_archive. intros j Hj. apply Hp. lia. }
  destruct (round_cases file off C) as [[P E]|[(p & u & Ld & E & _)|(NP & NL & E)]]; rewrite E in H; clear E.
  - apply (IH file (off + HEADER_ALIGNMENT) (S i) e); [unfold HEADER_ALIGNMENT; lia| |exact H].
    intros j Hj. destruct (Nat.eq_dec j i) as [->|D]; [now rewrite <- Hi|apply Hp; lia].
  - destruct (header_read (from file p)) as [h|e'|] eqn:E; cbn [bind] in H; try discriminate. injection H as ->.
    apply (first_header_err file p e); [|exact E]. exists i. rewrite <- Hi. auto.
  - injection H as <-. destruct (stuck file off C NP NL) as [U [S|(dist & B & S)]]; subst off.
    + exact (cut_off_user_data file i Hp U S).
    + exact (cut_off_signature file i dist Hp B S).
Qed.
Lemma find_header_err file e : find_header file = Err e -> header_reason file e.
Proof. apply loop_err with (i := 0%nat); [reflexivity|intros; lia]. Qed.

(** ** Opening *)
Lemma parse_entries_noerr {X} (p : bytes -> res X) : (forall d e, lenN d = 16 -> p d <> Err e) ->
  forall n d e, lenN d = 16 * N.of_nat n -> parse_entries p n d <> Err e.
Proof.
  intros Hp. induction n as [|n IH]; intros d e Hd; cbn [parse_entries]; [discriminate|].
  assert (H16 : lenN (firstn 16 d) = 16) by (unfold lenN in *; rewrite firstn_length; lia).
  assert (Hr : lenN (skipn 16 d) = 16 * N.of_nat n) by (unfold lenN in *; rewrite skipn_length; lia).
  destruct (p (firstn 16 d)) as [x|e'|] eqn:E; cbn [bind]; [|elim (Hp _ _ H16 E)|discriminate].
  specialize (IH (skipn 16 d) e Hr). destruct (parse_entries p n (skipn 16 d)); cbn [bind]; congruence.
Qed.
Lemma ht_read_err file o n e : ht_read file o n = Err e -> (e = EHashTable /\ forall k, n <> 2 ^ k) \/ (e = EIo /\ lenN file < o + 16 * n).
Proof.
  unfold ht_read. destruct (is_power_of_two n) eqn:P.
  - destruct (slice o (n * 16) file) as [raw|] eqn:E; cbn [of_option bind].
    + intros H. exfalso. revert H. apply parse_entries_noerr.
      * intros d e' Hd. unfold he_from_bytes. replace (lenN d <? 16) with false by (symmetry; apply N.ltb_ge; lia). discriminate.
      * apply slice_length in E. unfold lenN in *. rewrite decrypt_table_data_length. lia.
    + intros H. injection H as <-. right. split; [reflexivity|]. apply slice_None in E. lia.
  - intros H. injection H as <-. left. split; [reflexivity|]. intros k ->.
    assert (is_power_of_two (2 ^ k) = true) by (apply is_power_of_two_spec; eauto). congruence.
Qed.
Lemma bt_read_err file o n e : bt_read file o n = Err e -> e = EIo /\ lenN file < o + 16 * n.
Proof.
  unfold bt_read. destruct (read_at file o (n * 16)) as [raw|e'|] eqn:E; cbn [bind]; [| |discriminate].
  - intros H. exfalso. revert H. apply parse_entries_noerr.
    + intros d e' Hd. unfold be_from_bytes. replace (lenN d <? 16) with false by (symmetry; apply N.ltb_ge; lia). discriminate.
    + apply read_at_length in E. unfold lenN in *. rewrite decrypt_table_data_length. lia.
  - intros H. injection H as ->. apply read_at_err in E as [-> E]. split; [reflexivity|lia].
Qed.
Lemma hi_read_err file o n e : hi_read file o n = Err e -> e = EIo /\ lenN file < o + 2 * n.
Proof.
  unfold hi_read. destruct (read_at file o (n * 2)) as [raw|e'|] eqn:E; cbn [bind]; [discriminate| |discriminate].
  intros H. injection H as ->. apply read_at_err in E as [-> E]. split; [reflexivity|lia].
Qed.

Lemma attributes_fail file a e : lenN file < 2 ^ 63 -> half_open L file a -> there a -> load_attributes L a = Err e -> open_reason L file e.
Proof.
  intros Hlen W Th H. pose proof (loaded_neat L _ _ Hlen (proj1 W)) as T. unfold load_attributes in H.
  assert (Ha : a_attrs a = None) by apply W. rewrite Ha in H.
  destruct (read_file L a ATTRIBUTES) as [d|e'|] eqn:Er; [| |discriminate H].
  - assert (Hn : exists n, count_of a n /\ n < 2 ^ 59 /\
       (match a_block a, a_bet a with Some bt, _ => Ok (lenN bt) | None, Some b => Ok (bet_count b) | None, None => Err EInvalidFormat end) = Ok n).
    { assert (S : forall n, n < M32 -> n < 2 ^ 59) by (intros n Hn; eapply N.lt_trans; [exact Hn|reflexivity]).
      unfold count_of, there in *. destruct (a_block a) as [bt|] eqn:Eb.
      - exists (lenN bt). split; [reflexivity|]. split; [|reflexivity]. apply S, (n_block a T bt Eb).
      - destruct (a_bet a) as [b|] eqn:Ebt.
        + exists (bet_count b). split; [reflexivity|]. split; [|reflexivity]. apply S, (n_bet a T b Ebt).
        + exfalso. unfold valid_het_bet in Th. rewrite Ebt in Th.
          destruct (a_het a); destruct (Th eq_refl) as [_ X]; congruence. }
    destruct Hn as (n & Hc & Hn & E0). rewrite E0 in H. cbn [bind] in H. clear E0.
    assert (U : forall r, attr_unwrap L d n = r -> r = Panic \/ exists d', r = Ok d' /\
       (d' = d \/ exists m c, d = m :: c /\ decompress L c (bN m) (n * 100) = Ok d')).
    { intros r <-. unfold attr_unwrap. destruct d as [|m c]; [right; eauto|]. destruct (_ && _); [|right; eauto].
      destruct (decompress L c (bN m) (n * 100)) as [x|x|] eqn:D; [right; exists x|right|left]; eauto.
      split; [reflexivity|right; eauto]. }
    destruct (U _ eq_refl) as [E|(d' & E & Hd')]; rewrite E in H; cbn [bind] in H; [discriminate H|].
    destruct (attr_parse_total d' n Hn) as [P|(x & s & P & _)]; rewrite P in H; cbn [bind] in H; [|discriminate H].
    injection H as <-. apply (open_attrs_content L file a n d d' W Hc Er Hd').
    destruct (N.lt_ge_cases (lenN d') 8) as [C|C]; [now left|right].
    destruct (slice 0 4 d') as [v|] eqn:Ev; [|left; discriminate].
    destruct (list_eq_dec Byte.byte_eq_dec v (le32 100)) as [->|Dv]; [right|left; congruence].
    assert (S4 : exists s, slice 4 4 d' = Some s).
    { unfold slice. replace (4 + 4 <=? lenN d') with true by (symmetry; apply N.leb_le; lia). eauto. }
    destruct S4 as (s & S4). exists s. split; [exact S4|].
    destruct (N.lt_ge_cases (lenN d') (whole_size (le_dec s) n)) as [Q|Q]; [exact Q|]. exfalso.
    destruct (attr_accepts d' n s Hn Ev S4 Q) as (y & Y). congruence.
  - destruct e'; try discriminate H; injection H as <-;
      (apply (open_attrs L file a _ W); [exact (read_fails _ _ _ T Th Er)|discriminate]).
Qed.

Lemma load_ext_noerr {X} off p n v size_of (rd : N -> N -> res X) e :
  (forall q x, size_of q <> Err x) -> load_ext off p n v size_of rd <> Err e.
Proof.
  intros Hs. unfold load_ext. destruct p as [p|]; [|discriminate]. destruct (_ =? 0); [discriminate|].
  match goal with |- bind ?Y _ <> _ => assert (S : forall x, Y <> Err x) end.
  { intros x. destruct v; try discriminate. destruct (_ =? 0); [apply Hs|discriminate]. }
  match goal with |- bind ?Y _ <> _ => destruct Y as [s|x|]; cbn [bind]; [|now elim (S x)|discriminate] end.
  destruct (_ =? 0); [discriminate|]. unfold add64. destruct (_ <? _); cbn [bind]; [|discriminate]. destruct (rd _ _); discriminate.
Qed.
Lemma sub_chk_noerr x y e : sub_chk x y <> Err e.
Proof. unfold sub_chk. destruct (_ <? _); discriminate. Qed.

Lemma open_cases file off ud h : find_header file = Ok (off, ud, h) -> lenN file < 2 ^ 63 ->
  open_archive L file = Panic \/ (exists e, open_archive L file = Err e /\ open_reason L file e) \/
  exists a, half_open L file a /\ there a.
Proof.
  intros Hh Hlen. destruct (find_header_off _ _ _ _ Hh) as [Ho (K1 & K2 & K3)].
  unfold half_open. unfold open_archive, open_with_options. rewrite Hh. cbn [bind]. unfold load_tables.
  cbn [a_header a_file a_off a_user a_hash a_block a_hi a_het a_bet a_attrs].
  match goal with |- (bind ?X _ = _) \/ _ => set (ext := X) end.
  assert (Hext : ext = Panic \/ exists het bet, ext = Ok (het, bet) /\
     (forall t, het = Some t -> exists p size, h_het_pos h = Some p /\ het_read L file (off + p) size ht_key = Ok t) /\
     (forall t, bet = Some t -> exists p size, h_bet_pos h = Some p /\ bet_read L file (off + p) size bt_key = Ok t)).
  { subst ext. destruct (version_ge (h_version h) V3).
    2:{ right. exists None, None. split; [reflexivity|]. split; discriminate. }
    destruct (load_ext off (h_het_pos h) (v4_het h) (h_version h) (het_table_size h) (fun o s => het_read L file o s ht_key))
      as [het|e|] eqn:E1; cbn [bind]; [| |left; reflexivity].
    2:{ exfalso. revert E1. apply load_ext_noerr. intros q x. unfold het_table_size. destruct (h_bet_pos h); [destruct (_ <? _); [discriminate|]|]; apply sub_chk_noerr. }
    destruct (load_ext off (h_bet_pos h) (v4_bet h) (h_version h) (bet_table_size h) (fun o s => bet_read L file o s bt_key))
      as [bet|e|] eqn:E2; cbn [bind]; [| |left; reflexivity].
    2:{ exfalso. revert E2. apply load_ext_noerr. intros q x. apply sub_chk_noerr. }
    right. do 2 eexists. split; [reflexivity|]. split.
    - intros t Et. destruct het as [t'|]; [|discriminate]. injection Et as ->. exact (load_ext_reads _ _ _ _ _ _ _ E1).
    - intros t Et. destruct bet as [t'|]; [|discriminate]. injection Et as ->. exact (load_ext_reads _ _ _ _ _ _ _ E2). }
  clearbody ext. destruct Hext as [->|(het & bet & -> & Hhet & Hbet)]; cbn [bind]; [now left|].
  cbv zeta.
  match goal with |- (bind ?X _ = _) \/ _ => set (cls := X) end.
  assert (Hcls : cls = Panic \/ (exists e, cls = Err e /\ open_reason L file e) \/ exists ht bt, cls = Ok (ht, bt) /\
     (forall t, ht = Some t -> ht_read file (off + get_hash_table_pos h) (h_hash_count h) = Ok t) /\
     (forall t, bt = Some t -> bt_read file (off + get_block_table_pos h) (h_block_count h) = Ok t) /\
     (forall hi, there (mkA file off ud h ht bt hi het bet None))).
  { subst cls. unfold there.
    assert (V : forall ht bt hi, valid_het_bet (mkA file off ud h ht bt hi het bet None) = valid_het_bet (mkA file off ud h None None None het bet None)) by reflexivity.
    destruct (match valid_het_bet _ with None => _ | Some _ => _ end) eqn:Ev.
    2:{ right; right. exists None, None. split; [reflexivity|]. split; [discriminate|]. split; [discriminate|]. intros hi X. rewrite V in X. rewrite X in Ev. discriminate Ev. }
    rewrite add64_ok by (change M64 with (2 ^ 64); lia). cbn [bind].
    destruct (ht_read file (off + get_hash_table_pos h) (h_hash_count h)) as [ht|e|] eqn:R1; cbn [bind]; [| |now left].
    2:{ right; left. exists e. split; [reflexivity|]. apply ht_read_err in R1 as [[-> R1]|[-> R1]].
        - exact (open_count L file off ud h Hh R1).
        - exact (open_hash L file off ud h Hh R1). }
    rewrite add64_ok by (change M64 with (2 ^ 64); lia). cbn [bind].
    destruct (bt_read file (off + get_block_table_pos h) (h_block_count h)) as [bt|e|] eqn:R2; cbn [bind]; [| |now left].
    2:{ right; left. exists e. split; [reflexivity|]. apply bt_read_err in R2 as [-> R2]. exact (open_block L file off ud h Hh R2). }
    right; right. do 2 eexists. split; [reflexivity|]. split; [|split]; [intros t Et; injection Et as <-; first [assumption|reflexivity]..|].
    intros hi _. cbn [a_hash a_block]. split; discriminate. }
  clearbody cls. destruct Hcls as [->|[(e & -> & R)|(ht & bt & -> & Hht & Hbt & Hth)]]; cbn [bind]; [now left|right; left; eauto|].
  assert (Hd : forall hi, (forall t, hi = Some t -> exists p, h_hi_pos h = Some p /\ hi_read file (off + p) (h_block_count h) = Ok t) ->
      loaded L file (mkA file off ud h ht bt hi het bet None)).
  { intros hi Hhi. unfold loaded. cbn [a_header a_file a_off a_user a_hash a_block a_hi a_het a_bet a_attrs].
    repeat (split; [solve [reflexivity|exact Hh|exact Hht|exact Hbt|exact Hhi|exact Hhet]|]). exact Hbet. }
  destruct (h_hi_pos h) as [p|] eqn:Ep.
  - destruct (N.eqb_spec p 0) as [Z|Z].
    + cbn [bind]. right; right. eexists. split; [split; [apply (Hd None); discriminate|reflexivity]|apply Hth].
    + unfold add64. destruct (_ <? _); cbn [bind]; [|now left].
      destruct (hi_read file (off + p) (h_block_count h)) as [t|e|] eqn:R3; cbn [bind]; [| |now left].
      * right; right. eexists. split; [split; [apply (Hd (Some t)); intros t' E'; injection E' as <-; eauto|reflexivity]|apply Hth].
      * right; left. exists e. split; [reflexivity|]. apply hi_read_err in R3 as [-> R3]. exact (open_high L file off ud h p Hh Ep Z R3).
  - cbn [bind]. right; right. eexists. split; [split; [apply (Hd None); discriminate|reflexivity]|apply Hth].
Qed.
Lemma open_fails_any file e : lenN file < 2 ^ 63 -> open_archive L file = Err e -> open_reason L file e.
Proof.
  intros Hlen H. destruct (find_header file) as [[[off ud] h]|e'|] eqn:Hh.
  - destruct (open_cases file off ud h Hh Hlen) as [K|[(e' & K & R)|(a & W & Th)]]; [congruence| |].
    + rewrite K in H. now injection H as <-.
    + apply (attributes_fail file a e Hlen W Th). rewrite <- (proj2 W). exact H.
  - unfold open_archive, open_with_options in H. rewrite Hh in H. cbn [bind] in H. injection H as ->. apply open_header, find_header_err, Hh.
  - unfold open_archive, open_with_options in H. rewrite Hh in H. discriminate H.
Qed.
Lemma opened_good file a : lenN file < 2 ^ 63 -> open_archive L file = Ok a -> neat a /\ there a.
Proof.
  intros Hlen H. destruct (find_header file) as [[[off ud] h]|e'|] eqn:Hh.
  2,3: unfold open_archive, open_with_options in H; rewrite Hh in H; discriminate H.
  destruct (open_cases file off ud h Hh Hlen) as [K|[(e' & K & R)|(b & W & Th)]]; [congruence|congruence|].
  pose proof (loaded_neat L _ _ Hlen (proj1 W)) as T. rewrite (proj2 W) in H.
  apply (Archive34Facts.load_attributes_same L) in H as (x & ->). destruct T as [T1 T2 T3 T4 T5 T6]. split; [split; assumption|exact Th].
Qed.
Lemma fault_kind a fi key e : fault L a fi key e -> e = EIo \/ e = EInvalidFormat \/ e = ECompression \/ e = EChecksum.
Proof. intros []; auto. Qed.
Lemma reason_kind a name e : reason L a name e -> is_recoverable e = true -> find_file a name = Ok None /\ e = EFileNotFound.
Proof.
  intros [H|? ? ? ? _ _ _ _|fi e' F X]; [auto|discriminate|]. apply fault_kind in X as [-> |[-> |[-> | ->]]]; discriminate.
Qed.
Lemma open_reason_kind file e : open_reason L file e -> is_recoverable e = false.
Proof.
  intros [e' []| | | | |a e' _ H N|]; try reflexivity. destruct (is_recoverable e') eqn:R; [|reflexivity].
  destruct (reason_kind _ _ _ H R) as [_ ->]. congruence.
Qed.
End L.

(** ** In the words of the properties *)
Lemma reading_reason L file a name e : plain_failures L -> lenN file < 2 ^ 63 -> open_archive L file = Ok a ->
  read_file L a name = Err e -> reason L a name e.
Proof. intros HL Hlen Ho. destruct (opened_good L file a Hlen Ho) as [T Th]. exact (read_fails L HL a name e T Th). Qed.
Lemma opening_reason L file e : plain_failures L -> lenN file < 2 ^ 63 ->
  open_archive L file = Err e -> open_reason L file e /\ is_recoverable e = false.
Proof.
  intros HL Hlen H. pose proof (open_fails_any L HL file e Hlen H) as R. split; [exact R|]. exact (open_reason_kind L file e R).
Qed.
Lemma reading_kinds L file a name e : plain_failures L -> lenN file < 2 ^ 63 -> open_archive L file = Ok a ->
  read_file L a name = Err e ->
  (is_recoverable e = true -> find_file a name = Ok None) /\
  (is_corruption e = true -> exists fi, find_file a name = Ok (Some fi) /\ fault L a fi (reading_key a name fi) e).
Proof.
  intros HL Hv Ho H. pose proof (reading_reason L file a name e HL Hv Ho H) as R. split.
  - intros K. apply (reason_kind L a name e R K).
  - destruct R as [F|? ? ? ? _ _ _ _|fi e F X]; try discriminate. intros _. eauto.
Qed.

Lemma kinds_apart e : (disagreement e -> is_corruption e = true) /\ (refusal e <-> is_recoverable e = true) /\
  ~ (is_corruption e = true /\ is_recoverable e = true).
Proof.
  split; [now intros []|]. split.
  - split; [now intros []|]. destruct e; intros H; try discriminate H; constructor.
  - destruct e; intros [H1 H2]; discriminate.
Qed.
