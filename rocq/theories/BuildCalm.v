(** * When building panics. *)
From Verif Require Import Bytes Crypto CryptoFacts HashTable BlockTable Header Sparse Adpcm Huffman AdpcmFacts
  Compress CompressFacts HashTableFacts TableMap Adler Listfile HetBet BitFacts HetBetFacts Builder BuilderFacts Attributes Archive
  ReadFacts OpenFacts SpecArchive ArchiveFacts LayoutFacts Large34Facts SpecBuilding.
Open Scope N_scope.

Lemma bind_calm {A B} (r : res A) (f : A -> res B) :
  r <> Panic -> (forall a, r = Ok a -> f a <> Panic) -> bind r f <> Panic.
Proof. intros H1 H2. destruct r; cbn [bind]; [now apply H2|discriminate|congruence]. Qed.

Lemma adpcm_compress_calm d cc : (1 <= cc <= 2)%nat -> adpcm_compress d 5 cc <> Panic.
Proof.
  intros Hcc. unfold adpcm_compress.
  destruct (N.eq_dec (lenN d mod (2 * N.of_nat cc)) 0) as [E|E].
  - destruct (adpcm_encode_total d 5 cc) as (o & p & ->); [lia|exact Hcc|exact E|]. discriminate.
  - unfold adpcm_encode. destruct ((cc =? 0) || (2 <? cc))%nat; [discriminate|].
    destruct (negb (lenN d mod 2 =? 0)) eqn:E2; [discriminate|].
    assert (H2 : lenN d mod 2 = 0) by (destruct (N.eqb_spec (lenN d mod 2) 0); [assumption|discriminate]).
    apply N.mod_divides in H2 as [k Hk]; [|lia].
    assert (Hn : (length d = 2 * N.to_nat k)%nat) by (unfold lenN in Hk; lia).
    destruct (samples_pairs _ _ Hn) as (F & Hl & _).
    destruct (samples_of d) as [|s t] eqn:Es; [discriminate|]. rewrite Hl.
    destruct (Nat.eqb_spec (N.to_nat k mod cc) 0) as [C|C]; [|discriminate].
    exfalso. apply E. apply Nat.mod_divides in C as [q Hq]; [|lia].
    rewrite Hk. replace k with (N.of_nat cc * N.of_nat q) by lia.
    apply N.mod_divides; [lia|]. exists (N.of_nat q). lia.
Qed.

Section Calm.
Variable L : codecs.
Hypothesis Hcalm : calm_encoders L.

Lemma pk_compress_calm d : pk_compress L d <> Panic.
Proof. destruct Hcalm as (_ & _ & _ & H). destruct d; cbn [pk_compress]; [discriminate|apply H]. Qed.
Lemma huffman_compress_calm d : huffman_compress d <> Panic.
Proof. destruct d; discriminate. Qed.
Lemma implode_compress_calm d : implode_compress d <> Panic.
Proof. destruct d; discriminate. Qed.

Lemma compress_multiple_calm d f : compress_multiple L d f <> Panic.
Proof.
  destruct Hcalm as (Hz & Hb & Hl & Hp). unfold compress_multiple. apply bind_calm.
  - destruct (bit f ADPCM_MONO); [apply adpcm_compress_calm; lia|].
    destruct (bit f ADPCM_STEREO); [apply adpcm_compress_calm; lia|discriminate].
  - intros cur _. cbv zeta. destruct (_ =? 0); [discriminate|]. destruct (1 <? _); [discriminate|].
    destruct (bit f HUFFMAN); [apply huffman_compress_calm|].
    destruct (bit f ZLIB); [apply Hz|]. destruct (bit f BZIP2); [apply Hb|].
    destruct (bit f SPARSE); [discriminate|]. destruct (bit f PKWARE); [apply pk_compress_calm|discriminate].
Qed.

Lemma compress_calm d m : compress L d m <> Panic.
Proof.
  destruct Hcalm as (Hz & Hb & Hl & Hp). unfold compress. apply bind_calm.
  - unfold compress_internal. destruct (from_flags m);
      try discriminate; auto using pk_compress_calm, huffman_compress_calm, implode_compress_calm, compress_multiple_calm;
      apply adpcm_compress_calm; lia.
  - intros x _. destruct (_ <=? _); discriminate.
Qed.

Lemma store_form_calm d m : store_form L d m <> Panic.
Proof.
  unfold store_form. destruct (_ || _); [discriminate|]. apply bind_calm; [apply compress_calm|].
  intros x _. destruct (bytes_eqb x d); discriminate.
Qed.

Lemma store_sectors_calm l m : store_sectors L l m <> Panic.
Proof.
  induction l as [|s t IH]; cbn [store_sectors]; [discriminate|].
  apply bind_calm; [apply store_form_calm|]. intros [b x] _.
  apply bind_calm; [exact IH|]. intros [r y] _. discriminate.
Qed.

(** What the builder can be asked to do with one file. *)
Definition fits (f : pending) : Prop := pf_encrypt f = true -> lenN (pf_data f) <= 4000000000.

Lemma write_file_calm c ss f p :
  sector_size (c_block_size c) = Ok ss -> ss <> 0 -> fits f -> write_file L c ss f p <> Panic.
Proof.
  intros Hss Hz Hf. unfold write_file. destruct (N.leb_spec (lenN (pf_data f)) ss) as [C|C].
  - unfold write_single. apply bind_calm; [apply store_form_calm|]. intros [b x] _. discriminate.
  - unfold write_multi. destruct (N.eqb_spec ss 0) as [|_]; [contradiction|]. cbv zeta.
    apply bind_calm; [apply store_sectors_calm|]. intros [stored comp] Es.
    apply bind_calm; [|intros; discriminate].
    destruct (pf_encrypt f) eqn:Ee; [|discriminate]. specialize (Hf Ee).
    pose proof (sector_size_ok _ _ Hss Hz) as E.
    assert (H512 : 512 <= ss).
    { rewrite E. unfold sector_bytes. assert (2 ^ c_block_size c <> 0) by (apply N.pow_nonzero; lia). lia. }
    set (d := pf_data f) in *. set (n := div_ceil (lenN d) ss) in *.
    assert (Hn1 : n <= 7812501).
    { unfold n, div_ceil. apply N.div_le_upper_bound; [lia|].
      assert (7812500 * 512 <= 7812500 * ss) by (apply N.mul_le_mono_l; exact H512). lia. }
    destruct (store_sectors_le _ _ _ _ _ Es) as [_ Hle].
    rewrite chunks_concat in Hle by lia.
    match goal with |- enc_sectors ?k ?ds _ _ _ <> _ =>
      pose proof (enc_sectors_eq k ds stored [] 0) as H end.
    rewrite ?lenN_nil, ?N.add_0_r in H. cbn [app] in H.
    rewrite H; [discriminate|].
    unfold M32. change (2 ^ 32) with 4294967296. destruct (c_crcs c); lia.
Qed.

Lemma write_files_calm c ss fs : sector_size (c_block_size c) = Ok ss -> ss <> 0 -> Forall fits fs ->
  forall p, write_files L c ss fs p <> Panic.
Proof.
  intros Hss Hz H. induction H as [|f fs Hf _ IH]; intros p; cbn [write_files]; [discriminate|].
  apply bind_calm; [now apply write_file_calm|]. intros [[out cs] fl] _.
  apply bind_calm; [apply IH|]. intros [rest es] _. discriminate.
Qed.

Lemma names_calm c fs : table_count c fs < 2 ^ 30 ->
  exists t0, ht_new (calculate_hash_table_size (table_count c fs)) = Ok t0 /\ add_files t0 fs 0 <> Panic.
Proof.
  intros Hc. assert (Hle : lenN fs <= table_count c fs) by (unfold table_count; lia).
  destruct (builder_table_hashes (table_count c fs) (map file_key fs)) as (t0 & E0 & Hcase);
    [unfold lenN in *; rewrite map_length; exact Hle|exact Hc|].
  exists t0. split; [exact E0|].
  rewrite add_files_all by (unfold M32; change (2 ^ 32) with 4294967296; change (2 ^ 30) with 1073741824 in Hc; lia).
  destruct Hcase as [(t & -> & _)|[-> _]]; discriminate.
Qed.

Lemma write_header_calm p : write_header p <> Panic.
Proof. unfold write_header. destruct (p_version p); try discriminate. destruct (p_v4 p); discriminate. Qed.

Lemma sector_size_small b : b < 55 -> exists ss, sector_size b = Ok ss /\ ss <> 0.
Proof.
  intros H. unfold sector_size. rewrite (proj2 (N.ltb_lt b 64)) by lia. eexists. split; [reflexivity|].
  rewrite N.shiftl_mul_pow2, w64_small.
  - assert (2 ^ b <> 0) by (apply N.pow_nonzero; lia). lia.
  - change 512 with (2 ^ 9). rewrite <- N.pow_add_r. unfold M64. apply N.pow_lt_mono_r; lia.
Qed.

Lemma write_archive12_calm c fs : c_block_size c < 55 -> table_count c fs < 2 ^ 30 -> Forall fits fs ->
  write_archive12 L c fs <> Panic.
Proof.
  intros Hb Hc Hf. unfold write_archive12.
  destruct (sector_size_small _ Hb) as (ss & E & Hz). rewrite E. cbn [bind]. cbv zeta.
  destruct (names_calm c fs Hc) as (t0 & -> & Ha). cbn [bind].
  apply bind_calm; [now apply write_files_calm|]. intros [body es] _.
  apply bind_calm; [exact Ha|]. intros t _.
  apply bind_calm; [apply write_header_calm|]. intros; discriminate.
Qed.

(** ** The tables of versions 3 and 4 *)
Lemma write_bit_entry_calm d i v b : write_bit_entry d i v b <> Panic.
Proof.
  unfold write_bit_entry. set (need := div_ceil _ 8).
  destruct (N.ltb_spec (lenN d) (i * b / 8 + need)) as [C|C]; [discriminate|].
  destruct (slice _ _ d) as [s|] eqn:E; [discriminate|]. apply slice_None in E. lia.
Qed.

Lemma bet_hash_fill_calm hs : forall i d, bet_hash_fill hs i d <> Panic.
Proof.
  induction hs as [|h t IH]; intros i d; cbn [bet_hash_fill]; [discriminate|].
  apply bind_calm; [apply write_bit_entry_calm|]. intros d' _. apply IH.
Qed.

Lemma bet_fill_calm is_ ics ifl eb flags : is_ < 64 -> ics < 64 -> ifl < 64 ->
  forall bt, (forall e, In e bt -> In (be_flags e) flags) ->
  forall i d, bet_fill bt i d flags is_ ics ifl eb <> Panic.
Proof.
  intros H1 H2 H3. induction bt as [|e t IH]; intros Hin i d; cbn [bet_fill]; [discriminate|].
  destruct (index_of_spec (be_flags e) flags 0 (Hin e (or_introl eq_refl))) as (k & -> & _).
  unfold shl64. change (0 <? 64) with true.
  rewrite (proj2 (N.ltb_lt _ _) H1), (proj2 (N.ltb_lt _ _) H2), (proj2 (N.ltb_lt _ _) H3). cbn [bind].
  apply bind_calm; [apply write_bit_entry_calm|]. intros d' _. apply IH.
  intros x Hx. apply Hin. right. exact Hx.
Qed.

Lemma insert_flag_length x l : (length (insert_flag x l) <= S (length l))%nat.
Proof.
  induction l as [|y t IH]; cbn [insert_flag length]; [lia|].
  destruct (x =? y); [cbn [length]; lia|]. destruct (x <? y); cbn [length]; lia.
Qed.
Lemma flag_array_length bt : (length (flag_array bt) <= length bt)%nat.
Proof.
  induction bt as [|e t IH]; [cbn; lia|]. cbn [flag_array fold_right].
  change (fold_right _ _ t) with (flag_array t).
  pose proof (insert_flag_length (be_flags e) (flag_array t)). cbn [length]. lia.
Qed.

Lemma chk32_small n : n < M32 -> chk32 n = Ok n.
Proof. intros H. unfold chk32. now rewrite (proj2 (N.ltb_lt _ _) H). Qed.

Lemma div_ceil_8_le n : div_ceil n 8 <= n.
Proof. pose proof (div_ceil_8 n). destruct (N.eq_dec n 0) as [->|]; [vm_compute; discriminate|lia]. Qed.

(** The widths of position, size and stored size. *)
Definition width3 (bt : list bentry) : N :=
  bits_needed (max_of be_pos bt) + bits_needed (max_of be_size bt) + bits_needed (max_of be_csize bt).

Lemma width_le g k bt : 1 <= k -> (forall e, In e bt -> g e < 2 ^ k) -> bits_needed (max_of g bt) <= k.
Proof.
  intros Hk H. assert (Hz : 2 ^ k <> 0) by (apply N.pow_nonzero; lia).
  apply bits_needed_le; [exact Hk|]. assert (max_of g bt <= 2 ^ k - 1); [|lia].
  apply max_of_bound. intros e He. specialize (H e He). lia.
Qed.
Lemma width3_le p s bt : 1 <= p -> 1 <= s -> p + 2 * s < 64 ->
  (forall e, In e bt -> be_pos e < 2 ^ p /\ be_size e < 2 ^ s /\ be_csize e < 2 ^ s) -> width3 bt < 64.
Proof.
  intros Hp Hs Ht He. unfold width3.
  pose proof (width_le be_pos p bt Hp (fun e H => proj1 (He e H))).
  pose proof (width_le be_size s bt Hs (fun e H => proj1 (proj2 (He e H)))).
  pose proof (width_le be_csize s bt Hs (fun e H => proj2 (proj2 (He e H)))). lia.
Qed.

Lemma create_bet_calm names bt :
  lenN names <= 2 ^ 17 -> lenN bt <= 2 ^ 17 -> width3 bt < 64 ->
  create_bet_table names bt <> Panic.
Proof.
  intros Hn Hb He. unfold width3 in He. change (2 ^ 17) with 131072 in *.
  assert (HM : M32 = 4294967296) by reflexivity.
  unfold create_bet_table. cbv zeta.
  assert (Hw : w32 (lenN names) <= 131072) by (rewrite w32_small; lia).
  set (count := w32 (lenN names)) in *.
  set (cp := bits_needed (max_of be_pos bt)) in *. set (cs := bits_needed (max_of be_size bt)) in *.
  set (cc := bits_needed (max_of be_csize bt)) in *.
  assert (Hfl : lenN (flag_array bt) <= 131072).
  { pose proof (flag_array_length bt). unfold lenN in *. lia. }
  set (cf := match flag_array bt with [] => 0 | _ => _ end).
  assert (Hcf : cf <= 18).
  { unfold cf. destruct (flag_array bt) as [|x l]; [lia|]. apply bits_needed_le; [lia|].
    change (2 ^ 18) with 262144. lia. }
  assert (Hprod : count * (cp + cs + cc + cf) <= 131072 * 81) by (apply N.mul_le_mono; lia).
  rewrite chk32_small by lia. cbn [bind].
  rewrite (chk32_small (count * 64)) by lia. cbn [bind].
  pose proof (div_ceil_8_le (count * (cp + cs + cc + cf))) as D1.
  pose proof (div_ceil_8_le (count * 64)) as D2.
  apply bind_calm.
  - apply bet_fill_calm; try lia. intros e. apply flag_array_in.
  - intros table _. rewrite (chk32_small (lenN (flag_array bt) * 4)) by lia. cbn [bind].
    rewrite chk32_small by lia. cbn [bind]. rewrite chk32_small by lia. cbn [bind].
    apply bind_calm; [apply bet_hash_fill_calm|]. intros; discriminate.
Qed.

Lemma het_slot_calm entries used start : lenN used = entries -> 0 < entries ->
  forall f cur, cur < entries -> het_slot f used entries start cur <> Panic.
Proof.
  intros Hu H0. induction f as [|f IH]; intros cur Hc; cbn [het_slot]; [discriminate|].
  destruct (nthN used cur) as [[|]|] eqn:E; [|discriminate|].
  - cbv zeta. destruct (_ =? start); [discriminate|]. apply IH. apply N.mod_lt. lia.
  - exfalso. unfold nthN in E. rewrite Hu, (proj2 (N.ltb_lt _ _) Hc) in E. apply nth_error_None in E. unfold lenN in Hu. lia.
Qed.

Lemma het_fill_calm entries hbits ibits k : entries = 2 ^ k -> hbits < 64 ->
  forall names i used table, lenN used = entries ->
  het_fill names i used table entries hbits ibits <> Panic.
Proof.
  intros Ek Hh. assert (H0 : 0 < entries) by (rewrite Ek; apply N.neq_0_lt_0, N.pow_nonzero; lia).
  induction names as [|n t IH]; intros i used table Hu; cbn [het_fill]; [discriminate|]. cbv zeta.
  apply bind_calm.
  - apply het_slot_calm; try assumption. rewrite Ek.
    replace (2 ^ k - 1) with (N.ones k) by (rewrite N.ones_equiv, N.pred_sub; reflexivity).
    rewrite N.land_ones. apply N.mod_lt. apply N.pow_nonzero. lia.
  - intros slot _. unfold mask_chk, shl64. rewrite (proj2 (N.ltb_lt _ _) Hh). cbn [bind].
    apply bind_calm; [apply write_bit_entry_calm|]. intros table' _. apply IH.
    unfold lenN in *. rewrite upd_length. exact Hu.
Qed.

Lemma create_het_calm names : lenN names <= 2 ^ 17 -> create_het_table names <> Panic.
Proof.
  intros Hn. change (2 ^ 17) with 131072 in *. assert (HM : M32 = 4294967296) by reflexivity.
  unfold create_het_table. cbv zeta.
  assert (Hw : w32 (lenN names) <= 131072) by (rewrite w32_small; lia).
  set (count := w32 (lenN names)) in *.
  rewrite chk32_small by lia. cbn [bind].
  unfold next_pow2_chk.
  assert (Hk : exists k, next_power_of_two (count * 2) = 2 ^ k /\ k <= 18).
  { unfold next_power_of_two. eexists. split; [reflexivity|].
    apply N.le_trans with (N.log2_up (2 ^ 18)); [apply N.log2_up_le_mono; change (2 ^ 18) with 262144; lia|].
    rewrite N.log2_up_pow2; lia. }
  destruct Hk as (k & Ek & Hk). set (entries := next_power_of_two (count * 2)) in *.
  assert (He : entries <= 262144).
  { rewrite Ek. change 262144 with (2 ^ 18). apply N.pow_le_mono_r; lia. }
  rewrite chk32_small by lia. cbn [bind].
  assert (Hh : bits_needed entries <= 19).
  { apply bits_needed_le; [lia|]. change (2 ^ 19) with 524288. lia. }
  assert (Hi : bits_needed count <= 18).
  { apply bits_needed_le; [lia|]. change (2 ^ 18) with 262144. lia. }
  set (hb := bits_needed entries) in *. set (ib := bits_needed count) in *.
  assert (P1 : entries * hb <= 262144 * 19) by (apply N.mul_le_mono; lia).
  assert (P2 : entries * ib <= 262144 * 18) by (apply N.mul_le_mono; lia).
  assert (P3 : entries * (hb + ib) <= 262144 * 37) by (apply N.mul_le_mono; lia).
  rewrite (chk32_small (entries * hb)) by lia. cbn [bind].
  rewrite (chk32_small (entries * (hb + ib))) by lia. cbn [bind].
  rewrite (chk32_small (entries * ib)) by lia. cbn [bind].
  pose proof (div_ceil_8_le (entries * hb)) as D1. pose proof (div_ceil_8_le (entries * ib)) as D2.
  apply bind_calm.
  - apply (het_fill_calm entries hb ib k Ek); [lia|]. unfold lenN. rewrite repeat_length. lia.
  - intros table _. rewrite chk32_small by lia. cbn [bind]. rewrite chk32_small by lia. discriminate.
Qed.

Lemma write_ext_calm cmp m d key : write_ext_table L cmp m d key <> Panic.
Proof.
  unfold write_ext_table. destruct (_ <? _); [discriminate|]. apply bind_calm; [|intros; discriminate].
  destruct cmp; [|discriminate]. apply bind_calm; [apply compress_calm|]. intros; discriminate.
Qed.

Lemma write_file_room_big c ss f p out csize flags :
  sector_size (c_block_size c) = Ok ss -> ss <> 0 -> lenN (pf_data f) <= 4000000000 ->
  write_file L c ss f p = Ok (out, csize, flags) ->
  lenN out <= room (pf_data f) /\ csize <= lenN out.
Proof.
  intros Hss Hz Hlen W.
  destruct (write_file_size L c ss f p out csize flags Hss ltac:(lia) W) as [_ Ho].
  split; [|lia]. unfold room. set (d := pf_data f) in *.
  pose proof (sector_size_ok _ _ Hss Hz) as E.
  assert (H512 : 512 <= ss).
  { rewrite E. unfold sector_bytes. assert (2 ^ c_block_size c <> 0) by (apply N.pow_nonzero; lia). lia. }
  assert (Hd : div_ceil (lenN d) ss <= lenN d / 512 + 1).
  { apply N.lt_succ_r. unfold div_ceil. apply N.div_lt_upper_bound; [lia|].
    pose proof (N.div_mod (lenN d) 512 ltac:(lia)) as M. pose proof (N.mod_lt (lenN d) 512 ltac:(lia)) as M2.
    set (q := lenN d / 512) in *.
    assert (512 * q <= ss * q) by (apply N.mul_le_mono_r; exact H512). lia. }
  assert (Hq : 8 * (lenN d / 512) <= lenN d / 64).
  { change 512 with (64 * 8). rewrite <- N.div_div by lia. apply N.mul_div_le. lia. }
  revert W. unfold write_file. fold d. destruct (N.leb_spec (lenN d) ss) as [C|C]; intros W.
  - unfold write_single in W. fold d in W.
    destruct (store_form L d (pf_comp f)) as [[body comp]| |] eqn:Es; cbn [bind] in W; try discriminate.
    apply Ok_inj in W. injection W as W1 W2 W3. apply store_form_le in Es.
    rewrite <- W1, lenN_app.
    assert (lenN (if c_crcs c then le32 (adler32 d) else []) <= 4).
    { destruct (c_crcs c); [unfold lenN; rewrite le32_length; lia|rewrite lenN_nil; lia]. }
    assert (csize <= lenN d); [|lia].
    rewrite <- W2. destruct (pf_encrypt f); [rewrite lenN_encrypt_data|]; exact Es.
  - rewrite Ho. unfold checksum_bytes. fold d. rewrite <- E.
    unfold write_multi in W. destruct (N.eqb_spec ss 0) as [|_]; [contradiction|]. cbv zeta in W. fold d in W.
    set (n := div_ceil (lenN d) ss) in *.
    destruct (store_sectors L _ (pf_comp f)) as [[stored comp]| |] eqn:Es; cbn [bind] in W; try discriminate.
    destruct (store_sectors_le _ _ _ _ _ Es) as [_ Hle]. rewrite chunks_concat in Hle by lia.
    destruct (if pf_encrypt f then _ else _) as [data| |] eqn:Ed in W; cbn [bind] in W; try discriminate.
    assert (Hdl : lenN data <= lenN d).
    { destruct (pf_encrypt f); [|apply Ok_inj in Ed; subst data; exact Hle].
      match type of Ed with enc_sectors ?k ?ds _ _ _ = _ =>
        pose proof (enc_sectors_eq k ds stored [] 0) as H end.
      rewrite ?lenN_nil, ?N.add_0_r in H. cbn [app] in H. rewrite H in Ed.
      - apply Ok_inj in Ed. subst data. rewrite enc_each_concat_length. exact Hle.
      - unfold M32. change (2 ^ 32) with 4294967296. clear - Hle Hlen Hd.
        pose proof (N.mul_div_le (lenN d) 512 ltac:(lia)) as Hq.
        destruct (c_crcs c); lia. }
    apply Ok_inj in W. injection W as W1 W2 W3. rewrite <- W2.
    assert (1 <= n). { unfold n, div_ceil. apply N.div_le_lower_bound; lia. }
    destruct (c_crcs c); lia.
Qed.

Definition rooms (fs : list pending) : N := total_room (map pf_data fs).

Lemma write_files_room_at c ss a b fs : sector_size (c_block_size c) = Ok ss -> ss <> 0 ->
  2 ^ a <= 2 ^ 31 -> (forall d, In d (map pf_data fs) -> room d < 2 ^ b) ->
  forall p body es, 0 < p -> p + rooms fs <= 2 ^ a -> write_files L c ss fs p = Ok (body, es) ->
  length es = length fs /\ Forall (fun e => be_pos (snd e) < 2 ^ a /\ be_size (snd e) < 2 ^ b /\ be_csize (snd e) < 2 ^ b) es.
Proof.
  intros Hss Hz Ha. change (2 ^ 31) with 2147483648 in Ha. set (A := 2 ^ a) in *. set (B := 2 ^ b).
  induction fs as [|f fs IH]; intros Hs p body es H0 Hp H; cbn [write_files] in H.
  - apply Ok_inj in H. injection H as <- <-. split; [reflexivity|constructor].
  - destruct (write_file L c ss f p) as [[[out csize] flags]| |] eqn:E; cbn [bind] in H; try discriminate.
    destruct (write_files L c ss fs (p + lenN out)) as [[rest es']| |] eqn:F; cbn [bind] in H; try discriminate.
    apply Ok_inj in H. injection H as <- <-.
    unfold rooms in Hp. cbn [map total_room fold_right] in Hp.
    change (fold_right _ _ _) with (rooms fs) in Hp.
    assert (Hr : lenN (pf_data f) + 16 <= room (pf_data f)) by (unfold room; lia).
    destruct (write_file_room_big c ss f p out csize flags Hss Hz) as [R1 R2]; [lia|exact E|].
    destruct (IH (fun d Hd => Hs d (or_intror Hd)) (p + lenN out) rest es' ltac:(lia) ltac:(lia) F) as [I1 I2].
    pose proof (Hs (pf_data f) (or_introl eq_refl)) as Hf.
    split; [cbn [length]; lia|]. constructor; [|exact I2].
    cbn [snd block_entry be_pos be_size be_csize]. unfold pos_low.
    assert (HM : M32 = 4294967296) by reflexivity.
    rewrite !w32_small by lia. lia.
Qed.

Lemma rooms_count fs : 16 * lenN fs <= rooms fs.
Proof.
  induction fs as [|f t IH]; [vm_compute; discriminate|]. rewrite lenN_cons.
  unfold rooms. cbn [map total_room fold_right]. change (fold_right _ _ _) with (rooms t). unfold room. lia.
Qed.

Lemma narrow_rooms fs : narrow (map pf_data fs) -> lenN fs <= 131072 /\ rooms fs + 208 <= 2147483648.
Proof.
  intros (Hn & p & s & Hs & Hp & Hps & Hr & _). split.
  - unfold lenN in *. rewrite map_length in Hn. change (2 ^ 17) with 131072 in Hn. exact Hn.
  - unfold rooms. etransitivity; [rewrite N.add_comm; exact Hr|]. change 2147483648 with (2 ^ 31). apply N.pow_le_mono_r; lia.
Qed.

Lemma write_files_room c ss fs body es : sector_size (c_block_size c) = Ok ss -> ss <> 0 ->
  narrow (map pf_data fs) -> write_files L c ss fs (header_size_of (c_version c)) = Ok (body, es) ->
  length es = length fs /\ width3 (map snd es) < 64.
Proof.
  intros Hss Hz (Hn & p & s & Hs & Hp & Hps & Hr & Hd) W.
  assert (H31 : 2 ^ p <= 2 ^ 31) by (apply N.pow_le_mono_r; lia).
  assert (H1 : 1 <= p). { destruct (N.eq_dec p 0) as [->|]; [change (2 ^ 0) with 1 in Hr|]; lia. }
  assert (Hh : header_size_of (c_version c) <= 208) by (destruct (c_version c); vm_compute; discriminate).
  destruct (write_files_room_at c ss p s fs Hss Hz H31 Hd (header_size_of (c_version c)) body es) as [Hl He].
  { destruct (c_version c); vm_compute; reflexivity. }
  { unfold rooms. lia. }
  { exact W. }
  split; [exact Hl|]. apply (width3_le p s); [exact H1|exact Hs|exact Hps|].
  intros e Hin. apply in_map_iff in Hin as (x & <- & Hx). rewrite Forall_forall in He. now apply He.
Qed.

(** Less than two megabytes is little enough. *)
Lemma narrow_small l : total_room l <= 2 ^ 21 - 208 -> narrow l.
Proof.
  change (2 ^ 21 - 208) with 2096944. intros H. split.
  - assert (Hc : 16 * lenN l <= total_room l); [|change (2 ^ 17) with 131072; lia].
    clear H. induction l as [|d l IH]; [vm_compute; discriminate|]. rewrite lenN_cons.
    cbn [total_room fold_right]. change (fold_right _ _ _) with (total_room l). unfold room. lia.
  - exists 21, 21. split; [lia|]. split; [lia|]. split; [lia|]. change (2 ^ 21) with 2097152. split; [lia|].
    induction l as [|x l IH]; intros d Hd; [destruct Hd|].
    cbn [total_room fold_right] in H. change (fold_right _ _ _) with (total_room l) in H.
    destruct Hd as [->|Hd]; [lia|]. apply IH; [lia|exact Hd].
Qed.

Variable md5 : bytes -> bytes.

Lemma write_archive34_calm c fs : c_block_size c < 55 -> narrow (map pf_data fs) ->
  write_archive34 L md5 c fs <> Panic.
Proof.
  intros Hb Hnar. unfold write_archive34.
  destruct (sector_size_small _ Hb) as (ss & E & Hz). rewrite E. cbn [bind]. cbv zeta.
  destruct (narrow_rooms fs Hnar) as [Hn Hr].
  assert (Hf : Forall fits fs).
  { apply Forall_forall. intros f Hf _. clear - Hf Hr. induction fs as [|g t IH]; [destruct Hf|].
    unfold rooms in Hr. cbn [map total_room fold_right] in Hr. change (fold_right _ _ _) with (rooms t) in Hr.
    destruct Hf as [->|Hf]; [unfold room in Hr; lia|]. apply IH; [lia|exact Hf]. }
  apply bind_calm; [now apply write_files_calm|]. intros [body es] W.
  destruct (write_files_room c ss fs body es E Hz Hnar W) as [Hl He].
  apply bind_calm.
  { apply create_het_calm. unfold lenN in *. rewrite map_length. change (2 ^ 17) with 131072. lia. }
  intros het _. apply bind_calm; [apply write_ext_calm|]. intros hetb _.
  apply bind_calm.
  { apply create_bet_calm; [| |exact He]; (unfold lenN in *; rewrite map_length; change (2 ^ 17) with 131072; lia). }
  intros bet _. apply bind_calm; [apply write_ext_calm|]. intros betb _.
  destruct (names_calm c fs) as (t0 & -> & Ha).
  { unfold table_count. change (2 ^ 30) with 1073741824. destruct (c_listfile c); lia. }
  cbn [bind]. apply bind_calm; [exact Ha|]. intros t _.
  apply bind_calm; [apply write_header_calm|]. intros; discriminate.
Qed.

Lemma rooms_prepared c files : rooms (prepare_listfile c files) = total_room (all_contents c files).
Proof.
  unfold rooms, all_contents, prepare_listfile. destruct (c_listfile c); rewrite ?map_app; cbn [map pf_data];
    rewrite ?app_nil_r; reflexivity.
Qed.

Lemma data_prepared c files : map pf_data (prepare_listfile c files) = all_contents c files.
Proof.
  unfold all_contents, prepare_listfile. destruct (c_listfile c); rewrite ?map_app; cbn [map pf_data];
    rewrite ?app_nil_r; reflexivity.
Qed.

Lemma fits_prepared c files : Forall fits files -> Forall fits (prepare_listfile c files).
Proof.
  intros H. unfold prepare_listfile. destruct (c_listfile c); try exact H; apply Forall_app; (split; [exact H|]);
    constructor; try constructor; intros Hx; discriminate Hx.
Qed.

Lemma build_calm c files : c_block_size c < 55 ->
  (if version_ge (c_version c) V3 then narrow (all_contents c files)
   else lenN files < 2 ^ 30 - 2 /\ Forall fits files) ->
  build L md5 c files <> Panic.
Proof.
  intros Hb H. unfold build. destruct (version_ge (c_version c) V3).
  - apply write_archive34_calm; [exact Hb|]. now rewrite data_prepared.
  - destruct H as [H1 H2]. apply write_archive12_calm; [exact Hb|now apply prepare_count|now apply fits_prepared].
Qed.
End Calm.

Lemma build_calm12 L md5 c files : calm_encoders L -> c_version c = V1 \/ c_version c = V2 ->
  c_block_size c < 55 -> lenN files < 2 ^ 30 - 2 ->
  (forall f, In f files -> pf_encrypt f = true -> lenN (pf_data f) <= 4000000000) ->
  build L md5 c files <> Panic.
Proof.
  intros HL Hv Hb Hn Hf. apply build_calm; [exact HL|exact Hb|].
  replace (version_ge (c_version c) V3) with false by (destruct Hv as [-> | ->]; reflexivity).
  split; [exact Hn|]. apply Forall_forall. exact Hf.
Qed.
Lemma build_calm34 L md5 c files : calm_encoders L -> c_version c = V3 \/ c_version c = V4 ->
  c_block_size c < 55 -> narrow (all_contents c files) ->
  build L md5 c files <> Panic.
Proof.
  intros HL Hv Hb Hr. apply build_calm; [exact HL|exact Hb|].
  replace (version_ge (c_version c) V3) with true by (destruct Hv as [-> | ->]; reflexivity). exact Hr.
Qed.

(** ** Refutations *)
Lemma block_size_refuted L md5 : build L md5 (mkCfg V1 64 LNone 0 false false 0) [] = Panic.
Proof. reflexivity. Qed.
Lemma sector_zero_refuted L md5 : build L md5 (mkCfg V1 55 LNone 0 false false 0)
  [mkPF (lit "x") (lit "a") 0 false false 0] = Panic.
Proof. reflexivity. Qed.

Lemma write_plain_single L c ss d n p : c_crcs c = false -> lenN d <= ss ->
  write_file L c ss (mkPF d n 0 false false 0) p = Ok (d, lenN d, FLAG_SINGLE_UNIT).
Proof.
  intros Hc Hl. unfold write_file. cbn [pf_data]. rewrite (proj2 (N.leb_le _ _) Hl).
  unfold write_single, store_form. cbn [pf_data pf_comp]. change (0 =? 0) with true. cbn [orb bind].
  rewrite Hc. cbn [pf_encrypt pf_fix andb flag_if]. rewrite app_nil_r. reflexivity.
Qed.

Lemma big_refuted L md5 d : 2 ^ 21 <= lenN d -> lenN d <= 2 ^ 25 ->
  build L md5 (mkCfg V3 16 LNone 0 false false 0)
    [mkPF d (lit "a") 0 false false 0; mkPF [] (lit "b") 0 false false 0] = Panic.
Proof.
  intros H1 H2. unfold build, write_archive34. cbn [c_version c_block_size version_ge prepare_listfile c_listfile].
  change (sector_size 16) with (@Ok N 33554432). cbn [bind]. cbv zeta.
  change (2 ^ 25) with 33554432 in H2. change (2 ^ 21) with 2097152 in H1.
  assert (W : exists b x, write_files L (mkCfg V3 16 LNone 0 false false 0) 33554432
     [mkPF d (lit "a") 0 false false 0; mkPF [] (lit "b") 0 false false 0] (header_size_of V3) =
     Ok (b, [(68, mkBE 68 (lenN d) (lenN d) x); (68 + lenN d, mkBE (68 + lenN d) 0 0 x)])).
  { cbn [write_files]. rewrite !write_plain_single by (reflexivity || (try change (lenN (@nil byte)) with 0; lia)). cbn [bind].
    rewrite write_plain_single by (reflexivity || (try change (lenN (@nil byte)) with 0; lia)). cbn [bind].
    unfold block_entry, pos_low. cbn [pf_data]. change (lenN (@nil byte)) with 0. change (header_size_of V3) with 68.
    assert (HM : M32 = 4294967296) by reflexivity.
    rewrite !(w32_small (lenN d)), !(w32_small (68 + lenN d)) by lia. change (w32 68) with 68. change (w32 0) with 0.
    eexists. eexists. reflexivity. }
  destruct W as (b & x & ->). cbn [bind map snd pf_name].
  destruct (create_het_table _) as [het| |] eqn:Eh; [|vm_compute in Eh; discriminate|vm_compute in Eh; discriminate].
  cbn [bind]. unfold write_ext_table at 1. cbn [c_ctables].
  destruct (_ <? 12) eqn:E12; [vm_compute in Eh; apply Ok_inj in Eh; subst het; vm_compute in E12; discriminate|].
  cbn [bind]. rewrite create_bet_wide; [reflexivity|discriminate|].
  cbn [max_of fold_right be_pos be_size be_csize].
  assert (B1 : 21 < bits_needed (N.max 68 (N.max (68 + lenN d) 0))).
  { apply bits_needed_ge. change (2 ^ 21) with 2097152. lia. }
  assert (B2 : 21 < bits_needed (N.max (lenN d) (N.max 0 0))).
  { apply bits_needed_ge. change (2 ^ 21) with 2097152. lia. }
  lia.
Qed.

(** ** Encrypting a file of four gigabytes *)
Lemma enc_sectors_offsets key ds data : forall offs i out,
  enc_sectors key ds data offs i = Ok out -> forall x, In x (tl offs) -> w32 ds <= x.
Proof.
  induction offs as [|a [|b r] IH]; intros i out H x Hx; [destruct Hx|destruct Hx|].
  rewrite enc_sectors_step in H. unfold sub_chk in H.
  destruct (a <? w32 ds); cbn [bind] in H; [discriminate|].
  destruct (N.ltb_spec b (w32 ds)) as [C|C]; cbn [bind] in H; [discriminate|].
  destruct (_ <? _); [discriminate|]. destruct (slice _ _ _); [|discriminate].
  destruct (enc_sectors key ds data (b :: r) (i + 1)) as [o| |] eqn:E; cbn [bind] in H; try discriminate.
  cbn [tl] in Hx. destruct Hx as [<-|Hx]; [exact C|]. exact (IH _ _ E x Hx).
Qed.

Lemma enc_sectors_no_err key ds data : forall offs i e, enc_sectors key ds data offs i <> Err e.
Proof.
  induction offs as [|a [|b r] IH]; intros i e; [discriminate|discriminate|].
  rewrite enc_sectors_step. unfold sub_chk.
  destruct (a <? w32 ds); cbn [bind]; [discriminate|]. destruct (b <? w32 ds); cbn [bind]; [discriminate|].
  destruct (_ <? _); [discriminate|]. destruct (slice _ _ _); [|discriminate].
  destruct (enc_sectors key ds data (b :: r) (i + 1)) as [o|e'|] eqn:E; cbn [bind]; try discriminate.
  intros _. exact (IH _ _ E).
Qed.

Lemma offsets_wrap ss total t : cut ss total t -> ss <= M32 -> forall at_, at_ < M32 -> M32 <= at_ + total ->
  exists x, In x (tl (sector_offsets at_ t)) /\ x < ss.
Proof.
  intros H Hss. induction H as [|total s t Hs E _ IH]; intros at_ H1 H2; [lia|].
  cbn [sector_offsets tl]. destruct (N.lt_ge_cases (at_ + lenN s) M32) as [C|C].
  - destruct (IH (at_ + lenN s) C ltac:(lia)) as (x & Hx & Hl). exists x. split; [|exact Hl].
    destruct (sector_offsets_shape (at_ + lenN s) t) as [r Er]. rewrite Er in *. right. exact Hx.
  - exists (w32 (at_ + lenN s)).
    destruct (sector_offsets_shape (at_ + lenN s) t) as [r ->]. split; [left; reflexivity|].
    unfold w32. fold M32. replace (at_ + lenN s) with (at_ + lenN s - M32 + 1 * M32) by lia.
    rewrite N.mod_add by discriminate. rewrite N.mod_small; lia.
Qed.

Lemma encrypted_refuted L md5 c f rest :
  c_block_size c <= 6 -> lenN rest < 2 ^ 29 -> pf_encrypt f = true -> pf_comp f = 0 ->
  2 ^ 32 <= lenN (pf_data f) -> lenN (pf_data f) <= 2 ^ 33 ->
  build L md5 c (f :: rest) = Panic.
Proof.
  intros Hb Hr He Hc H1 H2.
  assert (W : forall ss p, sector_size (c_block_size c) = Ok ss -> write_file L c ss f p = Panic).
  { intros ss p Hss. destruct (sector_size_small (c_block_size c) ltac:(lia)) as (ss' & E & Hz).
    rewrite Hss in E. apply Ok_inj in E. subst ss'. pose proof (sector_size_ok _ _ Hss Hz) as E.
    assert (H512 : 512 <= ss <= 32768).
    { rewrite E. unfold sector_bytes. split.
      - assert (2 ^ c_block_size c <> 0) by (apply N.pow_nonzero; lia). lia.
      - assert (2 ^ c_block_size c <= 2 ^ 6) by (apply N.pow_le_mono_r; lia). change (2 ^ 6) with 64 in *. lia. }
    change (2 ^ 32) with 4294967296 in H1. change (2 ^ 33) with 8589934592 in H2.
    unfold write_file. rewrite (proj2 (N.leb_gt _ _)) by lia.
    unfold write_multi. rewrite (proj2 (N.eqb_neq _ _) Hz). cbv zeta.
    rewrite Hc, He. destruct (store_sectors_plain L (chunks (length (pf_data f)) ss (pf_data f))) as [x ->].
    cbn [bind]. set (d := pf_data f) in *. set (n := div_ceil (lenN d) ss).
    assert (Hn : 131072 <= n <= 16777217).
    { unfold n, div_ceil. split; [apply N.div_le_lower_bound; nia|apply N.div_le_upper_bound; nia]. }
    match goal with |- bind (enc_sectors ?k ?ds ?dd ?oo ?i) _ = _ =>
      pose proof (enc_sectors_offsets k ds dd oo i) as Ho; pose proof (enc_sectors_no_err k ds dd oo i) as Hne;
      destruct (enc_sectors k ds dd oo i) as [out|e|]; [|exfalso; exact (Hne e eq_refl)|reflexivity];
      assert (Hds : 524292 <= ds <= 134217744) by (destruct (c_crcs c); lia);
      specialize (Ho out eq_refl);
      destruct (offsets_wrap ss (lenN d) (chunks (length d) ss d) (chunks_cut (length d) ss d ltac:(lia) (le_n _))
        ltac:(unfold M32; lia) ds ltac:(unfold M32; lia) ltac:(unfold M32; lia)) as (y & Hy & Hlt)
    end.
    specialize (Ho y Hy). rewrite w32_small in Ho; [lia|]. unfold M32. change (2 ^ 32) with 4294967296. lia. }
  unfold build. assert (exists r, prepare_listfile c (f :: rest) = f :: r /\ lenN r < 2 ^ 29 + 1) as (r & -> & Hl).
  { change (2 ^ 29) with 536870912 in *. unfold prepare_listfile.
    destruct (c_listfile c) as [|d|]; [eexists (rest ++ [_])|eexists (rest ++ [_])|exists rest];
      (split; [reflexivity|]); rewrite ?lenN_app, ?lenN_cons; try change (lenN (@nil pending)) with 0; lia. }
  destruct (sector_size_small (c_block_size c) ltac:(lia)) as (ss & E & Hz).
  destruct (version_ge _ _).
  - unfold write_archive34. rewrite E. cbn [bind write_files]. cbv zeta. rewrite W by exact E. reflexivity.
  - unfold write_archive12. rewrite E. cbn [bind]. cbv zeta.
    destruct (names_calm c (f :: r)) as (t0 & -> & _).
    { unfold table_count. rewrite lenN_cons. change (2 ^ 30) with 1073741824. change (2 ^ 29) with 536870912 in Hl.
      destruct (c_listfile c); lia. }
    cbn [bind write_files]. rewrite W by exact E. reflexivity.
Qed.
