(** * Archives of version 3 and 4 that cannot be built. *)
From Verif Require Import Bytes Crypto CryptoFacts HashTable BlockTable Header
  Compress HashTableFacts TableMap Adler Listfile HetBet BitFacts HetBetFacts Builder BuilderFacts Attributes Archive
  ReadFacts OpenFacts SpecArchive SpecArchive34 Open34Facts ArchiveFacts LayoutFacts.
Open Scope N_scope.

Lemma bits_needed_ge v k : 2 ^ k <= v -> k < bits_needed v.
Proof.
  intros H. pose proof (bits_needed_spec v) as S. apply (N.pow_lt_mono_r_iff 2); [lia|].
  eapply N.le_lt_trans; eauto.
Qed.

(** A block entry with a position, a size and a stored size whose widths make up
    64 bits or more crashes the builder. *)
Lemma create_bet_wide names bt : bt <> [] ->
  64 <= bits_needed (max_of be_pos bt) + bits_needed (max_of be_size bt) + bits_needed (max_of be_csize bt) ->
  create_bet_table names bt = Panic.
Proof.
  intros Hne Hw. unfold create_bet_table. cbv zeta.
  destruct (chk32 (w32 _ * _)) as [tb| |] eqn:E1; unfold chk32 in *; cbn [bind]; [|destruct (_ <? _) in E1; discriminate|reflexivity].
  match goal with |- bind (if ?b then _ else _) _ = _ => destruct b; cbn [bind]; [|reflexivity] end.
  destruct bt as [|e r]; [congruence|]. cbn [bet_fill].
  destruct (index_of _ _ _) as [fi|]; cbn [bind]; [|reflexivity].
  unfold shl64 at 1. change (0 <? 64) with true. cbn [bind].
  unfold shl64. destruct (_ <? 64) eqn:C1; cbn [bind]; [|reflexivity].
  destruct (_ <? 64) eqn:C2 at 1; cbn [bind]; [|reflexivity].
  match goal with |- context [if ?b then Ok (w64 (N.shiftl fi _)) else _] => replace b with false by lia end.
  reflexivity.
Qed.

Section Large.
Variable L : codecs.
Variable md5 : bytes -> bytes.

Lemma store_sectors_plain l : exists c, store_sectors L l 0 = Ok (l, c).
Proof.
  induction l as [|d l [c IH]]; cbn [store_sectors]; [eauto|].
  unfold store_form. change (0 =? 0) with true. cbn [orb bind]. rewrite IH. cbn [bind]. eauto.
Qed.

(** A file that is not compressed is recorded with at least its size. *)
Lemma write_file_plain c ss f p out csize flags :
  sector_size (c_block_size c) = Ok ss -> lenN (pf_data f) <= 4000000000 -> pf_comp f = 0 ->
  write_file L c ss f p = Ok (out, csize, flags) ->
  lenN (pf_data f) <= csize /\ csize < M32 /\ lenN (pf_data f) <= lenN out /\ lenN out < 4200000000.
Proof.
  intros Hss Hlen Hc W.
  destruct (write_file_size L c ss f p out csize flags Hss Hlen W) as [HM Ho].
  assert (G : lenN (pf_data f) <= csize /\ csize <= 4000000000 + 31250008 /\ checksum_bytes c f <= 31250008).
  2:{ lia. }
  unfold write_file in W.
  assert (CB : checksum_bytes c f <= 31250008).
  { unfold checksum_bytes. destruct (c_crcs c); [|lia].
    assert (H512 : 512 <= sector_bytes c).
    { unfold sector_bytes. assert (2 ^ c_block_size c <> 0) by (apply N.pow_nonzero; lia). lia. }
    assert (div_ceil (lenN (pf_data f)) (sector_bytes c) <= 7812501); [|lia].
    unfold div_ceil. apply N.div_le_upper_bound; [lia|].
    assert (7812500 * 512 <= 7812500 * sector_bytes c) by (apply N.mul_le_mono_l; exact H512). lia. }
  destruct (N.leb_spec (lenN (pf_data f)) ss) as [C|C].
  - unfold write_single, store_form in W. rewrite Hc in W. change (0 =? 0) with true in W. cbn [orb bind] in W.
    apply Ok_inj in W. injection W as W1 W2 W3.
    assert (Hl : csize = lenN (pf_data f)).
    { rewrite <- W2. destruct (pf_encrypt f); [apply lenN_encrypt_data|reflexivity]. }
    lia.
  - unfold write_multi in W. destruct (N.eqb_spec ss 0) as [|Hz]; [discriminate|].
    pose proof (sector_size_ok _ _ Hss Hz) as E.
    assert (H512 : 512 <= ss).
    { rewrite E. unfold sector_bytes. assert (2 ^ c_block_size c <> 0) by (apply N.pow_nonzero; lia). lia. }
    set (d := pf_data f) in *. set (secs := chunks (length d) ss d) in *.
    set (n := div_ceil (lenN d) ss) in *.
    assert (Hn : lenN secs = n) by (apply chunks_count; lia).
    assert (Hn1 : n <= 7812501).
    { unfold n, div_ceil. apply N.div_le_upper_bound; [lia|].
      assert (7812500 * 512 <= 7812500 * ss) by (apply N.mul_le_mono_l; exact H512). lia. }
    rewrite Hc in W. destruct (store_sectors_plain secs) as [cc Es]. rewrite Es in W. cbn [bind] in W.
    assert (Hcc : concat secs = d) by (apply chunks_concat; lia).
    set (ds := (n + 1) * 4 + (if c_crcs c then n * 4 else 0)) in *.
    assert (Hds : ds <= 8 * (n + 1)) by (unfold ds; destruct (c_crcs c); lia).
    set (key := calculate_file_key _ _ _ _) in W.
    assert (Henc : enc_sectors key ds (concat secs) (sector_offsets ds secs) 0
                   = Ok (concat (enc_each key 0 secs))).
    { pose proof (enc_sectors_eq key ds secs [] 0) as H. rewrite lenN_nil, N.add_0_r in H.
      apply H. rewrite Hcc. unfold M32. change (2 ^ 32) with 4294967296. lia. }
    rewrite Henc in W.
    destruct (if pf_encrypt f then _ else _) as [data| |] eqn:Ed in W; cbn [bind] in W; try discriminate.
    assert (Hdl : lenN data = lenN (concat secs)).
    { destruct (pf_encrypt f); apply Ok_inj in Ed; subst data; [|reflexivity].
      apply enc_each_concat_length. }
    apply Ok_inj in W. injection W as W1 W2 W3. rewrite Hcc in Hdl. lia.
Qed.

(** Four megabytes stored without compression, followed by anything. *)
Lemma large_never c f0 f1 rest arc :
  version_ge (c_version c) V3 = true -> pf_comp f0 = 0 ->
  2 ^ 22 <= lenN (pf_data f0) -> lenN (pf_data f0) <= 4000000000 ->
  write_archive34 L md5 c (f0 :: f1 :: rest) <> Ok arc.
Proof.
  intros Hv Hc Hlo Hhi W. unfold write_archive34 in W.
  destruct (sector_size (c_block_size c)) as [ss| |] eqn:Ess; cbn [bind] in W; try discriminate.
  destruct (write_files L c ss (f0 :: f1 :: rest) (header_size_of (c_version c))) as [[body es]| |] eqn:Ef;
    cbn [bind] in W; try discriminate.
  destruct (create_het_table _) as [hd0| |] eqn:Ehet; cbn [bind] in W; try discriminate.
  destruct (write_ext_table L _ _ hd0 ht_key) as [hetb| |] eqn:Ehw; cbn [bind] in W; try discriminate.
  rewrite create_bet_wide in W; [discriminate| |].
  - destruct es; [|discriminate]. cbn [write_files] in Ef.
    destruct (write_file L c ss f0 _) as [[[o cz] fl]| |]; cbn [bind] in Ef; try discriminate.
    destruct (write_file L c ss f1 _) as [[[o1 cz1] fl1]| |]; cbn [bind] in Ef; try discriminate.
    destruct (write_files _ _ _ _ _) as [[b1 e1]| |]; cbn [bind] in Ef; try discriminate.
  - cbn [write_files] in Ef.
    destruct (write_file L c ss f0 _) as [[[o cz] fl]| |] eqn:W0; cbn [bind] in Ef; try discriminate.
    destruct (write_file L c ss f1 _) as [[[o1 cz1] fl1]| |]; cbn [bind] in Ef; try discriminate.
    destruct (write_files _ _ _ _ _) as [[b1 e1]| |]; cbn [bind] in Ef; try discriminate.
    apply Ok_inj in Ef. injection Ef as _ <-. cbn [map snd].
    destruct (write_file_plain _ _ _ _ _ _ _ Ess Hhi Hc W0) as (P1 & P2 & P3 & P4).
    set (h0 := header_size_of (c_version c)) in *.
    assert (Hh0 : h0 <= 208) by (unfold h0; destruct (c_version c); cbn; lia).
    set (e0 := block_entry f0 h0 cz fl). set (e1' := block_entry f1 (h0 + lenN o) cz1 fl1).
    set (bt := e0 :: e1' :: map snd e1).
    change (2 ^ 22) with 4194304 in Hlo. unfold M32 in P2. change (2 ^ 32) with 4294967296 in P2.
    assert (B1 : 2 ^ 22 <= max_of be_pos bt).
    { apply N.le_trans with (be_pos e1').
      - cbn [e1' block_entry be_pos]. unfold pos_low. change (2 ^ 22) with 4194304.
        rewrite w32_small; [lia|]. unfold M32. change (2 ^ 32) with 4294967296. lia.
      - apply max_of_le. right. left. reflexivity. }
    assert (B2 : 2 ^ 22 <= max_of be_size bt).
    { apply N.le_trans with (be_size e0).
      - cbn [e0 block_entry be_size]. change (2 ^ 22) with 4194304.
        rewrite w32_small; [lia|]. unfold M32. change (2 ^ 32) with 4294967296. lia.
      - apply max_of_le. left. reflexivity. }
    assert (B3 : 2 ^ 22 <= max_of be_csize bt).
    { apply N.le_trans with (be_csize e0).
      - cbn [e0 block_entry be_csize]. change (2 ^ 22) with 4194304.
        rewrite w32_small; [lia|]. unfold M32. change (2 ^ 32) with 4294967296. lia.
      - apply max_of_le. left. reflexivity. }
    apply bits_needed_ge in B1, B2, B3. lia.
Qed.

Lemma large_never_built c f0 f1 rest arc :
  c_version c = V3 \/ c_version c = V4 -> pf_comp f0 = 0 ->
  2 ^ 22 <= lenN (pf_data f0) -> lenN (pf_data f0) <= 4000000000 ->
  build L md5 c (f0 :: f1 :: rest) <> Ok arc.
Proof.
  intros Hv Hc H1 H2. unfold build.
  assert (Hv3 : version_ge (c_version c) V3 = true) by (destruct Hv as [-> | ->]; reflexivity).
  rewrite Hv3. assert (exists r, prepare_listfile c (f0 :: f1 :: rest) = f0 :: f1 :: r) as [r ->].
  { unfold prepare_listfile. destruct (c_listfile c); eexists; reflexivity. }
  now apply large_never.
Qed.

End Large.
