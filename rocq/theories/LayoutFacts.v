(** * The layout of version 1 and 2 archives. *)
From Verif Require Import Bytes Crypto CryptoFacts HashTable BlockTable Header
  Compress HashTableFacts TableMap Adler Listfile HetBet Builder BuilderFacts Attributes Archive
  ReadFacts OpenFacts SpecArchive ArchiveFacts.
Open Scope N_scope.

Lemma chained_app a : forall s m b e, back_to_back s a m -> back_to_back m b e -> back_to_back s (a ++ b) e.
Proof.
  induction a as [|r t IH]; intros s m b e H1 H2; cbn [back_to_back app] in *.
  - now subst.
  - destruct H1 as [H1 H3]. split; [exact H1|]. eapply IH; eauto.
Qed.

Lemma chained_le rs : forall s e, back_to_back s rs e ->
  s <= e /\ Forall (fun r => s <= fst r /\ fst r + snd r <= e) rs.
Proof.
  induction rs as [|r t IH]; intros s e H; cbn [back_to_back] in H.
  - subst. split; [lia|constructor].
  - destruct H as [H1 H2]. apply IH in H2 as [H2 H3]. split; [lia|]. constructor; [lia|].
    eapply Forall_impl; [|exact H3]. cbn. intros x Hx. lia.
Qed.

Lemma chained_apart rs : forall s e, back_to_back s rs e -> pairwise_apart rs.
Proof.
  induction rs as [|r t IH]; intros s e H; cbn [back_to_back pairwise_apart] in *; [exact I|].
  destruct H as [H1 H2]. split; [|eapply IH; eauto].
  apply chained_le in H2 as [_ H2]. eapply Forall_impl; [|exact H2]. cbn. intros x Hx.
  left. lia.
Qed.

Section Lay.
Variable L : codecs.

Lemma write_files_ranges c ss fs : forall pos body es,
  write_files L c ss fs pos = Ok (body, es) ->
  exists rs, back_to_back pos rs (pos + lenN body) /\ length rs = length fs /\
    forall i f, nth_error fs i = Some f -> exists p out csize flags,
      nth_error rs i = Some (p, lenN out) /\ nth_error es i = Some (p, block_entry f p csize flags) /\
      write_file L c ss f p = Ok (out, csize, flags).
Proof.
  induction fs as [|f fs IH]; intros pos body es H; cbn [write_files] in H.
  - apply Ok_inj in H. injection H as <- <-. exists []. split; [cbn [back_to_back]; change (lenN (@nil byte)) with 0; lia|].
    split; [reflexivity|]. intros [|i] g Hg; discriminate.
  - destruct (write_file L c ss f pos) as [[[out csize] flags]| |] eqn:E; cbn [bind] in H; try discriminate.
    destruct (write_files L c ss fs (pos + lenN out)) as [[rest es']| |] eqn:F; cbn [bind] in H;
      try discriminate.
    apply Ok_inj in H. injection H as <- <-.
    destruct (IH _ _ _ F) as (rs & H1 & H2 & H3).
    exists ((pos, lenN out) :: rs). split.
    + cbn [back_to_back fst snd]. split; [reflexivity|]. rewrite lenN_app, N.add_assoc. exact H1.
    + split; [cbn; lia|]. intros [|i] g Hg; cbn [nth_error] in *.
      * injection Hg as <-. exists pos, out, csize, flags. auto.
      * apply H3. exact Hg.
Qed.

(** The size recorded and the checksums account for every byte written. *)
Lemma write_file_size c ss f p out csize flags :
  sector_size (c_block_size c) = Ok ss -> lenN (pf_data f) <= 4000000000 ->
  write_file L c ss f p = Ok (out, csize, flags) ->
  csize < M32 /\ lenN out = csize + checksum_bytes c f.
Proof.
  intros Hss Hlen W. unfold write_file in W.
  destruct (N.leb_spec (lenN (pf_data f)) ss) as [C|C].
  - unfold write_single in W.
    destruct (store_form L (pf_data f) (pf_comp f)) as [[body comp]| |] eqn:E; cbn [bind] in W;
      try discriminate.
    apply Ok_inj in W. injection W as W1 W2 W3.
    apply store_form_le in E.
    assert (Hl : csize = lenN body).
    { rewrite <- W2. destruct (pf_encrypt f); [apply lenN_encrypt_data|reflexivity]. }
    split; [unfold M32; change (2 ^ 32) with 4294967296; lia|].
    rewrite <- W1, lenN_app, W2. f_equal. unfold checksum_bytes. destruct (c_crcs c); [|reflexivity].
    unfold lenN at 1. rewrite le32_length.
    replace (N.max 1 _) with 1; [reflexivity|].
    destruct (N.eq_dec ss 0) as [->|Hz].
    + assert (lenN (pf_data f) = 0) as -> by lia. rewrite div_ceil_0; [reflexivity|].
      unfold sector_bytes. assert (2 ^ c_block_size c <> 0) by (apply N.pow_nonzero; lia). lia.
    + apply sector_size_ok in Hss; [|exact Hz]. rewrite <- Hss.
      assert (div_ceil (lenN (pf_data f)) ss < 2); [|lia].
      unfold div_ceil. apply N.div_lt_upper_bound; lia.
  - unfold write_multi in W. destruct (N.eqb_spec ss 0) as [|Hz]; [discriminate|].
    pose proof (sector_size_ok _ _ Hss Hz) as E.
    assert (H512 : 512 <= ss).
    { rewrite E. unfold sector_bytes. assert (2 ^ c_block_size c <> 0) by (apply N.pow_nonzero; lia). lia. }
    unfold checksum_bytes. rewrite <- E.
    set (d := pf_data f) in *. set (secs := chunks (length d) ss d) in *.
    set (n := div_ceil (lenN d) ss) in *.
    assert (Hn : lenN secs = n) by (apply chunks_count; lia).
    assert (Hn1 : n <= 7812501).
    { unfold n, div_ceil. apply N.div_le_upper_bound; [lia|].
      assert (7812500 * 512 <= 7812500 * ss) by (apply N.mul_le_mono_l; exact H512). lia. }
    assert (Hn0 : 1 <= n).
    { unfold n, div_ceil. apply N.div_le_lower_bound; lia. }
    destruct (store_sectors L secs (pf_comp f)) as [[stored comp]| |] eqn:Es; cbn [bind] in W;
      try discriminate.
    destruct (store_sectors_le _ _ _ _ _ Es) as [Hlst Hle].
    assert (Hcc : concat secs = d) by (apply chunks_concat; lia).
    rewrite Hcc in Hle.
    set (ds := (n + 1) * 4 + (if c_crcs c then n * 4 else 0)) in *.
    assert (Hds : ds <= 8 * (n + 1)) by (unfold ds; destruct (c_crcs c); lia).
    set (key := calculate_file_key _ _ _ _) in W.
    assert (Henc : enc_sectors key ds (concat stored) (sector_offsets ds stored) 0
                   = Ok (concat (enc_each key 0 stored))).
    { pose proof (enc_sectors_eq key ds stored [] 0) as H. rewrite lenN_nil, N.add_0_r in H.
      apply H. unfold M32. change (2 ^ 32) with 4294967296. lia. }
    rewrite Henc in W.
    destruct (if pf_encrypt f then _ else _) as [data| |] eqn:Ed in W; cbn [bind] in W; try discriminate.
    assert (Hdl : lenN data = lenN (concat stored)).
    { destruct (pf_encrypt f); apply Ok_inj in Ed; subst data; [|reflexivity].
      apply enc_each_concat_length. }
    apply Ok_inj in W. injection W as W1 W2 W3.
    split; [rewrite <- W2, Hdl; unfold M32; change (2 ^ 32) with 4294967296; lia|].
    rewrite <- W1, <- W2, !lenN_app.
    assert (Ht : forall tab, lenN tab = n + 1 -> lenN (bytes_of_words tab) = (n + 1) * 4).
    { intros tab Htab. rewrite words_bytes_lenN. lia. }
    rewrite Ht.
    + destruct (c_crcs c); [rewrite crcs_length|change (lenN (@nil byte)) with 0]; lia.
    + assert (lenN (sector_offsets ds stored) = n + 1).
      { unfold lenN. rewrite sector_offsets_length, Hlst. unfold lenN in Hn. lia. }
      destruct (pf_encrypt f); [rewrite lenN_encrypt_block|]; exact H.
Qed.

Variable md5 : bytes -> bytes.

Lemma built_layout c files arc pre post :
  built_at L md5 c files arc pre post ->
  hashes_apart ATTRIBUTES (LISTFILE :: map pf_name files) ->
  exists a bt rs, open_archive L (pre ++ arc ++ post) = Ok a /\ a_block a = Some bt /\
    let h := a_header a in
    let all := (0, h_size h) :: rs ++
               (get_hash_table_pos h, 16 * h_hash_count h) ::
               (get_block_table_pos h, 16 * h_block_count h) ::
               match a_hi a with
               | Some _ => match h_hi_pos h with Some p => [(p, 2 * h_block_count h)] | None => [] end
               | None => []
               end in
    back_to_back 0 all (lenN arc) /\ pairwise_apart all /\ Forall (inside (lenN arc)) all /\
    lenN (prepare_listfile c files) = lenN rs /\
    forall i f, nth_error (prepare_listfile c files) i = Some f ->
      exists b n, nth_error bt i = Some b /\
        nth_error rs i = Some (pos_full (a_hi a) (N.of_nat i) (be_pos b), n) /\
        (lenN (pf_data f) <= 4000000000 -> n = be_csize b + checksum_bytes c f).
Proof.
  intros Hb Ha.
  destruct (built_open L md5 c files arc pre post Hb Ha) as (a & ss & Ho & Hss & _ & _ & _ & _ & bt & Hbt & Hlay).
  destruct Hlay as (body & es & -> & Hpf & Hw & Hs & Hhp & Hbp & Hbc & _ & _ & Hhi).
  destruct (write_files_ranges _ _ _ _ _ _ Hw) as (rs & Hch & Hlen & Hrs).
  exists a, (map snd es), rs. split; [exact Ho|]. split; [exact Hbt|]. cbv zeta.
  set (h := a_header a) in *.

  match goal with |- back_to_back 0 ?x _ /\ _ => set (all := x) end.
  assert (Hall : back_to_back 0 all (lenN arc)).
  { unfold all. cbn [back_to_back fst snd]. split; [reflexivity|]. rewrite N.add_0_l.
    eapply chained_app; [exact Hch|]. cbn [back_to_back fst snd]. rewrite <- Hhp.
    split; [reflexivity|]. rewrite <- Hbp. split; [reflexivity|].
    destruct (a_hi a).
    - destruct Hhi as [Hp Hl]. rewrite Hp. cbn [back_to_back fst snd]. split; [reflexivity|symmetry; exact Hl].
    - destruct Hhi as [_ Hl]. cbn [back_to_back]. symmetry. exact Hl. }
  split; [exact Hall|]. split; [eapply chained_apart; exact Hall|].
  split.
  { apply chained_le in Hall as [_ Hall]. eapply Forall_impl; [|exact Hall]. cbn. intros r [_ Hr]. exact Hr. }
  split; [unfold lenN; f_equal; symmetry; exact Hlen|].
  intros i f Hi. destruct (Hrs i f Hi) as (p & out & cs & fl & R1 & R2 & R3).
  exists (block_entry f p cs fl), (lenN out). split; [rewrite nth_error_map, R2; reflexivity|].
  cbn [be_pos be_csize block_entry]. rewrite (Hpf _ _ _ R2). split; [exact R1|].
  intros Hl. destruct (write_file_size _ _ _ _ _ _ _ Hss Hl R3) as [Hc ->].
  now rewrite w32_small.
Qed.

End Lay.
