(** * What the builder stores, as the format describes it. *)
From Verif Require Import Bytes Crypto CryptoFacts SpecNames NameFacts HashTable BlockTable Header Compress SpecCompress
  CompressFacts Adler Listfile HetBet Builder BuilderFacts Attributes Archive ReadFacts SpecArchive ArchiveFacts
  SpecTables TableMap HashTableFacts OpenFacts SpecArchive34 Archive34Facts
  SpecStored StoredFacts SpecConform.
Open Scope N_scope.

Lemma words_whole d : lenN d mod 4 = 0 -> exists ws, words_of_bytes d = (ws, []) /\ words_ok ws /\ d = bytes_of_words ws.
Proof.
  intros H. pose proof (words_of_bytes_spec d) as S. destruct (words_of_bytes d) as [ws r].
  destruct S as (S1 & S2 & S3 & S4). exists ws.
  assert (r = []) as ->.
  { rewrite S1, lenN_app, words_bytes_lenN in H. rewrite N.add_comm, N.mul_comm, N.mod_add in H by discriminate.
    destruct r as [|x r]; [reflexivity|]. exfalso. rewrite N.mod_small in H; unfold lenN in *; cbn [length] in *; lia. }
  rewrite app_nil_r in S1. auto.
Qed.

Lemma encrypt_kept whole flags key d : on flags 16 = true -> lenN d mod 4 = 0 -> kept whole flags key d (encrypt_data d key).
Proof.
  intros H Hd. unfold kept. rewrite H. destruct (words_whole d Hd) as (ws & E & Hw & Ed).
  exists ws, []. rewrite !app_nil_r. split; [exact Hw|]. split; [cbn; lia|]. split; [auto|]. split; [exact Ed|].
  destruct (N.eq_dec key 0) as [->|Hk].
  - now rewrite encrypt_data_0, encrypt_block_0.
  - rewrite (encrypt_data_eq d key ws [] E Hk). unfold tail_crypt. cbn [length firstn]. apply app_nil_r.
Qed.

Lemma key_same name f pos flags size : name_equiv name (pf_name f) ->
  calculate_file_key (pf_name f) pos size flags = file_key name (N.lor flags FLAG_EXISTS) pos size.
Proof.
  intros Hn. unfold calculate_file_key, file_key. rewrite <- (name_equiv_hash _ _ _ Hn). change HT_FILE_KEY with 3.
  rewrite <- (fix_key_exists flags). change FLAG_FIX_KEY with (2 ^ 17). rewrite on_flag.
  destruct (on (N.lor flags FLAG_EXISTS) 17); [|reflexivity]. f_equal. unfold w32. fold M32. now rewrite N.add_mod_idemp_r.
Qed.

Section L.
Variable L : codecs.

Lemma packed_meant m d r : lossless L -> In m common_methods -> m <> 0 -> compress L d m = Ok r -> r <> d ->
  exists c, r = Nb m :: c /\ meant L (bN (Nb m)) c d.
Proof.
  intros (Hz & Hb & Hl & Hp) Hm H0 H Hne.
  apply compress_result in H as [E|(c & -> & Hc & Hlt)]; [congruence|]. exists c. split; [reflexivity|].
  destruct Hm as [<-|[<-|[<-|[<-|[<-|[]]]]]]; [congruence| | | |].
  - change (compress_internal L d 2) with (zlib_enc L d) in Hc. destruct (Hz _ _ Hc) as [N D].
    split; [exact N|]. left. auto.
  - change (compress_internal L d 8) with (pk_compress L d) in Hc.
    unfold pk_compress in Hc. destruct d as [|x d]; [rewrite lenN_nil in Hlt; lia|].
    destruct (Hp _ _ Hc) as [N D]. split; [exact N|]. right. left. auto.
  - change (compress_internal L d 16) with (bz_enc L d) in Hc. destruct (Hb _ _ Hc) as [N D].
    split; [exact N|]. right. right. left. auto.
  - change (compress_internal L d 18) with (lzma_enc L d) in Hc. destruct (Hl _ _ Hc) as [N D].
    split; [exact N|]. do 3 right. left. auto.
Qed.

Lemma compress_0 d r : compress L d 0 = Ok r -> r = d.
Proof.
  unfold compress. change (compress_internal L d 0) with (Ok d). cbn [bind]. rewrite N.leb_refl.
  intros E. apply Ok_inj in E. now symmetry.
Qed.
Lemma compress_none d : compress L d 0 = Ok d.
Proof. unfold compress. change (compress_internal L d 0) with (Ok d). cbn [bind]. now rewrite N.leb_refl. Qed.

(** What is stored for a file or a sector *)
Lemma form_piece m s b x flags : lossless L -> In m common_methods -> store_form L s m = Ok (b, x) ->
  (x = true -> on flags 9 = true) -> clear_cut L m s -> piece L flags b s.
Proof.
  intros HL Hm H Hx Hc. apply store_form_result in H as [[_ ->]|(-> & H0 & C & Ne)]; [now left|].
  right. split; [exact (Hc _ C Ne)|]. left. split; [now apply Hx|].
  destruct (packed_meant m s b HL Hm H0 C Ne) as (c & -> & M). eauto.
Qed.
Lemma form_words m s b x : store_form L s m = Ok (b, x) -> in_words L m s -> lenN b mod 4 = 0.
Proof.
  intros H W. unfold store_form in H. destruct (N.eqb_spec m 0) as [->|H0]; cbn [orb] in H.
  { apply Ok_inj in H. injection H as <- _. apply W, compress_none. }
  destruct (N.eqb_spec (lenN s) 0) as [E|E].
  { apply Ok_inj in H. injection H as <- _. now rewrite E. }
  destruct (compress L s m) as [c| |] eqn:C; cbn [bind] in H; try discriminate.
  destruct (bytes_eqb c s) eqn:B; apply Ok_inj in H; injection H as <- _.
  - apply bytes_eqb_eq in B. subst c. now apply W.
  - now apply W.
Qed.

Lemma single_seen crc comp enc fix_ : let g := single_flags crc comp enc fix_ in
  on g 8 = false /\ on g 9 = comp /\ on g 16 = enc /\ on g 17 = enc && fix_ /\ on g 24 = true /\ on g 26 = crc /\ on g 31 = true.
Proof. destruct crc, comp, enc, fix_; vm_compute; auto 10. Qed.
Lemma multi_seen crc comp enc fix_ : let g := multi_flags crc comp enc fix_ in
  on g 8 = false /\ on g 9 = comp /\ on g 16 = enc /\ on g 17 = enc && fix_ /\ on g 24 = false /\ on g 26 = crc /\ on g 31 = true.
Proof. destruct crc, comp, enc, fix_; vm_compute; auto 10. Qed.

Lemma single_stored c f pos out csize flags file base ss name :
  lossless L -> write_single L c f pos = Ok (out, csize, flags) ->
  slice (base + pos) (lenN out) file = Some out ->
  lenN (pf_data f) < M32 -> In (pf_comp f) common_methods -> name_equiv name (pf_name f) ->
  clear_cut L (pf_comp f) (pf_data f) -> (pf_encrypt f = true -> in_words L (pf_comp f) (pf_data f)) ->
  let g := N.lor flags FLAG_EXISTS in
  stored_as L true file base ss name (base + pos) (w32 csize) g (pf_data f) /\
  on g 16 = pf_encrypt f /\ on g 17 = pf_encrypt f && pf_fix f /\ on g 26 = c_crcs c /\ on g 24 = true /\ on g 31 = true.
Proof.
  intros HL W Hs Hlen Hm Hn Hcc Hw g. unfold write_single in W.
  destruct (store_form L (pf_data f) (pf_comp f)) as [[body comp]| |] eqn:E; cbn [bind] in W; try discriminate.
  apply Ok_inj in W. injection W as W1 W2 W3.
  assert (Hg : g = single_flags (c_crcs c) comp (pf_encrypt f) (pf_fix f)) by (unfold g; rewrite <- W3; reflexivity).
  destruct (single_seen (c_crcs c) comp (pf_encrypt f) (pf_fix f)) as (G8 & G9 & G16 & G17 & G24 & G26 & G31).
  cbv zeta in *. rewrite <- Hg in *.
  split; [|auto]. unfold stored_as. rewrite G24. cbv zeta.
  replace (base + pos - base) with pos by (clear; lia).
  rewrite w32_small in W1, W2 by exact Hlen. rewrite W3 in W1, W2. rewrite (key_same name f pos flags _ Hn) in W1, W2.
  fold g in W1, W2. set (key := file_key name g pos (lenN (pf_data f))) in *.
  set (fin := if pf_encrypt f then encrypt_data body key else body) in *.
  assert (Hfl : lenN fin = lenN body) by (unfold fin; destruct (pf_encrypt f); [apply lenN_encrypt_data|reflexivity]).
  assert (Hbl : lenN body <= lenN (pf_data f)) by (now apply store_form_le in E).
  assert (Ecs : w32 csize = lenN fin) by (rewrite <- W2; apply w32_small; clear - Hfl Hbl Hlen; lia).
  rewrite Ecs. exists body, fin. split; [|split; [|split]].
  - eapply slice_prefix; [exact Hs|symmetry; exact W1].
  - unfold fin. destruct (pf_encrypt f) eqn:Een; [|unfold kept; now rewrite G16].
    apply encrypt_kept; [exact G16|]. eapply form_words; [exact E|now apply Hw].
  - eapply form_piece; eauto.
  - rewrite G26. intros Hcrc. rewrite Hcrc in W1. change 4 with (lenN (le32 (adler32 (pf_data f)))).
    eapply slice_suffix; [exact Hs|symmetry; exact W1].
Qed.

(** ** Several sectors *)
Lemma cut_sectors ss secs : forall d, cut ss (lenN d) secs -> concat secs = d -> sectors ss d secs.
Proof.
  induction secs as [|s t IH]; intros d Hc E; cbn [concat] in E.
  - now subst d.
  - inversion Hc as [|tot s' t' Hp Hl Hc' E1]; subst. cbn [sectors]. exists (concat t).
    split; [reflexivity|]. split; [clear - Hp; intros ->; unfold lenN in Hp; cbn in Hp; lia|].
    assert (Er : lenN (s ++ concat t) - lenN s = lenN (concat t)) by (rewrite lenN_app; lia).
    rewrite Er in Hc'.
    split; [|now apply IH].
    rewrite lenN_app in Hl. destruct (N.eq_dec (lenN s) ss) as [|Hne]; [now left|right].
    assert (lenN (concat t) = 0) by lia. split; [lia|]. destruct (concat t); [reflexivity|rewrite lenN_cons in *; lia].
Qed.

Lemma stored_nth m secs : forall stored i s, all_stored L m secs stored -> nth_error secs i = Some s ->
  exists b x, nth_error stored i = Some b /\ store_form L s m = Ok (b, x).
Proof.
  induction secs as [|s t IH]; intros stored i s0 Ha Hi; destruct stored as [|b u]; try contradiction.
  - destruct i; discriminate.
  - destruct Ha as [[x Hx] Ha]. destruct i as [|i]; cbn [nth_error] in *; [injection Hi as <-; eauto|eauto].
Qed.

Lemma store_comp m secs : forall stored comp s b, store_sectors L secs m = Ok (stored, comp) ->
  In s secs -> store_form L s m = Ok (b, true) -> comp = true.
Proof.
  induction secs as [|s t IH]; intros stored comp s0 b H Hin Hf; [contradiction|]. cbn [store_sectors] in H.
  destruct (store_form L s m) as [[b' y]| |] eqn:E; cbn [bind] in H; try discriminate.
  destruct (store_sectors L t m) as [[r z]| |] eqn:F; cbn [bind] in H; try discriminate.
  apply Ok_inj in H. injection H as _ <-. destruct Hin as [<-|Hin].
  - rewrite E in Hf. apply Ok_inj in Hf. injection Hf as _ ->. reflexivity.
  - rewrite (IH _ _ _ _ eq_refl Hin Hf). apply orb_true_r.
Qed.

Lemma placed file base enc key : forall stored at_ i0 i b,
  (let fin := if enc : bool then enc_each key i0 stored else stored in
   slice (base + at_) (lenN (concat fin)) file = Some (concat fin)) ->
  at_ + lenN (concat stored) < M32 -> nth_error stored i = Some b ->
  exists o e, nth_error (sector_offsets at_ stored) i = Some o /\ nth_error (sector_offsets at_ stored) (S i) = Some e /\
    o <= e /\
    slice (base + o) (e - o) file = Some (if enc then encrypt_data b (w32 (key + w32 (i0 + N.of_nat i))) else b).
Proof.
  induction stored as [|s t IH]; intros at_ i0 i b Hs H32 Hi; [destruct i; discriminate|].
  rewrite lenN_concat_cons in H32.
  set (fs := if enc then encrypt_data s (w32 (key + w32 i0)) else s).
  assert (Hfs : lenN fs = lenN s) by (unfold fs; destruct enc; [apply lenN_encrypt_data|reflexivity]).
  set (ft := if enc then enc_each key (i0 + 1) t else t).
  assert (Hfin : concat (if enc then enc_each key i0 (s :: t) else s :: t) = fs ++ concat ft)
    by (unfold fs, ft; destruct enc; reflexivity).
  cbv zeta in Hs.
  assert (Hs' : slice (base + at_) (lenN (fs ++ concat ft)) file = Some (fs ++ concat ft)) by (rewrite <- Hfin; exact Hs).
  clear Hs. destruct i as [|i].
  - cbn [nth_error] in Hi. injection Hi as <-. cbn [sector_offsets nth_error].
    destruct (sector_offsets_shape (at_ + lenN s) t) as [r Er]. exists at_, (at_ + lenN s).
    rewrite Er. cbn [nth_error]. rewrite !w32_small by lia.
    split; [reflexivity|]. split; [reflexivity|]. split; [lia|].
    replace (at_ + lenN s - at_) with (lenN fs) by lia. change (N.of_nat 0) with 0. rewrite N.add_0_r.
    eapply slice_prefix; [exact Hs'|reflexivity].
  - cbn [nth_error] in Hi. destruct (IH (at_ + lenN s) (i0 + 1) i b) as (o & e & H1 & H2 & H3 & H4); [|lia|exact Hi|].
    + cbv zeta. fold ft. rewrite N.add_assoc, <- Hfs. eapply slice_suffix; [exact Hs'|reflexivity].
    + exists o, e. cbn [sector_offsets nth_error] in *. split; [exact H1|]. split; [exact H2|]. split; [exact H3|].
      rewrite H4. replace (i0 + 1 + N.of_nat i) with (i0 + N.of_nat (S i)) by lia. reflexivity.
Qed.

Lemma dec32_key k : dec32 k = (k + (2 ^ 32 - 1)) mod 2 ^ 32.
Proof. reflexivity. Qed.

Lemma multi_stored c f pos out csize flags file base ss name :
  lossless L -> write_multi L c ss f pos = Ok (out, csize, flags) ->
  slice (base + pos) (lenN out) file = Some out ->
  lenN (pf_data f) + 8 * (div_ceil (lenN (pf_data f)) ss + 1) < M32 ->
  In (pf_comp f) common_methods -> name_equiv name (pf_name f) ->
  (forall s, is_sector ss (pf_data f) s ->
     clear_cut L (pf_comp f) s /\ (pf_encrypt f = true -> in_words L (pf_comp f) s)) ->
  (exists s, is_sector ss (pf_data f) s /\ shrinks L (pf_comp f) s) ->
  let g := N.lor flags FLAG_EXISTS in
  stored_as L true file base ss name (base + pos) (w32 csize) g (pf_data f) /\
  on g 16 = pf_encrypt f /\ on g 17 = pf_encrypt f && pf_fix f /\ on g 26 = c_crcs c /\ on g 24 = false /\ on g 31 = true.
Proof.
  intros HL W Hs Hlen Hm Hn Hall Hex g.
  unfold write_multi in W. destruct (N.eqb_spec ss 0) as [|Hss0]; [discriminate|].
  set (d := pf_data f) in *. set (secs := chunks (length d) ss d) in *.
  set (n := div_ceil (lenN d) ss) in *.
  assert (Hn_ : lenN secs = n) by (apply chunks_count; lia).
  destruct (store_sectors L secs (pf_comp f)) as [[stored comp]| |] eqn:E; cbn [bind] in W; try discriminate.
  destruct (store_sectors_le _ _ _ _ _ E) as [Hlst Hle].
  assert (Hcc : concat secs = d) by (apply chunks_concat; lia).
  rewrite Hcc in Hle.
  assert (Hin : forall s, In s secs <-> is_sector ss d s) by (intros s; apply is_sector_chunks; lia).
  assert (Hcomp : comp = true).
  { destruct Hex as (s & Hsec & r & Hr & Hne). pose proof Hsec as (a & b & Ed & _ & Hs0 & _).
    eapply store_comp; [exact E|apply Hin; exact Hsec|]. unfold store_form.
    destruct (N.eqb_spec (pf_comp f) 0) as [E0|E0].
    { exfalso. rewrite E0 in Hr. apply compress_0 in Hr. contradiction. }
    destruct (N.eqb_spec (lenN s) 0) as [El|El]; [exfalso; apply Hs0; now apply lenN_0|]. cbn [orb].
    rewrite Hr. cbn [bind]. destruct (bytes_eqb r s) eqn:B; [apply bytes_eqb_eq in B; contradiction|reflexivity]. }
  subst comp.
  set (ds := (n + 1) * 4 + (if c_crcs c then n * 4 else 0)) in *.
  assert (Hds : ds <= 8 * (n + 1)) by (unfold ds; destruct (c_crcs c); lia).
  assert (Hd32 : lenN d < M32) by lia.
  assert (Hcut : cut ss (lenN d) secs) by (apply chunks_cut; lia).
  assert (Hst32 : ds + lenN (concat stored) < M32) by lia.
  rewrite (w32_small (lenN d)) in W by exact Hd32.
  set (fl0 := N.lor _ (flag_if (pf_encrypt f && pf_fix f) FLAG_FIX_KEY)) in *.
  set (key := calculate_file_key _ _ _ _) in W.
  assert (Henc : enc_sectors key ds (concat stored) (sector_offsets ds stored) 0
                 = Ok (concat (enc_each key 0 stored))).
  { pose proof (enc_sectors_eq key ds stored [] 0) as H. rewrite lenN_nil, N.add_0_r in H. apply H. lia. }
  set (offs := sector_offsets ds stored) in *.
  assert (Hoffs : lenN offs = n + 1).
  { unfold offs, lenN. rewrite sector_offsets_length. unfold lenN in Hn_. lia. }
  set (crcb := if c_crcs c then concat (map (fun s => le32 (adler32 s)) secs) else []) in *.
  assert (Hcrcb : lenN crcb = if c_crcs c then n * 4 else 0).
  { unfold crcb. destruct (c_crcs c); [rewrite crcs_length; lia|reflexivity]. }
  set (fin := if pf_encrypt f then enc_each key 0 stored else stored).
  assert (Hdata : (if pf_encrypt f then enc_sectors key ds (concat stored) offs 0 else Ok (concat stored))
                  = Ok (concat fin)).
  { unfold fin. destruct (pf_encrypt f); [exact Henc|reflexivity]. }
  rewrite Hdata in W. cbn [bind] in W. apply Ok_inj in W. injection W as W1 W2 W3.
  assert (Hg : g = multi_flags (c_crcs c) true (pf_encrypt f) (pf_fix f)) by (unfold g; rewrite <- W3; reflexivity).
  destruct (multi_seen (c_crcs c) true (pf_encrypt f) (pf_fix f)) as (G8 & G9 & G16 & G17 & G24 & G26 & G31).
  cbv zeta in *. rewrite <- Hg in *.
  split; [|auto]. unfold stored_as. rewrite G24, G9, orb_true_r. cbv zeta.
  replace (base + pos - base) with pos by (clear; lia).
  assert (Hkey : file_key name g pos (lenN d) = key).
  { unfold key, g. rewrite <- W3. symmetry. now apply key_same. }
  rewrite Hkey. clear Hkey.
  set (tab := if pf_encrypt f then encrypt_block offs (dec32 key) else offs) in *.
  assert (Htab : lenN (bytes_of_words tab) = (n + 1) * 4).
  { rewrite words_bytes_lenN. unfold tab.
    destruct (pf_encrypt f); [rewrite lenN_encrypt_block|]; rewrite Hoffs; apply N.mul_comm. }
  exists secs, offs, (bytes_of_words tab).
  split; [now apply cut_sectors|].
  split; [unfold offs; rewrite sector_offsets_length; congruence|].
  split; [apply sector_offsets_ok|].
  split.
  { replace (4 * lenN offs) with (lenN (bytes_of_words tab)) by (rewrite Htab, Hoffs; apply N.mul_comm).
    eapply slice_prefix; [exact Hs|symmetry; exact W1]. }
  split.
  { unfold kept. rewrite G16. unfold tab. destruct (pf_encrypt f) eqn:Een; [|reflexivity].
    exists offs, []. rewrite !app_nil_r. split; [apply sector_offsets_ok|]. split; [cbn; clear; lia|]. auto. }
  intros i s Hi.
  destruct (stored_nth _ _ _ _ _ (store_sectors_all _ _ _ _ _ E) Hi) as (b & x & Hb & Hf).
  destruct (placed file (base + pos) (pf_encrypt f) key stored ds 0 i b) as (o & e & H1 & H2 & H3 & H4).
  - cbv zeta. fold fin.
    assert (Hs2 : slice (base + pos + (n + 1) * 4) (lenN (crcb ++ concat fin)) file = Some (crcb ++ concat fin)).
    { rewrite <- Htab. eapply slice_suffix; [exact Hs|symmetry; exact W1]. }
    replace (base + pos + ds) with (base + pos + (n + 1) * 4 + lenN crcb) by (rewrite Hcrcb; unfold ds; apply N.add_assoc || (clear; lia)).
    eapply slice_suffix; [exact Hs2|reflexivity].
  - exact Hst32.
  - exact Hb.
  - assert (Hsec : is_sector ss d s) by (apply Hin; eapply nth_error_In; exact Hi).
    destruct (Hall s Hsec) as [Hc1 Hc2].
    exists o, e, b. eexists. split; [exact H1|]. split; [exact H2|]. split; [exact H3|]. split; [exact H4|]. split.
    + destruct (pf_encrypt f) eqn:Een; [|unfold kept; now rewrite G16].
      rewrite key_w32. apply encrypt_kept; [exact G16|]. eapply form_words; [exact Hf|now apply Hc2].
    + eapply form_piece; eauto.
Qed.

(** A file of several sectors of which none shrinks has a table though it is not
    marked as compressed. *)
Lemma multi_odd c f pos out csize flags file base ss name :
  write_multi L c ss f pos = Ok (out, csize, flags) ->
  lenN (pf_data f) + 8 * (div_ceil (lenN (pf_data f)) ss + 1) < M32 ->
  (forall s, is_sector ss (pf_data f) s -> ~ shrinks L (pf_comp f) s) ->
  forall whole, ~ stored_as L whole file base ss name (base + pos) (w32 csize) (N.lor flags FLAG_EXISTS) (pf_data f).
Proof.
  intros W Hlen Hno whole St.
  unfold write_multi in W. destruct (N.eqb_spec ss 0) as [|Hss0]; [discriminate|].
  set (d := pf_data f) in *. set (secs := chunks (length d) ss d) in *.
  set (n := div_ceil (lenN d) ss) in *.
  destruct (store_sectors L secs (pf_comp f)) as [[stored comp]| |] eqn:E; cbn [bind] in W; try discriminate.
  assert (Hin : forall s, In s secs <-> is_sector ss d s) by (intros s; apply is_sector_chunks; lia).
  assert (Hcc : concat secs = d) by (apply chunks_concat; lia).
  assert (Hcomp : comp = false /\ stored = secs).
  { destruct comp.
    - exfalso.
      assert (G : forall l st, store_sectors L l (pf_comp f) = Ok (st, true) -> exists s b, In s l /\ store_form L s (pf_comp f) = Ok (b, true)).
      { clear. induction l as [|s t IH]; intros st H; cbn [store_sectors] in H; [discriminate|].
        destruct (store_form L s (pf_comp f)) as [[b' y]| |] eqn:E; cbn [bind] in H; try discriminate.
        destruct (store_sectors L t (pf_comp f)) as [[r z]| |] eqn:F; cbn [bind] in H; try discriminate.
        apply Ok_inj in H. injection H as _ H. destruct y; [exists s, b'; split; [left; reflexivity|exact E]|].
        cbn [orb] in H. subst z. destruct (IH _ eq_refl) as (s' & b & H1 & H2). exists s', b. split; [right; exact H1|exact H2]. }
      destruct (G _ _ E) as (s & b & H1 & H2). apply Hin in H1. apply (Hno s H1).
      apply store_form_result in H2 as [[H2 _]|(_ & _ & C & Ne)]; [discriminate|]. exists b. auto.
    - split; [reflexivity|]. eapply sectors_raw; exact E. }
  destruct Hcomp as [-> ->]. rewrite Hcc in W.
  set (ds := (n + 1) * 4 + (if c_crcs c then n * 4 else 0)) in *.
  assert (Hds : ds <= 8 * (n + 1)) by (unfold ds; destruct (c_crcs c); lia).
  set (key := calculate_file_key _ _ _ _) in W.
  set (data' := if pf_encrypt f then _ else _) in W. 
  assert (Hd' : exists x, data' = Ok x /\ lenN x = lenN d).
  { unfold data'. destruct (pf_encrypt f); [|eauto].
    pose proof (enc_sectors_eq key ds secs [] 0) as H. rewrite lenN_nil, N.add_0_r in H. cbn [app] in H. rewrite Hcc in H.
    rewrite H by lia. eexists. split; [reflexivity|]. rewrite enc_each_concat_length. now rewrite Hcc. }
  destruct Hd' as (x & Ex & Hx). rewrite Ex in W. cbn [bind] in W. apply Ok_inj in W. injection W as W1 W2 W3.
  assert (Hg : N.lor flags FLAG_EXISTS = multi_flags (c_crcs c) false (pf_encrypt f) (pf_fix f)) by (rewrite <- W3; reflexivity).
  destruct (multi_seen (c_crcs c) false (pf_encrypt f) (pf_fix f)) as (G8 & G9 & G16 & G17 & G24 & G26 & G31).
  cbv zeta in *. rewrite <- Hg in *. unfold stored_as in St. rewrite G24, G8, G9 in St. cbn [orb] in St.
  destruct St as (Ecs & _). rewrite <- W2, Hx in Ecs. rewrite w32_small in Ecs by (clear - Hlen Hds; lia). clear - Ecs. lia.
Qed.

(** ** Whole archives *)
Lemma big_bound ss (d : bytes) : 512 <= ss -> lenN d <= 4000000000 -> lenN d + 8 * (div_ceil (lenN d) ss + 1) < M32.
Proof.
  intros H512 Hlen. assert (div_ceil (lenN d) ss <= 7812501).
  { unfold div_ceil. apply N.div_le_upper_bound; [lia|].
    assert (7812500 * 512 <= 7812500 * ss) by (apply N.mul_le_mono_l; exact H512). lia. }
  unfold M32. change (2 ^ 32) with 4294967296. lia.
Qed.
Lemma sector_bytes_512 c : 512 <= sector_bytes c.
Proof. unfold sector_bytes. assert (2 ^ c_block_size c <> 0) by (apply N.pow_nonzero; lia). lia. Qed.

Variable md5 : bytes -> bytes.

(** [a] with the extended tables taken away *)
Definition bare (a : archive) : archive :=
  mkA (a_file a) (a_off a) (a_user a) (a_header a) (a_hash a) (a_block a) (a_hi a) None None (a_attrs a).

Lemma classic_stored a c ss fs name f file off :
  lossless L -> describes L a c ss fs -> sector_size (c_block_size c) = Ok ss -> a_file a = file -> a_off a = off ->
  no_collision (map pf_name fs) -> means fs name f ->
  lenN (pf_data f) <= 4000000000 -> In (pf_comp f) common_methods ->
  (forall s, unit_of (sector_bytes c) (pf_data f) s ->
     clear_cut L (pf_comp f) s /\ (pf_encrypt f = true -> in_words L (pf_comp f) s)) ->
  (sector_bytes c < lenN (pf_data f) ->
     exists s, is_sector (sector_bytes c) (pf_data f) s /\ shrinks L (pf_comp f) s) ->
  exists fi, find_file_classic a name = Ok (Some fi) /\ fi_size fi = lenN (pf_data f) /\
    stored_as L true file off (sector_bytes c) name (fi_pos fi) (fi_csize fi) (fi_flags fi) (pf_data f) /\
    flags_tell (c_crcs c) (sector_bytes c <? lenN (pf_data f)) (pf_encrypt f) (pf_fix f) (fi_flags fi).
Proof.
  intros HL Hd Hss Hf Hoff Hcol Hm Hlen Hc Hall Hex.
  destruct (built_find L md5 (bare a) c ss _ name f Hd eq_refl Hcol Hm)
    as (i & p & out & cs & fl & s & H1 & H2 & H3 & H4 & H5 & H6 & H7).
  change (find_file (bare a) name) with (find_file_classic a name) in H7.
  cbn [bare a_off a_file] in H4, H5, H7.
  eexists. split; [exact H7|]. cbn [fi_size fi_pos fi_csize fi_flags].
  assert (H32 : lenN (pf_data f) < M32) by (unfold M32; change (2 ^ 32) with 4294967296; lia).
  split; [now apply w32_small|]. rewrite Hf in H4. rewrite Hoff in H4 |- *.
  assert (Hs0 : ss = 0 -> pf_data f = []).
  { intros ->. unfold write_file in H3. destruct (N.leb_spec (lenN (pf_data f)) 0) as [C|C].
    + apply lenN_0. lia.
    + unfold write_multi in H3. cbn in H3. discriminate. }
  assert (Hcase : (lenN (pf_data f) <= sector_bytes c /\ write_single L c f p = Ok (out, cs, fl)) \/
                  (ss = sector_bytes c /\ sector_bytes c < lenN (pf_data f) /\ write_multi L c ss f p = Ok (out, cs, fl))).
  { unfold write_file in H3. destruct (N.eq_dec ss 0) as [E|E].
    - left. rewrite (Hs0 E) in *. rewrite lenN_nil in *. rewrite E in H3. split; [apply N.le_0_l|exact H3].
    - pose proof (sector_size_ok _ _ Hss E) as Es. rewrite Es in *.
      destruct (N.leb_spec (lenN (pf_data f)) (sector_bytes c)) as [C|C]; [left|right]; auto. }
  clear Hs0. unfold flags_tell. fold (on (N.lor fl FLAG_EXISTS)).
  destruct Hcase as [[C W]|(Es & C & W)].
  - replace (sector_bytes c <? lenN (pf_data f)) with false by lia.
    destruct (Hall (pf_data f)) as [U1 U2]; [left; auto|].
    destruct (single_stored c f p out cs fl file off (sector_bytes c) name)
      as (S1 & S2 & S3 & S4 & S5 & S6); auto 10.
  - replace (sector_bytes c <? lenN (pf_data f)) with true by lia. rewrite Es in W.
    destruct (multi_stored c f p out cs fl file off (sector_bytes c) name)
      as (S1 & S2 & S3 & S4 & S5 & S6); auto 10.
    + apply big_bound; [apply sector_bytes_512|exact Hlen].
    + intros s' Hs'. apply Hall. right. auto.
Qed.

Theorem built_stored c files arc pre post :
  lossless L -> built_at L md5 c files arc pre post ->
  no_collision (LISTFILE :: map pf_name files) ->
  hashes_apart ATTRIBUTES (LISTFILE :: map pf_name files) ->
  exists a, open_archive L (pre ++ arc ++ post) = Ok a /\
    forall name f, means files name f -> lenN (pf_data f) <= 4000000000 -> In (pf_comp f) common_methods ->
      (forall s, unit_of (sector_bytes c) (pf_data f) s ->
         clear_cut L (pf_comp f) s /\ (pf_encrypt f = true -> in_words L (pf_comp f) s)) ->
      (sector_bytes c < lenN (pf_data f) ->
         exists s, is_sector (sector_bytes c) (pf_data f) s /\ shrinks L (pf_comp f) s) ->
      exists fi, find_file a name = Ok (Some fi) /\ fi_size fi = lenN (pf_data f) /\
        stored_as L true (pre ++ arc ++ post) (lenN pre) (sector_bytes c) name (fi_pos fi) (fi_csize fi) (fi_flags fi)
          (pf_data f) /\
        flags_tell (c_crcs c) (sector_bytes c <? lenN (pf_data f)) (pf_encrypt f) (pf_fix f) (fi_flags fi).
Proof.
  intros HL Hb Hcol Ha.
  destruct (built_open L md5 c files arc pre post Hb Ha) as (a & ss & Ho & Hss & Hd & Hhet & Hf & Hoff & _).
  exists a. split; [exact Ho|]. intros name f Hm Hlen Hc Hall Hex. rewrite (find_is_classic a name Hhet).
  eapply classic_stored; eauto.
  - eapply no_collision_incl; [apply prepare_names|exact Hcol].
  - now apply means_prepare.
Qed.

(** Versions 3 and 4: what the hash table and the block table say *)
Theorem built34_stored c files arc pre post a :
  lossless L -> built34_at L md5 c files arc pre post ->
  no_collision (LISTFILE :: map pf_name files) -> open_archive L (pre ++ arc ++ post) = Ok a ->
  forall name f, means files name f -> lenN (pf_data f) <= 4000000000 -> In (pf_comp f) common_methods ->
    (forall s, unit_of (sector_bytes c) (pf_data f) s ->
       clear_cut L (pf_comp f) s /\ (pf_encrypt f = true -> in_words L (pf_comp f) s)) ->
    (sector_bytes c < lenN (pf_data f) ->
       exists s, is_sector (sector_bytes c) (pf_data f) s /\ shrinks L (pf_comp f) s) ->
    exists fi, find_file_classic a name = Ok (Some fi) /\ fi_size fi = lenN (pf_data f) /\
      stored_as L true (pre ++ arc ++ post) (lenN pre) (sector_bytes c) name (fi_pos fi) (fi_csize fi) (fi_flags fi)
        (pf_data f) /\
      flags_tell (c_crcs c) (sector_bytes c <? lenN (pf_data f)) (pf_encrypt f) (pf_fix f) (fi_flags fi).
Proof.
  intros HL HB Hcol Hopen.
  destruct (find34 L md5 c files arc pre post HB) as (a0 & ss & Ho & Hss & Hd & Hat & Hf & Hoff & _).
  rewrite Ho in Hopen. apply load_attributes_same in Hopen as (x & ->).
  intros name f Hm Hlen Hc Hall Hex.
  change (find_file_classic (with_attrs a0 x) name) with (find_file_classic a0 name).
  eapply classic_stored; eauto.
  - eapply no_collision_incl; [apply prepare_names|exact Hcol].
  - now apply means_prepare.
Qed.

Theorem built_odd c files arc pre post :
  built_at L md5 c files arc pre post ->
  no_collision (LISTFILE :: map pf_name files) ->
  hashes_apart ATTRIBUTES (LISTFILE :: map pf_name files) ->
  exists a, open_archive L (pre ++ arc ++ post) = Ok a /\
    forall name f, means files name f -> sector_bytes c < lenN (pf_data f) -> lenN (pf_data f) <= 4000000000 ->
      (forall s, is_sector (sector_bytes c) (pf_data f) s -> ~ shrinks L (pf_comp f) s) ->
      exists fi, find_file a name = Ok (Some fi) /\ forall whole,
        ~ stored_as L whole (pre ++ arc ++ post) (lenN pre) (sector_bytes c) name (fi_pos fi) (fi_csize fi) (fi_flags fi)
            (pf_data f).
Proof.
  intros Hb Hcol Ha.
  destruct (built_open L md5 c files arc pre post Hb Ha) as (a & ss & Ho & Hss & Hd & Hhet & Hf & Hoff & _).
  exists a. split; [exact Ho|]. intros name f Hm C Hlen Hno.
  destruct (built_find L md5 a c ss _ name f Hd Hhet) as (i & p & out & cs & fl & s & H1 & H2 & H3 & H4 & H5 & H6 & H7).
  { eapply no_collision_incl; [apply prepare_names|exact Hcol]. }
  { now apply means_prepare. }
  eexists. split; [exact H7|]. cbn [fi_size fi_pos fi_csize fi_flags]. rewrite Hoff.
  pose proof (sector_bytes_512 c) as H512.
  assert (Es : ss = sector_bytes c).
  { apply sector_size_ok in Hss; [exact Hss|]. intros ->. unfold write_file in H3.
    replace (lenN (pf_data f) <=? 0) with false in H3 by lia. unfold write_multi in H3. discriminate. }
  unfold write_file in H3. rewrite Es in H3. replace (lenN (pf_data f) <=? sector_bytes c) with false in H3 by lia.
  intros whole. eapply multi_odd; [exact H3|now apply big_bound|exact Hno].
Qed.

(** ** The sizes recorded *)
Lemma form_packed m s b x : store_form L s m = Ok (b, x) -> s = [] /\ b = [] \/ compress L s m = Ok b.
Proof.
  intros H. unfold store_form in H. destruct (N.eqb_spec m 0) as [->|H0]; cbn [orb] in H.
  { apply Ok_inj in H. injection H as <- _. right. apply compress_none. }
  destruct (N.eqb_spec (lenN s) 0) as [E|E].
  { apply Ok_inj in H. injection H as <- _. left. apply lenN_0 in E. auto. }
  destruct (compress L s m) as [r| |] eqn:C; cbn [bind] in H; try discriminate. right.
  destruct (bytes_eqb r s) eqn:B; apply Ok_inj in H; injection H as <- _; [|reflexivity].
  apply bytes_eqb_eq in B. now subst r.
Qed.
Lemma sectors_packed m secs : forall ps x, store_sectors L secs m = Ok (ps, x) ->
  Forall2 (fun s p => s = [] /\ p = [] \/ compress L s m = Ok p) secs ps.
Proof.
  induction secs as [|s t IH]; intros ps x H; cbn [store_sectors] in H.
  - apply Ok_inj in H. injection H as <- _. constructor.
  - destruct (store_form L s m) as [[b y]| |] eqn:E; cbn [bind] in H; try discriminate.
    destruct (store_sectors L t m) as [[r z]| |] eqn:E2; cbn [bind] in H; try discriminate.
    apply Ok_inj in H. injection H as <- _. constructor; [now apply form_packed in E|eauto].
Qed.
Lemma written_takes c f ss pos out csize flags : 512 <= ss -> lenN (pf_data f) + 8 * (div_ceil (lenN (pf_data f)) ss + 1) < M32 ->
  write_file L c ss f pos = Ok (out, csize, flags) -> csize < M32 /\ takes L ss (pf_comp f) (pf_data f) csize.
Proof.
  intros Hss Hlen W. unfold write_file in W. destruct (N.leb_spec (lenN (pf_data f)) ss) as [C|C].
  - unfold write_single in W. destruct (store_form L (pf_data f) (pf_comp f)) as [[b x]| |] eqn:E; cbn [bind] in W; try discriminate.
    apply Ok_inj in W. injection W as _ W _.
    assert (El : csize = lenN b) by (rewrite <- W; destruct (pf_encrypt f); [apply lenN_encrypt_data|reflexivity]).
    assert (Hle : lenN b <= lenN (pf_data f)).
    { pose proof (store_sectors_le L [pf_data f] (pf_comp f) [b] (x || false)) as H. cbn [store_sectors] in H. rewrite E in H. cbn [bind] in H.
      destruct (H eq_refl) as [_ H2]. cbn [concat] in H2. now rewrite !app_nil_r in H2. }
    split; [rewrite El; lia|]. exists [pf_data f], [b]. replace (ss <? lenN (pf_data f)) with false by lia.
    split; [reflexivity|]. split; [constructor; [now apply form_packed in E|constructor]|]. cbn [concat]. rewrite app_nil_r. exact El.
  - unfold write_multi in W. destruct (N.eqb_spec ss 0) as [|Hss0]; [discriminate|].
    set (d := pf_data f) in *. set (secs := chunks (length d) ss d) in *. set (n := div_ceil (lenN d) ss) in *.
    assert (Hn_ : lenN secs = n) by (apply chunks_count; lia).
    destruct (store_sectors L secs (pf_comp f)) as [[stored comp]| |] eqn:E; cbn [bind] in W; try discriminate.
    destruct (store_sectors_le _ _ _ _ _ E) as [Hlst Hle]. assert (Hcc : concat secs = d) by (apply chunks_concat; lia). rewrite Hcc in Hle.
    match type of W with bind ?e _ = _ => destruct e as [data| |] eqn:D; cbn [bind] in W; try discriminate end.
    apply Ok_inj in W. injection W as _ W _. set (ds := (n + 1) * 4 + (if c_crcs c then n * 4 else 0)) in *.
    assert (Hds : ds <= 8 * (n + 1)) by (unfold ds; destruct (c_crcs c); lia).
    assert (El : lenN data = lenN (concat stored)).
    { destruct (pf_encrypt f); [|now apply Ok_inj in D; rewrite D].
      match type of D with enc_sectors ?k _ _ _ _ = _ => pose proof (enc_sectors_eq k ds stored [] 0) as H end.
      rewrite lenN_nil, N.add_0_r in H. cbn [app] in H. rewrite H in D by lia. apply Ok_inj in D. rewrite <- D.
      apply enc_each_concat_length. }
    split; [lia|]. exists secs, stored. replace (ss <? lenN d) with true by lia.
    split; [apply cut_sectors; [apply chunks_cut; lia|exact Hcc]|]. split; [eapply sectors_packed; exact E|]. rewrite Hn_, <- W, El. lia.
Qed.

Lemma classic_takes a c ss fs name f : describes L a c ss fs -> sector_size (c_block_size c) = Ok ss ->
  no_collision (map pf_name fs) -> means fs name f -> lenN (pf_data f) <= 4000000000 ->
  exists fi, find_file_classic a name = Ok (Some fi) /\ takes L (sector_bytes c) (pf_comp f) (pf_data f) (fi_csize fi).
Proof.
  intros Hd Hss Hcol Hm Hlen.
  destruct (built_find L md5 (bare a) c ss _ name f Hd eq_refl Hcol Hm) as (i & p & out & cs & fl & s & H1 & H2 & H3 & H4 & H5 & H6 & H7).
  change (find_file (bare a) name) with (find_file_classic a name) in H7.
  eexists. split; [exact H7|]. cbn [fi_csize].
  assert (B : lenN (pf_data f) + 8 * (div_ceil (lenN (pf_data f)) (sector_bytes c) + 1) < M32) by (apply big_bound; [apply sector_bytes_512|exact Hlen]).
  assert (W : write_file L c (sector_bytes c) f p = Ok (out, cs, fl)).
  { destruct (N.eq_dec ss 0) as [E|E]; [|now rewrite (sector_size_ok _ _ Hss E) in H3].
    unfold write_file in *. rewrite E in H3. destruct (N.leb_spec (lenN (pf_data f)) 0) as [C|C].
    - replace (lenN (pf_data f) <=? sector_bytes c) with true by lia. exact H3.
    - unfold write_multi in H3. cbn in H3. discriminate. }
  destruct (written_takes _ _ _ _ _ _ _ (sector_bytes_512 c) B W) as [X Y]. now rewrite (w32_small cs X).
Qed.
Theorem built_takes c files arc pre post : built_at L md5 c files arc pre post ->
  no_collision (LISTFILE :: map pf_name files) -> hashes_apart ATTRIBUTES (LISTFILE :: map pf_name files) ->
  exists a, open_archive L (pre ++ arc ++ post) = Ok a /\
    forall name f, means files name f -> lenN (pf_data f) <= 4000000000 ->
      exists fi, find_file a name = Ok (Some fi) /\ takes L (sector_bytes c) (pf_comp f) (pf_data f) (fi_csize fi).
Proof.
  intros Hb Hcol Ha.
  destruct (built_open L md5 c files arc pre post Hb Ha) as (a & ss & Ho & Hss & Hd & Hhet & Hf & Hoff & _).
  exists a. split; [exact Ho|]. intros name f Hm Hlen. rewrite (find_is_classic a name Hhet).
  eapply classic_takes; eauto.
  - eapply no_collision_incl; [apply prepare_names|exact Hcol].
  - now apply means_prepare.
Qed.
Theorem built34_takes c files arc pre post a : built34_at L md5 c files arc pre post ->
  no_collision (LISTFILE :: map pf_name files) -> open_archive L (pre ++ arc ++ post) = Ok a ->
  forall name f, means files name f -> lenN (pf_data f) <= 4000000000 ->
    exists fi, find_file_classic a name = Ok (Some fi) /\ takes L (sector_bytes c) (pf_comp f) (pf_data f) (fi_csize fi).
Proof.
  intros HB Hcol Hopen.
  destruct (find34 L md5 c files arc pre post HB) as (a0 & ss & Ho & Hss & Hd & Hat & Hf & Hoff & _).
  rewrite Ho in Hopen. apply load_attributes_same in Hopen as (x & ->). intros name f Hm Hlen.
  change (find_file_classic (with_attrs a0 x) name) with (find_file_classic a0 name).
  eapply classic_takes; eauto.
  - eapply no_collision_incl; [apply prepare_names|exact Hcol].
  - now apply means_prepare.
Qed.

End L.

(** What is enciphered is determined. *)
Lemma enciphered_once whole key p s : enciphered whole key p s ->
  s = let '(ws, r) := words_of_bytes p in bytes_of_words (encrypt_block ws key) ++ r.
Proof.
  intros (ws & r & Hw & Hr & _ & -> & ->). now rewrite (words_of_bytes_of_words ws r Hw Hr).
Qed.
