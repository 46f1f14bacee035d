(** * Checksums of single-unit files. *)
From Verif Require Import Bytes Crypto CryptoFacts SpecNames NameFacts HashTable BlockTable Header
  HeaderFacts Compress SpecTables HashTableFacts TableMap SpecCompress CompressFacts
  Adler Listfile HetBet Builder BuilderFacts Attributes Archive ReadFacts OpenFacts SpecArchive ArchiveFacts.
Open Scope N_scope.

(** ** Adler-32 notices a changed byte *)
Lemma adler_fst_inj q : forall s1 s2,
  fst (fold_left adler_step q s1) = fst (fold_left adler_step q s2) ->
  fst s1 < ADLER_MOD -> fst s2 < ADLER_MOD -> fst s1 = fst s2.
Proof.
  induction q as [|x q IH]; intros s1 s2 H H1 H2; [exact H|].
  cbn [fold_left] in H. apply IH in H; cbn [adler_step fst] in *.
  - unfold ADLER_MOD in *. Z.to_euclidean_division_equations. lia.
  - apply N.mod_lt. discriminate.
  - apply N.mod_lt. discriminate.
Qed.

Lemma adler_state_lt d : fst (adler_state d) < ADLER_MOD.
Proof.
  unfold adler_state.
  assert (G : forall l s, fst s < ADLER_MOD -> fst (fold_left adler_step l s) < ADLER_MOD).
  { induction l as [|x l IH]; intros s Hs; cbn [fold_left]; [exact Hs|]. apply IH. cbn [adler_step fst].
    apply N.mod_lt. discriminate. }
  apply G. reflexivity.
Qed.

Lemma adler32_low d : adler32 d mod 2 ^ 16 = fst (adler_state d).
Proof.
  unfold adler32. pose proof (adler_state_lt d) as H. destruct (adler_state d) as [a b]. cbn [fst] in *.
  rewrite <- N.land_ones, N.land_lor_distr_l, !N.land_ones.
  replace (N.shiftl b 16 mod 2 ^ 16) with 0.
  - rewrite N.lor_0_l. apply N.mod_small. unfold ADLER_MOD in H. change (2 ^ 16) with 65536. lia.
  - rewrite N.shiftl_mul_pow2. symmetry. apply N.mod_mul. discriminate.
Qed.

Lemma adler_one_byte p x y q :
  adler32 (p ++ x :: q) = adler32 (p ++ y :: q) -> x = y.
Proof.
  intros H. apply (f_equal (fun v => v mod 2 ^ 16)) in H. rewrite !adler32_low in H.
  unfold adler_state in H. rewrite !fold_left_app in H. cbn [fold_left] in H.
  pose proof (adler_state_lt p) as Hp. unfold adler_state in Hp.
  set (s := fold_left adler_step p (1, 0)) in *.
  apply adler_fst_inj in H; cbn [adler_step fst] in *; try (apply N.mod_lt; discriminate).
  apply bN_inj. pose proof (bN_lt x). pose proof (bN_lt y).
  unfold ADLER_MOD in *. Z.to_euclidean_division_equations. lia.
Qed.

Section C.
Variable L : codecs.

(** A successful read of a checked single-unit file has the stored checksum. *)
Lemma read_checked a name fi d :
  find_file a name = Ok (Some fi) ->
  is_single_unit (fi_flags fi) = true -> has_sector_crc (fi_flags fi) = true ->
  read_file L a name = Ok d ->
  exists crc, slice (fi_pos fi + fi_csize fi) 4 (a_file a) = Some crc /\ adler32 d = le_dec crc.
Proof.
  intros Hf Hs Hc Hr. unfold read_file in Hr. rewrite Hf in Hr. cbn [of_option bind] in Hr.
  destruct (match a_het a with Some _ => _ | None => _ end) as [[ks sz]| |]; cbn [bind] in Hr; try discriminate.
  rewrite Hs in Hr. cbn [orb] in Hr. unfold read_whole_file in Hr. rewrite Hs, Hc in Hr. cbn [andb] in Hr.
  destruct (read_at (a_file a) (fi_pos fi) (fi_csize fi)) as [raw| |]; cbn [bind] in Hr; try discriminate.
  set (data := if is_encrypted (fi_flags fi) then _ else raw) in Hr.
  destruct (read_at (a_file a) (fi_pos fi + fi_csize fi) 4) as [crc| |] eqn:Ec; cbn [bind] in Hr; try discriminate.
  exists crc. split.
  { unfold read_at in Ec. destruct (slice _ 4 (a_file a)) as [x|].
    - apply Ok_inj in Ec. now subst x.
    - destruct (_ <=? _); [discriminate|]. cbn in Ec. discriminate. }
  destruct (is_compressed (fi_flags fi)).
  - destruct data as [|m c]; [discriminate|]. unfold expand in Hr.
    destruct (decompress L c (bN m) sz) as [plain| |]; cbn [bind] in Hr; try discriminate.
    destruct (N.eqb_spec (adler32 plain) (le_dec crc)) as [E|E]; cbn [bind] in Hr; [|discriminate].
    apply Ok_inj in Hr. now subst.
  - cbn [bind] in Hr. destruct (N.eqb_spec (adler32 data) (le_dec crc)) as [E|E]; cbn [bind] in Hr; [|discriminate].
    apply Ok_inj in Hr. now subst.
Qed.

(** The same archive with other bytes in the file. *)
Definition with_file (a : archive) (f : bytes) : archive :=
  mkA f (a_off a) (a_user a) (a_header a) (a_hash a) (a_block a) (a_hi a) (a_het a) (a_bet a) (a_attrs a).

Lemma find_with_file a f name : find_file (with_file a f) name = find_file a name.
Proof. reflexivity. Qed.

Lemma altered_checked a f name fi d d' :
  find_file a name = Ok (Some fi) ->
  is_single_unit (fi_flags fi) = true -> has_sector_crc (fi_flags fi) = true ->
  slice (fi_pos fi + fi_csize fi) 4 f = slice (fi_pos fi + fi_csize fi) 4 (a_file a) ->
  read_file L a name = Ok d -> read_file L (with_file a f) name = Ok d' -> adler32 d' = adler32 d.
Proof.
  intros Hf Hs Hc Hsl Hr Hr'.
  destruct (read_checked a name fi d Hf Hs Hc Hr) as (crc & E1 & ->).
  destruct (read_checked (with_file a f) name fi d' Hf Hs Hc Hr') as (crc' & E2 & ->).
  cbn [with_file a_file] in E2. rewrite Hsl, E1 in E2. injection E2 as <-. reflexivity.
Qed.

(** A raw single-unit file: what is read is what is stored, if the checksum
    matches. *)
Lemma read_raw a name fi raw crc :
  find_file a name = Ok (Some fi) ->
  is_single_unit (fi_flags fi) = true -> has_sector_crc (fi_flags fi) = true ->
  is_compressed (fi_flags fi) = false -> is_encrypted (fi_flags fi) = false ->
  (exists bt b, a_block a = Some bt /\ nthN bt (fi_block fi) = Some b) ->
  slice (fi_pos fi) (fi_csize fi) (a_file a) = Some raw ->
  slice (fi_pos fi + fi_csize fi) 4 (a_file a) = Some crc ->
  read_file L a name = if adler32 raw =? le_dec crc then Ok raw else Err EChecksum.
Proof.
  intros Hf Hs Hc Hco He (bt & b & Hbt & Hb) H1 H2.
  unfold read_file. rewrite Hf. cbn [of_option bind].
  assert (Hsz : exists p, (match a_het a, a_bet a with
     | Some _, Some _ => Ok (w32 (fi_size fi), fi_size fi)
     | _, _ =>
         bt <- of_option EInvalidFormat (a_block a) ;;
         b <- of_option EBlockTable (nthN bt (fi_block fi)) ;;
         Ok (be_size b, be_size b)
     end) = Ok p).
  { rewrite Hbt. cbn [of_option bind]. rewrite Hb. cbn [of_option bind].
    destruct (a_het a), (a_bet a); eauto. }
  destruct Hsz as ([ks sz] & ->). cbn [bind]. rewrite Hs. cbn [orb].
  unfold read_whole_file. rewrite (read_at_slice _ _ _ _ H1). cbn [bind].
  rewrite He, Hc, Hs, Hco. cbn [andb]. rewrite (read_at_slice _ _ _ _ H2). cbn [bind].
  destruct (adler32 raw =? le_dec crc); reflexivity.
Qed.

Variable md5 : bytes -> bytes.

(** Both for archives the builder made. *)
Lemma built_checked c files arc pre post :
  lossless L -> built_at L md5 c files arc pre post -> c_crcs c = true ->
  no_collision (LISTFILE :: map pf_name files) ->
  hashes_apart ATTRIBUTES (LISTFILE :: map pf_name files) ->
  exists a, open_archive L (pre ++ arc ++ post) = Ok a /\
    forall name f, means files name f ->
      lenN (pf_data f) <= sector_bytes c -> lenN (pf_data f) < 2 ^ 32 ->
      exact_on (pf_comp f) (pf_data f) ->
      exists fi, find_file a name = Ok (Some fi) /\ read_file L a name = Ok (pf_data f) /\
        (* whatever happens to the bytes of the file: *)
        (forall g, slice (fi_pos fi + fi_csize fi) 4 g = slice (fi_pos fi + fi_csize fi) 4 (a_file a) ->
           forall d, read_file L (with_file a g) name = Ok d -> adler32 d = adler32 (pf_data f)) /\
        (* and if it is a single byte of a file stored as it is: *)
        (pf_comp f = 0 -> pf_encrypt f = false ->
         forall u x y v, pf_data f = u ++ x :: v -> y <> x ->
         forall g, slice (fi_pos fi + fi_csize fi) 4 g = slice (fi_pos fi + fi_csize fi) 4 (a_file a) ->
           slice (fi_pos fi) (fi_csize fi) g = Some (u ++ y :: v) ->
           read_file L (with_file a g) name = Err EChecksum).
Proof.
  intros HL Hb Hcrc Hcol Ha.
  destruct (built_open L md5 c files arc pre post Hb Ha) as (a & ss & Ho & Hss & Hd & Hhet & Hf & Hoff & _).
  exists a. split; [exact Ho|]. intros name f Hm Hlen H32 He.
  destruct (built_find L md5 a c ss _ name f Hd Hhet) as (i & p & out & cs & fl & s & H1 & H2 & H3 & H4 & H5 & H6 & H7).
  { eapply no_collision_incl; [apply prepare_names|exact Hcol]. }
  { now apply means_prepare. }
  assert (Hcomp : pf_comp f < 256).
  { destruct Hb as (_ & (_ & _ & Ht) & _).
    destruct Hm as (l1 & l2 & -> & _). apply Ht. apply in_app_iff. right. left. reflexivity. }
  assert (H0 : ss = 0 -> pf_data f = []).
  { intros ->. unfold write_file in H3. destruct (N.leb_spec (lenN (pf_data f)) 0) as [C|C].
    + apply lenN_0. lia.
    + unfold write_multi in H3. cbn in H3. discriminate. }
  assert (Hsafe : file_safe L ss f) by (apply (small_safe L c); auto).
  set (fi := mkFI _ _ _ _ _ _ _) in H7. exists fi. split; [exact H7|].
  assert (Hr : read_file L a name = Ok (pf_data f)) by (eapply read_file_ok; eauto).
  split; [exact Hr|].
  (* the flags *)
  assert (Hle : lenN (pf_data f) <= ss).
  { destruct (N.eq_dec ss 0) as [Hz|Hz].
    - rewrite (H0 Hz). change (lenN (@nil byte)) with 0. lia.
    - apply sector_size_ok in Hss; [|exact Hz]. lia. }
  unfold write_file in H3. replace (lenN (pf_data f) <=? ss) with true in H3 by lia.
  unfold write_single in H3.
  destruct (store_form L (pf_data f) (pf_comp f)) as [[body comp]| |] eqn:Es; cbn [bind] in H3; try discriminate.
  apply Ok_inj in H3. injection H3 as W1 W2 W3.
  assert (Hg : fi_flags fi = single_flags (c_crcs c) comp (pf_encrypt f) (pf_fix f)).
  { cbn [fi fi_flags]. rewrite <- W3. reflexivity. }
  destruct (single_flags_ok (c_crcs c) comp (pf_encrypt f) (pf_fix f)) as (G1 & G2 & G3 & G4 & G5 & _).
  rewrite <- Hg, ?Hcrc in G1, G2, G3, G4, G5. rewrite Hcrc in G5.
  split.
  - intros g Hsl d Hd'. eapply altered_checked; eauto.
  - intros Hc0 Hen u x y v Hdata Hxy g Hsl Hsl2.
    assert (Hraw : body = pf_data f /\ comp = false).
    { unfold store_form in Es. rewrite Hc0 in Es. cbn [N.eqb orb] in Es.
      apply Ok_inj in Es. injection Es as <- <-. auto. }
    destruct Hraw as [-> ->]. rewrite Hen in *.
    assert (Hcs : fi_csize fi = lenN (pf_data f)).
    { cbn [fi fi_csize]. rewrite <- W2. now apply w32_small. }
    rewrite Hcrc in W1.
    assert (Hcrcs : slice (fi_pos fi + fi_csize fi) 4 (a_file a) = Some (le32 (adler32 (pf_data f)))).
    { rewrite Hcs. change 4 with (lenN (le32 (adler32 (pf_data f)))). eapply slice_suffix; [exact H4|].
      symmetry. exact W1. }
    assert (Hraws : slice (fi_pos fi) (fi_csize fi) (a_file a) = Some (pf_data f)).
    { rewrite Hcs. eapply slice_prefix; [exact H4|]. symmetry. exact W1. }
    destruct Hd as (t & k & bt & _ & Hbt & _).
    rewrite (read_raw (with_file a g) name fi (u ++ y :: v) (le32 (adler32 (pf_data f)))); auto.
    + rewrite le32_dec by apply adler_lt. rewrite Hdata.
      destruct (N.eqb_spec (adler32 (u ++ y :: v)) (adler32 (u ++ x :: v))) as [E|E]; [|reflexivity].
      apply adler_one_byte in E. contradiction.
    + exists bt, (block_entry f p cs fl). split; [exact Hbt|]. apply H6. exact Hbt.
    + cbn [with_file a_file]. rewrite Hsl. exact Hcrcs.
Qed.

(** ** Opening without loading the tables *)
Lemma deferred_fields file a : open_with_options L file false = Ok a ->
  a_hash a = None /\ a_block a = None /\ a_het a = None /\ a_bet a = None.
Proof.
  unfold open_with_options. destruct (find_header file) as [[[o u] h]| |]; cbn [bind]; try discriminate.
  intros H. apply Ok_inj in H. subst a. auto.
Qed.

Lemma deferred_useless file a name : open_with_options L file false = Ok a ->
  find_file a name = Err EInvalidFormat /\ read_file L a name = Err EInvalidFormat /\
  list_files L a = Err EInvalidFormat /\ list_all a = Err EInvalidFormat.
Proof.
  intros H. apply deferred_fields in H as (H1 & H2 & H3 & H4).
  assert (F : forall n, find_file a n = Err EInvalidFormat).
  { intros n. unfold find_file, valid_het_bet, find_file_classic. rewrite H3, H1. reflexivity. }
  split; [apply F|]. split; [unfold read_file; now rewrite F|].
  split; [unfold list_files; now rewrite F|].
  unfold list_all, list_tables, valid_het_bet. rewrite H3, H1. reflexivity.
Qed.

End C.
