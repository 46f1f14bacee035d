(** * Lookups in built archives of version 3 and 4, exactly *)
From Coq Require Import Lia ZifyBool ZifyNat ZifyN.
From Verif Require Import Bytes Crypto CryptoFacts SpecNames NameFacts HashTable BlockTable Header
  HeaderFacts SpecHeader HeaderSearch Compress SpecTables HashTableFacts TableMap SpecCompress CompressFacts
  Adler Listfile HetBet SpecBits BitFacts HetBetFacts Builder BuilderFacts Attributes Archive ReadFacts
  OpenFacts SpecArchive SpecArchive34 Open34Facts ArchiveFacts Archive34Facts SpecCipher CipherFacts SpecNameTable NameTableFacts.
Open Scope N_scope.

Section Lookups.
Variable L : codecs.
Variable md5 : bytes -> bytes.

Lemma entry_names_prepare c files : map pf_name (prepare_listfile c files) = entry_names c files.
Proof.
  unfold entry_names, prepare_listfile. destruct (c_listfile c); rewrite ?map_app, ?app_nil_r; reflexivity.
Qed.

Lemma find34_exact c files arc pre post :
  built34_at L md5 c files arc pre post -> 0 < entry_count c files ->
  let fs := prepare_listfile c files in
  exists a ss be m hb ib places, open_archive L (pre ++ arc ++ post) = load_attributes L a /\
    sector_size (c_block_size c) = Ok ss /\ describes L a c ss fs /\
    a_attrs a = None /\ a_file a = pre ++ arc ++ post /\ a_off a = lenN pre /\ a_bet a = Some be /\
    (exists bt, a_block a = Some bt /\ lenN bt = entry_count c files) /\
    widths (entry_count c files) m hb ib /\ seated m (entry_names c files) places /\
    forall name,
      (~ confused (entry_names c files) places name \/ lenN (bet_table be) < 8 -> find_file a name = find_file_classic a name) /\
      (confused (entry_names c files) places name -> 8 <= lenN (bet_table be) ->
       (64 <= bet_entry_bits be -> find_file a name = Panic) /\
       (bet_entry_bits be < 64 -> exists f0 p out csize flags, hd_error fs = Some f0 /\
        write_file L c ss f0 p = Ok (out, csize, flags) /\
        slice (a_off a + p) (lenN out) (a_file a) = Some out /\
        find_file a name = Ok (Some (mkFI 0 0 (a_off a + p) (w32 csize) (w32 (lenN (pf_data f0)))
                                          (N.lor flags FLAG_EXISTS) 0)))).
Proof.
  intros HB Hn0 fs.
  destruct (built34_tables L md5 c files arc pre post HB)
    as (a & ss & bt & he & be & Ho & Hss & Hd & Hat & Hf & Hoff & Hbt & Hhe & Hbe & (Ihe & Irows) & Ibe & Hok & Hlay).
  fold fs in Hd, Ihe, Hlay, Irows.
  assert (Hnames : map pf_name fs = entry_names c files) by apply entry_names_prepare.
  assert (Hlen : lenN fs = entry_count c files) by apply (entry_count_prepare md5).
  assert (Hlen' : lenN (entry_names c files) = entry_count c files) by (rewrite <- Hnames, map_lenN; exact Hlen).
  rewrite Hnames in Irows. rewrite Hlen in Ihe. rewrite <- Hlen' in Ihe, Hn0.
  destruct (find_confused he (entry_names c files) Hn0 Ihe Irows) as (m & hb & ib & places & HW & HS & HC).
  rewrite Hlen' in HW.
  assert (Hbtl : lenN bt = entry_count c files).
  { destruct Hlay as (hdr & body & es & hetb & betb & htab & btab & hib & Earc & Hlh & Hsz & _ & Ebt & Hpf & Wf & _).
    pose proof (write_files_layout _ _ _ _ _ _ _ Wf) as [Hl _]. rewrite Ebt, map_lenN, <- Hlen. unfold lenN. now rewrite Hl. }
  exists a, ss, be, m, hb, ib, places. do 7 (split; [assumption|]). split; [exists bt; split; assumption|]. do 2 (split; [assumption|]).
  destruct Hd as (t & k & bt' & Hh & Hb & Hd). rewrite Hbt in Hb. injection Hb as <-.
  assert (Hcount : bet_count be = lenN bt) by (unfold bet_is in Ibe; cbv zeta in Ibe; tauto).
  assert (Hmaxn : het_max he = lenN (entry_names c files)) by (destruct Ihe as (? & _ & ? & _); assumption).
  rewrite <- Hlen' in Hbtl.
  assert (Hvalid : valid_het_bet a = Some (he, be)).
  { unfold valid_het_bet. rewrite Hhe, Hbe, Hmaxn, Hcount, Hbtl. replace (0 <? lenN (entry_names c files)) with true by lia. reflexivity. }
  intros name. unfold find_file. rewrite Hvalid, Hh, Hbt.
  assert (Hshort : lenN (bet_table be) < 8 -> bet_get be 0 = Ok None).
  { intros C. apply bet_get_short. rewrite N.mul_0_l. exact C. }
  split.
  { intros C. destruct (het_find_total he _ name Ihe) as [E|E]; rewrite E; cbn [bind option_map]; [reflexivity|].
    destruct C as [C|C]; [elim C; now apply HC|]. rewrite (Hshort C). reflexivity. }
  intros C H8. apply HC in C. rewrite C. cbn [bind].
  destruct bt as [|e bt]; [rewrite lenN_nil in Hbtl; lia|].
  split; intros W.
  - unfold bet_get. replace (bet_count be <=? 0) with false by (rewrite Hcount; lia).
    unfold bet_entry. rewrite N.mul_0_l. change (0 / 8) with 0. change (0 mod 8) with 0.
    replace (lenN (bet_table be) <? 0 + 8) with false by lia.
    destruct (slice 0 _ (bet_table be)); [|reflexivity].
    unfold mask_chk. replace (bet_entry_bits be <? 64) with false by lia. reflexivity.
  - assert (HG : bet_get be 0 = Ok (Some (mkBI (be_pos e) (be_size e) (be_csize e) (be_flags e)))).
    { apply (bet_get_ok be (e :: bt) 0 e Ibe eq_refl); cbn [N.of_nat]; rewrite ?N.mul_0_l.
      - exact W.
      - change (0 mod 8) with 0. lia.
      - exact H8. }
    rewrite HG. cbn [bind option_map bi_pos bi_size bi_csize bi_flags].
    destruct Hd as (_ & _ & _ & _ & _ & Hfiles).
    destruct Hlay as (hdr & body & es & hetb & betb & htab & btab & hib & Earc & Hlh & Hsz & _ & Ebt & Hpf & Wf & _).
    destruct fs as [|f0 rest] eqn:Efs.
    { cbn in Wf. apply Ok_inj in Wf. injection Wf as _ <-. discriminate Ebt. }
    destruct (Hfiles 0%nat f0 eq_refl) as (p & out & cs & fl & W1 & W2 & W3 & W4 & W5).
    cbn [nth_error] in W3. injection W3 as ->.
    destruct (write_files_first _ _ _ _ _ _ _ _ Wf) as (e0 & es' & ->).
    cbn [map snd] in Ebt. injection Ebt as Ee _.
    exists f0, p, out, cs, fl. split; [reflexivity|]. split; [exact W1|]. split; [exact W2|].
    cbn [be_pos be_size be_csize be_flags block_entry].
    assert (Hp : pos_low p = p).
    { assert (Hee : pos_low p = pos_low (h_size (a_header a))).
      { pose proof (write_files_layout _ _ _ _ _ _ _ Wf) as [_ Hl].
        destruct (Hl 0%nat f0 eq_refl) as (p' & o' & c' & f' & x & y & _ & N0 & _).
        cbn [nth_error] in N0. injection N0 as E1 E2. rewrite E2 in Ee.
        rewrite <- E1 in Ee. apply (f_equal be_pos) in Ee. exact Ee. }
      assert (Hsm : pos_low (h_size (a_header a)) = h_size (a_header a)).
      { apply w32_small. rewrite Hsz, Hlh. destruct (c_version c); vm_compute; reflexivity. }
      specialize (Hpf 0%nat _ _ eq_refl). rewrite Hee in W4. rewrite Hpf in W4. congruence. }
    rewrite Hp. rewrite add64_ok by lia. reflexivity.
Qed.

(** The names that are mistaken *)
Lemma mistaken_is c files m hb ib places name :
  widths (lenN (entry_names c files)) m hb ib -> seated m (entry_names c files) places ->
  mistaken c files name <-> confused (entry_names c files) places name.
Proof.
  intros HW HS. split.
  - intros (m' & hb' & ib' & places' & HW' & HS' & HC).
    destruct (widths_one _ _ _ _ _ _ _ HW HW') as (<- & _ & _). rewrite (seated_one _ _ _ _ HS HS'). exact HC.
  - intros HC. exists m, hb, ib, places. auto.
Qed.
Lemma mistaken_equiv c files a b : name_equiv a b -> mistaken c files a -> mistaken c files b.
Proof.
  intros E (m & hb & ib & places & HW & HS & m' & hb' & ib' & HC). exists m, hb, ib, places. split; [exact HW|]. split; [exact HS|].
  exists m', hb', ib'. rewrite <- !jenkins_is in *. rewrite <- (name_equiv_jenkins _ _ E). exact HC.
Qed.
Lemma mistaken_few c files name : entry_count c files <= 4 -> ~ mistaken c files name.
Proof.
  intros H4 (m & hb & ib & places & HW & HS & m' & hb' & ib' & HW' & HC & _).
  assert (Hlen : lenN (entry_names c files) = entry_count c files).
  { rewrite <- entry_names_prepare, map_lenN. apply (entry_count_prepare md5). }
  rewrite Hlen in HW'. pose proof (few_places _ _ _ _ HW' H4). lia.
Qed.
Lemma few_no_mistake c files : entry_count c files <= 4 -> no_mistake c files.
Proof. intros H n _. now apply mistaken_few. Qed.

Lemma find34_mistaken c files arc pre post :
  built34_at L md5 c files arc pre post ->
  let fs := prepare_listfile c files in
  exists a ss be, open_archive L (pre ++ arc ++ post) = load_attributes L a /\
    sector_size (c_block_size c) = Ok ss /\ describes L a c ss fs /\
    a_attrs a = None /\ a_file a = pre ++ arc ++ post /\ a_off a = lenN pre /\ a_bet a = Some be /\
    (exists bt, a_block a = Some bt /\ lenN bt = entry_count c files) /\
    forall name,
      (~ mistaken c files name \/ lenN (bet_table be) < 8 -> find_file a name = find_file_classic a name) /\
      (mistaken c files name -> 8 <= lenN (bet_table be) ->
       (64 <= bet_entry_bits be -> find_file a name = Panic) /\
       (bet_entry_bits be < 64 -> exists f0 p out csize flags, hd_error fs = Some f0 /\
        write_file L c ss f0 p = Ok (out, csize, flags) /\
        slice (a_off a + p) (lenN out) (a_file a) = Some out /\
        find_file a name = Ok (Some (mkFI 0 0 (a_off a + p) (w32 csize) (w32 (lenN (pf_data f0)))
                                          (N.lor flags FLAG_EXISTS) 0)))).
Proof.
  intros HB fs.
  assert (Hlen : lenN (entry_names c files) = entry_count c files).
  { rewrite <- entry_names_prepare, map_lenN. apply (entry_count_prepare md5). }
  destruct (N.eq_dec (entry_count c files) 0) as [E0|E0].
  - destruct (built34_tables L md5 c files arc pre post HB)
      as (a & ss & bt & he & be & Ho & Hss & Hd & Hat & Hf & Hoff & Hbt & Hhe & Hbe & (Ihe & _) & _ & _ & Hlay).
    exists a, ss, be. do 7 (split; [assumption|]). split.
    { exists bt. split; [assumption|].
      destruct Hlay as (hdr & body & es & hetb & betb & htab & btab & hib & Earc & Hlh & Hsz & _ & Ebt & Hpf & Wf & _).
      pose proof (write_files_layout _ _ _ _ _ _ _ Wf) as [Hl _].
      rewrite Ebt, map_lenN, <- (entry_count_prepare md5). unfold lenN. now rewrite Hl. }
    intros name. split.
    + intros _. unfold find_file, valid_het_bet. rewrite Hhe, Hbe. destruct Ihe as (? & _ & Hm & _).
      rewrite Hm, (entry_count_prepare md5), E0. reflexivity.
    + intros HM. elim (mistaken_few c files name ltac:(lia) HM).
  - destruct (find34_exact c files arc pre post HB ltac:(lia))
      as (a & ss & be & m & hb & ib & places & Ho & Hss & Hd & Hat & Hf & Hoff & Hbe & Hbl & HW & HS & Hall).
    rewrite <- Hlen in HW. exists a, ss, be. do 8 (split; [assumption|]). intros name.
    rewrite (mistaken_is c files m hb ib places name HW HS). apply Hall.
Qed.

Lemma places_once c files arc pre post : built34_at L md5 c files arc pre post -> 0 < entry_count c files ->
  exists m hb ib places, widths (lenN (entry_names c files)) m hb ib /\ seated m (entry_names c files) places /\
    (forall m' hb' ib', widths (lenN (entry_names c files)) m' hb' ib' -> m' = m /\ hb' = hb /\ ib' = ib) /\
    forall other, seated m (entry_names c files) other -> other = places.
Proof.
  intros HB Hn.
  destruct (find34_exact c files arc pre post HB Hn) as (a & ss & be & m & hb & ib & places & _ & _ & _ & _ & _ & _ & _ & _ & HW & HS & _).
  assert (Hlen : lenN (entry_names c files) = entry_count c files).
  { rewrite <- entry_names_prepare, map_lenN. apply (entry_count_prepare md5). }
  rewrite <- Hlen in HW. exists m, hb, ib, places. split; [exact HW|]. split; [exact HS|]. split.
  - intros m' hb' ib' HW'. destruct (widths_one _ _ _ _ _ _ _ HW HW') as (-> & -> & ->). auto.
  - intros other HO. exact (seated_one _ _ _ _ HO HS).
Qed.

(** The whole: opening, finding, reading *)
Lemma lookups_exact c files arc pre post :
  lossless L -> built34_at L md5 c files arc pre post ->
  no_collision (LISTFILE :: map pf_name files) ->
  (hashes_apart ATTRIBUTES (LISTFILE :: map pf_name files) -> ~ mistaken c files ATTRIBUTES ->
     exists a, open_archive L (pre ++ arc ++ post) = Ok a) /\
    forall a, open_archive L (pre ++ arc ++ post) = Ok a -> exists b, a_bet a = Some b /\
      forall name,
        (mistaken c files name /\ 8 <= lenN (bet_table b) ->
         (64 <= bet_entry_bits b -> find_file a name = Panic) /\
         (bet_entry_bits b < 64 -> exists fi f0, find_file a name = Ok (Some fi) /\
            hd_error (prepare_listfile c files) = Some f0 /\ points_to L c a f0 fi)) /\
        (~ mistaken c files name \/ lenN (bet_table b) < 8 ->
         (forall f, means files name f -> (exists fi, find_file a name = Ok (Some fi) /\ points_to L c a f fi) /\
            (reads_back L c (pf_comp f) (pf_data f) -> read_file L a name = Ok (pf_data f))) /\
         (hashes_apart name (LISTFILE :: map pf_name files) ->
            find_file a name = Ok None /\ read_file L a name = Err EFileNotFound)).
Proof.
  intros HL HB Hcol.
  destruct (find34_mistaken c files arc pre post HB)
    as (a0 & ss & be & Ho & Hss & Hd & Hat & Hf & Hoff & Hbe & _ & Hall).
  assert (Habs : forall name, find_file a0 name = find_file_classic a0 name ->
             hashes_apart name (LISTFILE :: map pf_name files) -> find_file a0 name = Ok None).
  { intros name E H. rewrite E. eapply find_classic_absent; [exact Hd|]. intros x Hx. apply H. now apply (prepare_names c files). }
  split.
  { intros Hap Hc. exists a0. rewrite Ho. unfold load_attributes. rewrite Hat. unfold read_file.
    rewrite (Habs _ (proj1 (Hall ATTRIBUTES) (or_introl Hc)) Hap). reflexivity. }
  intros a Hopen. rewrite Ho in Hopen. apply load_attributes_same in Hopen as (x & ->).
  assert (Hpt : forall f fi, points_to L c a0 f fi -> points_to L c (with_attrs a0 x) f fi) by (intros f fi H; exact H).
  exists be. split; [exact Hbe|]. intros name. rewrite find_with_attrs, read_with_attrs. destruct (Hall name) as [H1 H2]. split.
  - intros [Hc H8]. destruct (H2 Hc H8) as [HP HF]. split; [exact HP|]. intros W.
    destruct (HF W) as (f0 & p & out & cs & fl & E0 & E1 & E2 & E3). eexists. exists f0. split; [exact E3|]. split; [exact E0|].
    apply Hpt. exists ss, p, out, cs, fl. cbn [fi_pos fi_size fi_csize fi_flags]. auto 10.
  - intros Hc. specialize (H1 Hc). split.
    + intros f Hm. split.
      * destruct (built_find_gen L md5 a0 c ss _ name f Hd H1) as (i & p & out & cs & fl & s & G1 & G2 & G3 & G4 & G5 & G6 & G7).
        -- eapply no_collision_incl; [apply prepare_names|exact Hcol].
        -- now apply means_prepare.
        -- eexists. split; [exact G7|]. apply Hpt. exists ss, p, out, cs, fl. cbn [fi_pos fi_size fi_csize fi_flags]. auto 10.
      * intros Hr. eapply (classic_read L md5); eauto.
        -- eapply no_collision_incl; [apply prepare_names|exact Hcol].
        -- now apply means_prepare.
        -- destruct HB as (_ & _ & _ & Ht & _). eapply typed_comp; [exact Ht|]. eapply means_in; eauto.
    + intros Hap. pose proof (Habs name H1 Hap) as E. split; [exact E|]. unfold read_file. now rewrite E.
Qed.
End Lookups.
