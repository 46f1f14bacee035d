(** * Whole archives of version 3 and 4: building, opening, reading. *)
From Verif Require Import Bytes Crypto CryptoFacts SpecNames NameFacts HashTable BlockTable Header
  HeaderFacts SpecHeader HeaderSearch Compress SpecTables HashTableFacts TableMap SpecCompress CompressFacts
  Adler Listfile HetBet SpecBits BitFacts HetBetFacts Builder BuilderFacts Attributes Archive ReadFacts
  OpenFacts SpecArchive SpecArchive34 Open34Facts ArchiveFacts.
Open Scope N_scope.

(** ** Attributes play no part in finding and reading *)
Definition with_attrs (a : archive) (at_ : option attrs) : archive :=
  mkA (a_file a) (a_off a) (a_user a) (a_header a) (a_hash a) (a_block a) (a_hi a) (a_het a) (a_bet a) at_.

Section A34.
Variable L : codecs.
Variable md5 : bytes -> bytes.

Lemma load_attributes_same a b : load_attributes L a = Ok b -> exists x, b = with_attrs a x.
Proof.
  unfold load_attributes. destruct (a_attrs a) as [x|] eqn:E.
  - intros H. apply Ok_inj in H. subst b. exists (Some x). destruct a; cbn in *. now subst.
  - destruct (read_file L a ATTRIBUTES) as [d|e|]; try discriminate.
    + destruct (match a_block a, a_bet a with Some bt, _ => _ | None, Some b => _ | None, None => _ end);
        cbn [bind]; try discriminate.
      destruct (attr_unwrap L d _); cbn [bind]; try discriminate.
      destruct (attr_parse _ _) as [at_| |]; cbn [bind]; try discriminate.
      intros H. apply Ok_inj in H. subst b. exists (Some at_). reflexivity.
    + destruct e; try discriminate. intros H. apply Ok_inj in H. subst b. exists None.
      destruct a; cbn in *. now subst.
Qed.

Lemma find_with_attrs a x name : find_file (with_attrs a x) name = find_file a name.
Proof. reflexivity. Qed.
Lemma read_with_attrs a x name : read_file L (with_attrs a x) name = read_file L a name.
Proof. reflexivity. Qed.

(** ** Opening *)
Lemma built34_tables c files arc pre post :
  built34_at L md5 c files arc pre post ->
  let fs := prepare_listfile c files in
  exists a ss bt he be, open_archive L (pre ++ arc ++ post) = load_attributes L a /\
    sector_size (c_block_size c) = Ok ss /\ describes L a c ss fs /\
    a_attrs a = None /\ a_file a = pre ++ arc ++ post /\ a_off a = lenN pre /\
    a_block a = Some bt /\ a_het a = Some he /\ a_bet a = Some be /\
    (het_is he (lenN fs) /\ het_rows he (map pf_name fs)) /\ bet_is be bt /\ Forall be_ok bt /\
    laid_out34 L md5 (a_header a) ss c fs arc bt (a_hi a).
Proof.
  intros (Hv & Hct & Hmd & Ht & Hn & Hb & Hfit & H63 & kk & Hp & Hl) fs.
  destruct (find_header_found _ _ _ Hp Hl) as (ud & Hh & _).
  destruct (prepare_typed c files Ht) as (T1 & T2 & T3).
  assert (Hv3 : version_ge (c_version c) V3 = true) by (destruct Hv as [-> | ->]; reflexivity).
  unfold build in Hb. rewrite Hv3 in Hb.
  destruct (write_archive34_open L md5 c fs arc pre post ud)
    as (h & ss & t & bt & hi & he & be & Hss & Ho & Hd & Hhe & Hbe & Hok & Hlay); auto.
  - now apply prepare_count.
  - unfold pos_fits. destruct Hv as [Ev|Ev]; rewrite Ev; exact Hfit.
  - set (a := mkA _ _ _ _ _ _ _ _ _ _) in Ho, Hd.
    exists a, ss, bt, he, be. repeat (split; [first [assumption|reflexivity]|]). exact Hlay.
Qed.

Lemma write_files_first c ss f0 r pos body es :
  write_files L c ss (f0 :: r) pos = Ok (body, es) -> exists e es', es = (pos, e) :: es'.
Proof.
  intros H. cbn [write_files] in H.
  destruct (write_file L c ss f0 pos) as [[[out cs] fl]| |]; cbn [bind] in H; try discriminate.
  destruct (write_files L c ss r _) as [[x y]| |]; cbn [bind] in H; try discriminate.
  apply Ok_inj in H. injection H as _ <-. eauto.
Qed.

(** A lookup is answered by the classic tables, or with the first file, or it
    crashes. *)
Lemma find34 c files arc pre post :
  built34_at L md5 c files arc pre post ->
  let fs := prepare_listfile c files in
  exists a ss, open_archive L (pre ++ arc ++ post) = load_attributes L a /\
    sector_size (c_block_size c) = Ok ss /\ describes L a c ss fs /\
    a_attrs a = None /\ a_file a = pre ++ arc ++ post /\ a_off a = lenN pre /\
    (lenN fs <= 4 -> forall name, find_file a name = find_file_classic a name) /\
    forall name,
      find_file a name = find_file_classic a name \/
      find_file a name = Panic \/
      exists f0 p out csize flags, hd_error fs = Some f0 /\
        write_file L c ss f0 p = Ok (out, csize, flags) /\
        slice (a_off a + p) (lenN out) (a_file a) = Some out /\
        a_off a + p + lenN out < M64 /\
        (forall bt, a_block a = Some bt -> nthN bt 0 = Some (block_entry f0 p csize flags)) /\
        find_file a name = Ok (Some (mkFI 0 0 (a_off a + p) (w32 csize) (w32 (lenN (pf_data f0)))
                                          (N.lor flags FLAG_EXISTS) 0)).
Proof.
  intros HB fs.
  destruct (built34_tables c files arc pre post HB)
    as (a & ss & bt & he & be & Ho & Hss & Hd & Hat & Hf & Hoff & Hbt & Hhe & Hbe & (Ihe & Irows) & Ibe & Hok & Hlay).
  fold fs in Hd, Ihe, Hlay.
  exists a, ss. do 6 (split; [assumption|]).
  destruct Hd as (t & k & bt' & Hh & Hb & Hd). rewrite Hbt in Hb. injection Hb as <-.
  assert (Hnone : forall name, het_find he name = Ok None -> find_file a name = find_file_classic a name).
  { intros name E. unfold find_file. unfold valid_het_bet. rewrite Hhe, Hbe.
    destruct (_ && _); [|reflexivity]. rewrite E. cbn [bind]. rewrite Hh, Hbt. reflexivity. }
  split.
  { intros H4 name. apply Hnone. eapply het_find_small; eauto. }
  intros name.
  destruct (het_find_total he (lenN fs) name Ihe) as [E|E]; [left; now apply Hnone|].
  unfold find_file, valid_het_bet. rewrite Hhe, Hbe.
  destruct (_ && _) eqn:Ev; [|left; reflexivity].
  rewrite E. cbn [bind].
  apply andb_true_iff in Ev as [_ Ev]. apply N.ltb_lt in Ev.
  assert (Hcount : bet_count be = lenN bt) by (unfold bet_is in Ibe; cbv zeta in Ibe; tauto).
  destruct bt as [|e bt]; [rewrite Hcount in Ev; vm_compute in Ev; discriminate|].
  destruct (N.lt_ge_cases (lenN (bet_table be)) 8) as [C|C].
  { left. rewrite bet_get_short by (rewrite N.mul_0_l; exact C). cbn [bind option_map].
    rewrite Hh, Hbt. reflexivity. }
  destruct (N.lt_ge_cases (bet_entry_bits be) 64) as [W|W].
  - right. right.
    assert (HG : bet_get be 0 = Ok (Some (mkBI (be_pos e) (be_size e) (be_csize e) (be_flags e)))).
    { apply (bet_get_ok be (e :: bt) 0 e Ibe eq_refl); cbn [N.of_nat]; rewrite ?N.mul_0_l.
      - exact W.
      - change (0 mod 8) with 0. lia.
      - exact C. }
    rewrite HG. cbn [bind option_map bi_pos bi_size bi_csize bi_flags].
    destruct Hd as (_ & _ & _ & _ & _ & Hfiles).
    destruct Hlay as (hdr & body & es & hetb & betb & htab & btab & hib & Earc & Hlh & Hsz & _ & Ebt & Hpf & Wf & _).
    destruct fs as [|f0 rest] eqn:Efs.
    { cbn in Wf. apply Ok_inj in Wf. injection Wf as _ <-. discriminate Ebt. }
    destruct (Hfiles 0%nat f0 eq_refl) as (p & out & cs & fl & W1 & W2 & W3 & W4 & W5).
    cbn [nth_error] in W3. injection W3 as ->.
    destruct (write_files_first _ _ _ _ _ _ _ Wf) as (e0 & es' & ->).
    cbn [map snd] in Ebt. injection Ebt as Ee _.
    exists f0, p, out, cs, fl. split; [reflexivity|]. split; [exact W1|]. split; [exact W2|].
    split; [exact W5|]. split; [intros bt0 Hb0; rewrite Hbt in Hb0; injection Hb0 as <-; reflexivity|].
    cbn [be_pos be_size be_csize be_flags block_entry].
    assert (Hp : pos_low p = p).
    { assert (Hee : pos_low p = pos_low (h_size (a_header a))).
      { pose proof (write_files_layout _ _ _ _ _ _ _ Wf) as [_ Hl].
        destruct (Hl 0%nat f0 eq_refl) as (p' & o' & c' & f' & x & y & _ & N0 & _).
        cbn [nth_error] in N0. injection N0 as E1 E2. rewrite E2 in Ee.
        rewrite <- E1 in Ee. apply (f_equal be_pos) in Ee. exact Ee. }
      assert (Hsm : pos_low (h_size (a_header a)) = h_size (a_header a)).
      { apply w32_small. rewrite Hsz, Hlh. destruct (c_version c); vm_compute; reflexivity. }
      specialize (Hpf 0%nat _ _ eq_refl). rewrite Hee in W4. rewrite Hpf in W4. congruence. }
    rewrite Hp. rewrite add64_ok by lia. reflexivity.
  - right. left. unfold bet_get. replace (bet_count be <=? 0) with false by lia.
    unfold bet_entry. rewrite N.mul_0_l. change (0 / 8) with 0. change (0 mod 8) with 0.
    replace (lenN (bet_table be) <? 0 + 8) with false by lia.
    destruct (slice 0 _ (bet_table be)); [|reflexivity].
    unfold mask_chk. replace (bet_entry_bits be <? 64) with false by lia. reflexivity.
Qed.

Lemma entry_count_prepare c files : lenN (prepare_listfile c files) = entry_count c files.
Proof.
  unfold entry_count, prepare_listfile. destruct (c_listfile c); rewrite ?lenN_app, ?lenN_cons, ?lenN_nil; lia.
Qed.

(** ** Reading *)
Lemma reads_safe c ss f p r : lossless L -> sector_size (c_block_size c) = Ok ss ->
  write_file L c ss f p = Ok r -> pf_comp f < 256 ->
  reads_back L c (pf_comp f) (pf_data f) -> file_safe L ss f.
Proof.
  intros HL Hss W Hc Hr.
  assert (H0 : ss = 0 -> pf_data f = []).
  { intros ->. unfold write_file in W. destruct (N.leb_spec (lenN (pf_data f)) 0) as [C|C].
    - apply lenN_0. lia.
    - unfold write_multi in W. cbn in W. discriminate. }
  destruct Hr as [(H1 & H2 & H3)|(H1 & H2 & H3 & H4 & H5)].
  - now apply (small_safe L c).
  - now apply (big_safe L md5 c).
Qed.

Lemma typed_comp c files f : well_typed c files -> In f files -> pf_comp f < 256.
Proof. intros (_ & _ & H) Hf. now apply H. Qed.

Lemma means_in fs name f : means fs name f -> In f fs.
Proof. intros (l1 & l2 & -> & _). apply in_app_iff. right. left. reflexivity. Qed.

Lemma classic_read a c ss fs name f :
  lossless L -> describes L a c ss fs -> sector_size (c_block_size c) = Ok ss ->
  find_file a name = find_file_classic a name -> no_collision (map pf_name fs) ->
  means fs name f -> pf_comp f < 256 -> reads_back L c (pf_comp f) (pf_data f) ->
  read_file L a name = Ok (pf_data f).
Proof.
  intros HL Hd Hss Hf Hcol Hm Hc Hr.
  destruct (built_find_gen L md5 a c ss fs name f Hd Hf Hcol Hm) as (i & p & out & cs & fl & s & H1 & H2 & H3 & H4 & H5 & H6 & H7).
  eapply read_file_ok; eauto. eapply reads_safe; eauto.
Qed.

Lemma few_entries c files arc pre post :
  lossless L -> built34_at L md5 c files arc pre post -> entry_count c files <= 4 ->
  no_collision (LISTFILE :: map pf_name files) ->
  hashes_apart ATTRIBUTES (LISTFILE :: map pf_name files) ->
  exists a, open_archive L (pre ++ arc ++ post) = Ok a /\
    (forall name f, means files name f -> reads_back L c (pf_comp f) (pf_data f) ->
       read_file L a name = Ok (pf_data f)) /\
    (forall name, hashes_apart name (LISTFILE :: map pf_name files) ->
       find_file a name = Ok None /\ read_file L a name = Err EFileNotFound).
Proof.
  intros HL HB H4 Hcol Hap.
  destruct (find34 c files arc pre post HB) as (a & ss & Ho & Hss & Hd & Hat & Hf & Hoff & Hsm & _).
  rewrite entry_count_prepare in Hsm. specialize (Hsm H4).
  assert (Habs : forall name, hashes_apart name (LISTFILE :: map pf_name files) -> find_file a name = Ok None).
  { intros name Hn. rewrite Hsm. eapply find_classic_absent; [exact Hd|].
    intros x Hx. apply Hn. now apply (prepare_names c files). }
  exists a. split; [|split].
  - rewrite Ho. unfold load_attributes. rewrite Hat. unfold read_file. rewrite (Habs _ Hap). reflexivity.
  - intros name f Hm Hr. eapply classic_read; eauto.
    + eapply no_collision_incl; [apply prepare_names|exact Hcol].
    + now apply means_prepare.
    + destruct HB as (_ & _ & _ & Ht & _). eapply typed_comp; [exact Ht|]. eapply means_in; eauto.
  - intros name Hn. split; [now apply Habs|]. unfold read_file. now rewrite (Habs _ Hn).
Qed.

Lemma prepare_head c files f0 rest : files = f0 :: rest -> hd_error (prepare_listfile c files) = Some f0.
Proof. intros ->. unfold prepare_listfile. now destruct (c_listfile c). Qed.

Lemma right_or_first c files arc pre post a :
  built34_at L md5 c files arc pre post ->
  no_collision (LISTFILE :: map pf_name files) ->
  open_archive L (pre ++ arc ++ post) = Ok a ->
  (forall name f, means files name f ->
     find_file a name = Panic \/
     exists fi, find_file a name = Ok (Some fi) /\
       (points_to L c a f fi \/ exists f0, hd_error files = Some f0 /\ points_to L c a f0 fi)) /\
  (forall name, hashes_apart name (LISTFILE :: map pf_name files) ->
     find_file a name = Panic \/ find_file a name = Ok None \/
     exists fi f0, find_file a name = Ok (Some fi) /\
       hd_error (prepare_listfile c files) = Some f0 /\ points_to L c a f0 fi).
Proof.
  intros HB Hcol Hopen.
  destruct (find34 c files arc pre post HB) as (a0 & ss & Ho & Hss & Hd & Hat & Hf & Hoff & _ & Hall).
  rewrite Ho in Hopen. apply load_attributes_same in Hopen as (x & ->).
  assert (Hpt : forall f fi, points_to L c a0 f fi -> points_to L c (with_attrs a0 x) f fi) by (intros f fi H; exact H).
  split.
  - intros name f Hm. rewrite find_with_attrs.
    destruct (Hall name) as [E|[E|(f0 & p & out & cs & fl & H0 & W & S & _ & _ & E)]].
    + right. destruct (built_find_gen L md5 a0 c ss _ name f Hd E) as (i & p & out & cs & fl & s & H1 & H2 & H3 & H4 & H5 & H6 & H7).
      * eapply no_collision_incl; [apply prepare_names|exact Hcol].
      * now apply means_prepare.
      * eexists. split; [exact H7|]. left. apply Hpt. exists ss, p, out, cs, fl. cbn [fi_pos fi_size fi_csize fi_flags]. auto 10.
    + left. exact E.
    + right. eexists. split; [exact E|]. right. exists f0. split.
      * apply means_in in Hm. destruct files as [|g r]; [destruct Hm|].
        rewrite (prepare_head c (g :: r) g r eq_refl) in H0. exact H0.
      * apply Hpt. exists ss, p, out, cs, fl. cbn [fi_pos fi_size fi_csize fi_flags]. auto 10.
  - intros name Hn. rewrite find_with_attrs.
    destruct (Hall name) as [E|[E|(f0 & p & out & cs & fl & H0 & W & S & _ & _ & E)]].
    + right. left. rewrite E. eapply find_classic_absent; [exact Hd|].
      intros y Hy. apply Hn. now apply (prepare_names c files).
    + left. exact E.
    + right. right. eexists. exists f0. split; [exact E|]. split; [exact H0|].
      apply Hpt. exists ss, p, out, cs, fl. cbn [fi_pos fi_size fi_csize fi_flags]. auto 10.
Qed.

(** A file that is not encrypted is stored the same under every name. *)
Definition renamed (f : pending) (name : bytes) : pending :=
  mkPF (pf_data f) name (pf_comp f) (pf_encrypt f) (pf_fix f) 0.
Lemma write_renamed c ss f name p : pf_encrypt f = false ->
  write_file L c ss (renamed f name) p = write_file L c ss f p.
Proof.
  intros E. unfold write_file, write_single, write_multi, renamed. cbn [pf_data pf_comp pf_encrypt pf_fix pf_name].
  rewrite E. reflexivity.
Qed.

Lemma reads_right_or_first c files arc pre post a f0 rest :
  lossless L -> built34_at L md5 c files arc pre post ->
  no_collision (LISTFILE :: map pf_name files) ->
  open_archive L (pre ++ arc ++ post) = Ok a ->
  files = f0 :: rest -> pf_encrypt f0 = false -> reads_back L c (pf_comp f0) (pf_data f0) ->
  (forall name f, means files name f -> reads_back L c (pf_comp f) (pf_data f) ->
     read_file L a name = Ok (pf_data f) \/ read_file L a name = Ok (pf_data f0) \/
     read_file L a name = Panic) /\
  (forall name, hashes_apart name (LISTFILE :: map pf_name files) ->
     read_file L a name = Err EFileNotFound \/ read_file L a name = Ok (pf_data f0) \/
     read_file L a name = Panic).
Proof.
  intros HL HB Hcol Hopen Ef He Hr0.
  destruct (find34 c files arc pre post HB) as (a0 & ss & Ho & Hss & Hd & Hat & Hf & Hoff & _ & Hall).
  rewrite Ho in Hopen. apply load_attributes_same in Hopen as (x & ->).
  assert (Ht : well_typed c files) by (destruct HB as (_ & _ & _ & Ht & _); exact Ht).
  assert (Hfirst : forall name p out cs fl,
     write_file L c ss f0 p = Ok (out, cs, fl) ->
     slice (a_off a0 + p) (lenN out) (a_file a0) = Some out -> a_off a0 + p + lenN out < M64 ->
     (forall bt, a_block a0 = Some bt -> nthN bt 0 = Some (block_entry f0 p cs fl)) ->
     find_file a0 name = Ok (Some (mkFI 0 0 (a_off a0 + p) (w32 cs) (w32 (lenN (pf_data f0)))
                                          (N.lor fl FLAG_EXISTS) 0)) ->
     read_file L a0 name = Ok (pf_data f0)).
  { intros name p out cs fl W S H64 Hb E.
    change (pf_data f0) with (pf_data (renamed f0 name)).
    rewrite <- (write_renamed c ss f0 name p He) in W.
    refine (read_file_ok L a0 c ss _ name 0 (renamed f0 name) p out cs fl 0 Hd E Hb _ W S H64 _).
    - apply name_equiv_refl.
    - eapply (reads_safe c ss (renamed f0 name)); eauto.
      cbn [renamed pf_comp]. eapply typed_comp; [exact Ht|]. rewrite Ef. left. reflexivity. }
  split.
  - intros name f Hm Hr. rewrite read_with_attrs.
    destruct (Hall name) as [E|[E|(g0 & p & out & cs & fl & H0 & W & S & H64 & Hb & E)]].
    + left. eapply classic_read; eauto.
      * eapply no_collision_incl; [apply prepare_names|exact Hcol].
      * now apply means_prepare.
      * eapply typed_comp; [exact Ht|]. eapply means_in; eauto.
    + right. right. unfold read_file. now rewrite E.
    + right. left. rewrite (prepare_head c files f0 rest Ef) in H0. injection H0 as <-.
      eapply Hfirst; eauto.
  - intros name Hn. rewrite read_with_attrs.
    destruct (Hall name) as [E|[E|(g0 & p & out & cs & fl & H0 & W & S & H64 & Hb & E)]].
    + left. unfold read_file. rewrite E. rewrite (find_classic_absent L a0 c ss _ name Hd); [reflexivity|].
      intros y Hy. apply Hn. now apply (prepare_names c files).
    + right. right. unfold read_file. now rewrite E.
    + right. left. rewrite (prepare_head c files f0 rest Ef) in H0. injection H0 as <-.
      eapply Hfirst; eauto.
Qed.

End A34.
