(** * Whole archives of version 1 and 2: building, opening, reading. *)
From Verif Require Import Bytes Crypto CryptoFacts SpecNames NameFacts HashTable BlockTable Header
  HeaderFacts SpecHeader HeaderSearch Compress SpecTables HashTableFacts TableMap SpecCompress CompressFacts
  Adler Listfile HetBet Builder BuilderFacts Attributes Archive ReadFacts OpenFacts SpecArchive.
Open Scope N_scope.

(** ** Exact methods *)
Lemma exact_undoes L m d : lossless L -> lenN d < 2 ^ 61 -> exact_on m d -> undoes L m d.
Proof.
  intros HL Hs Hm r Hc Hne. pose proof Hm as Hm'.
  destruct Hm as [->|[Hm|[Hm Hz]]].
  - exfalso. apply compress_result in Hc as [E|(c & _ & Hc & Hlt)]; [congruence|].
    change (compress_internal L d 0) with (Ok d) in Hc. apply Ok_inj in Hc. subst c. lia.
  - destruct (N.eq_dec m 0x06) as [->|H6].
    + destruct (combos_undone L 0x06 d r HL) as (c & Hr & D); auto; [left; reflexivity|].
      exists c. split; [exact Hr|]. rewrite D. reflexivity.
    + eapply container_single; eauto. unfold single_methods.
      cbn in Hm |- *. intuition (subst; auto); congruence.
  - destruct Hm as [<-|[<-|[]]].
    + destruct (container_sparse L d r Hc Hne) as (c & Hr & D). exists c. split; [exact Hr|]. now apply D.
    + destruct (combos_sparse L 0x24 d r) as (c & Hr & D); auto.
      * left; reflexivity.
      * intros a Ha. vm_compute in Ha. apply Ok_inj in Ha. now subst a.
      * exists c. split; [exact Hr|]. rewrite D. reflexivity.
Qed.

(** ** Sectors *)
Lemma lenN_0 (d : bytes) : lenN d = 0 -> d = [].
Proof. destruct d; [reflexivity|unfold lenN; cbn; lia]. Qed.

Lemma is_sector_chunks ss : 0 < ss -> forall fuel d s, (length d <= fuel)%nat ->
  In s (chunks fuel ss d) <-> is_sector ss d s.
Proof.
  intros Hs. induction fuel as [|f IH]; intros d s Hl.
  - destruct d; [|cbn in Hl; lia]. split; [intros []|].
    intros (a & b & E & _ & Hne & _). exfalso. symmetry in E. apply app_eq_nil in E as [_ E].
    apply app_eq_nil in E as [E _]. contradiction.
  - cbn [chunks]. destruct d as [|x d'].
    { split; [intros []|]. intros (a & b & E & _ & Hne & _). exfalso. symmetry in E.
      apply app_eq_nil in E as [_ E]. apply app_eq_nil in E as [E _]. contradiction. }
    set (d := x :: d') in *. assert (Hd : (0 < length d)%nat) by (cbn; lia). clearbody d. clear x d'.
    set (n := N.to_nat (N.min ss (lenN d))).
    assert (Hn : (0 < n <= length d)%nat) by (unfold n, lenN; lia).
    destruct (firstn_skipn_lenN d n) as [H1 H2]; [lia|].
    assert (Hlen : (length (skipn n d) <= f)%nat) by (rewrite skipn_length; lia).
    split.
    + intros [<-|Hin].
      * exists [], (skipn n d). split; [cbn [app]; symmetry; apply firstn_skipn|].
        split; [change (lenN (@nil byte)) with 0; apply N.mod_0_l; lia|].
        split; [intros E; apply (f_equal (@length byte)) in E; rewrite firstn_length in E; cbn in E; lia|].
        rewrite H1. destruct (N.le_gt_cases ss (lenN d)) as [C|C].
        -- left. unfold n. lia.
        -- right. split; [unfold n; lia|]. apply skipn_all2. unfold n, lenN in *. lia.
      * apply (IH _ _ Hlen) in Hin as (a & b & E & Hm & Hne & Hlast).
        exists (firstn n d ++ a), b.
        split; [rewrite <- app_assoc, <- E; symmetry; apply firstn_skipn|].
        assert (Hfull : lenN (firstn n d) = ss).
        { rewrite H1. destruct (N.le_gt_cases ss (lenN d)) as [C|C]; [unfold n; lia|].
          exfalso. assert (Hz : skipn n d = []) by (apply skipn_all2; unfold n, lenN in *; lia).
          rewrite Hz in E. symmetry in E. apply app_eq_nil in E as [_ E].
          apply app_eq_nil in E as [E _]. contradiction. }
        split; [rewrite lenN_app, Hfull; replace (ss + lenN a) with (lenN a + 1 * ss) by lia;
                rewrite N.mod_add by lia; exact Hm|].
        split; [exact Hne|exact Hlast].
    + intros (a & b & E & Hm & Hne & Hlast).
      assert (Hs1 : (0 < length s)%nat) by (destruct s; [congruence|cbn; lia]).
      destruct (N.lt_ge_cases (lenN a) ss) as [C|C].
      * rewrite N.mod_small in Hm by exact C. apply lenN_0 in Hm. subst a. cbn [app] in E.
        left. subst d. rewrite firstn_app.
        assert (n = length s) as ->.
        { unfold n. rewrite lenN_app. unfold lenN in *.
          destruct Hlast as [Hl'|[Hl' Hb]]; [|subst b; cbn]; lia. }
        rewrite firstn_all, Nat.sub_diag. cbn. apply app_nil_r.
      * right. apply (IH _ _ Hlen).
        assert (Hns : n = N.to_nat ss).
        { unfold n. subst d. rewrite !lenN_app. lia. }
        exists (skipn n a), b. split.
        -- subst d. rewrite skipn_app. rewrite Hns. unfold lenN in C.
           replace (N.to_nat ss - length a)%nat with 0%nat by lia. reflexivity.
        -- split; [|split; [exact Hne|exact Hlast]].
           destruct (firstn_skipn_lenN a n) as [_ ->]; [unfold lenN in C; lia|].
           rewrite Hns, N2Nat.id.
           replace (lenN a) with (lenN a - ss + 1 * ss) in Hm by lia.
           rewrite N.mod_add in Hm by lia. exact Hm.
Qed.

Lemma sector_size_ok c ss : sector_size (c_block_size c) = Ok ss -> ss <> 0 -> ss = sector_bytes c.
Proof.
  unfold sector_size, sector_bytes. destruct (N.ltb_spec (c_block_size c) 64) as [H|H]; [|discriminate].
  intros E. apply Ok_inj in E. rewrite N.shiftl_mul_pow2 in E.
  destruct (N.lt_ge_cases (c_block_size c) 55) as [C|C].
  - intros _. rewrite <- E. apply w64_small.
    assert (2 ^ c_block_size c <= 2 ^ 54) by (apply N.pow_le_mono_r; lia).
    unfold M64. change (2 ^ 64) with 18446744073709551616. change (2 ^ 54) with 18014398509481984 in *. lia.
  - intros Hz. exfalso. apply Hz. rewrite <- E.
    replace (c_block_size c) with (55 + (c_block_size c - 55)) by lia.
    rewrite N.pow_add_r. change (2 ^ 55) with 36028797018963968.
    replace (512 * (36028797018963968 * 2 ^ (c_block_size c - 55)))
      with (2 ^ (c_block_size c - 55) * M64) by (unfold M64; change (2^64) with 18446744073709551616; lia).
    unfold w64. apply N.mod_mul. discriminate.
Qed.

(** ** Names *)
Lemma no_collision_more name names x :
  no_collision names -> In x names -> name_equiv name x -> no_collision (name :: names).
Proof.
  intros H Hx Hn. 
  assert (HA : forall ht, hash_string name ht = hash_string x ht) by (intros; now apply name_equiv_hash).
  assert (G : forall y, In y names -> hash_string name HT_NAME_A = hash_string y HT_NAME_A ->
                        hash_string name HT_NAME_B = hash_string y HT_NAME_B -> name_equiv name y).
  { intros y Hy E1 E2. rewrite HA in E1, E2. eapply name_equiv_trans; [exact Hn|]. now apply H. }
  intros u v [<-|Hu] [<-|Hv] E1 E2.
  - apply name_equiv_refl.
  - now apply G.
  - apply name_equiv_sym. now apply G.
  - now apply H.
Qed.

Lemma hashes_apart_collision name names :
  no_collision names -> hashes_apart name names -> no_collision (name :: names).
Proof.
  intros H Ha u v [<-|Hu] [<-|Hv] E1 E2.
  - apply name_equiv_refl.
  - exfalso. apply (Ha v Hv). auto.
  - exfalso. apply (Ha u Hu). auto.
  - now apply H.
Qed.

Lemma no_collision_incl a b : incl a b -> no_collision b -> no_collision a.
Proof. intros I H x y Hx Hy. apply H; auto. Qed.

Section A.
Variable L : codecs.
Variable md5 : bytes -> bytes.

(** A name whose hashes differ from those of all files is not found. *)
Lemma find_classic_absent a c ss fs name :
  describes L a c ss fs -> hashes_apart name (map pf_name fs) -> find_file_classic a name = Ok None.
Proof.
  intros (t & k & bt & Hh & Hb & Ht & Inv & _) Ha.
  unfold find_file_classic. rewrite Hh, Hb. cbn [of_option bind].
  rewrite (ht_find_search t k Ht).
  rewrite (search_absent t (map item_of (map file_key fs))); [reflexivity|exact Inv|].
  intros x Hx [E1 E2]. rewrite map_map in Hx. apply in_map_iff in Hx as (f & <- & Hf).
  apply (Ha (pf_name f)); [now apply in_map|]. split; [exact E1|exact E2].
Qed.

Lemma prepare_names c files : incl (map pf_name (prepare_listfile c files)) (LISTFILE :: map pf_name files).
Proof.
  unfold prepare_listfile. intros x Hx. destruct (c_listfile c).
  1,2: rewrite map_app in Hx; apply in_app_iff in Hx as [Hx|[<-|[]]]; [right; exact Hx|left; reflexivity].
  right. exact Hx.
Qed.

Lemma prepare_typed c files : well_typed c files ->
  c_block_size c < M16 /\ Forall (fun f => pf_locale f < M16) (prepare_listfile c files) /\
  Forall (fun f => pf_comp f < 256) (prepare_listfile c files).
Proof.
  intros (H1 & H2 & H3). split; [exact H1|]. rewrite !Forall_forall.
  unfold prepare_listfile. split; intros f Hf.
  - destruct (c_listfile c); try (apply in_app_iff in Hf as [Hf|[<-|[]]]; [|reflexivity]); apply H3; auto.
  - destruct (c_listfile c); try (apply in_app_iff in Hf as [Hf|[<-|[]]]; [|exact H2]); apply H3; auto.
Qed.

Lemma prepare_count c files : lenN files < 2 ^ 30 - 2 ->
  table_count c (prepare_listfile c files) < 2 ^ 30.
Proof.
  intros H. unfold table_count, prepare_listfile. change (2 ^ 30) with 1073741824 in *.
  destruct (c_listfile c); rewrite ?lenN_app, ?lenN_cons, ?lenN_nil; lia.
Qed.

(** What "V1/V2 archive, built and found in a file" means. *)
Lemma built_open_all c files arc pre post :
  built_at L md5 c files arc pre post ->
  hashes_apart ATTRIBUTES (LISTFILE :: map pf_name files) ->
  exists a ss, open_archive L (pre ++ arc ++ post) = Ok a /\ sector_size (c_block_size c) = Ok ss /\
    describes L a c ss (prepare_listfile c files) /\ a_het a = None /\ a_file a = pre ++ arc ++ post /\
    a_off a = lenN pre /\
    exists bt, a_block a = Some bt /\
      laid_out L (a_header a) ss c (prepare_listfile c files) arc bt (a_hi a) /\
      a_bet a = None /\ a_attrs a = None.
Proof.
  intros (Hv & Ht & Hn & Hb & Hfit & H63 & kk & Hp & Hl) Ha.
  destruct (find_header_found _ _ _ Hp Hl) as (ud & Hh & _).
  destruct (prepare_typed c files Ht) as (T1 & T2 & T3).
  assert (Hv3 : version_ge (c_version c) V3 = false) by (destruct Hv as [-> | ->]; reflexivity).
  unfold build in Hb. rewrite Hv3 in Hb.
  destruct (write_archive12_open L c (prepare_listfile c files) arc pre post ud)
    as (h & ss & t & bt & hi & Hss & Ho & Hd & Hlay); auto.
  - now apply prepare_count.
  - unfold pos_fits. unfold fits in Hfit. destruct Hv as [Ev|Ev]; rewrite Ev in Hfit |- *; exact Hfit.
  - set (a := mkA _ _ _ _ _ _ _ _ _ _) in Ho, Hd.
    exists a, ss. split; [|split; [exact Hss|split; [exact Hd|do 3 (split; [reflexivity|]); exists bt; auto 10]]].
    rewrite Ho. unfold load_attributes. cbn [a a_attrs].
    assert (Hr : read_file L a ATTRIBUTES = Err EFileNotFound).
    { unfold read_file. assert (Hf : find_file a ATTRIBUTES = Ok None).
      { unfold find_file, valid_het_bet. cbn [a a_het]. eapply find_classic_absent; [exact Hd|].
        intros x Hx. apply Ha. now apply (prepare_names c files). }
      rewrite Hf. reflexivity. }
    rewrite Hr. reflexivity.
Qed.

Lemma built_open c files arc pre post :
  built_at L md5 c files arc pre post ->
  hashes_apart ATTRIBUTES (LISTFILE :: map pf_name files) ->
  exists a ss, open_archive L (pre ++ arc ++ post) = Ok a /\ sector_size (c_block_size c) = Ok ss /\
    describes L a c ss (prepare_listfile c files) /\ a_het a = None /\ a_file a = pre ++ arc ++ post /\
    a_off a = lenN pre /\
    exists bt, a_block a = Some bt /\
      laid_out L (a_header a) ss c (prepare_listfile c files) arc bt (a_hi a).
Proof.
  intros Hb Ha. destruct (built_open_all c files arc pre post Hb Ha)
    as (a & ss & H1 & H2 & H3 & H4 & H5 & H6 & bt & H7 & H8 & _).
  exists a, ss. repeat (split; [assumption|]). exists bt. auto.
Qed.

Lemma find_is_classic a name : a_het a = None -> find_file a name = find_file_classic a name.
Proof. intros H. unfold find_file, valid_het_bet. now rewrite H. Qed.

(** The file a name means is the one the lookup gives. *)
Lemma means_lookup fs name f m : means fs name f ->
  map_lookup (map file_key fs) (name, 0) m ->
  exists i, m = Some (N.of_nat i) /\ nth_error fs i = Some f.
Proof.
  intros (l1 & l2 & E & Hn & Hb) Hm. destruct m as [m|]; cbn [map_lookup] in Hm.
  - destruct Hm as (x & Hx & [Hk _] & Hj). rewrite nth_error_map in Hx.
    destruct (nth_error fs (N.to_nat m)) as [g|] eqn:Eg; [|discriminate]. injection Hx as <-.
    cbn [fst file_key] in Hk.
    assert (N.to_nat m = length l1) as Em.
    { destruct (Nat.lt_trichotomy (N.to_nat m) (length l1)) as [C|[C|C]]; [|exact C|].
      - exfalso. rewrite E, nth_error_app1 in Eg by exact C. apply nth_error_In in Eg. now apply (Hb g).
      - exfalso. apply (Hj (length l1) (file_key f)); [exact C| |].
        + rewrite nth_error_map, E, nth_error_app2, Nat.sub_diag by lia. reflexivity.
        + split; [exact Hn|left; reflexivity]. }
    exists (length l1). split; [f_equal; lia|].
    rewrite E, nth_error_app2, Nat.sub_diag by lia. reflexivity.
  - exfalso. apply (Hm (file_key f)).
    + apply in_map. rewrite E. apply in_app_iff. right. left. reflexivity.
    + split; [exact Hn|left; reflexivity].
Qed.

Lemma means_prepare c files name f : means files name f -> means (prepare_listfile c files) name f.
Proof.
  intros (l1 & l2 & E & Hn & Hb). unfold prepare_listfile. destruct (c_listfile c).
  3: exists l1, l2; auto.
  all: rewrite E, <- app_assoc; cbn [app]; eexists; eexists; split; [reflexivity|]; auto.
Qed.

(** What the reader finds for a name that means a file, where the extended
    tables do not interfere. *)
Lemma built_find_gen a c ss fs name f :
  describes L a c ss fs -> find_file a name = find_file_classic a name ->
  no_collision (map pf_name fs) -> means fs name f ->
  exists i p out csize flags s,
    nth_error fs i = Some f /\ name_equiv name (pf_name f) /\
    write_file L c ss f p = Ok (out, csize, flags) /\
    slice (a_off a + p) (lenN out) (a_file a) = Some out /\
    a_off a + p + lenN out < M64 /\
    (forall bt, a_block a = Some bt -> nthN bt (N.of_nat i) = Some (block_entry f p csize flags)) /\
    find_file a name =
      Ok (Some (mkFI s (N.of_nat i) (a_off a + p) (w32 csize) (w32 (lenN (pf_data f)))
                     (N.lor flags FLAG_EXISTS) (pf_locale f))).
Proof.
  intros Hd Hhet Hcol Hm. pose proof Hm as (l1 & l2 & E & Hn & _).
  assert (Hin : In (pf_name f) (map pf_name fs)).
  { apply in_map. rewrite E. apply in_app_iff. right. left. reflexivity. }
  destruct (find_classic_ok L a c ss fs name Hd) as (r & Hr & Hf).
  { eapply no_collision_more; eauto. }
  destruct (means_lookup _ _ _ _ Hm Hr) as (i & -> & Hi).
  destruct Hf as (f' & p & out & cs & fl & s & H1 & H2 & H3 & H4 & H5 & H6 & H7).
  rewrite Nat2N.id, Hi in H1. injection H1 as <-.
  exists i, p, out, cs, fl, s. rewrite Hhet. auto 10.
Qed.

Lemma built_find a c ss fs name f :
  describes L a c ss fs -> a_het a = None -> no_collision (map pf_name fs) -> means fs name f ->
  exists i p out csize flags s,
    nth_error fs i = Some f /\ name_equiv name (pf_name f) /\
    write_file L c ss f p = Ok (out, csize, flags) /\
    slice (a_off a + p) (lenN out) (a_file a) = Some out /\
    a_off a + p + lenN out < M64 /\
    (forall bt, a_block a = Some bt -> nthN bt (N.of_nat i) = Some (block_entry f p csize flags)) /\
    find_file a name =
      Ok (Some (mkFI s (N.of_nat i) (a_off a + p) (w32 csize) (w32 (lenN (pf_data f)))
                     (N.lor flags FLAG_EXISTS) (pf_locale f))).
Proof. intros Hd Hhet. apply built_find_gen; [exact Hd|]. now apply find_is_classic. Qed.

(** ** Reading back *)
Lemma built_read c files arc pre post :
  built_at L md5 c files arc pre post ->
  no_collision (LISTFILE :: map pf_name files) ->
  hashes_apart ATTRIBUTES (LISTFILE :: map pf_name files) ->
  exists a ss, open_archive L (pre ++ arc ++ post) = Ok a /\ sector_size (c_block_size c) = Ok ss /\
    forall name f, means (prepare_listfile c files) name f ->
      ((ss = 0 -> pf_data f = []) -> file_safe L ss f) -> read_file L a name = Ok (pf_data f).
Proof.
  intros Hb Hcol Ha.
  destruct (built_open c files arc pre post Hb Ha) as (a & ss & Ho & Hss & Hd & Hhet & Hf & Hoff & _).
  exists a, ss. split; [exact Ho|]. split; [exact Hss|]. intros name f Hm Hsafe.
  destruct (built_find a c ss _ name f Hd Hhet) as (i & p & out & cs & fl & s & H1 & H2 & H3 & H4 & H5 & H6 & H7).
  - eapply no_collision_incl; [apply prepare_names|exact Hcol].
  - exact Hm.
  - eapply read_file_ok; eauto. apply Hsafe. intros ->.
    unfold write_file in H3. destruct (N.leb_spec (lenN (pf_data f)) 0) as [C|C].
    + apply lenN_0. lia.
    + unfold write_multi in H3. cbn in H3. discriminate.
Qed.

(** Small files *)
Lemma small_safe c ss f : lossless L -> sector_size (c_block_size c) = Ok ss ->
  (ss = 0 -> pf_data f = []) -> pf_comp f < 256 -> lenN (pf_data f) <= sector_bytes c ->
  lenN (pf_data f) < 2 ^ 32 -> exact_on (pf_comp f) (pf_data f) -> file_safe L ss f.
Proof.
  intros HL Hss H0 Hc Hlen H32 He. unfold file_safe. split; [exact Hc|].
  destruct (N.leb_spec (lenN (pf_data f)) ss) as [C|C].
  - split; [exact H32|]. apply exact_undoes; [exact HL| |exact He]. eapply N.lt_trans; [exact H32|reflexivity].
  - exfalso. destruct (N.eq_dec ss 0) as [->|Hz].
    + rewrite (H0 eq_refl) in C. change (lenN (@nil byte)) with 0 in C. lia.
    + apply sector_size_ok in Hss; [|exact Hz]. lia.
Qed.

Lemma big_safe c ss f : lossless L -> sector_size (c_block_size c) = Ok ss ->
  (ss = 0 -> pf_data f = []) -> pf_comp f < 256 -> sector_bytes c < lenN (pf_data f) ->
  lenN (pf_data f) <= 4000000000 ->
  (forall s, is_sector (sector_bytes c) (pf_data f) s ->
     exact_on (pf_comp f) s /\ clear_cut L (pf_comp f) s) ->
  (exists s, is_sector (sector_bytes c) (pf_data f) s /\ shrinks L (pf_comp f) s) ->
  pf_comp f <> 0 ->
  file_safe L ss f.
Proof.
  intros HL Hss H0 Hc Hbig Hlen Hall (s & Hs & r & Hr & Hrs) Hm.
  assert (Hz : ss <> 0).
  { intros ->. rewrite (H0 eq_refl) in Hbig. change (lenN (@nil byte)) with 0 in Hbig. lia. }
  pose proof (sector_size_ok _ _ Hss Hz) as E. 
  assert (H512 : 512 <= ss).
  { rewrite E. unfold sector_bytes. assert (2 ^ c_block_size c <> 0) by (apply N.pow_nonzero; lia). lia. }
  rewrite <- E in *.
  unfold file_safe. split; [exact Hc|].
  destruct (N.leb_spec (lenN (pf_data f)) ss) as [C|C]; [lia|].
  split.
  - assert (div_ceil (lenN (pf_data f)) ss <= 7812501).
    { unfold div_ceil. apply N.div_le_upper_bound; [lia|].
      assert (7812500 * 512 <= 7812500 * ss) by (apply N.mul_le_mono_l; exact H512). lia. }
    unfold M32. change (2 ^ 32) with 4294967296. lia.
  - split.
    + apply Forall_forall. intros x Hx. apply is_sector_chunks in Hx; [|lia|lia].
      destruct (Hall x Hx) as [H1 H2]. split; [|exact H2]. apply exact_undoes; [exact HL| |exact H1].
      destruct Hx as (a & b & Ed & _). rewrite Ed, !lenN_app in Hlen.
      apply N.le_lt_trans with 4000000000; [lia|reflexivity].
    + exists s, r. split; [apply is_sector_chunks; [lia|lia|exact Hs]|].
      destruct Hs as (_ & _ & _ & _ & Hne & _). auto.
Qed.

Lemma round_trip_small c files arc pre post :
  lossless L -> built_at L md5 c files arc pre post ->
  no_collision (LISTFILE :: map pf_name files) ->
  hashes_apart ATTRIBUTES (LISTFILE :: map pf_name files) ->
  exists a, open_archive L (pre ++ arc ++ post) = Ok a /\
    forall name f, means files name f ->
      lenN (pf_data f) <= sector_bytes c -> lenN (pf_data f) < 2 ^ 32 ->
      exact_on (pf_comp f) (pf_data f) -> read_file L a name = Ok (pf_data f).
Proof.
  intros HL Hb Hcol Ha. destruct (built_read _ _ _ _ _ Hb Hcol Ha) as (a & ss & Ho & Hss & Hr).
  exists a. split; [exact Ho|]. intros name f Hm Hlen H32 He.
  apply Hr; [now apply means_prepare|]. intros H0.
  apply (small_safe c); auto. destruct Hb as (_ & (_ & _ & Ht) & _).
  destruct Hm as (l1 & l2 & -> & _). apply Ht. apply in_app_iff. right. left. reflexivity.
Qed.

Lemma round_trip_big c files arc pre post :
  lossless L -> built_at L md5 c files arc pre post ->
  no_collision (LISTFILE :: map pf_name files) ->
  hashes_apart ATTRIBUTES (LISTFILE :: map pf_name files) ->
  exists a, open_archive L (pre ++ arc ++ post) = Ok a /\
    forall name f, means files name f ->
      sector_bytes c < lenN (pf_data f) -> lenN (pf_data f) <= 4000000000 -> pf_comp f <> 0 ->
      (forall s, is_sector (sector_bytes c) (pf_data f) s ->
         exact_on (pf_comp f) s /\ clear_cut L (pf_comp f) s) ->
      (exists s, is_sector (sector_bytes c) (pf_data f) s /\ shrinks L (pf_comp f) s) ->
      read_file L a name = Ok (pf_data f).
Proof.
  intros HL Hb Hcol Ha. destruct (built_read _ _ _ _ _ Hb Hcol Ha) as (a & ss & Ho & Hss & Hr).
  exists a. split; [exact Ho|]. intros name f Hm Hlen H32 Hm0 Hall Hex.
  apply Hr; [now apply means_prepare|]. intros H0.
  apply (big_safe c); auto. destruct Hb as (_ & (_ & _ & Ht) & _).
  destruct Hm as (l1 & l2 & -> & _). apply Ht. apply in_app_iff. right. left. reflexivity.
Qed.

(** A file of several sectors with nothing compressed is never read back. *)
Lemma chunks_nonempty_raw secs : forall stored x,
  store_sectors L secs 0 = Ok (stored, x) -> stored = secs /\ x = false.
Proof.
  induction secs as [|s t IH]; intros stored x H; cbn [store_sectors] in H.
  - apply Ok_inj in H. injection H as <- <-. auto.
  - unfold store_form in H. cbn [N.eqb orb bind] in H.
    destruct (store_sectors L t 0) as [[r z]| |] eqn:F; cbn [bind] in H; try discriminate.
    apply Ok_inj in H. injection H as <- <-. destruct (IH _ _ eq_refl) as [-> ->]. auto.
Qed.

Lemma sectors_raw m secs : forall stored,
  store_sectors L secs m = Ok (stored, false) -> stored = secs.
Proof.
  induction secs as [|s t IH]; intros stored H; cbn [store_sectors] in H.
  - apply Ok_inj in H. injection H as <-. auto.
  - destruct (store_form L s m) as [[b y]| |] eqn:E; cbn [bind] in H; try discriminate.
    destruct (store_sectors L t m) as [[r z]| |] eqn:F; cbn [bind] in H; try discriminate.
    apply Ok_inj in H. injection H as <- H. apply orb_false_elim in H as [-> ->].
    rewrite (IH _ eq_refl). apply store_form_result in E as [[_ ->]|[E _]]; [reflexivity|discriminate].
Qed.

Lemma raw_file_wrong a c ss f i p out cs fl s stored :
  ss <> 0 -> ss = sector_bytes c -> sector_bytes c < lenN (pf_data f) -> lenN (pf_data f) <= 4000000000 ->
  store_sectors L (chunks (length (pf_data f)) ss (pf_data f)) (pf_comp f) = Ok (stored, false) ->
  write_file L c ss f p = Ok (out, cs, fl) ->
  forall name, find_file a name =
     Ok (Some (mkFI s i (a_off a + p) (w32 cs) (w32 (lenN (pf_data f)))
                       (N.lor fl FLAG_EXISTS) (pf_locale f))) ->
  read_file L a name <> Ok (pf_data f).
Proof.
  intros Hz E Hlen H32 Es H3 name H7 Hr.
  unfold write_file in H3. rewrite <- E in Hlen.
  assert (H512 : 512 <= ss).
  { rewrite E. unfold sector_bytes. assert (2 ^ c_block_size c <> 0) by (apply N.pow_nonzero; lia). lia. }
  replace (lenN (pf_data f) <=? ss) with false in H3 by lia.
  unfold write_multi in H3. replace (ss =? 0) with false in H3 by lia.
  set (d := pf_data f) in *. set (secs := chunks (length d) ss d) in *.
  set (n := div_ceil (lenN d) ss) in *.
  assert (Hn1 : n <= 7812501).
  { unfold n, div_ceil. apply N.div_le_upper_bound; [lia|].
    assert (7812500 * 512 <= 7812500 * ss) by (apply N.mul_le_mono_l; exact H512). lia. }
  rewrite Es in H3. cbn [bind] in H3. apply sectors_raw in Es as ->.
  assert (Hcc : concat secs = d) by (apply chunks_concat; lia).
  set (ds := (n + 1) * 4 + (if c_crcs c then n * 4 else 0)) in *.
  assert (Hds : ds <= 8 * (n + 1)) by (unfold ds; destruct (c_crcs c); lia).
  set (key := calculate_file_key _ _ _ _) in H3.
  assert (Henc : enc_sectors key ds (concat secs) (sector_offsets ds secs) 0
                 = Ok (concat (enc_each key 0 secs))).
  { pose proof (enc_sectors_eq key ds secs [] 0) as H. rewrite lenN_nil, N.add_0_r in H.
    apply H. rewrite Hcc. unfold M32. change (2 ^ 32) with 4294967296. lia. }
  rewrite Henc in H3.
  destruct (if pf_encrypt f then _ else _) as [data| |] eqn:Ed in H3; cbn [bind] in H3; try discriminate.
  assert (Hdl : lenN data = lenN d).
  { destruct (pf_encrypt f); apply Ok_inj in Ed; subst data.
    - rewrite enc_each_concat_length, Hcc. reflexivity.
    - now rewrite Hcc. }
  apply Ok_inj in H3. injection H3 as W1 W2 W3.
  unfold read_file in Hr. rewrite H7 in Hr. cbn [of_option bind] in Hr.
  set (fi := mkFI _ _ _ _ _ _ _) in Hr.
  destruct (match a_het a with Some _ => _ | None => _ end) as [[ks sz]| |]; cbn [bind] in Hr; try discriminate.
  assert (Hg : fi_flags fi = multi_flags (c_crcs c) false (pf_encrypt f) (pf_fix f)).
  { cbn [fi fi_flags]. rewrite <- W3. reflexivity. }
  destruct (multi_flags_ok (c_crcs c) false (pf_encrypt f) (pf_fix f)) as (G1 & G2 & _ & _ & G5 & _).
  rewrite <- Hg in G1, G2. rewrite G1, G2 in Hr. cbn [orb negb] in Hr.
  unfold read_whole_file in Hr. rewrite G1, G2, andb_false_r in Hr.
  destruct (read_at (a_file a) (fi_pos fi) (fi_csize fi)) as [raw| |] eqn:Er; cbn [bind] in Hr; try discriminate.
  apply Ok_inj in Hr. apply read_at_length in Er.
  assert (Hcs : fi_csize fi = (n + 1) * 4 + lenN d).
  { cbn [fi fi_csize]. rewrite <- W2, Hdl. apply w32_small.
    unfold M32. change (2 ^ 32) with 4294967296. lia. }
  rewrite Hcs in Er.
  assert (G : lenN raw = lenN d).
  { rewrite <- Hr. destruct (is_encrypted (fi_flags fi)); [|reflexivity].
    unfold lenN. now rewrite decrypt_data_length. }
  rewrite G in Er. clear - Er. lia.
Qed.

Lemma big_sectors c ss f p out cs fl :
  sector_size (c_block_size c) = Ok ss -> sector_bytes c < lenN (pf_data f) ->
  write_file L c ss f p = Ok (out, cs, fl) ->
  ss <> 0 /\ ss = sector_bytes c /\
  exists stored x, store_sectors L (chunks (length (pf_data f)) ss (pf_data f)) (pf_comp f) = Ok (stored, x).
Proof.
  intros Hss Hlen H3. unfold write_file in H3.
  assert (Hz : ss <> 0).
  { intros ->. destruct (N.leb_spec (lenN (pf_data f)) 0) as [C|C].
    - assert (2 ^ c_block_size c <> 0) by (apply N.pow_nonzero; lia). unfold sector_bytes in Hlen. lia.
    - unfold write_multi in H3. cbn in H3. discriminate. }
  pose proof (sector_size_ok _ _ Hss Hz) as E. split; [exact Hz|]. split; [exact E|].
  rewrite <- E in Hlen. replace (lenN (pf_data f) <=? ss) with false in H3 by lia.
  unfold write_multi in H3. replace (ss =? 0) with false in H3 by lia.
  destruct (store_sectors L _ _) as [[stored x]| |]; cbn [bind] in H3; try discriminate. eauto.
Qed.

Lemma raw_sectors_flag secs : forall stored x, store_sectors L secs 0 = Ok (stored, x) -> x = false.
Proof. intros stored x H. now apply chunks_nonempty_raw in H as [_ ->]. Qed.

Lemma round_trip_raw_wrong c files arc pre post :
  built_at L md5 c files arc pre post ->
  no_collision (LISTFILE :: map pf_name files) ->
  hashes_apart ATTRIBUTES (LISTFILE :: map pf_name files) ->
  exists a, open_archive L (pre ++ arc ++ post) = Ok a /\
    forall name f, means files name f ->
      sector_bytes c < lenN (pf_data f) -> lenN (pf_data f) <= 4000000000 -> pf_comp f = 0 ->
      read_file L a name <> Ok (pf_data f).
Proof.
  intros Hb Hcol Ha.
  destruct (built_open c files arc pre post Hb Ha) as (a & ss & Ho & Hss & Hd & Hhet & Hf & Hoff & _).
  exists a. split; [exact Ho|]. intros name f Hm Hlen H32 Hm0.
  destruct (built_find a c ss _ name f Hd Hhet) as (i & p & out & cs & fl & s & H1 & H2 & H3 & H4 & H5 & H6 & H7).
  - eapply no_collision_incl; [apply prepare_names|exact Hcol].
  - now apply means_prepare.
  - destruct (big_sectors c ss f p out cs fl Hss Hlen H3) as (Hz & E & stored & x & Es).
    assert (x = false) as -> by (rewrite Hm0 in Es; exact (raw_sectors_flag _ _ _ Es)).
    eapply raw_file_wrong; eauto.
Qed.

(** Exactly when a file of several sectors is read back. *)
Lemma sectors_flag m secs : forall stored, store_sectors L secs m = Ok (stored, true) ->
  exists s r, In s secs /\ compress L s m = Ok r /\ r <> s /\ m <> 0.
Proof.
  induction secs as [|s t IH]; intros stored H; cbn [store_sectors] in H.
  - apply Ok_inj in H. discriminate.
  - destruct (store_form L s m) as [[b y]| |] eqn:E; cbn [bind] in H; try discriminate.
    destruct (store_sectors L t m) as [[r z]| |] eqn:F; cbn [bind] in H; try discriminate.
    apply Ok_inj in H. injection H as _ H. apply orb_prop in H as [->| ->].
    + apply store_form_result in E as [[E _]|(_ & E & C & Ne)]; [discriminate|].
      exists s, b. repeat split; auto. now left.
    + destruct (IH _ eq_refl) as (s' & r' & Hin & H). exists s', r'. split; [now right|exact H].
Qed.

Lemma round_trip_exact c files arc pre post :
  lossless L -> built_at L md5 c files arc pre post ->
  no_collision (LISTFILE :: map pf_name files) ->
  hashes_apart ATTRIBUTES (LISTFILE :: map pf_name files) ->
  exists a, open_archive L (pre ++ arc ++ post) = Ok a /\
    forall name f, means files name f ->
      sector_bytes c < lenN (pf_data f) -> lenN (pf_data f) <= 4000000000 ->
      (forall s, is_sector (sector_bytes c) (pf_data f) s -> exact_on (pf_comp f) s) ->
      (read_file L a name = Ok (pf_data f) <->
       pf_comp f <> 0 /\
       (forall s, is_sector (sector_bytes c) (pf_data f) s -> clear_cut L (pf_comp f) s) /\
       exists s, is_sector (sector_bytes c) (pf_data f) s /\ shrinks L (pf_comp f) s).
Proof.
  intros HL Hb Hcol Ha.
  destruct (built_open c files arc pre post Hb Ha) as (a & ss & Ho & Hss & Hd & Hhet & Hf & Hoff & _).
  exists a. split; [exact Ho|]. intros name f Hm Hlen H32 Hall. split.
  2:{ intros (Hm0 & Hcl & Hex). destruct (round_trip_big _ _ _ _ _ HL Hb Hcol Ha) as (a' & Ho' & Hr).
      rewrite Ho in Ho'. apply Ok_inj in Ho'. subst a'. apply Hr; auto. }
  intros Hr.
  destruct (built_find a c ss _ name f Hd Hhet) as (i & p & out & cs & fl & s & H1 & H2 & H3 & H4 & H5 & H6 & H7).
  { eapply no_collision_incl; [apply prepare_names|exact Hcol]. }
  { now apply means_prepare. }
  destruct (big_sectors c ss f p out cs fl Hss Hlen H3) as (Hz & E & stored & x & Es).
  destruct x.
  2:{ exfalso. eapply raw_file_wrong; eauto. }
  destruct (sectors_flag _ _ _ Es) as (s0 & r0 & Hin & Hc0 & Hne0 & Hm0).
  split; [exact Hm0|].
  assert (Hcomp : is_compressed fl = true).
  { unfold write_file in H3. rewrite <- E in Hlen. replace (lenN (pf_data f) <=? ss) with false in H3 by lia.
    unfold write_multi in H3. replace (ss =? 0) with false in H3 by lia. rewrite Es in H3. cbn [bind] in H3.
    destruct (if pf_encrypt f then _ else _) as [dd| |]; cbn [bind] in H3; try discriminate.
    apply Ok_inj in H3. injection H3 as _ _ <-.
    destruct (c_crcs c), (pf_encrypt f), (pf_fix f); reflexivity. }
  assert (Hchunk : forall x, In x (chunks (length (pf_data f)) ss (pf_data f)) <-> is_sector (sector_bytes c) (pf_data f) x).
  { intros x. rewrite <- E. apply is_sector_chunks; lia. }
  assert (H512 : 512 <= ss).
  { rewrite E. unfold sector_bytes. assert (2 ^ c_block_size c <> 0) by (apply N.pow_nonzero; lia). lia. }
  assert (Hroom : lenN (pf_data f) + 8 * (div_ceil (lenN (pf_data f)) ss + 1) < M32).
  { assert (div_ceil (lenN (pf_data f)) ss <= 7812501).
    { unfold div_ceil. apply N.div_le_upper_bound; [lia|].
      assert (7812500 * 512 <= 7812500 * ss) by (apply N.mul_le_mono_l; exact H512). lia. }
    unfold M32. change (2 ^ 32) with 4294967296. lia. }
  pose proof Hd as (t & k & bt & Hh & Hbk & _ & _ & _ & _ & Hss' & _).
  set (fi := mkFI s (N.of_nat i) (a_off a + p) (w32 cs) (w32 (lenN (pf_data f))) (N.lor fl FLAG_EXISTS) (pf_locale f)) in *.
  assert (Hm256 : pf_comp f < 256).
  { destruct Hb as (_ & (_ & _ & Ht) & _). destruct Hm as (l1 & l2 & -> & _). apply Ht.
    apply in_app_iff. right. left. reflexivity. }
  destruct (read_multi_exact L c f p out cs fl a name fi ss) as (G1 & G2 & st & G3 & G4); auto.
  { unfold write_file in H3. rewrite <- E in Hlen. now replace (lenN (pf_data f) <=? ss) with false in H3 by lia. }
  { apply Forall_forall. intros x Hx. apply exact_undoes; [exact HL| |apply Hall; now apply Hchunk].
    apply Hchunk in Hx as (u & v & Ed & _). rewrite Ed, !lenN_app in H32.
    apply N.le_lt_trans with 4000000000; [lia|reflexivity]. }
  unfold read_file in Hr. rewrite H7 in Hr. cbn [of_option bind] in Hr. rewrite Hhet, Hbk in Hr.
  cbn [of_option bind fi fi_block] in Hr. rewrite (H6 bt Hbk) in Hr. cbn [of_option bind block_entry be_size] in Hr.
  fold fi in Hr. rewrite G1, G2 in Hr. cbn [orb negb] in Hr. rewrite G4 in Hr. apply Ok_inj in Hr.
  assert (Hsame : reread (chunks (length (pf_data f)) ss (pf_data f)) st = concat (chunks (length (pf_data f)) ss (pf_data f))).
  { rewrite Hr. symmetry. apply chunks_concat; lia. }
  split.
  - intros x Hx r Hc Hrx. pose proof Hx as (u & v & _ & _ & Hxn & _). apply Hchunk in Hx.
    exact (reread_same L _ _ _ G3 Hsame Hm0 x r Hx Hxn Hc Hrx).
  - exists s0. split; [now apply Hchunk|]. exists r0. auto.
Qed.
(** ** Absent names *)
Lemma built_absent c files arc pre post :
  built_at L md5 c files arc pre post ->
  hashes_apart ATTRIBUTES (LISTFILE :: map pf_name files) ->
  exists a, open_archive L (pre ++ arc ++ post) = Ok a /\
    forall name, hashes_apart name (LISTFILE :: map pf_name files) ->
      find_file a name = Ok None /\ read_file L a name = Err EFileNotFound.
Proof.
  intros Hb Ha.
  destruct (built_open c files arc pre post Hb Ha) as (a & ss & Ho & Hss & Hd & Hhet & Hf & Hoff & _).
  exists a. split; [exact Ho|]. intros name Hn.
  assert (E : find_file a name = Ok None).
  { rewrite find_is_classic by exact Hhet. eapply find_classic_absent; [exact Hd|].
    intros x Hx. apply Hn. now apply (prepare_names c files). }
  split; [exact E|]. unfold read_file. now rewrite E.
Qed.

End A.
