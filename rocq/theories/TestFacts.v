(** * Test archives *)
From Coq Require Import Lia ZifyBool ZifyNat ZifyN.
From Verif Require Import Bytes Crypto SpecNames NameFacts HashTable Header Compress SpecTables SpecCompress Listfile Builder BuilderFacts OpenFacts
  Attributes SpecAttributes Archive SpecArchive SpecArchive34 SpecNameTable SpecBuilding BuildCalm BuildOk BuildWide ArchiveFacts Archive34Facts EndToEnd
  FileSystem BuildIo SpecBuild BuildIoFacts BuilderApi SpecApi ApiFacts DemoArchive BuiltAttributes TestArchives SpecTest.
Open Scope N_scope.

(** ** The calls amount to the configuration *)
Lemma fold_adds fs : forall b, b_default b = ZLIB ->
  fold_left apply_method (map add_test_file fs) b =
  mkBuilder (b_version b) (b_block b)
    (b_pending b ++ map (fun f => mkSP (SData (tf_data f)) (tf_name f) (test_method f) (tf_encrypted f) (tf_encrypted f && tf_fix f) 0) fs)
    (b_list b) (b_default b) (b_crcs b) (b_ctables b) (b_tmethod b).
Proof.
  induction fs as [|f fs IH]; intros b Hb; cbn [map fold_left].
  - rewrite app_nil_r. now destruct b.
  - rewrite IH.
    + unfold add_test_file, test_method. destruct (tf_encrypted f), (tf_comp f) as [m|];
        unfold apply_method, push; cbn [b_version b_block b_pending b_list b_default b_crcs b_ctables b_tmethod andb];
        rewrite ?Hb, <- ?app_assoc; reflexivity.
    + unfold add_test_file. destruct (tf_encrypted f), (tf_comp f); exact Hb.
Qed.

Definition in_memory (f : pending) : spending :=
  mkSP (SData (pf_data f)) (pf_name f) (pf_comp f) (pf_encrypt f) (pf_fix f) (pf_locale f).
Lemma test_builder t : builder_of (test_methods t) =
  mkBuilder (tc_version t) (match tc_block t with Some n => n | None => 3 end) (map in_memory (test_files t))
    (if tc_listfile t then SNone else SGenerate) 2 false false 2.
Proof.
  unfold builder_of, test_methods, test_files.
  assert (E : fold_left apply_method ([MList (if tc_listfile t then SNone else SGenerate); MVersion (tc_version t)] ++
                match tc_block t with Some n => [MBlock n] | None => [] end) builder_new =
              mkBuilder (tc_version t) (match tc_block t with Some n => n | None => 3 end) [] (if tc_listfile t then SNone else SGenerate) 2 false false 2).
  { destruct (tc_block t); reflexivity. }
  rewrite app_assoc, fold_left_app, E, fold_left_app, fold_adds by reflexivity.
  cbn [b_version b_block b_pending b_list b_default b_crcs b_ctables b_tmethod app]. rewrite !map_app, map_map.
  destruct (tc_listfile t), (tc_attributes t); cbn [app fold_left]; unfold apply_method, push; cbn [b_version b_block b_pending b_list b_default b_crcs b_ctables b_tmethod map];
    rewrite ?app_nil_r, <- ?app_assoc; reflexivity.
Qed.

Lemma contents_memory w fs : forall l, contents w (map in_memory fs) l -> l = fs.
Proof.
  induction fs as [|f fs IH]; intros l H; inversion H; subst; [reflexivity|].
  f_equal; [|now apply IH]. cbn in *. injection H2 as <-. now destruct f.
Qed.
Lemma mpq_not_temp n : ~ temp_name (n ++ lit ".mpq").
Proof.
  intros (r & E & Hl & Ha). assert (HL : lenN (n ++ lit ".mpq") = 10) by (rewrite E, lenN_app, Hl; reflexivity).
  rewrite lenN_app in HL. change (lenN (lit ".mpq")) with 4 in HL.
  assert (Hn : length n = 6%nat) by (unfold lenN in HL; lia).
  assert (Hx : nth_error (n ++ lit ".mpq") 6 = Some "."%byte).
  { rewrite nth_error_app2 by lia. rewrite Hn. reflexivity. }
  rewrite E in Hx. rewrite nth_error_app2 in Hx by (cbn; lia). apply nth_error_In in Hx.
  rewrite Forall_forall in Ha. specialize (Ha _ Hx). unfold alnum in Ha. change (bN "."%byte) with 46 in Ha. lia.
Qed.

Lemma steps_after {A B} (m : io A) (f : res A -> io B) x : forall w w', steps (after m f, w) (Ret x, w') ->
  exists r w1, steps (m, w) (Ret r, w1) /\ steps (f r, w1) (Ret x, w').
Proof.
  induction m as [r|o k IH]; intros w w' H; cbn [after] in H.
  - exists r, w. split; [constructor|exact H].
  - destruct (steps_inv _ _ H) as [E|(s1 & H1 & H2)]; [discriminate|]. inversion H1; subst.
    destruct (IH _ _ _ H2) as (r0 & w1 & H3 & H4). exists r0, w1. split; [|exact H4].
    eapply steps_next; [|exact H3]. now constructor.
Qed.

Lemma test_created L md5 dir t w0 w p :
  steps (create_test_archive L md5 dir t, w0) (Ret (Ok p), w) ->
  p = mkPath dir (stem (tc_name t) ++ lit ".mpq") /\
  exists arc, build L md5 (test_config t) (test_files t) = Ok arc /\ w_files w p = Some arc.
Proof.
  intros H. unfold create_test_archive, iobind in H. cbv zeta in H. apply steps_after in H as (r & w1 & H1 & H2).
  destruct r as [[]|e|]; apply steps_ret in H2; [|discriminate H2|discriminate H2]. injection H2 as -> ->.
  split; [reflexivity|]. unfold builder_build in H1.
  assert (S : sources_ok w0 (b_list (builder_of (test_methods t))) (b_pending (builder_of (test_methods t)))).
  { rewrite test_builder. cbn [b_list b_pending]. split.
    + intros s q Hs E. apply in_map_iff in Hs as (f & <- & _). discriminate E.
    + intros q E. destruct (tc_listfile t); discriminate E. }
  destruct (all_or_nothing L md5 _ _ _ (archive_path dir t) w0 (mpq_not_temp _) S _ _ H1) as (_ & G & _).
  destruct (G eq_refl) as (arc & (o & fs & Ho & Hc & Hb) & Hw). exists arc. split; [|exact Hw].
    rewrite test_builder in Ho, Hc, Hb. cbn [b_list b_pending builder_config c_version c_block_size c_default c_crcs c_ctables c_tmethod b_version b_block b_default b_crcs b_ctables b_tmethod] in Ho, Hc, Hb.
    apply contents_memory in Hc. subst fs. unfold test_config. destruct (tc_listfile t); inversion Ho; subst; exact Hb.
Qed.

(** ** Several archives *)
Lemma test_frame L md5 dir t w0 w r q :
  steps (create_test_archive L md5 dir t, w0) (Ret r, w) -> q <> archive_path dir t -> ~ temp_name (p_name q) -> w_files w q = w_files w0 q.
Proof.
  intros H Hq Hn. unfold create_test_archive, iobind in H. cbv zeta in H. apply steps_after in H as (r1 & w1 & H1 & H2).
  assert (w = w1) as -> by (destruct r1 as [[]|e|]; apply steps_ret in H2; now injection H2).
  unfold builder_build in H1.
  assert (S : sources_ok w0 (b_list (builder_of (test_methods t))) (b_pending (builder_of (test_methods t)))).
  { rewrite test_builder. cbn [b_list b_pending]. split.
    + intros s p Hs E. apply in_map_iff in Hs as (f & <- & _). discriminate E.
    + intros p E. destruct (tc_listfile t); discriminate E. }
  destruct (nothing_else L md5 _ _ _ (archive_path dir t) w0 (mpq_not_temp _) S _ _ H1) as [G _].
  apply G; [exact Hq|]. now intros (_ & C & _).
Qed.
Lemma each_frame L md5 dir ts : forall w0 w r q,
  steps (create_each L md5 dir ts, w0) (Ret r, w) -> ~ In q (map (archive_path dir) ts) -> ~ temp_name (p_name q) -> w_files w q = w_files w0 q.
Proof.
  induction ts as [|t ts IH]; intros w0 w r q H Hq Hn; cbn [create_each] in H.
  - apply steps_ret in H. injection H as _ ->. reflexivity.
  - unfold iobind in H at 1. apply steps_after in H as (r1 & w1 & H1 & H2).
    assert (E : w_files w1 q = w_files w0 q) by (eapply test_frame; [exact H1| |exact Hn]; intros C; apply Hq; left; now symmetry).
    destruct r1 as [p|e|]; [|apply steps_ret in H2; injection H2 as _ ->; exact E|apply steps_ret in H2; injection H2 as _ ->; exact E].
    unfold iobind in H2. apply steps_after in H2 as (r2 & w2 & H3 & H4).
    assert (w = w2) as -> by (destruct r2 as [ps|e|]; apply steps_ret in H4; now injection H4).
    rewrite <- E. eapply IH; [exact H3| |exact Hn]. intros C. apply Hq. now right.
Qed.
Lemma each_created L md5 dir ts : forall w0 w ps, NoDup (map (archive_path dir) ts) ->
  steps (create_each L md5 dir ts, w0) (Ret (Ok ps), w) ->
  ps = map (archive_path dir) ts /\ forall t, In t ts ->
    exists arc, build L md5 (test_config t) (test_files t) = Ok arc /\ w_files w (archive_path dir t) = Some arc.
Proof.
  induction ts as [|t ts IH]; intros w0 w ps Hd H; cbn [create_each] in H.
  - apply steps_ret in H. injection H as -> ->. split; [reflexivity|]. intros t [].
  - cbn [map] in Hd. inversion Hd as [|? ? Hd1 Hd2]; subst.
    unfold iobind in H at 1. apply steps_after in H as (r1 & w1 & H1 & H2).
    destruct r1 as [p|e|]; [|apply steps_ret in H2; discriminate H2|apply steps_ret in H2; discriminate H2].
    unfold iobind in H2. apply steps_after in H2 as (r2 & w2 & H3 & H4).
    destruct r2 as [qs|e|]; apply steps_ret in H4; [|discriminate H4|discriminate H4]. injection H4 as -> ->.
    destruct (IH _ _ _ Hd2 H3) as [E G]. destruct (test_created _ _ _ _ _ _ _ H1) as (Ep & arc & Eb & Ef).
    split; [cbn [map]; rewrite E, Ep; reflexivity|]. intros u [<-|Hu]; [|now apply G].
    exists arc. split; [exact Eb|]. rewrite <- Ef, Ep. fold (archive_path dir t).
    eapply each_frame; [exact H3|exact Hd1|apply mpq_not_temp].
Qed.

(** ** It can be done *)
Lemma steps_join {A} (s1 s2 s3 : io A * world) : steps s1 s2 -> steps s2 s3 -> steps s1 s3.
Proof. intros H K. induction H; [exact K|]. eapply steps_next; eauto. Qed.
Lemma steps_into {A B} (m : io A) (f : res A -> io B) r w w1 s : steps (m, w) (Ret r, w1) -> steps (f r, w1) s -> steps (after m f, w) s.
Proof.
  revert w. induction m as [x|o k IH]; intros w H K.
  - apply steps_ret in H. injection H as -> ->. exact K.
  - destruct (steps_inv _ _ H) as [E|(s1 & H1 & H2)]; [discriminate E|]. inversion H1; subst. cbn [after].
    eapply steps_next; [constructor; eassumption|]. now apply IH.
Qed.
Lemma memory_contents w fs : contents w (map in_memory fs) fs.
Proof. induction fs as [|f fs IH]; cbn [map]; [constructor|]. destruct f as [d n c e x l]. apply (contents_cons w (in_memory (mkPF d n c e x l)) _ d fs eq_refl IH). Qed.
Definition free (dir : bytes) (w : world) : Prop := exists n, temp_name n /\ w_files w (mkPath dir n) = None.
Lemma test_succeeds L md5 dir t w0 arc :
  build L md5 (test_config t) (test_files t) = Ok arc -> w_fault w0 = false -> free dir w0 ->
  exists w, steps (create_test_archive L md5 dir t, w0) (Ret (Ok (archive_path dir t)), w) /\ w_fault w = false /\ free dir w.
Proof.
  intros Hb Hf Hn.
  assert (S : sources_ok w0 (b_list (builder_of (test_methods t))) (b_pending (builder_of (test_methods t)))).
  { rewrite test_builder. cbn [b_list b_pending]. split.
    + intros s p Hs E. apply in_map_iff in Hs as (f & <- & _). discriminate E.
    + intros p E. destruct (tc_listfile t); discriminate E. }
  assert (A : archive_of L md5 w0 (builder_config (builder_of (test_methods t))) (b_list (builder_of (test_methods t)))
                (b_pending (builder_of (test_methods t))) arc).
  { rewrite test_builder.
    cbn [b_list b_pending builder_config c_version c_block_size c_default c_crcs c_ctables c_tmethod b_version b_block b_default b_crcs b_ctables b_tmethod].
    exists (if tc_listfile t then LNone else LGenerate), (test_files t).
    split; [destruct (tc_listfile t); constructor|]. split; [apply memory_contents|exact Hb]. }
  destruct (proj1 (succeeds L md5 _ _ _ (archive_path dir t) w0 (mpq_not_temp _) S arc A Hf Hn)) as (w & H1 & H2).
  exists w. split; [|split; [exact H2|]].
  - unfold create_test_archive, iobind. cbv zeta. eapply steps_into; [exact H1|]. constructor.
  - destruct Hn as (n & Ht & E). exists n. split; [exact Ht|].
    destruct (nothing_else L md5 _ _ _ (archive_path dir t) w0 (mpq_not_temp _) S _ _ H1) as [_ G].
    rewrite (G _ eq_refl H2); [exact E|]. intros C. apply (mpq_not_temp (stem (tc_name t))).
    unfold archive_path in C. injection C as C. now rewrite <- C.
Qed.
Lemma each_succeeds L md5 dir ts : forall w0,
  (forall t, In t ts -> exists arc, build L md5 (test_config t) (test_files t) = Ok arc) -> w_fault w0 = false -> free dir w0 ->
  exists w, steps (create_each L md5 dir ts, w0) (Ret (Ok (map (archive_path dir) ts)), w) /\ w_fault w = false.
Proof.
  induction ts as [|t ts IH]; intros w0 H Hf Hn; cbn [create_each map]; [exists w0; split; [constructor|exact Hf]|].
  destruct (H t (or_introl eq_refl)) as (arc & E). destruct (test_succeeds L md5 dir t w0 arc E Hf Hn) as (w1 & H1 & F1 & N1).
  destruct (IH w1) as (w & H2 & F2); [intros u Hu; apply H; now right|exact F1|exact N1|].
  exists w. split; [|exact F2]. unfold iobind at 1. eapply steps_into; [exact H1|]. unfold iobind. eapply steps_into; [exact H2|]. constructor.
Qed.

(** ** The data *)
Lemma fill_ok pattern : 0 < lenN pattern -> forall fuel size, (N.to_nat size <= fuel)%nat ->
  lenN (fill fuel pattern size) = size /\
  forall i, i < size -> nthN (fill fuel pattern size) i = nthN pattern (i mod lenN pattern).
Proof.
  intros Hp. induction fuel as [|fuel IH]; intros size Hs.
  - assert (size = 0) by lia. subst size. split; [reflexivity|lia].
  - cbn [fill]. destruct (N.eqb_spec size 0) as [E|E]; [split; [subst; reflexivity|lia]|].
    cbv zeta. set (k := N.min size (lenN pattern)). assert (Hk : 0 < k <= size) by lia.
    destruct (IH (size - k)) as [I1 I2]; [lia|].
    assert (Hf : lenN (firstn (N.to_nat k) pattern) = k).
    { unfold lenN in *. rewrite firstn_length_le by lia. lia. }
    split; [rewrite lenN_app, I1, Hf; lia|].
    intros i Hi. unfold nthN at 1. rewrite lenN_app, I1, Hf. replace (i <? k + (size - k)) with true by lia.
    destruct (N.ltb_spec i k) as [C|C].
    + rewrite nth_error_app1 by (unfold lenN in Hf; lia).
      rewrite N.mod_small by lia. unfold nthN. replace (i <? lenN pattern) with true by lia.
      rewrite <- (firstn_skipn (N.to_nat k) pattern) at 2. rewrite nth_error_app1 by (unfold lenN in Hf; lia). reflexivity.
    + rewrite nth_error_app2 by (unfold lenN in Hf; lia).
      specialize (I2 (i - k) ltac:(lia)). unfold nthN at 1 in I2. rewrite I1 in I2. replace (i - k <? size - k) with true in I2 by lia.
      replace (N.to_nat i - length (firstn (N.to_nat k) pattern))%nat with (N.to_nat (i - k)) by (unfold lenN in Hf; lia).
      rewrite I2. f_equal. assert (k = lenN pattern) as -> by lia.
      rewrite <- (N.mod_add (i - lenN pattern) 1 (lenN pattern)) by lia. f_equal. lia.
Qed.
Lemma compressible_ok size : lenN (generate_compressible_data size) = size /\
  forall i, i < size -> nthN (generate_compressible_data size) i = nthN PATTERN (i mod 78).
Proof.
  change 78 with (lenN PATTERN). apply fill_ok; [reflexivity|]. lia.
Qed.
Lemma count_up_ok n : forall v, v < 256 -> length (count_up n v) = n /\
  forall i, (i < n)%nat -> nth_error (count_up n v) i = Some (Nb ((v + N.of_nat i) mod 256)).
Proof.
  induction n as [|n IH]; intros v Hv; [split; [reflexivity|lia]|]. cbn [count_up length].
  destruct (IH ((v + 1) mod 256)) as [I1 I2]; [apply N.mod_lt; discriminate|]. split; [now rewrite I1|].
  intros [|i] Hi; cbn [nth_error].
  - rewrite N.mod_small by lia. do 2 f_equal. lia.
  - rewrite I2 by lia. do 2 f_equal. rewrite N.add_mod_idemp_l by discriminate. f_equal. lia.
Qed.
Lemma binary_ok size : lenN (generate_binary_pattern size) = size /\
  forall i, i < size -> nthN (generate_binary_pattern size) i = Some (Nb (i mod 256)).
Proof.
  unfold generate_binary_pattern. destruct (count_up_ok (N.to_nat size) 0) as [H1 H2]; [reflexivity|].
  assert (HL : lenN (count_up (N.to_nat size) 0) = size) by (unfold lenN; lia).
  split; [exact HL|]. intros i Hi. unfold nthN. rewrite HL. replace (i <? size) with true by lia. rewrite H2 by lia.
  do 3 f_equal. lia.
Qed.

(** ** The attributes *)
Lemma entries_length l : lenN (flat_map (fun f => le32 (w32 (lenN (tf_data f))) ++ le32 0x5F000000) l) = 8 * lenN l.
Proof.
  induction l as [|f l IH]; [reflexivity|]. cbn [flat_map]. rewrite !lenN_app, IH, lenN_cons. change (lenN (le32 _)) with 4. lia.
Qed.
Lemma attributes_length l : lenN (generate_attributes l) = 8 + 8 * lenN l.
Proof. unfold generate_attributes. rewrite !lenN_app, entries_length. change (lenN (le32 _)) with 4. lia. Qed.
Lemma attributes_start l : slice 0 4 (generate_attributes l) = Some (le32 100) /\ slice 4 4 (generate_attributes l) = Some (le32 3).
Proof.
  unfold slice. rewrite attributes_length. split; [replace (0 + 4 <=? _) with true by lia|replace (4 + 4 <=? _) with true by lia]; reflexivity.
Qed.
Lemma attributes_entries l : forall i f, nth_error l i = Some f ->
  slice (8 * N.of_nat i) 8 (flat_map (fun f => le32 (w32 (lenN (tf_data f))) ++ le32 0x5F000000) l) =
  Some (le32 (w32 (lenN (tf_data f))) ++ le32 0x5F000000).
Proof.
  induction l as [|g l IH]; intros i f Hi; [destruct i; discriminate|].
  assert (Hlen : lenN (le32 (w32 (lenN (tf_data g))) ++ le32 0x5F000000) = 8) by (rewrite lenN_app; reflexivity).
  assert (Hlen' : length (le32 (w32 (lenN (tf_data g))) ++ le32 0x5F000000) = 8%nat) by reflexivity.
  destruct i as [|i]; cbn [nth_error flat_map] in *.
  - injection Hi as ->. unfold slice. rewrite lenN_app, Hlen. replace (8 * N.of_nat 0 + 8 <=? _) with true by lia.
    change (N.to_nat (8 * N.of_nat 0)) with 0%nat. reflexivity.
  - specialize (IH _ _ Hi). unfold slice in IH |- *. destruct (_ <=? _) eqn:E in IH; [|discriminate].
    rewrite lenN_app, Hlen. replace (8 * N.of_nat (S i) + 8 <=? _) with true by lia. rewrite <- IH. do 2 f_equal.
    rewrite skipn_app, Hlen'. rewrite skipn_all2 by (rewrite Hlen'; lia). cbn [app]. f_equal. lia.
Qed.
Lemma attributes_fake t : fake_attributes t (generate_attributes (tc_files t)).
Proof.
  split; [apply attributes_length|]. split; [apply attributes_start|]. split; [apply attributes_start|].
  intros i f Hi. change (lenN (tf_data f) mod 2 ^ 32) with (w32 (lenN (tf_data f))). pose proof (attributes_entries _ _ _ Hi) as E. unfold generate_attributes, slice in *.
  set (r := flat_map _ _) in *. destruct (_ <=? _) eqn:C in E; [|discriminate].
  rewrite !lenN_app. change (lenN (le32 _)) with 4. replace (_ <=? _) with true by lia.
  rewrite <- E. do 2 f_equal. replace (N.to_nat (8 + 8 * N.of_nat i)) with (8 + N.to_nat (8 * N.of_nat i))%nat by lia. reflexivity.
Qed.

(** ** Archives with these attributes *)
Lemma test_means_attributes t : tc_attributes t = true -> (forall f, In f (tc_files t) -> ~ name_equiv ATTRIBUTES (tf_name f)) ->
  means (test_files t) ATTRIBUTES (mkPF (generate_attributes (tc_files t)) ATTRIBUTES 2 false false 0).
Proof.
  intros Ha Hn. unfold test_files. rewrite Ha, app_assoc. eexists. exists []. split; [reflexivity|]. split; [apply name_equivb_sound; vm_compute; reflexivity|].
  intros g Hg. apply in_app_or in Hg as [Hg|Hg].
  - apply in_map_iff in Hg as (f & <- & Hf). exact (Hn f Hf).
  - destruct (tc_listfile t); [|destruct Hg]. destruct Hg as [<-|[]]. intros E. apply name_equivb_complete in E. vm_compute in E. discriminate E.
Qed.
Lemma test_entries t : tc_attributes t = true -> entry_count (test_config t) (test_files t) = lenN (tc_files t) + 2.
Proof.
  intros Ha. unfold entry_count, test_files, test_config. rewrite Ha. cbn [c_listfile]. rewrite !lenN_app, map_lenN.
  destruct (tc_listfile t); cbn [lenN length]; change (lenN [_]) with 1; change (lenN (@nil pending)) with 0; lia.
Qed.
Lemma fake_short t s : slice 4 4 (generate_attributes (tc_files t)) = Some s -> tc_attributes t = true ->
  lenN (generate_attributes (tc_files t)) < whole_size (le_dec s) (entry_count (test_config t) (test_files t)).
Proof.
  intros H Ha. rewrite (proj2 (attributes_start _)) in H. injection H as <-. rewrite (test_entries t Ha), attributes_length.
  change (le_dec (le32 3)) with 3. unfold whole_size, patch_start, md5_start, time_start, crc_start.
  change (has_crc 3) with true. change (has_time 3) with true. change (has_md5 3) with false. change (has_patch 3) with false. cbv iota. lia.
Qed.
Lemma fake_back L t : 8 + 8 * lenN (tc_files t) <= sector_bytes (test_config t) -> lenN (tc_files t) < 2 ^ 20 ->
  reads_back L (test_config t) 2 (generate_attributes (tc_files t)).
Proof.
  intros H Hs. left. rewrite attributes_length. split; [exact H|]. split; [change (2 ^ 20) with 1048576 in Hs; change (2 ^ 32) with 4294967296; lia|].
  right. left. left. reflexivity.
Qed.

Lemma test_refused12 L md5 t arc pre post :
  lossless L -> built_at L md5 (test_config t) (test_files t) arc pre post ->
  no_collision (LISTFILE :: map pf_name (test_files t)) -> tc_attributes t = true ->
  (forall f, In f (tc_files t) -> ~ name_equiv ATTRIBUTES (tf_name f)) ->
  8 + 8 * lenN (tc_files t) <= sector_bytes (test_config t) -> lenN (tc_files t) < 2 ^ 20 ->
  open_archive L (pre ++ arc ++ post) = Err EInvalidFormat.
Proof.
  intros HL HB Hcol Ha Hn Hs Hc.
  apply (proj1 (attributes12 L md5 _ _ arc pre post _ HL HB Hcol (test_means_attributes t Ha Hn) (fake_back L t Hs Hc) (proj1 (attributes_start _)))).
  intros s H. now apply fake_short.
Qed.
Lemma test_refused34 L md5 t arc pre post :
  lossless L -> built34_at L md5 (test_config t) (test_files t) arc pre post ->
  no_collision (LISTFILE :: map pf_name (test_files t)) -> tc_attributes t = true ->
  ~ mistaken (test_config t) (test_files t) ATTRIBUTES ->
  (forall f, In f (tc_files t) -> ~ name_equiv ATTRIBUTES (tf_name f)) ->
  8 + 8 * lenN (tc_files t) <= sector_bytes (test_config t) -> lenN (tc_files t) < 2 ^ 20 ->
  open_archive L (pre ++ arc ++ post) = Err EInvalidFormat.
Proof.
  intros HL HB Hcol Ha Hm Hn Hs Hc.
  apply (proj1 (attributes34 L md5 _ _ arc pre post _ HL HB Hcol Hm (test_means_attributes t Ha Hn) (fake_back L t Hs Hc) (proj1 (attributes_start _)))).
  intros s H. now apply fake_short.
Qed.

(** ** Building *)
Definition full_names (t : tconfig) : list bytes :=
  map tf_name (tc_files t) ++ (if tc_listfile t then [LISTFILE] else []) ++ (if tc_attributes t then [ATTRIBUTES] else []) ++
  (if tc_listfile t then [] else [LISTFILE]).
Definition full_sizes (t : tconfig) : list N :=
  map (fun f => lenN (tf_data f)) (tc_files t) ++
  (if tc_listfile t then [lenN (join_lines (map tf_name (tc_files t)))] else []) ++
  (if tc_attributes t then [8 + 8 * lenN (tc_files t)] else []) ++
  (if tc_listfile t then [] else [lenN (listfile_content (map pf_name (test_files t)))]).

Lemma names_full t : all_names (test_config t) (test_files t) = map (fun n => (n, 0)) (full_names t).
Proof.
  unfold all_names, test_files, full_names, test_config. cbn [c_listfile]. rewrite !map_app, !map_map.
  destruct (tc_listfile t), (tc_attributes t); cbn [map app]; rewrite <- ?app_assoc; reflexivity.
Qed.
Lemma entry_names_full t : entry_names (test_config t) (test_files t) = full_names t.
Proof.
  unfold entry_names, test_files, full_names, test_config. cbn [c_listfile]. rewrite !map_app, !map_map.
  destruct (tc_listfile t), (tc_attributes t); cbn [map app]; rewrite <- ?app_assoc; reflexivity.
Qed.
Lemma names_in t n : In n (LISTFILE :: map pf_name (test_files t)) -> In n (LISTFILE :: full_names t).
Proof.
  intros [<-|H]; [now left|right]. unfold full_names. unfold test_files in H. rewrite !map_app, !map_map in H.
  rewrite !in_app_iff in *. destruct H as [H|[H|H]]; [left; exact H|right; left|right; right; left].
  - destruct (tc_listfile t); exact H.
  - destruct (tc_attributes t); exact H.
Qed.
Lemma sizes_full t : map lenN (all_contents (test_config t) (test_files t)) = full_sizes t.
Proof.
  unfold all_contents, full_sizes, test_config. cbn [c_listfile]. unfold test_files at 1. rewrite !map_app, !map_map.
  destruct (tc_listfile t), (tc_attributes t); cbn [map app pf_data]; rewrite <- ?app_assoc, ?attributes_length; reflexivity.
Qed.

Definition rooms_of (l : list N) : N := fold_right (fun n s => (n + n / 64 + 16) + s) 0 l.
Lemma total_room_sizes l : total_room l = rooms_of (map lenN l).
Proof. induction l as [|d l IH]; [reflexivity|]. cbn [total_room fold_right map rooms_of]. unfold total_room, rooms_of in IH. now rewrite IH. Qed.

(** A check on names and sizes alone *)
Fixpoint distinctb (l : list bytes) : bool :=
  match l with [] => true | x :: r => forallb (fun y => negb (name_equivb x y)) r && distinctb r end.
Lemma distinctb_all l : distinctb l = true -> all_distinct (map (fun n => (n, 0)) l).
Proof.
  induction l as [|x l IH]; intros H l1 a l2 b l3 E; [destruct l1; discriminate E|].
  cbn [distinctb] in H. apply andb_true_iff in H as [H1 H2]. cbn [map] in E. destruct l1 as [|y l1].
  - cbn [app] in E. injection E as <- E. cbn [fst snd]. intros [Hn _]. rewrite forallb_forall in H1.
    assert (Hb : In b (map (fun n => (n, 0)) l)) by (rewrite E; apply in_app_iff; right; now left).
    apply in_map_iff in Hb as (y & <- & Hy). cbn [fst] in Hn. specialize (H1 y Hy).
    apply name_equivb_complete in Hn. rewrite Hn in H1. discriminate.
  - cbn [app] in E. injection E as _ E. exact (IH H2 l1 a l2 b l3 E).
Qed.
Definition names_fine (l : list bytes) : bool := distinctb l && no_collisionb (LISTFILE :: l).

Lemma no_collision_sub l l' : (forall x, In x l' -> In x l) -> no_collision l -> no_collision l'.
Proof. intros H C x y Hx Hy. apply C; auto. Qed.

Lemma test_packable L t : willing_encoders L ->
  (forall f m, In f (tc_files t) -> tf_comp f = Some m -> In m open_methods) ->
  Forall (packable L (test_config t)) (all_stored (test_config t) (test_files t)).
Proof.
  intros HW Hm. assert (H2 : In 2 open_methods) by (right; left; reflexivity).
  assert (G : forall d m, In m open_methods -> packable L (test_config t) (d, m)).
  { intros d m H. right. intros s _. exact (open_methods_fine L m s HW H). }
  assert (HF : forall f, In f (test_files t) -> In (pf_comp f) open_methods).
  { intros f Hf. unfold test_files in Hf. rewrite !in_app_iff in Hf. destruct Hf as [Hf|[Hf|Hf]].
    - apply in_map_iff in Hf as (g & <- & Hg). cbn [test_file pf_comp]. unfold test_method. destruct (tf_comp g) as [m|] eqn:E; [eauto|].
      destruct (tf_encrypted g); [left; reflexivity|exact H2].
    - destruct (tc_listfile t); [|destruct Hf]. destruct Hf as [<-|[]]. exact H2.
    - destruct (tc_attributes t); [|destruct Hf]. destruct Hf as [<-|[]]. exact H2. }
  unfold all_stored. apply Forall_app. split.
  - apply Forall_forall. intros x Hx. apply in_map_iff in Hx as (f & <- & Hf). apply G. now apply HF.
  - unfold test_config. cbn [c_listfile c_default]. destruct (tc_listfile t); [apply Forall_nil|]. apply Forall_cons; [now apply G|apply Forall_nil].
Qed.

Lemma test_well_typed t : (forall f m, In f (tc_files t) -> tf_comp f = Some m -> In m open_methods) ->
  c_block_size (test_config t) < 55 -> well_typed (test_config t) (test_files t).
Proof.
  intros Hm Hb. split; [eapply N.lt_trans; [exact Hb|reflexivity]|]. split; [reflexivity|].
  assert (O : forall m, In m open_methods -> m < 256) by (intros m [<-|[<-|[<-|[<-|[<-|[<-|[]]]]]]]; reflexivity).
  intros f Hf. unfold test_files in Hf. rewrite !in_app_iff in Hf. destruct Hf as [Hf|[Hf|Hf]].
  - apply in_map_iff in Hf as (g & <- & Hg). cbn [test_file pf_comp pf_locale]. split; [|reflexivity].
    unfold test_method. destruct (tf_comp g) as [m|] eqn:E; [eauto|]. destruct (tf_encrypted g); reflexivity.
  - destruct (tc_listfile t); [|destruct Hf]. destruct Hf as [<-|[]]. split; reflexivity.
  - destruct (tc_attributes t); [|destruct Hf]. destruct Hf as [<-|[]]. split; reflexivity.
Qed.

(** What is needed of a configuration: few small files, fine names, open methods *)
Definition suits (t : tconfig) : Prop :=
  names_fine (full_names t) = true /\ rooms_of (full_sizes t) <= 2 ^ 21 - 208 /\ lenN (tc_files t) < 100 /\
  c_block_size (test_config t) < 55 /\ (forall f m, In f (tc_files t) -> tf_comp f = Some m -> In m open_methods).

Lemma suits_names t : suits t -> all_distinct (all_names (test_config t) (test_files t)) /\
  no_collision (LISTFILE :: map pf_name (test_files t)).
Proof.
  intros (H & _). unfold names_fine in H. apply andb_true_iff in H as [H1 H2]. split.
  - rewrite names_full. now apply distinctb_all.
  - eapply no_collision_sub; [|apply no_collisionb_sound; exact H2]. apply names_in.
Qed.
Lemma few_files t : lenN (tc_files t) < 100 -> lenN (test_files t) < 102.
Proof.
  intros H. unfold test_files. rewrite !lenN_app, map_lenN. destruct (tc_listfile t), (tc_attributes t);
    change (lenN [_]) with 1; change (lenN (@nil pending)) with 0; lia.
Qed.
Lemma suits_built12 L md5 t : calm_encoders L -> willing_encoders L -> suits t -> tc_version t = V1 \/ tc_version t = V2 ->
  exists arc, build L md5 (test_config t) (test_files t) = Ok arc /\ built_at L md5 (test_config t) (test_files t) arc [] [].
Proof.
  intros HC HW HS Hv. destruct (suits_names t HS) as [Hd Hcol]. destruct HS as (_ & Hr & Hn & Hb & Hm).
  apply start_built; auto.
  - now apply test_well_typed.
  - assert (HR : total_room (all_contents (test_config t) (test_files t)) <= 2096944).
    { rewrite total_room_sizes, sizes_full. exact Hr. }
    pose proof (few_files t Hn) as Hf. split; [eapply N.lt_trans; [exact Hf|reflexivity]|]. split.
    + assert (G : forall l d, In d l -> lenN d <= total_room l).
      { induction l as [|x l IH]; intros d Hi; [destruct Hi|]. cbn [total_room fold_right]. change (fold_right _ 0 l) with (total_room l).
        unfold room. destruct Hi as [<-|Hi]; [lia|specialize (IH _ Hi); lia]. }
      intros d Hi. specialize (G _ _ Hi). lia.
    + unfold archive_room. apply N.le_lt_trans with 3000000; [lia|]. destruct (c_version (test_config t)); reflexivity.
  - now apply test_packable.
Qed.
Lemma suits_built34 L md5 t : calm_encoders L -> willing_encoders L -> (forall x, lenN (md5 x) = 16) -> suits t -> tc_version t = V3 \/ tc_version t = V4 ->
  exists arc, build L md5 (test_config t) (test_files t) = Ok arc /\ built34_at L md5 (test_config t) (test_files t) arc [] [].
Proof.
  intros HC HW H16 HS Hv. destruct (suits_names t HS) as [Hd Hcol]. destruct HS as (_ & Hr & Hn & Hb & Hm).
  apply start_built34; auto.
  - now apply test_well_typed.
  - apply narrow_small. rewrite total_room_sizes, sizes_full. exact Hr.
  - now apply test_packable.
Qed.

(** ** Names without extension *)
Lemma until_dot_split r : match until_dot r with
  | Some t => exists u, r = u ++ DOT :: t /\ ~ In DOT u
  | None => ~ In DOT r
  end.
Proof.
  induction r as [|b r IH]; cbn [until_dot]; [intros []|].
  destruct (beqb b DOT) eqn:E.
  - apply beqb_eq in E. subst b. exists []. split; [reflexivity|intros []].
  - assert (Hb : b <> DOT) by (intros ->; rewrite beqb_refl in E; discriminate).
    destruct (until_dot r) as [t|].
    + destruct IH as (u & -> & Hu). exists (b :: u). split; [reflexivity|]. intros [C|C]; auto.
    + intros [C|C]; auto.
Qed.
Lemma dot_unique s1 e1 s2 e2 : s1 ++ DOT :: e1 = s2 ++ DOT :: e2 -> ~ In DOT e1 -> ~ In DOT e2 -> s1 = s2.
Proof.
  revert s2. induction s1 as [|b s1 IH]; intros [|b2 s2] H H1 H2; cbn [app] in H.
  - reflexivity.
  - injection H as _ H. elim H1. rewrite H. apply in_or_app. right. left. reflexivity.
  - injection H as _ H. elim H2. rewrite <- H. apply in_or_app. right. left. reflexivity.
  - injection H as -> H. f_equal. eauto.
Qed.
Lemma stem_ok n : without_extension n (stem n).
Proof.
  unfold stem. pose proof (until_dot_split (rev n)) as H. destruct (until_dot (rev n)) as [[|x r]|].
  - destruct H as (u & H & Hu). right. split; [reflexivity|]. intros s' e He Hne.
    apply (f_equal (@rev byte)) in H. rewrite rev_involutive, rev_app_distr in H. cbn [rev app] in H.
    rewrite H in He. symmetry. apply (dot_unique [] (rev u) s' e); [exact He| |exact Hne].
    intros C. apply Hu. now apply in_rev.
  - destruct H as (u & H & Hu). left. exists (rev u). split; [|split].
    + apply (f_equal (@rev byte)) in H. rewrite rev_involutive, rev_app_distr in H.
      rewrite H. cbn [rev]. rewrite <- !app_assoc. reflexivity.
    + intros C. apply Hu. now apply in_rev.
    + cbn [rev]. intros C. apply app_eq_nil in C as [_ C]. discriminate.
  - right. split; [reflexivity|]. intros s' e He _. elim H. apply in_rev. rewrite rev_involutive, He.
    apply in_or_app. right. left. reflexivity.
Qed.

Lemma test_created_named L md5 dir t w0 w p :
  steps (create_test_archive L md5 dir t, w0) (Ret (Ok p), w) ->
  (exists s, without_extension (tc_name t) s /\ p = mkPath dir (s ++ lit ".mpq")) /\
  exists arc, build L md5 (test_config t) (test_files t) = Ok arc /\ w_files w p = Some arc.
Proof.
  intros H. apply test_created in H as [-> H]. split; [|exact H].
  exists (stem (tc_name t)). split; [apply stem_ok|reflexivity].
Qed.

Lemma join_lines_ok names : one_per_line names (join_lines names).
Proof.
  destruct names as [|n r]; [reflexivity|]. unfold one_per_line.
  revert n. induction r as [|m r IH]; intros n; [symmetry; apply app_nil_r|].
  change (join_lines (n :: m :: r)) with (n ++ "010"%byte :: join_lines (m :: r)). rewrite IH. reflexivity.
Qed.
Lemma test_list t : tc_listfile t = true ->
  exists d before after, test_files t = before ++ mkPF d (lit "(listfile)") 2 false false 0 :: after /\
    length before = length (tc_files t) /\ one_per_line (map tf_name (tc_files t)) d.
Proof.
  intros H. unfold test_files. rewrite H. exists (join_lines (map tf_name (tc_files t))), (map test_file (tc_files t)).
  eexists. split; [reflexivity|]. split; [apply map_length|apply join_lines_ok].
Qed.
