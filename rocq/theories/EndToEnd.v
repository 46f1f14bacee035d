(** * From the files handed in to the files read back. *)
From Verif Require Import Bytes ChecksumFacts Crypto SpecNames HashTable BlockTable Header Compress SpecTables SpecCompress
  HashTableFacts TableMap Adler Listfile HetBet Builder BuilderFacts Attributes Archive SpecArchive ArchiveFacts
  SpecArchive34 Archive34Facts SpecListfile ListfileFacts ListingFacts CliBuilt CliBuilt34 SpecBuilding BuildCalm BuildOk BuildSize Create DemoArchive
  LayoutFacts LookupFacts SpecNameTable NameArchiveFacts.
Open Scope N_scope.

Lemma room_files c files : 16 * lenN files <= total_room (all_contents c files).
Proof.
  rewrite <- rooms_prepared. etransitivity; [|apply rooms_count].
  unfold prepare_listfile. destruct (c_listfile c); rewrite ?lenN_app; lia.
Qed.

Lemma limit_each c files : (forall d, In d (all_contents c files) -> lenN d <= 4000000000) ->
  Forall (fun f => lenN (pf_data f) <= 4000000000) (prepare_listfile c files).
Proof.
  intros H. apply Forall_forall. intros f Hf. apply H.
  assert (E : map pf_data (prepare_listfile c files) = all_contents c files).
  { unfold prepare_listfile, all_contents. destruct (c_listfile c); rewrite ?map_app, ?app_nil_r; reflexivity. }
  rewrite <- E. now apply in_map.
Qed.
Lemma small_within c files : c_version c = V1 \/ c_version c = V2 ->
  total_room (all_contents c files) <= 2 ^ 28 -> within_limits c files.
Proof.
  intros Hv H. pose proof (room_files c files) as Hn. change (2 ^ 28) with 268435456 in H. split; [|split].
  - change (2 ^ 30 - 2) with 1073741822. lia.
  - intros d Hd. assert (G : forall l, In d l -> lenN d <= total_room l).
    { induction l as [|x l IH]; intros [].
      - subst x. cbn [total_room fold_right]. unfold room. lia.
      - cbn [total_room fold_right]. change (fold_right _ 0 l) with (total_room l). specialize (IH H0). lia. }
    specialize (G _ Hd). lia.
  - unfold archive_room. assert (total_room (all_contents c files) + 82 * lenN files + 610 < 2 ^ 32) by (change (2 ^ 32) with 4294967296; lia).
    destruct Hv as [-> | ->]; [assumption|]. eapply N.lt_trans; [eassumption|reflexivity].
Qed.

Lemma start_built L md5 c files :
  calm_encoders L -> c_version c = V1 \/ c_version c = V2 -> well_typed c files ->
  c_block_size c < 55 -> within_limits c files ->
  Forall (packable L c) (all_stored c files) -> all_distinct (all_names c files) ->
  no_collision (LISTFILE :: map pf_name files) ->
  exists arc, build L md5 c files = Ok arc /\ built_at L md5 c files arc [] [].
Proof.
  intros HC Hv Ht Hb (Hcount & Heach & Hroom) Hp Hd Hcol.
  assert (Hv3 : version_ge (c_version c) V3 = false) by (destruct Hv as [-> | ->]; reflexivity).
  assert (Hf : forall f, In f files -> pf_encrypt f = true -> lenN (pf_data f) <= 4000000000).
  { intros f Hf _. apply Heach. unfold all_contents. apply in_or_app. left. now apply in_map. }
  destruct (proj2 (build_fine12 L HC md5 c files Hv Hb Hcount Hf Hcol) (conj Hp Hd)) as [arc E].
  exists arc. split; [exact E|]. unfold built_at.
  assert (Hs : lenN arc <= archive_room c files).
  { assert (Ew : write_archive12 L c (prepare_listfile c files) = Ok arc) by (unfold build in E; now rewrite Hv3 in E).
    assert (Hn : lenN (prepare_listfile c files) <= lenN files + 1 /\ table_count c (prepare_listfile c files) <= lenN files + 2).
    { unfold table_count, prepare_listfile. destruct (c_listfile c); rewrite ?lenN_app;
        change (lenN [?x]) with 1; unfold lenN; cbn [length]; lia. }
    apply (write_archive12_size L md5 c) in Ew; [|exact Hv3|exact Hb|now apply limit_each|].
    - rewrite rooms_prepared in Ew. unfold archive_room. lia.
    - change (2 ^ 30 - 2) with 1073741822 in Hcount. change (2 ^ 30) with 1073741824. lia. }
  assert (Hfit : SpecArchive.fits (c_version c) arc).
  { unfold SpecArchive.fits. destruct (c_version c); eapply N.le_lt_trans; eauto. }
  split; [exact Hv|]. split; [exact Ht|]. split; [exact Hcount|]. split; [exact E|]. rewrite app_nil_r. cbn [app].
  split; [exact Hfit|split].
  - unfold SpecArchive.fits in Hfit. destruct (c_version c); eapply N.lt_trans; try exact Hfit; reflexivity.
  - rewrite <- (app_nil_r arc). eapply reached_start; eassumption.
Qed.

Lemma start_built34 L md5 c files :
  calm_encoders L -> c_version c = V3 \/ c_version c = V4 -> c_ctables c = false ->
  (forall x, lenN (md5 x) = 16) -> well_typed c files ->
  c_block_size c < 55 -> narrow (all_contents c files) ->
  Forall (packable L c) (all_stored c files) -> all_distinct (all_names c files) ->
  no_collision (LISTFILE :: map pf_name files) ->
  exists arc, build L md5 c files = Ok arc /\ built34_at L md5 c files arc [] [].
Proof.
  intros HC Hv Hct Hmd Ht Hb Hr Hp Hd Hcol.
  assert (Hv3 : version_ge (c_version c) V3 = true) by (destruct Hv as [-> | ->]; reflexivity).
  assert (Hcount : lenN files < 2 ^ 30 - 2).
  { assert (lenN files <= lenN (all_contents c files)) by (unfold all_contents, lenN; rewrite app_length, map_length; lia).
    destruct Hr as [Hn _]. change (2 ^ 17) with 131072 in Hn. change (2 ^ 30 - 2) with 1073741822. lia. }
  assert (Hno : c_ctables c = true -> forall d, exists r, compress L d (c_tmethod c) = Ok r) by congruence.
  destruct (proj2 (build_fine34 L HC md5 c files Hv Hb Hr Hno Hcol) (conj Hp Hd)) as [arc E].
  exists arc. split; [exact E|]. unfold built34_at.
  assert (Hs : lenN arc < 2 ^ 32).
  { eapply (write_archive34_size L md5 c (prepare_listfile c files));
      [exact Hv|exact Hct|exact Hmd|exact Hb|now rewrite data_prepared|].
    unfold build in E. now rewrite Hv3 in E. }
  split; [exact Hv|]. split; [exact Hct|]. split; [exact Hmd|]. split; [exact Ht|]. split; [exact Hcount|].
  split; [exact E|]. rewrite app_nil_r. cbn [app]. split; [|split].
  - eapply N.lt_trans; [exact Hs|reflexivity].
  - eapply N.lt_trans; [exact Hs|reflexivity].
  - rewrite <- (app_nil_r arc). eapply reached_start34; eassumption.
Qed.

Lemma end_to_end12 L md5 c files :
  lossless L -> calm_encoders L -> c_version c = V1 \/ c_version c = V2 -> well_typed c files ->
  c_block_size c < 55 -> within_limits c files ->
  Forall (packable L c) (all_stored c files) -> all_distinct (all_names c files) ->
  no_collision (LISTFILE :: map pf_name files) ->
  hashes_apart ATTRIBUTES (LISTFILE :: map pf_name files) ->
  exists arc a, build L md5 c files = Ok arc /\ open_archive L arc = Ok a /\
    (forall name f, means files name f -> reads_back L c (pf_comp f) (pf_data f) ->
       read_file L a name = Ok (pf_data f)) /\
    (forall name, hashes_apart name (LISTFILE :: map pf_name files) ->
       find_file a name = Ok None /\ read_file L a name = Err EFileNotFound).
Proof.
  intros HL HC Hv Ht Hb Hr Hp Hd Hcol Ha.
  destruct (start_built L md5 c files HC Hv Ht Hb Hr Hp Hd Hcol) as (arc & E & B). exists arc.
  destruct (built_read L md5 c files arc [] [] B Hcol Ha) as (a & ss & Ho & Hss & Hread).
  destruct (built_absent L md5 c files arc [] [] B Ha) as (a' & Ho' & Habs).
  rewrite Ho in Ho'. apply Ok_inj in Ho'. subst a'. rewrite app_nil_r in Ho. cbn [app] in Ho.
  exists a. split; [exact E|]. split; [exact Ho|]. split; [|exact Habs].
  intros n f Hm Hf. apply Hread; [now apply means_prepare|]. intros H0.
  apply (reads_back_safe L md5 c); auto. apply Ht. eapply means_in; exact Hm.
Qed.

Lemma end_to_end34_sure L md5 c files :
  lossless L -> calm_encoders L -> c_version c = V3 \/ c_version c = V4 -> c_ctables c = false ->
  (forall x, lenN (md5 x) = 16) -> well_typed c files ->
  c_block_size c < 55 -> narrow (all_contents c files) -> no_mistake c files ->
  Forall (packable L c) (all_stored c files) -> all_distinct (all_names c files) ->
  no_collision (LISTFILE :: map pf_name files) ->
  hashes_apart ATTRIBUTES (LISTFILE :: map pf_name files) ->
  exists arc a, build L md5 c files = Ok arc /\ open_archive L arc = Ok a /\
    (forall name f, means files name f -> reads_back L c (pf_comp f) (pf_data f) ->
       read_file L a name = Ok (pf_data f)) /\
    (forall name, ~ mistaken c files name -> hashes_apart name (LISTFILE :: map pf_name files) ->
       find_file a name = Ok None /\ read_file L a name = Err EFileNotFound).
Proof.
  intros HL HC Hv Hct Hmd Ht Hb Hr H4 Hp Hd Hcol Ha.
  destruct (start_built34 L md5 c files HC Hv Hct Hmd Ht Hb Hr Hp Hd Hcol) as (arc & E & B). exists arc.
  destruct (lookups_exact L md5 c files arc [] [] HL B Hcol) as [Ho R].
  destruct (Ho Ha (no_mistake_attributes _ _ H4)) as (a & Hopen). destruct (R a Hopen) as (b & _ & Hall).
  rewrite app_nil_r in Hopen. exists a. split; [exact E|]. split; [exact Hopen|]. split.
  - intros name f Hm Hf. apply (proj2 (Hall name)); [|exact Hm|exact Hf]. left.
    apply known_sure; [exact H4|]. eapply means_known; exact Hm.
  - intros name Hn. apply (proj2 (Hall name)). left. exact Hn.
Qed.
Lemma end_to_end34 L md5 c files :
  lossless L -> calm_encoders L -> c_version c = V3 \/ c_version c = V4 -> c_ctables c = false ->
  (forall x, lenN (md5 x) = 16) -> well_typed c files ->
  c_block_size c < 55 -> narrow (all_contents c files) -> entry_count c files <= 4 ->
  Forall (packable L c) (all_stored c files) -> all_distinct (all_names c files) ->
  no_collision (LISTFILE :: map pf_name files) ->
  hashes_apart ATTRIBUTES (LISTFILE :: map pf_name files) ->
  exists arc a, build L md5 c files = Ok arc /\ open_archive L arc = Ok a /\
    (forall name f, means files name f -> reads_back L c (pf_comp f) (pf_data f) ->
       read_file L a name = Ok (pf_data f)) /\
    (forall name, hashes_apart name (LISTFILE :: map pf_name files) ->
       find_file a name = Ok None /\ read_file L a name = Err EFileNotFound).
Proof.
  intros HL HC Hv Hct Hmd Ht Hb Hr H4 Hp Hd Hcol Ha.
  destruct (end_to_end34_sure L md5 c files HL HC Hv Hct Hmd Ht Hb Hr (few_no_mistake md5 c files H4) Hp Hd Hcol Ha)
    as (arc & a & E & Ho & R1 & R2).
  exists arc, a. split; [exact E|]. split; [exact Ho|]. split; [exact R1|]. intros name. apply R2.
  now apply (mistaken_few md5).
Qed.

(** ** The new archive *)
Lemma all_distinct_one x : all_distinct [x].
Proof.
  intros l1 a l2 b l3 E. exfalso. apply (f_equal (@length _)) in E. rewrite !app_length in E. cbn [length] in E.
  rewrite app_length in E. cbn [length] in E. lia.
Qed.

Lemma fresh L md5 v : lossless L -> calm_encoders L -> (forall x, lenN (md5 x) = 16) ->
  (exists z, zlib_enc L (listfile_content []) = Ok z) ->
  exists a l, create L md5 v true = Ok a /\ list_files L a = Ok l /\ map fe_name l = [LISTFILE] /\
    read_file L a LISTFILE = Ok (listfile_content []) /\
    (forall name, hashes_apart name [LISTFILE] -> find_file a name = Ok None /\ read_file L a name = Err EFileNotFound) /\
    h_version (a_header a) = match v with Some v => v | None => V1 end.
Proof.
  intros HL HC Hmd [z Hz]. unfold create. set (c := create_config v).
  assert (Hg : c_listfile c = LGenerate) by reflexivity.
  assert (Hb : c_block_size c < 55) by reflexivity.
  assert (Ht : well_typed c []) by (split; [reflexivity|]; split; [reflexivity|]; intros f []).
  assert (Hr : narrow (all_contents c [])) by (apply narrow_small; vm_compute; discriminate).
  assert (Hd : all_distinct (all_names c [])) by apply all_distinct_one.
  assert (Hp : Forall (packable L c) (all_stored c [])).
  { constructor; [|constructor]. right. intros s Hs. cbn [fst snd] in *.
    assert (s = listfile_content []) as ->.
    { apply (is_sector_chunks (sector_bytes c) ltac:(reflexivity) (length (listfile_content []))) in Hs; [|reflexivity].
      vm_compute in Hs. destruct Hs as [Hs|[]]. exact (eq_sym Hs). }
    change (c_default c) with ZLIB. apply compress_fine. exists z. exact Hz. }
  assert (Hcol : no_collision (LISTFILE :: map pf_name [])) by (apply no_collisionb_sound; vm_compute; reflexivity).
  assert (Ha : hashes_apart ATTRIBUTES (LISTFILE :: map pf_name [])) by (apply hashes_apartb_sound; vm_compute; reflexivity).
  assert (Hn : forall f, In f [] -> is_text (pf_name f) /\ listable (pf_name f) /\ ~ name_equiv LISTFILE (pf_name f))
    by (intros f []).
  assert (Hrb : reads_back L c (c_default c) (listfile_content (map pf_name []))).
  { left. split; [vm_compute; discriminate|]. split; [reflexivity|]. right. left. left. reflexivity. }
  destruct (version_ge (c_version c) V3) eqn:Hv3.
  - assert (Hv : c_version c = V3 \/ c_version c = V4) by (destruct (c_version c); try discriminate Hv3; auto).
    destruct (start_built34 L md5 c [] HC Hv eq_refl Hmd Ht Hb Hr Hp Hd Hcol) as (arc & E & B).
    assert (Hfew : forall n, ~ mistaken c [] n) by (intros n; apply (mistaken_few md5); vm_compute; discriminate).
    destruct (sure34 L md5 c [] arc [] [] B (Hfew _) Ha)
      as (a & ss & bt & he & be & Ho & Hss & Hdesc & _ & _ & _ & _ & _ & _ & Hlay & Hcl).
    destruct (classic_all L md5 c ss [] a HL Hss Ht Hdesc (fun n _ => Hcl n (Hfew n)) Hg Hcol Hn Hrb) as (l & Hl & Hnames & _ & _ & Hread & _).
    destruct (few_entries L md5 c [] arc [] [] HL B ltac:(vm_compute; discriminate) Hcol Ha) as (a' & Ho' & _ & Habs).
    rewrite Ho in Ho'. apply Ok_inj in Ho'. subst a'. rewrite app_nil_r in Ho. cbn [app] in Ho.
    exists a, l. rewrite E. cbn [bind]. split; [exact Ho|]. split; [exact Hl|]. split; [exact Hnames|].
    split; [exact Hread|]. split; [exact Habs|]. destruct Hlay as (? & ? & ? & ? & ? & ? & ? & ? & _ & _ & _ & G & _). exact G.
  - assert (Hv : c_version c = V1 \/ c_version c = V2) by (destruct (c_version c); try discriminate Hv3; auto).
    assert (Hr' : within_limits c []) by (apply small_within; [exact Hv|vm_compute; discriminate]).
    destruct (start_built L md5 c [] HC Hv Ht Hb Hr' Hp Hd Hcol) as (arc & E & B).
    destruct (built_all L md5 (fun _ => []) (fun _ _ => 0) c [] arc [] [] HL B Hg Hcol Ha Hn Hrb ltac:(intros f []))
      as (a & l & Ho & Hl & Hnames & _ & Hread & _).
    destruct (built_absent L md5 c [] arc [] [] B Ha) as (a' & Ho' & Habs).
    rewrite Ho in Ho'. apply Ok_inj in Ho'. subst a'. rewrite app_nil_r in Ho. cbn [app] in Ho.
    exists a, l. rewrite E. cbn [bind]. split; [exact Ho|]. split; [exact Hl|]. split; [exact Hnames|].
    split; [exact Hread|]. split; [exact Habs|].
    destruct (built_open L md5 c [] arc [] [] B Ha) as (a' & ss & Ho' & _ & _ & _ & _ & _ & bt & _ & Hlay).
    cbn [app] in Ho'. rewrite app_nil_r, Ho in Ho'. apply Ok_inj in Ho'. subst a'.
    destruct Hlay as (? & ? & _ & _ & _ & _ & _ & _ & _ & G & _). exact G.
Qed.

Lemma fresh_deferred L md5 v a name : create L md5 v false = Ok a ->
  find_file a name = Err EInvalidFormat /\ read_file L a name = Err EInvalidFormat /\
  list_files L a = Err EInvalidFormat /\ list_all a = Err EInvalidFormat.
Proof.
  unfold create. intros H. destruct (build _ _ _ _) as [arc| |]; cbn [bind] in H; try discriminate.
  exact (deferred_useless L arc a name H).
Qed.
