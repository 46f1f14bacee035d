(** * Proofs about the command line tool and archives of version 3 and 4 none of whose names is mistaken,
    as with few entries. *)
From Verif Require Import Bytes Crypto SpecNames NameFacts HashTable TableMap BlockTable Header SpecHeader Compress
  SpecCompress SpecTables Listfile SpecListfile ListfileFacts HetBet HetBetFacts Builder BuilderFacts Attributes Archive
  OpenFacts SpecArchive SpecArchive34 ArchiveFacts ListingFacts Open34Facts Archive34Facts Signature Info SpecDigest
  InfoFacts Cli SpecCli CliFacts CliBuilt InfoBuilt SpecNameTable NameArchiveFacts.
Open Scope N_scope.

Section V.
Variable L : codecs.
Variable md5 sha1 : bytes -> bytes.
Variable rd : N -> N -> N.

(** ** Archives whose files are found through the classic tables *)
Lemma means_some fs n : (exists f, In f fs /\ name_equiv n (pf_name f)) -> exists f, means fs n f.
Proof.
  induction fs as [|g l IH]; intros E; [destruct E as (f & [] & _)|].
  destruct (name_equiv_dec n (pf_name g)) as [Eg|Eg].
  - exists g, [], l. split; [reflexivity|]. split; [exact Eg|]. intros x [].
  - destruct IH as (f & l1 & l2 & El & E1 & E2).
    + destruct E as (f & [<-|Hin] & Hf); [contradiction|]. exists f. auto.
    + exists f, (g :: l1), l2. split; [now rewrite El|]. split; [exact E1|].
      intros x [<-|Hx]; [exact Eg|now apply E2].
Qed.

Lemma classic_list c ss files a :
  describes L a c ss (prepare_listfile c files) -> find_file a LISTFILE = find_file_classic a LISTFILE ->
  no_collision (LISTFILE :: map pf_name files) ->
  exists r, find_file a LISTFILE = Ok r /\
    (r <> None <-> c_listfile c <> LNone \/ exists f, In f files /\ name_equiv LISTFILE (pf_name f)).
Proof.
  intros Hd Hcl Hcol. pose proof (no_collision_incl _ _ (prepare_names c files) Hcol) as Hcol'.
  assert (Hmay : (exists f, In f (prepare_listfile c files) /\ name_equiv LISTFILE (pf_name f)) <->
                 (c_listfile c <> LNone \/ exists f, In f files /\ name_equiv LISTFILE (pf_name f))).
  { unfold prepare_listfile. destruct (c_listfile c) eqn:El.
    - split; [intros _; left; discriminate|].
      intros _. eexists. split; [apply in_or_app; right; left; reflexivity|apply name_equiv_refl].
    - split; [intros _; left; discriminate|].
      intros _. eexists. split; [apply in_or_app; right; left; reflexivity|apply name_equiv_refl].
    - split; [intros H; right; exact H|]. intros [H|H]; [contradiction|exact H]. }
  destruct (List.Exists_dec (fun f => name_equiv LISTFILE (pf_name f)) (prepare_listfile c files)) as [E|E].
  { intros x. destruct (name_equiv_dec LISTFILE (pf_name x)); auto. }
  - apply Exists_exists in E. destruct (means_some _ _ E) as (f & Hm).
    destruct (built_find_gen L md5 a c ss _ LISTFILE f Hd Hcl Hcol' Hm) as (i' & p' & out' & cs' & fl' & s' & G).
    destruct G as (_ & _ & _ & _ & _ & _ & G). eexists. split; [exact G|].
    split; [intros _; apply Hmay; exact E|discriminate].
  - exists None. split.
    + rewrite Hcl. eapply find_classic_absent; [exact Hd|].
      intros x Hx [E1 E2]. apply E. apply in_map_iff in Hx as (f & <- & Hin). apply Exists_exists. exists f.
      split; [exact Hin|]. apply Hcol; [left; reflexivity| |congruence|congruence].
      apply (prepare_names c files). now apply in_map.
    + split; [congruence|]. intros H. apply Hmay in H. exfalso. apply E. apply Exists_exists. exact H.
Qed.

(** A name of the archive, however it is written *)
Definition known (files : list pending) (n : bytes) : Prop :=
  exists x, In x (LISTFILE :: map pf_name files) /\ name_equiv n x.
Lemma means_known files n f : means files n f -> known files n.
Proof.
  intros (l1 & l2 & -> & E & _). exists (pf_name f). split; [|exact E]. right. rewrite map_app. apply in_or_app. right. left. reflexivity.
Qed.
Lemma known_in files n : In n (map pf_name files ++ [LISTFILE]) -> known files n.
Proof.
  intros H. exists n. split; [|apply name_equiv_refl]. apply in_app_or in H as [H|[<-|[]]]; [right; exact H|left; reflexivity].
Qed.

Lemma known_list files : known files LISTFILE.
Proof. apply known_in, in_or_app. right. left. reflexivity. Qed.

Lemma classic_all c ss files a :
  lossless L -> sector_size (c_block_size c) = Ok ss -> well_typed c files ->
  describes L a c ss (prepare_listfile c files) -> (forall n, known files n -> find_file a n = find_file_classic a n) ->
  c_listfile c = LGenerate ->
  no_collision (LISTFILE :: map pf_name files) ->
  (forall f, In f files -> is_text (pf_name f) /\ listable (pf_name f) /\ ~ name_equiv LISTFILE (pf_name f)) ->
  reads_back L c (c_default c) (listfile_content (map pf_name files)) ->
  exists l, list_files L a = Ok l /\
    map fe_name l = map pf_name files ++ [LISTFILE] /\
    (forall e f, In e l -> means files (fe_name e) f -> lenN (pf_data f) < 2 ^ 32 -> fe_size e = lenN (pf_data f)) /\
    (forall n f, means files n f -> reads_back L c (pf_comp f) (pf_data f) -> read_file L a n = Ok (pf_data f)) /\
    read_file L a LISTFILE = Ok (listfile_content (map pf_name files)) /\
    (forall n, In n (map pf_name files ++ [LISTFILE]) -> exists fi, find_file a n = Ok (Some fi)).
Proof.
  intros HL Hss Ht Hd Hcl Hg Hcol Hn Hrb.
  pose proof (no_collision_incl _ _ (prepare_names c files) Hcol) as Hcol'.
  set (lf := mkPF (listfile_content (map pf_name files)) LISTFILE (c_default c) false false 0).
  assert (Hp : prepare_listfile c files = files ++ [lf]) by (unfold prepare_listfile; now rewrite Hg).
  assert (Hmean : means (prepare_listfile c files) LISTFILE lf).
  { rewrite Hp. exists files, []. split; [reflexivity|]. split; [apply name_equiv_refl|].
    intros g Hg'. apply Hn. exact Hg'. }
  assert (Hread : read_file L a LISTFILE = Ok (listfile_content (map pf_name files))).
  { change (listfile_content (map pf_name files)) with (pf_data lf).
    apply (classic_read L md5 a c ss (prepare_listfile c files) LISTFILE lf); auto; [|exact (proj1 (proj2 Ht))].
    apply Hcl, known_list. }
  destruct (built_find_gen L md5 a c ss _ LISTFILE lf Hd (Hcl _ (known_list files)) Hcol' Hmean)
    as (i & p & out & cs & fl & s & H1 & H2 & H3 & H4 & H5 & H6 & H7).
  pose proof (list_files_rows L a _ _ H7 Hread) as Hl.
  rewrite listfile_round_trip in Hl.
  2,3: apply Forall_forall; intros n Hin; apply in_map_iff in Hin as (f & <- & Hin); apply Hn; exact Hin.
  assert (Hall : forall n, In n (map pf_name files ++ [LISTFILE]) ->
            exists fi, find_file a n = Ok (Some fi)).
  { intros n Hin. destruct (means_exists (prepare_listfile c files) n) as (f & Hm).
    { rewrite Hp, map_app. exact Hin. }
    destruct (built_find_gen L md5 a c ss _ n f Hd (Hcl _ (known_in _ _ Hin)) Hcol' Hm) as (i' & p' & out' & cs' & fl' & s' & G).
    destruct G as (_ & _ & _ & _ & _ & _ & G). eauto. }
  destruct (rows_exist a _ Hall) as (rows & Hrows).
  exists (concat rows). split; [apply Hl; eauto|]. split; [now apply (rows_names a)|].
  split; [|split; [|split; [exact Hread|exact Hall]]].
  - intros e f He Hm H32. destruct (rows_entry _ _ _ _ Hrows He) as (fi & E & Ee).
    destruct (built_find_gen L md5 a c ss _ (fe_name e) f Hd (Hcl _ (means_known _ _ _ Hm)) Hcol' (means_prepare c _ _ _ Hm))
      as (i' & p' & out' & cs' & fl' & s' & _ & _ & _ & _ & _ & _ & G).
    rewrite G in E. apply Ok_inj in E. injection E as <-. rewrite Ee. cbn [fe_size fi_size].
    apply N.mod_small. exact H32.
  - intros n f Hm Hr. apply (classic_read L md5 a c ss (prepare_listfile c files) n f); auto.
    + apply Hcl. eapply means_known; exact Hm.
    + now apply means_prepare.
    + apply (typed_comp c files); [exact Ht|]. eapply means_in; exact Hm.
Qed.

(** ** Version 3 and 4 *)
Lemma known_sure c files n : no_mistake c files -> known files n -> ~ mistaken c files n.
Proof.
  intros HN (x & Hx & E) HM. apply (mistaken_equiv c files n x E) in HM. revert HM. apply HN.
  destruct Hx as [<-|Hx]; [left; reflexivity|]. right. right. right. exact Hx.
Qed.
Lemma sure34 c files arc pre post :
  built34_at L md5 c files arc pre post -> ~ mistaken c files ATTRIBUTES ->
  hashes_apart ATTRIBUTES (LISTFILE :: map pf_name files) ->
  exists a ss bt he be, open_archive L (pre ++ arc ++ post) = Ok a /\ sector_size (c_block_size c) = Ok ss /\
    describes L a c ss (prepare_listfile c files) /\ a_attrs a = None /\ a_block a = Some bt /\
    a_het a = Some he /\ a_bet a = Some be /\ het_is he (lenN (prepare_listfile c files)) /\ bet_is be bt /\
    laid_out34 L md5 (a_header a) ss c (prepare_listfile c files) arc bt (a_hi a) /\
    forall n, ~ mistaken c files n -> find_file a n = find_file_classic a n.
Proof.
  intros HB H4 Hap.
  destruct (built34_tables L md5 c files arc pre post HB)
    as (a & ss & bt & he & be & Ho & Hss & Hd & Hat & Hf & Hoff & Hbt & Hhe & Hbe & (Hhi & _) & Hbi & _ & Hlay).
  destruct (find34_mistaken L md5 c files arc pre post HB) as (a' & ss' & be' & Ho' & _ & Hd' & Hat' & _ & _ & _ & _ & Hall).
  assert (Hsm : forall n, ~ mistaken c files n -> find_file a' n = find_file_classic a' n).
  { intros n Hn. apply Hall. left. exact Hn. }
  assert (Hopen : open_archive L (pre ++ arc ++ post) = Ok a').
  { rewrite Ho'. unfold load_attributes. rewrite Hat'. unfold read_file.
    rewrite (Hsm _ H4). rewrite (find_classic_absent L a' c ss' _ ATTRIBUTES Hd'); [reflexivity|].
    intros y Hy. apply Hap. now apply (prepare_names c files). }
  pose proof Hopen as Hopen'.
  rewrite Ho in Hopen'. apply load_attributes_same in Hopen' as (x & Ex).
  subst a'. cbn [with_attrs a_attrs] in Hat'. subst x.
  exists (with_attrs a None), ss, bt, he, be. split; [exact Hopen|]. split; [exact Hss|]. split; [exact Hd|].
  split; [reflexivity|]. split; [exact Hbt|]. split; [exact Hhe|]. split; [exact Hbe|].
  split; [exact Hhi|]. split; [exact Hbi|]. split; [exact Hlay|exact Hsm].
Qed.
Lemma no_mistake_attributes c files : no_mistake c files -> ~ mistaken c files ATTRIBUTES.
Proof. intros H. apply H. right. left. reflexivity. Qed.
Lemma no_mistake_signature c files : no_mistake c files -> ~ mistaken c files SIGNATURE.
Proof. intros H. apply H. right. right. left. reflexivity. Qed.
Lemma no_mistake_listfile c files : no_mistake c files -> ~ mistaken c files LISTFILE.
Proof. intros H. apply H. left. reflexivity. Qed.

Lemma few34_distinct c files arc pre post :
  built34_at L md5 c files arc pre post -> no_collision (LISTFILE :: map pf_name files) ->
  distinct_files (map file_key (prepare_listfile c files)).
Proof.
  intros (Hv & _ & _ & Ht & Hn & Hb & _) Hcol.
  assert (Hv3 : version_ge (c_version c) V3 = true) by (destruct Hv as [-> | ->]; reflexivity).
  unfold build in Hb. rewrite Hv3 in Hb. set (fs := prepare_listfile c files) in *.
  unfold write_archive34 in Hb.
  destruct (sector_size (c_block_size c)) as [ss| |]; cbn [bind] in Hb; try discriminate.
  pose proof (prepare_count md5 c files Hn) as Hcnt. fold fs in Hcnt.
  assert (Hle : lenN fs <= table_count c fs) by (unfold table_count; lia).
  destruct (builder_table (table_count c fs) (map file_key fs)) as (t0 & E0 & Hcase);
    [rewrite map_lenN; exact Hle|exact Hcnt| |].
  { rewrite map_map. cbn [file_key fst].
    eapply no_collision_incl; [apply (prepare_names c files)|exact Hcol]. }
  destruct (write_files _ _ _ _ _) as [[body es]| |] in Hb; cbn [bind] in Hb; try discriminate.
  destruct (create_het_table _) as [het| |] in Hb; cbn [bind] in Hb; try discriminate.
  destruct (write_ext_table _ _ _ _ _) as [hetb| |] in Hb; cbn [bind] in Hb; try discriminate.
  destruct (create_bet_table _ _) as [bet| |] in Hb; cbn [bind] in Hb; try discriminate.
  destruct (write_ext_table _ _ _ _ _) as [betb| |] in Hb; cbn [bind] in Hb; try discriminate.
  rewrite E0 in Hb. cbn [bind] in Hb.
  assert (H32 : 0 + lenN fs <= M32).
  { change (2 ^ 30) with 1073741824 in Hcnt. unfold M32. change (2 ^ 32) with 4294967296. lia. }
  rewrite add_files_all in Hb by exact H32.
  destruct Hcase as [(t & k & _ & _ & _ & _ & _ & D)|[E _]]; [exact D|].
  rewrite E in Hb. discriminate.
Qed.

Lemma sure34_listing c files arc pre post :
  lossless L -> built34_at L md5 c files arc pre post -> no_mistake c files -> c_listfile c = LGenerate ->
  no_collision (LISTFILE :: map pf_name files) ->
  hashes_apart ATTRIBUTES (LISTFILE :: map pf_name files) ->
  (forall f, In f files -> is_text (pf_name f) /\ listable (pf_name f) /\ ~ name_equiv LISTFILE (pf_name f)) ->
  reads_back L c (c_default c) (listfile_content (map pf_name files)) ->
  exists a l, open_archive L (pre ++ arc ++ post) = Ok a /\ list_files L a = Ok l /\
    map fe_name l = map pf_name files ++ [LISTFILE] /\
    forall e f, In e l -> means files (fe_name e) f -> lenN (pf_data f) < 2 ^ 32 ->
      fe_size e = lenN (pf_data f).
Proof.
  intros HL HB H4 Hg Hcol Ha Hn Hrb.
  destruct (sure34 c files arc pre post HB (no_mistake_attributes _ _ H4) Ha) as (a & ss & bt & he & be & Ho & Hss & Hd & _ & _ & _ & _ & _ & _ & _ & Hcl).
  pose proof HB as (_ & _ & _ & Ht & _).
  destruct (classic_all c ss files a HL Hss Ht Hd (fun n Hk => Hcl n (known_sure c files n H4 Hk)) Hg Hcol Hn Hrb) as (l & H1 & H2 & H3 & _).
  exists a, l. auto.
Qed.

Definition all_valid : md5_status := mkMS true true true true true true.
Lemma all_flags s : (forall d, flag s d = true) -> s = all_valid.
Proof.
  intros H. destruct s as [b1 b2 b3 b4 b5 b6].
  pose proof (H DHash) as E1. pose proof (H DBlock) as E2. pose proof (H DHi) as E3.
  pose proof (H DHet) as E4. pose proof (H DBet) as E5. pose proof (H DHeader) as E6.
  cbn [flag ms_hash ms_block ms_hi ms_het ms_bet ms_header] in *. subst. reflexivity.
Qed.

Lemma sure34_info c files arc pre post :
  built34_at L md5 c files arc pre post -> no_mistake c files ->
  no_collision (LISTFILE :: map pf_name files) ->
  hashes_apart ATTRIBUTES (LISTFILE :: map pf_name files) ->
  hashes_apart SIGNATURE (LISTFILE :: map pf_name files) ->
  exists a i, open_archive L (pre ++ arc ++ post) = Ok a /\ get_info L md5 sha1 rd a = Ok i /\
    i_version i = c_version c /\ i_sector_size i = (512 * 2 ^ c_block_size c) mod 2 ^ 64 /\
    i_file_count i = entry_count c files /\ i_max_count i = entry_count c files /\
    (i_encrypted i = true <-> exists f, In f files /\ pf_encrypt f = true) /\
    (i_has_listfile i = true <->
       c_listfile c <> LNone \/ exists f, In f files /\ name_equiv LISTFILE (pf_name f)) /\
    i_has_signature i = false /\ i_signature i = SigNone /\ i_has_attributes i = false /\
    i_md5 i = match c_version c with V4 => Some (mkMS true true true true true true) | _ => None end.
Proof.
  intros HB H4 Hcol Ha Hs.
  destruct (sure34 c files arc pre post HB (no_mistake_attributes _ _ H4) Ha)
    as (a & ss & bt & he & be & Ho & Hss & Hd & Hat & Hbt & Hhe & Hbe & Hhi & Hbi & Hlay & Hcl).
  destruct (classic_list c ss files a Hd (Hcl _ (no_mistake_listfile _ _ H4)) Hcol) as (r & Hr & Hr').
  assert (Habs : forall n, ~ mistaken c files n -> hashes_apart n (LISTFILE :: map pf_name files) -> find_file a n = Ok None).
  { intros n Hnm Hna. rewrite (Hcl n Hnm). eapply find_classic_absent; [exact Hd|].
    intros x Hx. apply Hna. now apply (prepare_names c files). }
  assert (Hm : validate_v4 md5 a = Ok (match c_version c with V4 => Some (mkMS true true true true true true) | _ => None end)).
  { pose proof HB as ([Ev|Ev] & _).
    - rewrite Ev. unfold validate_v4.
      destruct Hlay as (hdr & body & es & hetb & betb & htab & btab & hib & Hlay).
      do 18 apply proj2 in Hlay. destruct Hlay as (Hv4 & _). rewrite Ev in Hv4. now rewrite Hv4.
    - destruct (built_digests_valid L md5 c files arc pre post a HB Ev) as (s & Es & Hfl); [left; exact Ho|].
      rewrite Ev, Es. now rewrite (all_flags s Hfl). }
  destruct Hd as (t & k & bt' & Ht1 & Hb1 & Hk & Inv & Hlt & Hdel & Hsec & Hnth).
  exists a. eexists. split; [exact Ho|]. split.
  { unfold get_info. rewrite Ht1. cbn [bind]. rewrite Hr. cbn [bind].
    rewrite (Habs _ (no_mistake_signature _ _ H4) Hs). cbn [bind]. rewrite Hat, (Habs _ (no_mistake_attributes _ _ H4) Ha). cbn [bind]. rewrite Hm. cbn [bind].
    rewrite Hsec. cbn [bind]. reflexivity. }
  cbn [i_version i_sector_size i_max_count i_encrypted i_has_listfile i_has_signature i_signature i_has_attributes
       i_md5 i_file_count].
  rewrite Hhe, Hbe, Hbt.
  destruct Hlay as (hdr & body & es & hetb & betb & htab & btab & hib & _ & _ & _ & Hver & Ebt & _ & Hw & _).
  pose proof (write_files_blocks _ _ _ _ _ _ _ Hw) as Hbl. rewrite <- Ebt in Hbl.
  split; [exact Hver|]. split.
  { unfold sector_size in Hss. destruct (_ <? _) eqn:C in Hss; [|discriminate]. apply Ok_inj in Hss.
    rewrite <- Hss. rewrite N.shiftl_mul_pow2. reflexivity. }
  split. { destruct Hbi as (-> & _). rewrite <- (entry_count_prepare md5). unfold lenN. f_equal.
           clear - Hbl. induction Hbl; [reflexivity|]. cbn [length]. now f_equal. }
  split. { destruct Hhi as (k' & _ & -> & _). apply (entry_count_prepare md5). }
  split.
  { rewrite (blocks_encrypted _ _ Hbl). unfold prepare_listfile.
    assert (G : existsb pf_encrypt files = true <-> exists f, In f files /\ pf_encrypt f = true) by apply existsb_exists.
    destruct (c_listfile c); rewrite ?existsb_app; cbn [existsb pf_encrypt]; rewrite ?orb_false_r; exact G. }
  split. { rewrite <- Hr'. destruct r; split; congruence. }
  repeat split.
Qed.

Lemma sure34_verify c files arc pre post cc :
  lossless L -> built34_at L md5 c files arc pre post -> no_mistake c files -> c_listfile c = LGenerate ->
  no_collision (LISTFILE :: map pf_name files) ->
  hashes_apart ATTRIBUTES (LISTFILE :: map pf_name files) ->
  hashes_apart SIGNATURE (LISTFILE :: map pf_name files) ->
  (forall f, In f files -> is_text (pf_name f) /\ listable (pf_name f) /\ ~ name_equiv LISTFILE (pf_name f)) ->
  reads_back L c (c_default c) (listfile_content (map pf_name files)) ->
  (forall f, In f files -> reads_back L c (pf_comp f) (pf_data f)) ->
  verify L md5 sha1 rd (pre ++ arc ++ post) cc = Ok tt.
Proof.
  intros HL HB H4 Hg Hcol Ha Hs Hn Hrb Hall.
  destruct (sure34_info c files arc pre post HB H4 Hcol Ha Hs) as (a & i & Ho & Hi & _).
  destruct (sure34 c files arc pre post HB (no_mistake_attributes _ _ H4) Ha) as (a' & ss & bt & he & be & Ho' & Hss & Hd & _ & _ & _ & _ & _ & _ & _ & Hcl).
  rewrite Ho in Ho'. apply Ok_inj in Ho'. subst a'.
  pose proof HB as (_ & _ & _ & Ht & _).
  destruct (classic_all c ss files a HL Hss Ht Hd (fun n Hk => Hcl n (known_sure c files n H4 Hk)) Hg Hcol Hn Hrb) as (l & Hl & Hnames & _ & Hr & Hrl & Hf).
  apply verify_ok. exists a, i, l.
  split; [exact Ho|]. split; [exact Hi|]. split; [exact Hl|]. intros e He.
  assert (Hin : In (fe_name e) (map pf_name files ++ [LISTFILE])) by (rewrite <- Hnames; now apply in_map).
  split; [now apply Hf|]. intros _. apply in_app_or in Hin as [Hin|[<-|[]]]; [|eexists; exact Hrl].
  destruct (means_exists files _ Hin) as (f & Hm). exists (pf_data f). apply (Hr _ _ Hm). apply Hall.
  eapply means_in; exact Hm.
Qed.

Lemma sure34_pack c walk arc pre post cwd dir dl :
  lossless L -> built34_at L md5 c (create_files c walk) arc pre post -> no_mistake c (create_files c walk) -> c_listfile c = LGenerate ->
  no_collision (LISTFILE :: map pf_name (create_files c walk)) ->
  hashes_apart ATTRIBUTES (LISTFILE :: map pf_name (create_files c walk)) ->
  (forall f, In f (create_files c walk) ->
     is_text (pf_name f) /\ listable (pf_name f) /\ ~ name_equiv LISTFILE (pf_name f)) ->
  reads_back L c (c_default c) (listfile_content (map pf_name (create_files c walk))) ->
  (forall f, In f walk -> f_parts f <> [] /\ Forall component (f_parts f) /\ reads_back L c (c_default c) (f_data f)) ->
  leads cwd dir dl ->
  exists acts ws p d, extract L (pre ++ arc ++ post) None (Some dir) true = (acts, Ok tt) /\
    writes_of acts = ws ++ [(p, d)] /\
    Forall2 (fun f w => leads cwd (fst w) (dl ++ f_parts f) /\ snd w = f_data f) walk ws /\
    leads cwd p (dl ++ [LISTFILE]).
Proof.
  intros HL HB H4 Hg Hcol Ha Hn Hrb Hw Hd.
  destruct (sure34 c _ arc pre post HB (no_mistake_attributes _ _ H4) Ha) as (a & ss & bt & he & be & Ho & Hss & Hde & _ & _ & _ & _ & _ & _ & _ & Hcl).
  pose proof HB as (_ & _ & _ & Ht & _).
  destruct (classic_all c ss _ a HL Hss Ht Hde (fun n Hk => Hcl n (known_sure c _ n H4 Hk)) Hg Hcol Hn Hrb) as (l & Hl & Hnames & _ & Hr & Hrl & _).
  apply (unpack_gen L c walk (pre ++ arc ++ post) cwd dir dl a l); auto.
  - intros n f Hm. apply (Hr _ _ Hm). apply means_in in Hm. apply in_map_iff in Hm as (x & <- & Hx). apply Hw, Hx.
  - exact (few34_distinct c _ arc pre post HB Hcol).
Qed.

(** ** With few entries no name is mistaken *)
Lemma few34_listing c files arc pre post :
  lossless L -> built34_at L md5 c files arc pre post -> entry_count c files <= 4 -> c_listfile c = LGenerate ->
  no_collision (LISTFILE :: map pf_name files) ->
  hashes_apart ATTRIBUTES (LISTFILE :: map pf_name files) ->
  (forall f, In f files -> is_text (pf_name f) /\ listable (pf_name f) /\ ~ name_equiv LISTFILE (pf_name f)) ->
  reads_back L c (c_default c) (listfile_content (map pf_name files)) ->
  exists a l, open_archive L (pre ++ arc ++ post) = Ok a /\ list_files L a = Ok l /\
    map fe_name l = map pf_name files ++ [LISTFILE] /\
    forall e f, In e l -> means files (fe_name e) f -> lenN (pf_data f) < 2 ^ 32 ->
      fe_size e = lenN (pf_data f).
Proof.
  intros HL HB H4. pose proof (few_no_mistake md5 c files H4). now apply sure34_listing.
Qed.
Lemma few34_info c files arc pre post :
  built34_at L md5 c files arc pre post -> entry_count c files <= 4 ->
  no_collision (LISTFILE :: map pf_name files) ->
  hashes_apart ATTRIBUTES (LISTFILE :: map pf_name files) ->
  hashes_apart SIGNATURE (LISTFILE :: map pf_name files) ->
  exists a i, open_archive L (pre ++ arc ++ post) = Ok a /\ get_info L md5 sha1 rd a = Ok i /\
    i_version i = c_version c /\ i_sector_size i = (512 * 2 ^ c_block_size c) mod 2 ^ 64 /\
    i_file_count i = entry_count c files /\ i_max_count i = entry_count c files /\
    (i_encrypted i = true <-> exists f, In f files /\ pf_encrypt f = true) /\
    (i_has_listfile i = true <->
       c_listfile c <> LNone \/ exists f, In f files /\ name_equiv LISTFILE (pf_name f)) /\
    i_has_signature i = false /\ i_signature i = SigNone /\ i_has_attributes i = false /\
    i_md5 i = match c_version c with V4 => Some (mkMS true true true true true true) | _ => None end.
Proof.
  intros HB H4. pose proof (few_no_mistake md5 c files H4). now apply sure34_info.
Qed.
Lemma few34_verify c files arc pre post cc :
  lossless L -> built34_at L md5 c files arc pre post -> entry_count c files <= 4 -> c_listfile c = LGenerate ->
  no_collision (LISTFILE :: map pf_name files) ->
  hashes_apart ATTRIBUTES (LISTFILE :: map pf_name files) ->
  hashes_apart SIGNATURE (LISTFILE :: map pf_name files) ->
  (forall f, In f files -> is_text (pf_name f) /\ listable (pf_name f) /\ ~ name_equiv LISTFILE (pf_name f)) ->
  reads_back L c (c_default c) (listfile_content (map pf_name files)) ->
  (forall f, In f files -> reads_back L c (pf_comp f) (pf_data f)) ->
  verify L md5 sha1 rd (pre ++ arc ++ post) cc = Ok tt.
Proof.
  intros HL HB H4. pose proof (few_no_mistake md5 c files H4). now apply sure34_verify.
Qed.
Lemma few34_pack c walk arc pre post cwd dir dl :
  lossless L -> built34_at L md5 c (create_files c walk) arc pre post -> lenN walk <= 3 -> c_listfile c = LGenerate ->
  no_collision (LISTFILE :: map pf_name (create_files c walk)) ->
  hashes_apart ATTRIBUTES (LISTFILE :: map pf_name (create_files c walk)) ->
  (forall f, In f (create_files c walk) ->
     is_text (pf_name f) /\ listable (pf_name f) /\ ~ name_equiv LISTFILE (pf_name f)) ->
  reads_back L c (c_default c) (listfile_content (map pf_name (create_files c walk))) ->
  (forall f, In f walk -> f_parts f <> [] /\ Forall component (f_parts f) /\ reads_back L c (c_default c) (f_data f)) ->
  leads cwd dir dl ->
  exists acts ws p d, extract L (pre ++ arc ++ post) None (Some dir) true = (acts, Ok tt) /\
    writes_of acts = ws ++ [(p, d)] /\
    Forall2 (fun f w => leads cwd (fst w) (dl ++ f_parts f) /\ snd w = f_data f) walk ws /\
    leads cwd p (dl ++ [LISTFILE]).
Proof.
  intros HL HB H3 Hg. apply sure34_pack; auto. apply (few_no_mistake md5).
  unfold entry_count. rewrite Hg. unfold create_files. rewrite map_lenN. lia.
Qed.
End V.
