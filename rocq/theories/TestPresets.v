(** * The thirteen test archives that are created at once *)
From Coq Require Import Lia ZifyBool ZifyNat ZifyN.
From Verif Require Import Bytes Crypto SpecNames NameFacts HashTable Header Compress SpecTables SpecCompress ToyCodec Listfile Builder BuilderFacts
  OpenFacts Attributes SpecAttributes Archive SpecArchive SpecArchive34 SpecNameTable SpecBuilding BuildCalm BuildOk BuildWide ArchiveFacts Archive34Facts
  EndToEnd ListingFacts NameArchiveFacts DemoArchive DemoNames34 BuiltAttributes TestArchives SpecTest TestFacts.
Open Scope N_scope.

Lemma len_compressible n : lenN (generate_compressible_data n) = n.
Proof. apply compressible_ok. Qed.
Lemma len_binary n : lenN (generate_binary_pattern n) = n.
Proof. apply binary_ok. Qed.
Lemma len_start n k : k <= n -> lenN (firstn (N.to_nat k) (generate_compressible_data n)) = k.
Proof. intros H. pose proof (len_compressible n) as E. unfold lenN in *. rewrite firstn_length_le by lia. lia. Qed.

Lemma full_names_compressed kind : full_names (compressed kind) = [lit "compressed.dat"; lit "uncompressed.dat"; LISTFILE].
Proof. reflexivity. Qed.
Lemma full_sizes_compressed kind : full_sizes (compressed kind) =
  [51200; 1024; lenN (listfile_content [lit "compressed.dat"; lit "uncompressed.dat"])].
Proof.
  change (full_sizes (compressed kind)) with
    [lenN (generate_compressible_data 51200); lenN (firstn (N.to_nat 1024) (generate_compressible_data 51200));
     lenN (listfile_content [lit "compressed.dat"; lit "uncompressed.dat"])].
  now rewrite len_compressible, len_start.
Qed.
Lemma suits_compressed kind : suits (compressed kind).
Proof.
  split; [rewrite full_names_compressed; vm_compute; reflexivity|]. split; [rewrite full_sizes_compressed; vm_compute; discriminate|].
  split; [reflexivity|]. split; [reflexivity|]. intros f m [<-|[<-|[]]] H; [|discriminate H].
  cbn [tf_comp] in H. unfold open_methods.
  repeat match type of H with (if ?b then _ else _) = _ => destruct b; [injection H as <-; cbn [In]; tauto|] end. discriminate H.
Qed.

Lemma suits_minimal v : suits (minimal v).
Proof.
  destruct v; (split; [vm_compute; reflexivity|]; split; [vm_compute; discriminate|]; split; [reflexivity|]; split; [reflexivity|];
    intros f m [<-|[]] H; discriminate H).
Qed.
Lemma suits_encrypted : suits encrypted.
Proof.
  split; [vm_compute; reflexivity|]; split; [vm_compute; discriminate|]; split; [reflexivity|]; split; [reflexivity|].
  intros f m [<-|[<-|[]]] H; [|discriminate H]. injection H as <-. right. left. reflexivity.
Qed.
Lemma suits_with_crc : suits with_crc.
Proof.
  split; [vm_compute; reflexivity|]; split; [vm_compute; discriminate|]; split; [reflexivity|]; split; [reflexivity|].
  intros f m [<-|[]] H. injection H as <-. right. left. reflexivity.
Qed.
Definition edge_names : list bytes :=
  [lit "empty.txt"; lit "single_byte.dat"; lit "file with spaces.txt"; lit "folder/subfolder/nested.dat"; lit "random.bin"].
Lemma suits_edge random : (forall n, lenN (random n) = n) -> suits (edge_cases random).
Proof.
  intros Hr. split; [change (full_names (edge_cases random)) with (edge_names ++ [LISTFILE]); vm_compute; reflexivity|]. split.
  { change (full_sizes (edge_cases random)) with [0; 1; 19; 11; lenN (random 102400); lenN (join_lines edge_names)].
    rewrite Hr. vm_compute. discriminate. }
  split; [reflexivity|]. split; [reflexivity|].
  intros f m [<-|[<-|[<-|[<-|[<-|[]]]]]] H; try discriminate H; injection H as <-; right; left; reflexivity.
Qed.
Definition big_names (v : version) : list bytes :=
  [lit "readme.txt"; lit "data/config.ini"; lit "data/binary.dat"; lit "secure/encrypted.bin"] ++
  (if version_ge v V2 then [lit "large/bigfile.dat"] else []).
Lemma names_comprehensive v : map tf_name (tc_files (comprehensive v)) = big_names v.
Proof. destruct v; reflexivity. Qed.
Lemma full_names_comprehensive v :
  full_names (comprehensive v) = big_names v ++ [LISTFILE] ++ (if version_ge v V2 then [ATTRIBUTES] else []).
Proof. destruct v; reflexivity. Qed.
Lemma full_sizes_comprehensive v : version_ge v V2 = true ->
  full_sizes (comprehensive v) = [65; 32; 10240; 11; 1048576; lenN (join_lines (big_names v)); 48].
Proof.
  intros H. assert (E : full_sizes (comprehensive v) =
    [65; 32; lenN (generate_binary_pattern 10240); 11; lenN (generate_compressible_data 1048576); lenN (join_lines (big_names v)); 48]).
  { destruct v; try discriminate H; reflexivity. }
  rewrite E, len_compressible, len_binary. reflexivity.
Qed.
Lemma suits_comprehensive v : version_ge v V2 = true -> suits (comprehensive v).
Proof.
  intros H. split; [rewrite full_names_comprehensive; destruct v; vm_compute; reflexivity|]. split.
  { rewrite full_sizes_comprehensive by exact H. destruct v; vm_compute; discriminate. }
  split; [destruct v; reflexivity|]. split; [reflexivity|]. intros f m Hf E.
  destruct v; try discriminate H; destruct Hf as [<-|[<-|[<-|[<-|[<-|[]]]]]]; try discriminate E; injection E as <-; cbn; tauto.
Qed.

Lemma suits_all random t : (forall n, lenN (random n) = n) -> In t (all_configs random) -> suits t.
Proof.
  intros Hr H. unfold all_configs in H. rewrite !in_app_iff in H. destruct H as [H|[H|H]].
  - apply in_map_iff in H as (v & <- & _). apply suits_minimal.
  - apply in_map_iff in H as (k & <- & _). apply suits_compressed.
  - destruct H as [<-|[<-|[<-|[<-|[<-|[]]]]]];
      [apply suits_encrypted|now apply suits_edge|now apply suits_comprehensive|now apply suits_comprehensive|apply suits_with_crc].
Qed.

Lemma all_created L md5 random t : calm_encoders L -> willing_encoders L -> (forall x, lenN (md5 x) = 16) ->
  (forall n, lenN (random n) = n) -> In t (all_configs random) ->
  exists arc, build L md5 (test_config t) (test_files t) = Ok arc.
Proof.
  intros HC HW H16 Hr H. pose proof (suits_all random t Hr H) as HS. destruct (tc_version t) eqn:Ev.
  - destruct (suits_built12 L md5 t HC HW HS) as (arc & E & _); eauto.
  - destruct (suits_built12 L md5 t HC HW HS) as (arc & E & _); eauto.
  - destruct (suits_built34 L md5 t HC HW H16 HS) as (arc & E & _); eauto.
  - destruct (suits_built34 L md5 t HC HW H16 HS) as (arc & E & _); eauto.
Qed.

(** ** Those with attributes *)
Lemma four_sure : ~ mistaken (test_config (comprehensive V4)) (test_files (comprehensive V4)) ATTRIBUTES.
Proof.
  set (c := mkCfg V4 7 LNone 2 false false 2). set (fs := map (fun n => mkPF [] n 2 false false 0) (full_names (comprehensive V4))).
  assert (E : entry_names (test_config (comprehensive V4)) (test_files (comprehensive V4)) = entry_names c fs) by reflexivity.
  intros H. assert (H' : mistaken c fs ATTRIBUTES) by (unfold mistaken in *; now rewrite <- E). clear H. subst fs.
  rewrite full_names_comprehensive in H'.
  match type of H' with mistaken _ ?l _ =>
    assert (G : mistakenb 4 5 3 c l ATTRIBUTES = Some false) by (vm_compute; reflexivity) end.
  apply (mistakenb_iff _ _ _ _ _ _ _ G) in H'. discriminate H'.
Qed.

Lemma comprehensive_not_attributes v f : In f (tc_files (comprehensive v)) -> ~ name_equiv ATTRIBUTES (tf_name f).
Proof.
  intros Hf E. apply name_equivb_complete in E. apply (in_map tf_name) in Hf. rewrite names_comprehensive in Hf.
  assert (G : forallb (fun n => negb (name_equivb ATTRIBUTES n)) (big_names v) = true) by (destruct v; vm_compute; reflexivity).
  rewrite forallb_forall in G. specialize (G _ Hf). rewrite E in G. discriminate.
Qed.

Lemma comprehensive_refused L md5 v : lossless L -> calm_encoders L -> willing_encoders L -> (forall x, lenN (md5 x) = 16) ->
  v = V2 \/ v = V4 ->
  exists arc, build L md5 (test_config (comprehensive v)) (test_files (comprehensive v)) = Ok arc /\
    open_archive L arc = Err EInvalidFormat.
Proof.
  intros HL HC HW H16 Hv.
  assert (Hs : 8 + 8 * lenN (tc_files (comprehensive v)) <= sector_bytes (test_config (comprehensive v)))
    by (change (sector_bytes (test_config (comprehensive v))) with 65536; destruct Hv as [-> | ->];
        [change (lenN (tc_files (comprehensive V2))) with 5|change (lenN (tc_files (comprehensive V4))) with 5]; lia).
  assert (Hn : lenN (tc_files (comprehensive v)) < 2 ^ 20) by (destruct Hv as [-> | ->]; reflexivity).
  assert (HS : suits (comprehensive v)) by (apply suits_comprehensive; destruct Hv as [-> | ->]; reflexivity).
  destruct (suits_names _ HS) as [_ Hcol]. destruct Hv as [-> | ->].
  - destruct (suits_built12 L md5 _ HC HW HS (or_intror eq_refl)) as (arc & E & B). exists arc. split; [exact E|].
    rewrite <- (app_nil_r arc). exact (test_refused12 L md5 _ arc [] [] HL B Hcol eq_refl (comprehensive_not_attributes V2) Hs Hn).
  - destruct (suits_built34 L md5 _ HC HW H16 HS (or_intror eq_refl)) as (arc & E & B). exists arc. split; [exact E|].
    rewrite <- (app_nil_r arc). exact (test_refused34 L md5 _ arc [] [] HL B Hcol eq_refl four_sure (comprehensive_not_attributes V4) Hs Hn).
Qed.
Lemma some_refused L md5 random t : lossless L -> calm_encoders L -> willing_encoders L -> (forall x, lenN (md5 x) = 16) ->
  In t (all_configs random) -> tc_attributes t = true ->
  exists arc, build L md5 (test_config t) (test_files t) = Ok arc /\ open_archive L arc = Err EInvalidFormat.
Proof.
  intros HL HC HW H16 H Ha. unfold all_configs in H. rewrite !in_app_iff in H. destruct H as [H|[H|H]].
  - apply in_map_iff in H as (v & <- & _). discriminate Ha.
  - apply in_map_iff in H as (k & <- & _). discriminate Ha.
  - destruct H as [<-|[<-|[<-|[<-|[<-|[]]]]]]; try discriminate Ha; apply comprehensive_refused; auto.
Qed.

(** ** The others *)
Lemma distinct_before x y k1 k2 r : all_distinct (map (fun n => (n, 0)) ((k1 ++ x :: k2) ++ y :: r)) -> ~ name_equiv x y.
Proof.
  intros H E. rewrite <- app_assoc in H. cbn [app] in H. rewrite map_app in H. cbn [map] in H. rewrite map_app in H. cbn [map] in H.
  apply (H _ _ _ _ _ eq_refl). split; [exact E|reflexivity].
Qed.
Lemma distinct_means t f : suits t -> In f (tc_files t) -> means (test_files t) (tf_name f) (test_file f).
Proof.
  intros HS Hf. destruct (suits_names t HS) as [Hd _]. rewrite names_full in Hd. unfold full_names in Hd.
  apply in_split in Hf as (l1 & l2 & E).
  unfold test_files. rewrite E, map_app. cbn [map]. rewrite <- app_assoc. cbn [app]. eexists. eexists. split; [reflexivity|].
  split; [apply name_equiv_refl|]. intros g Hg Heq. apply in_map_iff in Hg as (h & <- & Hh). apply in_split in Hh as (k1 & k2 & ->).
  assert (En : map tf_name ((k1 ++ h :: k2) ++ f :: l2) = (map tf_name k1 ++ tf_name h :: map tf_name k2) ++ tf_name f :: map tf_name l2)
    by now rewrite !map_app.
  rewrite E, En, <- (app_assoc (_ ++ _ :: _)) in Hd. rewrite <- app_comm_cons in Hd.
  apply distinct_before in Hd. apply Hd. now apply name_equiv_sym.
Qed.

Lemma others_read L md5 random t : lossless L -> calm_encoders L -> willing_encoders L -> (forall x, lenN (md5 x) = 16) ->
  (forall n, lenN (random n) = n) -> In t (all_configs random) -> tc_attributes t = false ->
  exists arc a, build L md5 (test_config t) (test_files t) = Ok arc /\ open_archive L arc = Ok a /\
    forall f, In f (tc_files t) -> reads_back L (test_config t) (test_method f) (tf_data f) -> read_file L a (tf_name f) = Ok (tf_data f).
Proof.
  intros HL HC HW H16 Hr H Ha. pose proof (suits_all random t Hr H) as HS. destruct (suits_names t HS) as [Hd Hcol].
  assert (Hap : hashes_apart ATTRIBUTES (LISTFILE :: map pf_name (test_files t))).
  { intros x Hx. apply names_in in Hx. revert x Hx. apply hashes_apartb_sound.
    unfold all_configs in H. rewrite !in_app_iff in H. destruct H as [H|[H|H]].
    - apply in_map_iff in H as (v & <- & _). destruct v; vm_compute; reflexivity.
    - apply in_map_iff in H as (k & <- & _). rewrite full_names_compressed. vm_compute. reflexivity.
    - destruct H as [<-|[<-|[<-|[<-|[<-|[]]]]]]; try discriminate Ha; [vm_compute; reflexivity| |vm_compute; reflexivity].
      change (full_names (edge_cases random)) with (edge_names ++ [LISTFILE]). vm_compute. reflexivity. }
  assert (Hp : Forall (packable L (test_config t)) (all_stored (test_config t) (test_files t))) by (apply test_packable; [exact HW|apply HS]).
  assert (Ht : well_typed (test_config t) (test_files t)) by (apply test_well_typed; apply HS).
  destruct (tc_version t) eqn:Ev.
  1, 2: destruct (suits_built12 L md5 t HC HW HS) as (arc & E & B); [tauto|]; exists arc;
    destruct (built_read L md5 _ _ arc [] [] B Hcol Hap) as (a & ss & Ho & Hss & Hread); exists a;
    (split; [exact E|]); rewrite app_nil_r in Ho; (split; [exact Ho|]); intros f Hf Hb;
    apply (Hread (tf_name f) (test_file f)); [apply means_prepare; now apply distinct_means|];
    intros H0; apply (reads_back_safe L md5 (test_config t)); auto;
    apply Ht; eapply means_in; now apply distinct_means.
  all: assert (H4 : entry_count (test_config t) (test_files t) <= 4);
    [unfold all_configs in H; rewrite !in_app_iff in H; destruct H as [H|[H|H]];
      [apply in_map_iff in H as (v & <- & _); destruct v; vm_compute; discriminate
      |apply in_map_iff in H as (k & <- & _); discriminate Ev
      |destruct H as [<-|[<-|[<-|[<-|[<-|[]]]]]]; try discriminate Ev; discriminate Ha]|];
    destruct (suits_built34 L md5 t HC HW H16 HS) as (arc & E & B); [tauto|]; exists arc;
    destruct (few_entries L md5 _ _ arc [] [] HL B H4 Hcol Hap) as (a & Ho & Hread & _); exists a;
    (split; [exact E|]); rewrite app_nil_r in Ho; (split; [exact Ho|]); intros f Hf Hb;
    apply (Hread (tf_name f) (test_file f)); [now apply distinct_means|exact Hb].
Qed.

(** ** What the thirteen are *)
Lemma outline_compressed kind m : tc_files (compressed kind) =
    [mkTF (lit "compressed.dat") (generate_compressible_data 51200) (Some m) false false;
     mkTF (lit "uncompressed.dat") (firstn (N.to_nat 1024) (generate_compressible_data 51200)) None false false] ->
  outline (compressed kind) =
  (V2, Some 4, Some 32, false, false, [(51200, Some m, false, false); (1024, None, false, false)]).
Proof.
  intros E. unfold outline. rewrite E. cbn [map tf_data tf_comp tf_encrypted tf_fix].
  rewrite len_compressible, len_start by (vm_compute; discriminate). reflexivity.
Qed.
Lemma outline_comprehensive v : version_ge v V2 = true -> outline (comprehensive v) =
  (v, Some 7, Some 128, true, true,
    [(65, None, false, false); (32, Some 0x02, false, false); (10240, Some 0x10, false, false); (11, None, true, false);
     (1048576, Some 0x12, false, false)]).
Proof.
  intros H. assert (E : outline (comprehensive v) = (v, Some 7, Some 128, true, true,
    [(65, None, false, false); (32, Some 0x02, false, false); (lenN (generate_binary_pattern 10240), Some 0x10, false, false);
     (11, None, true, false); (lenN (generate_compressible_data 1048576), Some 0x12, false, false)])).
  { destruct v; try discriminate H; reflexivity. }
  rewrite E, len_compressible, len_binary. reflexivity.
Qed.
Lemma outline_edge random : (forall n, lenN (random n) = n) -> outline (edge_cases random) =
  (V2, Some 5, Some 64, true, false,
     [(0, None, false, false); (1, Some 0x02, false, false); (19, None, false, false); (11, None, false, false);
      (102400, Some 0x02, false, false)]).
Proof.
  intros Hr. change (outline (edge_cases random)) with
    (V2, Some 5, Some 64, true, false,
     [(0, None, false, false); (1, Some 0x02, false, false); (19, None, false, false); (11, None, false, false);
      (lenN (random 102400), Some 0x02, false, false)]).
  now rewrite Hr.
Qed.
Lemma preset_outlines random : (forall n, lenN (random n) = n) -> map outline (all_configs random) = outlines.
Proof.
  intros Hr. unfold all_configs, outlines. rewrite !map_app, !map_map.
  assert (Hc : map (fun x => outline (compressed x)) [lit "zlib"; lit "bzip2"; lit "lzma"; lit "sparse"] =
    map (fun m => (V2, Some 4, Some 32, false, false, [(51200, Some m, false, false); (1024, None, false, false)]))
      [0x02; 0x10; 0x12; 0x20]).
  { cbn [map]. rewrite (outline_compressed (lit "zlib") 0x02 eq_refl), (outline_compressed (lit "bzip2") 0x10 eq_refl),
      (outline_compressed (lit "lzma") 0x12 eq_refl), (outline_compressed (lit "sparse") 0x20 eq_refl). reflexivity. }
  rewrite Hc. cbn [map]. rewrite (outline_edge random Hr), (outline_comprehensive V2 eq_refl), (outline_comprehensive V4 eq_refl).
  reflexivity.
Qed.
