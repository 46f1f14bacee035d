(** * When building an archive of version 3 or 4 panics. *)
From Verif Require Import Bytes Crypto SpecNames SpecTables HashTable HashTableFacts TableMap BlockTable Compress Header HetBet BitFacts HetBetFacts BuilderFacts Listfile Builder SpecArchive SpecArchive34 ArchiveFacts Large34Facts SpecBuilding BuildCalm BuildOk.
Open Scope N_scope.

Definition triple (e : bentry) : N * N * N := (be_pos e, be_size e, be_csize e).

Lemma held_width bt : held 63 (map triple bt) <-> width3 bt < 64.
Proof.
  split.
  - intros (p & s & z & Hp & Hs & Hz & Ht & H).
    assert (K : forall e, In e bt -> be_pos e < 2 ^ p /\ be_size e < 2 ^ s /\ be_csize e < 2 ^ z)
      by (intros e He; exact (H _ _ _ (in_map triple bt e He))).
    unfold width3. pose proof (width_le be_pos p bt Hp (fun e He => proj1 (K e He))).
    pose proof (width_le be_size s bt Hs (fun e He => proj1 (proj2 (K e He)))).
    pose proof (width_le be_csize z bt Hz (fun e He => proj2 (proj2 (K e He)))). lia.
  - intros H. unfold width3 in H.
    assert (P : forall g, 1 <= bits_needed (max_of g bt)).
    { intros g. unfold bits_needed. destruct (N.eqb_spec (max_of g bt) 0) as [|C]; [lia|].
      destruct (max_of g bt) as [|q]; [congruence|]. cbn [N.size]. lia. }
    exists (bits_needed (max_of be_pos bt)), (bits_needed (max_of be_size bt)), (bits_needed (max_of be_csize bt)).
    split; [apply P|]. split; [apply P|]. split; [apply P|]. split; [lia|].
    intros a b d Hin. apply in_map_iff in Hin as (e & E & He). unfold triple in E. injection E as <- <- <-.
    assert (Q : forall g, g e < 2 ^ bits_needed (max_of g bt)).
    { intros g. eapply N.le_lt_trans; [exact (max_of_le g bt e He)|]. apply bits_needed_spec. }
    split; [apply Q|split; apply Q].
Qed.

Lemma placed_written L c ss fs : ss = sector_bytes c -> forall p l,
  placed L c p fs l <-> exists body es, write_files L c ss fs p = Ok (body, es) /\ l = map triple (map snd es).
Proof.
  intros ->. induction fs as [|f fs IH]; intros p l; cbn [write_files]; split.
  - intros H. inversion H; subst. exists [], []. split; reflexivity.
  - intros (body & es & H & ->). apply Ok_inj in H. injection H as <- <-. constructor.
  - intros H. inversion H as [|? ? ? out z fl l' W R]; subst. rewrite W. cbn [bind].
    apply IH in R as (body & es & -> & ->). cbn [bind]. eexists _, _. split; [reflexivity|]. reflexivity.
  - intros (body & es & H & ->).
    destruct (write_file L c _ f p) as [[[out z] fl]| |] eqn:W; cbn [bind] in H; try discriminate.
    destruct (write_files L c _ fs _) as [[rest es']| |] eqn:R; cbn [bind] in H; try discriminate.
    apply Ok_inj in H. injection H as <- <-. cbn [map snd]. unfold triple at 1, block_entry. cbn [be_pos be_size be_csize].
    unfold pos_low, w32. apply placed_cons with (1 := W). apply IH. eauto.
Qed.

Lemma write_files_count L c ss fs : forall p body es, write_files L c ss fs p = Ok (body, es) -> length es = length fs.
Proof.
  induction fs as [|f fs IH]; intros p body es H; cbn [write_files] in H.
  - apply Ok_inj in H. injection H as <- <-. reflexivity.
  - destruct (write_file L c ss f p) as [[[out z] fl]| |]; cbn [bind] in H; try discriminate.
    destruct (write_files L c ss fs _) as [[rest es']| |] eqn:R; cbn [bind] in H; try discriminate.
    apply Ok_inj in H. injection H as <- <-. cbn [length]. f_equal. exact (IH _ _ _ R).
Qed.

Section Wide.
Variable L : codecs.
Hypothesis Hcalm : calm_encoders L.
Variable md5 : bytes -> bytes.

Lemma write_archive34_panics c fs : c_version c = V3 \/ c_version c = V4 ->
  c_block_size c < 55 -> lenN fs <= 2 ^ 17 -> Forall fits fs ->
  (c_ctables c = true -> forall x, fine (compress L x (c_tmethod c))) ->
  (write_archive34 L md5 c fs = Panic <->
   exists l, placed L c (header_room (c_version c)) fs l /\ ~ held 63 l).
Proof.
  intros Hv Hb Hn Hf Hm. unfold write_archive34.
  destruct (sector_size_small _ Hb) as (ss & E & Hz). rewrite E. cbn [bind]. cbv zeta.
  pose proof (sector_size_ok _ _ E Hz) as Ess.
  replace (header_room (c_version c)) with (header_size_of (c_version c)) by (destruct (c_version c); reflexivity).
  pose proof (write_files_calm L Hcalm c ss fs E Hz Hf (header_size_of (c_version c))) as Hw.
  pose proof (placed_written L c ss fs Ess (header_size_of (c_version c))) as P.
  destruct (write_files L c ss fs (header_size_of (c_version c))) as [[body es]|e|] eqn:W; [| |congruence]; cbn [bind].
  2:{ split; [discriminate|]. intros (l & Hl & _). apply P in Hl as (? & ? & X & _). discriminate. }
  assert (Hlen : length es = length fs) by exact (write_files_count L c ss fs _ _ _ W).
  assert (Hn17 : lenN (map pf_name fs) <= 2 ^ 17) by (unfold lenN in *; rewrite map_length; exact Hn).
  destruct (create_het_fine _ Hn17) as [het Eh]. rewrite Eh. cbn [bind].
  destruct (write_ext_fine L (c_ctables c) (c_tmethod c) het ht_key (create_het_length12 _ _ Eh) Hm) as [hetb ->].
  cbn [bind].
  assert (Q : (exists l, placed L c (header_size_of (c_version c)) fs l /\ ~ held 63 l) <->
              64 <= width3 (map snd es)).
  { split.
    - intros (l & Hl & Hh). apply P in Hl as (b' & es' & X & ->). apply Ok_inj in X. injection X as <- <-.
      rewrite held_width in Hh. lia.
    - intros Hw64. exists (map triple (map snd es)). split; [apply P; eauto|]. rewrite held_width. lia. }
  rewrite Q. clear P Q.
  destruct (N.lt_ge_cases (width3 (map snd es)) 64) as [C|C].
  - split; [|lia]. intros H. exfalso. revert H.
    assert (HB : create_bet_table (map pf_name fs) (map snd es) <> Panic).
    { apply create_bet_calm; [exact Hn17| |exact C]. unfold lenN in *. rewrite map_length, Hlen. exact Hn. }
    revert HB. generalize (create_bet_table (map pf_name fs) (map snd es)). intros rb HB.
    apply bind_calm; [exact HB|]. intros bet _. apply bind_calm; [now apply write_ext_calm|]. intros betb _.
    destruct (names_calm c fs) as (t0 & -> & Ha).
    { unfold table_count. change (2 ^ 17) with 131072 in Hn. change (2 ^ 30) with 1073741824. destruct (c_listfile c); lia. }
    cbn [bind]. apply bind_calm; [exact Ha|]. intros t _.
    apply bind_calm; [apply write_header_calm|]. intros; discriminate.
  - destruct es as [|e es]; cbn [map].
    + exfalso. now apply C.
    + rewrite create_bet_wide; [|discriminate|exact C]. cbn [bind]. split; [intros _; exact C|reflexivity].
Qed.

Lemma build_panics34 c files : c_version c = V3 \/ c_version c = V4 ->
  c_block_size c < 55 -> lenN files < 2 ^ 17 ->
  (forall f, In f files -> pf_encrypt f = true -> lenN (pf_data f) <= 4000000000) ->
  (c_ctables c = true -> forall d, exists r, compress L d (c_tmethod c) = Ok r) ->
  (build L md5 c files = Panic <->
   exists l, placed L c (header_room (c_version c)) (prepare_listfile c files) l /\ ~ held 63 l).
Proof.
  intros Hv Hb Hn Hf Hm. unfold build.
  replace (version_ge (c_version c) V3) with true by (destruct Hv as [-> | ->]; reflexivity).
  apply write_archive34_panics; [exact Hv|exact Hb| | |exact Hm].
  - change (2 ^ 17) with 131072 in *. unfold prepare_listfile.
    destruct (c_listfile c); rewrite ?lenN_app; rewrite ?lenN_cons; change (lenN (@nil pending)) with 0; lia.
  - apply fits_prepared. apply Forall_forall. exact Hf.
Qed.

Lemma write_archive34_iff c fs : c_version c = V3 \/ c_version c = V4 ->
  c_block_size c < 55 -> lenN fs <= 2 ^ 17 -> Forall fits fs -> no_collision (map pf_name fs) ->
  (c_ctables c = true -> forall x, fine (compress L x (c_tmethod c))) ->
  (fine (write_archive34 L md5 c fs) <->
   Forall (packable_file L c) fs /\ all_distinct (map file_key fs) /\
   forall l, placed L c (header_room (c_version c)) fs l -> held 63 l).
Proof.
  intros Hv Hb Hn Hf Hcol Hm.
  pose proof (write_archive34_panics c fs Hv Hb Hn Hf Hm) as P.
  assert (Hh : header_room (c_version c) = header_size_of (c_version c)) by (destruct (c_version c); reflexivity).
  assert (K : (forall l, placed L c (header_room (c_version c)) fs l -> held 63 l) ->
    (fine (write_archive34 L md5 c fs) <-> Forall (packable_file L c) fs /\ all_distinct (map file_key fs))).
  { intros H. apply write_archive34_fine_at; try assumption. intros ss body es E Hz W.
    split; [exact (write_files_count _ _ _ _ _ _ _ W)|]. apply held_width. apply H. rewrite Hh.
    apply (placed_written L c ss fs (sector_size_ok _ _ E Hz)). eauto. }
  split.
  - intros F.
    assert (H : forall l, placed L c (header_room (c_version c)) fs l -> held 63 l).
    { intros l Hl. destruct (sector_size_small _ Hb) as (ss & E & Hz). pose proof (sector_size_ok _ _ E Hz) as Ess.
      pose proof Hl as Hl'. apply (placed_written L c ss fs Ess) in Hl' as (body & es & W & ->).
      apply held_width. destruct (N.lt_ge_cases (width3 (map snd es)) 64) as [C|C]; [exact C|exfalso].
      assert (X : write_archive34 L md5 c fs = Panic).
      { apply P. eexists. split; [exact Hl|]. rewrite held_width. lia. }
      destruct F as [a F]. congruence. }
    apply K in F; [|exact H]. split; [exact (proj1 F)|]. split; [exact (proj2 F)|exact H].
  - intros (H1 & H2 & H3). apply K; [exact H3|]. split; assumption.
Qed.

Lemma build_iff34 c files : c_version c = V3 \/ c_version c = V4 ->
  c_block_size c < 55 -> lenN files < 2 ^ 17 ->
  (forall f, In f files -> pf_encrypt f = true -> lenN (pf_data f) <= 4000000000) ->
  (c_ctables c = true -> forall d, exists r, compress L d (c_tmethod c) = Ok r) ->
  no_collision (lit "(listfile)" :: map pf_name files) ->
  ((exists arc, build L md5 c files = Ok arc) <->
   Forall (packable L c) (all_stored c files) /\ all_distinct (all_names c files) /\
   forall l, placed L c (header_room (c_version c)) (prepare_listfile c files) l -> held 63 l).
Proof.
  intros Hv Hb Hn Hf Hm Hcol. unfold build.
  replace (version_ge (c_version c) V3) with true by (destruct Hv as [-> | ->]; reflexivity).
  rewrite <- prepared_stored, <- prepared_keys. apply write_archive34_iff; [exact Hv|exact Hb| | | |exact Hm].
  - change (2 ^ 17) with 131072 in *. unfold prepare_listfile.
    destruct (c_listfile c); rewrite ?lenN_app; rewrite ?lenN_cons; change (lenN (@nil pending)) with 0; lia.
  - apply fits_prepared. apply Forall_forall. exact Hf.
  - eapply no_collision_incl; [apply prepare_names|exact Hcol].
Qed.
End Wide.

(** Many contents of one size. *)
Lemma total_room_repeat d n : total_room (repeat d n) = N.of_nat n * room d.
Proof.
  induction n as [|n IH]; [reflexivity|]. cbn [repeat total_room fold_right].
  change (fold_right _ _ _) with (total_room (repeat d n)). rewrite IH. lia.
Qed.
