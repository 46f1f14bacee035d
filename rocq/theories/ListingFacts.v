(** * Listing an archive through its file list. *)
From Verif Require Import Bytes Crypto SpecNames NameFacts HashTable BlockTable Header SpecHeader
  Compress SpecTables SpecCompress Adler Listfile HetBet Builder BuilderFacts Attributes Archive ReadFacts
  OpenFacts SpecArchive ArchiveFacts SpecListfile ListfileFacts.
Open Scope N_scope.

(** What one name of the list contributes to the listing. *)
Definition row (a : archive) (n : bytes) (r : list fentry) : Prop :=
  (exists fi, find_file a n = Ok (Some fi) /\
     r = [mkFE n (fi_size fi) (fi_csize fi) (fi_flags fi) None]) \/
  (find_file a n = Ok None /\ r = []).
Lemma row_spec a n r : row a n r <->
  match find_file a n with
  | Ok (Some fi) => r = [mkFE n (fi_size fi) (fi_csize fi) (fi_flags fi) None]
  | Ok None => r = []
  | _ => False
  end.
Proof.
  unfold row. destruct (find_file a n) as [[fi|]| |]; split; try tauto; try discriminate.
  - intros [(x & E & ->)|[E _]]; [|discriminate]. apply Ok_inj in E. injection E as <-. reflexivity.
  - intros ->. left. eauto.
  - intros [(x & E & _)|[_ ->]]; [discriminate|reflexivity].
  - intros [(x & E & _)|[E _]]; discriminate.
  - intros [(x & E & _)|[E _]]; discriminate.
Qed.

Lemma list_named_rows a names : forall l,
  list_named a names = Ok l <-> exists rows, Forall2 (row a) names rows /\ l = concat rows.
Proof.
  induction names as [|n t IH]; intros l; cbn [list_named].
  - split.
    + intros H. apply Ok_inj in H. subst l. exists []. split; [constructor|reflexivity].
    + intros (rows & H & ->). inversion H. reflexivity.
  - destruct (find_file a n) as [r| |] eqn:E; cbn [bind].
    2,3: split; [discriminate|]; intros (rows & H & _); inversion H as [|? ? ? ? Hr]; subst;
         apply row_spec in Hr; rewrite E in Hr; contradiction.
    split.
    + destruct (list_named a t) as [rest| |]; cbn [bind]; try discriminate. intros H.
      destruct (proj1 (IH rest) eq_refl) as (rows & Hrows & ->).
      destruct r as [fi|]; apply Ok_inj in H; subst l.
      * exists ([mkFE n (fi_size fi) (fi_csize fi) (fi_flags fi) None] :: rows).
        split; [constructor; [apply row_spec; now rewrite E|exact Hrows]|reflexivity].
      * exists ([] :: rows). split; [constructor; [apply row_spec; now rewrite E|exact Hrows]|reflexivity].
    + intros (rows & H & ->). inversion H as [|? r0 ? rs Hr Hrs]; subst.
      rewrite (proj2 (IH (concat rs)) (ex_intro _ rs (conj Hrs eq_refl))). cbn [bind].
      apply row_spec in Hr; rewrite E in Hr. destruct r as [fi|]; subst r0; reflexivity.
Qed.

Section L.
Variable L : codecs.

Lemma list_files_rows a fi d :
  find_file a LISTFILE = Ok (Some fi) -> read_file L a LISTFILE = Ok d ->
  forall l, list_files L a = Ok l <->
    exists rows, Forall2 (row a) (parse_listfile d) rows /\ l = concat rows.
Proof.
  intros Hf Hr l. unfold list_files. rewrite Hf, Hr. cbn [bind]. apply list_named_rows.
Qed.

Variable md5 : bytes -> bytes.

Lemma reads_back_safe c ss f : lossless L -> sector_size (c_block_size c) = Ok ss ->
  (ss = 0 -> pf_data f = []) -> pf_comp f < 256 -> reads_back L c (pf_comp f) (pf_data f) ->
  file_safe L ss f.
Proof.
  intros HL Hss H0 Hc [(H1 & H2 & H3)|(H1 & H2 & H3 & H4 & H5)].
  - now apply (small_safe L c).
  - now apply (big_safe L md5 c).
Qed.

Lemma means_exists files n : In n (map pf_name files) -> exists f, means files n f.
Proof.
  induction files as [|g files IH]; [intros []|]. intros Hn.
  destruct (name_equiv_dec n (pf_name g)) as [E|E].
  - exists g, [], files. split; [reflexivity|]. split; [exact E|]. intros x [].
  - destruct Hn as [Hn|Hn]; [exfalso; apply E; rewrite Hn; apply name_equiv_refl|].
    destruct (IH Hn) as (f & l1 & l2 & -> & H1 & H2).
    exists f, (g :: l1), l2. split; [reflexivity|]. split; [exact H1|].
    intros x [<-|Hx]; auto.
Qed.

Lemma rows_names a names : (forall n, In n names -> exists fi, find_file a n = Ok (Some fi)) ->
  forall rows, Forall2 (row a) names rows -> map fe_name (concat rows) = names.
Proof.
  intros H rows. induction 1 as [|n r names rows Hr Hrs IH]; [reflexivity|].
  cbn [concat]. rewrite map_app, IH.
  - destruct (H n) as (fi & E); [left; reflexivity|]. apply row_spec in Hr; rewrite E in Hr. subst r. reflexivity.
  - intros x Hx. apply H. right. exact Hx.
Qed.
Lemma rows_exist a names : (forall n, In n names -> exists fi, find_file a n = Ok (Some fi)) ->
  exists rows, Forall2 (row a) names rows.
Proof.
  induction names as [|n t IH]; intros H; [exists []; constructor|].
  destruct IH as (rows & Hrows); [intros x Hx; apply H; right; exact Hx|].
  destruct (H n) as (fi & E); [left; reflexivity|].
  eexists (_ :: rows). constructor; [apply row_spec; rewrite E; reflexivity|exact Hrows].
Qed.
Lemma rows_entry a names rows e : Forall2 (row a) names rows -> In e (concat rows) ->
  exists fi, find_file a (fe_name e) = Ok (Some fi) /\
    e = mkFE (fe_name e) (fi_size fi) (fi_csize fi) (fi_flags fi) None.
Proof.
  induction 1 as [|n r names rows Hr Hrs IH]; [intros []|].
  cbn [concat]. intros H. apply in_app_iff in H as [H|H]; [|auto].
  apply row_spec in Hr. destruct (find_file a n) as [[fi|]| |] eqn:E; try contradiction; subst r; [|destruct H].
  destruct H as [<-|[]]. exists fi. auto.
Qed.

(** A built archive with a generated list lists what was added. *)
Lemma built_listing c files arc pre post :
  lossless L -> built_at L md5 c files arc pre post -> c_listfile c = LGenerate ->
  no_collision (LISTFILE :: map pf_name files) ->
  hashes_apart ATTRIBUTES (LISTFILE :: map pf_name files) ->
  (forall f, In f files -> is_text (pf_name f) /\ listable (pf_name f) /\ ~ name_equiv LISTFILE (pf_name f)) ->
  reads_back L c (c_default c) (listfile_content (map pf_name files)) ->
  exists a l, open_archive L (pre ++ arc ++ post) = Ok a /\ list_files L a = Ok l /\
    map fe_name l = map pf_name files ++ [LISTFILE] /\
    forall e f, In e l -> means files (fe_name e) f -> lenN (pf_data f) < 2 ^ 32 ->
      fe_size e = lenN (pf_data f).
Proof.
  intros HL Hb Hg Hcol Ha Hn Hrb.
  destruct (built_open L md5 c files arc pre post Hb Ha) as (a & ss & Ho & Hss & Hd & Hhet & Hf & Hoff & _).
  pose proof (no_collision_incl _ _ (prepare_names c files) Hcol) as Hcol'.
  set (lf := mkPF (listfile_content (map pf_name files)) LISTFILE (c_default c) false false 0).
  assert (Hp : prepare_listfile c files = files ++ [lf]) by (unfold prepare_listfile; now rewrite Hg).
  assert (Hmean : means (prepare_listfile c files) LISTFILE lf).
  { rewrite Hp. exists files, []. split; [reflexivity|]. split; [apply name_equiv_refl|].
    intros g Hg'. apply Hn. exact Hg'. }
  destruct (built_find L md5 a c ss _ LISTFILE lf Hd Hhet Hcol' Hmean)
    as (i & p & out & cs & fl & s & H1 & H2 & H3 & H4 & H5 & H6 & H7).
  assert (Hread : read_file L a LISTFILE = Ok (listfile_content (map pf_name files))).
  { change (listfile_content (map pf_name files)) with (pf_data lf).
    eapply read_file_ok; eauto. apply (reads_back_safe c); auto.
    - intros ->. unfold write_file in H3. destruct (N.leb_spec (lenN (pf_data lf)) 0) as [C|C].
      + apply lenN_0. lia.
      + unfold write_multi in H3. cbn in H3. discriminate.
    - destruct Hb as (_ & (_ & Hc & _) & _). exact Hc. }
  pose proof (list_files_rows a _ _ H7 Hread) as Hl.
  rewrite listfile_round_trip in Hl.
  2,3: apply Forall_forall; intros n Hin; apply in_map_iff in Hin as (f & <- & Hin); apply Hn; exact Hin.
  assert (Hall : forall n, In n (map pf_name files ++ [LISTFILE]) ->
            exists fi, find_file a n = Ok (Some fi)).
  { intros n Hin. destruct (means_exists (prepare_listfile c files) n) as (f & Hm).
    { rewrite Hp, map_app. exact Hin. }
    destruct (built_find L md5 a c ss _ n f Hd Hhet Hcol' Hm) as (i' & p' & out' & cs' & fl' & s' & G).
    destruct G as (_ & _ & _ & _ & _ & _ & G). eauto. }
  destruct (rows_exist a _ Hall) as (rows & Hrows).
  exists a, (concat rows). split; [exact Ho|]. split; [apply Hl; eauto|].
  split; [now apply (rows_names a)|].
  intros e f He Hm H32. destruct (rows_entry _ _ _ _ Hrows He) as (fi & E & Ee).
  destruct (built_find L md5 a c ss _ (fe_name e) f Hd Hhet Hcol' (means_prepare c _ _ _ Hm))
    as (i' & p' & out' & cs' & fl' & s' & _ & _ & _ & _ & _ & _ & G).
  rewrite G in E. apply Ok_inj in E. injection E as <-. rewrite Ee. cbn [fe_size fi_size].
  apply N.mod_small. exact H32.
Qed.
End L.
