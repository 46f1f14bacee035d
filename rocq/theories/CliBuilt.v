(** * Proofs about the command line tool: verifying, and packing and unpacking. *)
From Verif Require Import Bytes Crypto SpecNames NameFacts HashTable TableMap BlockTable Header SpecHeader Compress
  SpecCompress SpecTables Listfile SpecListfile ListfileFacts Builder BuilderFacts Attributes Archive OpenFacts
  SpecArchive ArchiveFacts ListingFacts Signature Info InfoFacts Cli SpecCli CliFacts.
Open Scope N_scope.

Lemma Forall2_in_l {A B} (P : A -> B -> Prop) x y : Forall2 P x y -> forall a, In a x -> exists b, In b y /\ P a b.
Proof.
  induction 1 as [|a b x y H _ IH]; intros c; [intros []|]. intros [<-|K]; [exists b; split; [left; reflexivity|exact H]|].
  destruct (IH c K) as (d & D1 & D2). exists d. split; [right; exact D1|exact D2].
Qed.

(** ** Verification in general *)
Section V.
Variable L : codecs.
Variable md5 sha1 : bytes -> bytes.
Variable rd : N -> N -> N.

Lemma verify_names_ok a cc names : verify_names L a cc names = Ok [] <->
  Forall (fun n => (exists fi, find_file a n = Ok (Some fi)) /\
                   (cc = true -> exists d, read_file L a n = Ok d)) names.
Proof.
  induction names as [|n r IH]; cbn [verify_names].
  - split; auto.
  - split.
    + destruct (find_file a n) as [[fi|]|e|] eqn:F; cbn [bind]; try discriminate.
      * destruct cc.
        -- destruct (read_file L a n) as [d|e|] eqn:R; cbn [bind]; try discriminate;
             destruct (verify_names L a true r) as [x|e'|]; cbn [bind app]; intros H; try discriminate.
           constructor; [split; [eauto|intros _; eauto]|apply IH; exact H].
        -- cbn [bind]. destruct (verify_names L a false r) as [x|e'|]; cbn [bind app]; intros H; try discriminate.
           constructor; [split; [eauto|discriminate]|apply IH; exact H].
      * destruct (verify_names L a cc r) as [x|e'|]; cbn [bind app]; intros H; discriminate.
    + intros H. inversion H as [|? ? [(fi & F) R] H']; subst. rewrite F. cbn [bind].
      apply IH in H'. rewrite H'. destruct cc; [|reflexivity].
      destruct (R eq_refl) as (d & E). rewrite E. reflexivity.
Qed.

Lemma verify_ok file cc : verify L md5 sha1 rd file cc = Ok tt <->
  exists a i l, open_archive L file = Ok a /\ get_info L md5 sha1 rd a = Ok i /\ list_files L a = Ok l /\
    forall e, In e l -> (exists fi, find_file a (fe_name e) = Ok (Some fi)) /\
                        (cc = true -> exists d, read_file L a (fe_name e) = Ok d).
Proof.
  unfold verify. split.
  - destruct (open_archive L file) as [a|e|]; cbn [bind]; try discriminate.
    destruct (get_info L md5 sha1 rd a) as [i|e|] eqn:Ei; cbn [bind]; try discriminate.
    destruct (list_files L a) as [l|e|] eqn:El; cbn [bind]; try discriminate.
    destruct (verify_names L a cc (map fe_name l)) as [bad|e|] eqn:Ev; cbn [bind]; try discriminate.
    destruct bad; [|discriminate]. intros _. exists a, i, l. repeat (split; [auto; fail|]).
    apply verify_names_ok in Ev. rewrite Forall_map, Forall_forall in Ev. exact Ev.
  - intros (a & i & l & Ho & Hi & Hl & H). rewrite Ho. cbn [bind]. rewrite Hi. cbn [bind]. rewrite Hl. cbn [bind].
    rewrite (proj2 (verify_names_ok a cc (map fe_name l))); [reflexivity|].
    rewrite Forall_map, Forall_forall. exact H.
Qed.

Lemma verify_listed file : verify L md5 sha1 rd file true = Ok tt ->
  forall a fi d, open_archive L file = Ok a -> find_file a LISTFILE = Ok (Some fi) -> read_file L a LISTFILE = Ok d ->
  forall n, In n (parse_listfile d) -> find_file a n = Ok None \/ exists x, read_file L a n = Ok x.
Proof.
  intros H a fi d Ho Hf Hr n Hn. apply verify_ok in H as (a' & i & l & Ho' & _ & Hl & H).
  rewrite Ho in Ho'. apply Ok_inj in Ho'. subst a'.
  apply (list_files_rows L a fi d Hf Hr) in Hl as (rows & Hrows & ->).
  destruct (Forall2_in_l _ _ _ Hrows n Hn) as (r & Hin & Hrow).
  destruct Hrow as [(x & E & ->)|[E _]]; [right|left; exact E].
  specialize (H (mkFE n (fi_size x) (fi_csize x) (fi_flags x) None)). cbn [fe_name] in H.
  apply H; [|reflexivity]. apply in_concat. eexists. split; [exact Hin|left; reflexivity].
Qed.

(** ** A freshly built archive *)
Lemma short_header_plain d h : header_read d = Ok h -> h_size h < 208 -> h_v4 h = None.
Proof.
  intros H Hs. destruct (h_v4 h) as [v|] eqn:Ev; [|reflexivity]. exfalso.
  unfold header_read in H. step H. destruct (negb _) in H; [discriminate|].
  do 8 step H.
  destruct (version_of_raw _) as [ver|]; [|discriminate].
  destruct (_ <? _) eqn:C in H; [discriminate|]. apply N.ltb_ge in C.
  destruct (version_ge ver V2) eqn:E2; cbn [negb] in H.
  2:{ apply Ok_inj in H. subst h. discriminate. }
  do 3 step H. destruct (version_ge ver V3) eqn:E3; cbn [negb] in H.
  2:{ apply Ok_inj in H. subst h. discriminate. }
  do 3 step H. destruct (version_ge ver V4) eqn:E4; cbn [negb] in H.
  2:{ apply Ok_inj in H. subst h. discriminate. }
  destruct (v4_read _) as [v'| |] in H; cbn [bind] in H; try discriminate.
  apply Ok_inj in H. subst h. cbn [h_size] in Hs.
  destruct ver; try discriminate E4. change (header_size_of V4) with 208 in C. lia.
Qed.

(** The names of the files of a built archive are different. *)
Lemma built_distinct c files arc pre post :
  built_at L md5 c files arc pre post -> no_collision (LISTFILE :: map pf_name files) ->
  distinct_files (map file_key (prepare_listfile c files)).
Proof.
  intros (Hv & Ht & Hn & Hb & _) Hcol.
  assert (Hv3 : version_ge (c_version c) V3 = false) by (destruct Hv as [-> | ->]; reflexivity).
  unfold build in Hb. rewrite Hv3 in Hb. set (fs := prepare_listfile c files) in *.
  unfold write_archive12 in Hb.
  destruct (sector_size (c_block_size c)) as [ss| |]; cbn [bind] in Hb; try discriminate.
  pose proof (prepare_count md5 c files Hn) as Hcnt. fold fs in Hcnt.
  assert (Hle : lenN fs <= table_count c fs) by (unfold table_count; lia).
  destruct (builder_table (table_count c fs) (map file_key fs)) as (t0 & E0 & Hcase);
    [rewrite map_lenN; exact Hle|exact Hcnt| |].
  { rewrite map_map. cbn [file_key fst].
    eapply no_collision_incl; [apply (prepare_names c files)|exact Hcol]. }
  rewrite E0 in Hb. cbn [bind] in Hb.
  destruct (write_files _ _ _ _ _) as [[body es]| |] in Hb; cbn [bind] in Hb; try discriminate.
  assert (H32 : 0 + lenN fs <= M32).
  { change (2 ^ 30) with 1073741824 in Hcnt. unfold M32. change (2 ^ 32) with 4294967296. lia. }
  rewrite add_files_all in Hb by exact H32.
  destruct Hcase as [(t & k & _ & _ & _ & _ & _ & D)|[E _]]; [exact D|].
  rewrite E in Hb. discriminate.
Qed.

Lemma built_all c files arc pre post :
  lossless L -> built_at L md5 c files arc pre post -> c_listfile c = LGenerate ->
  no_collision (LISTFILE :: map pf_name files) ->
  hashes_apart ATTRIBUTES (LISTFILE :: map pf_name files) ->
  (forall f, In f files -> is_text (pf_name f) /\ listable (pf_name f) /\ ~ name_equiv LISTFILE (pf_name f)) ->
  reads_back L c (c_default c) (listfile_content (map pf_name files)) ->
  (forall f, In f files -> reads_back L c (pf_comp f) (pf_data f)) ->
  exists a l, open_archive L (pre ++ arc ++ post) = Ok a /\ list_files L a = Ok l /\
    map fe_name l = map pf_name files ++ [LISTFILE] /\
    (forall n f, means files n f -> read_file L a n = Ok (pf_data f)) /\
    read_file L a LISTFILE = Ok (listfile_content (map pf_name files)) /\
    (forall n, In n (map pf_name files ++ [LISTFILE]) -> exists fi, find_file a n = Ok (Some fi)) /\
    (hashes_apart SIGNATURE (LISTFILE :: map pf_name files) ->
     exists i, get_info L md5 sha1 rd a = Ok i).
Proof.
  intros HL Hb Hg Hcol Ha Hn Hrb Hall.
  destruct (built_listing L md5 c files arc pre post HL Hb Hg Hcol Ha Hn Hrb) as (a & l & Ho & Hl & Hnames & _).
  destruct (built_open L md5 c files arc pre post Hb Ha) as (a' & ss & Ho' & Hss & Hd & Hhet & Hf & Hoff & bt & Hbt & Hlay).
  rewrite Ho in Ho'. apply Ok_inj in Ho'. subst a'.
  destruct (built_read L md5 c files arc pre post Hb Hcol Ha) as (a' & ss' & Ho' & Hss' & Hr).
  rewrite Ho in Ho'. apply Ok_inj in Ho'. subst a'. rewrite Hss in Hss'. apply Ok_inj in Hss'. subst ss'.
  pose proof (no_collision_incl _ _ (prepare_names c files) Hcol) as Hcol'.
  set (lf := mkPF (listfile_content (map pf_name files)) LISTFILE (c_default c) false false 0).
  assert (Hp : prepare_listfile c files = files ++ [lf]) by (unfold prepare_listfile; now rewrite Hg).
  assert (Hmean : means (prepare_listfile c files) LISTFILE lf).
  { rewrite Hp. exists files, []. split; [reflexivity|]. split; [apply name_equiv_refl|].
    intros g Hg'. apply Hn. exact Hg'. }
  pose proof Hb as (Hv & (_ & Hc & Ht) & _).
  assert (Hfind : forall n, In n (map pf_name files ++ [LISTFILE]) -> exists fi, find_file a n = Ok (Some fi)).
  { intros n Hin. destruct (means_exists (prepare_listfile c files) n) as (f & Hm).
    { rewrite Hp, map_app. exact Hin. }
    destruct (built_find L md5 a c ss _ n f Hd Hhet Hcol' Hm) as (i' & p' & out' & cs' & fl' & s' & G).
    destruct G as (_ & _ & _ & _ & _ & _ & G). eauto. }
  exists a, l. split; [exact Ho|]. split; [exact Hl|]. split; [exact Hnames|]. split; [|split; [|split]].
  - intros n f Hm. apply Hr; [now apply means_prepare|]. intros H0.
    destruct Hm as (l1 & l2 & -> & _). assert (Hin : In f (l1 ++ f :: l2)) by (apply in_elt).
    apply (reads_back_safe L md5 c); auto. apply Ht, Hin.
  - change (listfile_content (map pf_name files)) with (pf_data lf). apply Hr; [exact Hmean|]. intros H0.
    apply (reads_back_safe L md5 c); auto.
  - exact Hfind.
  - intros Hs. unfold get_info. destruct Hd as (t & k & bt' & Ht1 & Hb1 & _ & _ & _ & _ & Hsec & _).
    rewrite Ht1. cbn [bind].
    destruct (Hfind LISTFILE) as (fi & E); [apply in_or_app; right; left; reflexivity|]. rewrite E. cbn [bind].
    destruct (built_absent L md5 c files arc pre post Hb Ha) as (a' & Ho' & Habs).
    rewrite Ho in Ho'. apply Ok_inj in Ho'. subst a'.
    rewrite (proj1 (Habs SIGNATURE Hs)). cbn [bind].
    rewrite (proj1 (Habs ATTRIBUTES Ha)).
    assert (Hv4 : h_v4 (a_header a) = None).
    { destruct (opened_find L (pre ++ arc ++ post) a) as (_ & ud & Hh); [left; exact Ho|].
      apply header_at in Hh. eapply short_header_plain; [exact Hh|].
      destruct Hlay as (body & es & _ & _ & _ & Hsz & _). rewrite Hsz. destruct Hv as [-> | ->]; reflexivity. }
    unfold validate_v4. rewrite Hv4, Hsec.
    destruct (a_attrs a); cbn [bind]; eauto.
Qed.

Lemma built_verify c files arc pre post cc :
  lossless L -> built_at L md5 c files arc pre post -> c_listfile c = LGenerate ->
  no_collision (LISTFILE :: map pf_name files) ->
  hashes_apart ATTRIBUTES (LISTFILE :: map pf_name files) ->
  hashes_apart SIGNATURE (LISTFILE :: map pf_name files) ->
  (forall f, In f files -> is_text (pf_name f) /\ listable (pf_name f) /\ ~ name_equiv LISTFILE (pf_name f)) ->
  reads_back L c (c_default c) (listfile_content (map pf_name files)) ->
  (forall f, In f files -> reads_back L c (pf_comp f) (pf_data f)) ->
  verify L md5 sha1 rd (pre ++ arc ++ post) cc = Ok tt.
Proof.
  intros HL Hb Hg Hcol Ha Hs Hn Hrb Hall.
  destruct (built_all c files arc pre post HL Hb Hg Hcol Ha Hn Hrb Hall)
    as (a & l & Ho & Hl & Hnames & Hr & Hrl & Hf & Hi).
  destruct (Hi Hs) as (i & Hi'). apply verify_ok. exists a, i, l.
  split; [exact Ho|]. split; [exact Hi'|]. split; [exact Hl|]. intros e He.
  assert (Hin : In (fe_name e) (map pf_name files ++ [LISTFILE])) by (rewrite <- Hnames; now apply in_map).
  split; [now apply Hf|]. intros _. apply in_app_or in Hin as [Hin|[<-|[]]]; [|eexists; exact Hrl].
  destruct (means_exists files _ Hin) as (f & Hm). exists (pf_data f). exact (Hr _ _ Hm).
Qed.

(** ** Packing and unpacking *)
Lemma extract_names_all a dir names datas : Forall2 (fun n d => read_file L a n = Ok d) names datas ->
  exists acts, extract_names L a dir true names = (acts, Ok tt) /\
    writes_of acts = combine (map (path_join dir) names) datas.
Proof.
  induction 1 as [|n d names datas R H (acts & IH1 & IH2)]; cbn [extract_names map combine].
  - exists []. split; reflexivity.
  - rewrite R, IH1. eexists. split; [reflexivity|]. unfold writes_of. rewrite flat_map_app.
    fold (writes_of acts). rewrite IH2. unfold write_actions. destruct (parts (path_join dir n)); reflexivity.
Qed.

Lemma to_slash_id n : ~ In "\"%byte n -> to_slash n = n.
Proof.
  induction n as [|b n IH]; intros H; [reflexivity|]. unfold to_slash in *. cbn [map].
  rewrite IH by (intros K; apply H; right; exact K).
  rewrite beqb_no; [reflexivity|]. intros ->. apply H. left. reflexivity.
Qed.
Lemma join_in x cs : In x (join_slash cs) -> x = SLASH \/ exists s, In s cs /\ In x s.
Proof.
  induction cs as [|s [|s' cs] IH]; cbn [join_slash]; [intros []|intros H; right; exists s; split; [left; reflexivity|exact H]|].
  intros H. apply in_app_or in H as [H|[<-|H]]; [right; exists s; split; [left; reflexivity|exact H]|left; reflexivity|].
  destruct (IH H) as [E|(z & Z1 & Z2)]; [left; exact E|right; exists z; split; [right; exact Z1|exact Z2]].
Qed.
Lemma parts_component s : component s -> parts s = [s].
Proof.
  intros (H1 & H2 & _ & H4 & _). rewrite parts_seg by assumption.
  destruct (is_dot s) eqn:E; [|reflexivity]. unfold is_dot in E. apply bytes_eqb_eq' in E. contradiction.
Qed.
Lemma parts_join_slash cs : Forall component cs -> cs <> [] ->
  parts (join_slash cs) = cs /\ rooted (join_slash cs) = false.
Proof.
  intros H Hne. destruct cs as [|s cs]; [contradiction|]. clear Hne.
  inversion H as [|? ? Hs Hcs]; subst. split.
  - clear Hs. revert s H. induction cs as [|s' cs IH]; intros s H.
    + inversion H; subst. now apply parts_component.
    + inversion H as [|? ? Hs Hcs']; subst. change (join_slash (s :: s' :: cs)) with (s ++ SLASH :: join_slash (s' :: cs)).
      rewrite parts_app, (parts_component s Hs), IH; [reflexivity|exact (Forall_inv_tail Hcs')|exact Hcs'].
  - destruct Hs as (H1 & _ & _ & H4 & _). destruct s as [|b s]; [contradiction|].
    assert (E : rooted (b :: s) = false).
    { cbn [rooted]. apply beqb_no. intros ->. apply H4. left. reflexivity. }
    destruct cs; exact E.
Qed.
Lemma enter_components cs : Forall component cs -> forall l, fold_left enter cs l = l ++ cs.
Proof.
  induction 1 as [|s cs (H1 & H2 & H3 & _) _ IH]; intros l; cbn [fold_left]; [now rewrite app_nil_r|].
  rewrite IH. unfold enter.
  destruct (bytes_eqb s (lit ".")) eqn:E; [apply bytes_eqb_eq' in E; contradiction|].
  destruct (bytes_eqb s (lit "..")) eqn:E'; [apply bytes_eqb_eq' in E'; contradiction|].
  rewrite <- app_assoc. reflexivity.
Qed.
Lemma place_of_name cwd dir cs dl : Forall component cs -> cs <> [] -> leads cwd dir dl ->
  leads cwd (path_join dir (to_slash (join_slash cs))) (dl ++ cs).
Proof.
  intros H Hne Hd. apply leads_loc in Hd. subst dl. apply leads_loc.
  rewrite to_slash_id.
  - destruct (parts_join_slash cs H Hne) as (E1 & E2).
    rewrite loc_join, E1, enter_components by assumption. reflexivity.
  - intros K. apply join_in in K as [E|(s & Hs & Hx)]; [discriminate|].
    rewrite Forall_forall in H. destruct (H s Hs) as (_ & _ & _ & _ & H5). contradiction.
Qed.

Lemma combine_app' {A B} (x x' : list A) (y y' : list B) : length x = length y ->
  combine (x ++ x') (y ++ y') = combine x y ++ combine x' y'.
Proof.
  revert y. induction x as [|a x IH]; intros [|b y] H; cbn [app combine length] in *; try lia; [reflexivity|].
  f_equal. apply IH. lia.
Qed.

(** What extraction does with an archive that lists and holds the files. *)
Lemma unpack_gen c walk file cwd dir dl a l :
  let files := create_files c walk in
  open_archive L file = Ok a -> list_files L a = Ok l -> map fe_name l = map pf_name files ++ [LISTFILE] ->
  (forall n f, means files n f -> read_file L a n = Ok (pf_data f)) ->
  read_file L a LISTFILE = Ok (listfile_content (map pf_name files)) ->
  c_listfile c = LGenerate -> distinct_files (map file_key (prepare_listfile c files)) ->
  (forall f, In f walk -> f_parts f <> [] /\ Forall component (f_parts f) /\ reads_back L c (c_default c) (f_data f)) ->
  leads cwd dir dl ->
  exists acts ws p d, extract L file None (Some dir) true = (acts, Ok tt) /\
    writes_of acts = ws ++ [(p, d)] /\
    Forall2 (fun f w => leads cwd (fst w) (dl ++ f_parts f) /\ snd w = f_data f) walk ws /\
    leads cwd p (dl ++ [LISTFILE]).
Proof.
  intros files Ho Hl Hnames Hr Hrl Hg Hdist Hw Hd.
  assert (Hreads : Forall2 (fun n d => read_file L a n = Ok d) (map pf_name files ++ [LISTFILE])
                     (map pf_data files ++ [listfile_content (map pf_name files)])).
  { apply Forall2_app; [|constructor; [exact Hrl|constructor]].
    assert (G : forall l2 l1, files = l1 ++ l2 ->
              Forall2 (fun n d => read_file L a n = Ok d) (map pf_name l2) (map pf_data l2)).
    { induction l2 as [|f l2 IH]; intros l1 E; cbn [map]; constructor.
      - apply Hr. exists l1, l2. split; [exact E|]. split; [apply name_equiv_refl|].
        intros g Hgi Hq. apply in_split in Hgi as (m1 & m2 & ->).
        assert (Hz : forall x, In x files -> pf_locale x = 0).
        { intros x Hx. apply in_map_iff in Hx as (y & <- & _). reflexivity. }
        unfold prepare_listfile in Hdist. rewrite Hg, E in Hdist.
        rewrite <- app_assoc, <- app_assoc, map_app in Hdist. cbn [map app] in Hdist.
        rewrite map_app in Hdist. cbn [map app] in Hdist.
        specialize (Hdist _ _ _ _ _ eq_refl). apply Hdist. split; cbn [file_key fst snd].
        + apply name_equiv_sym. exact Hq.
        + rewrite !Hz; [reflexivity| |]; rewrite E; [apply in_elt|].
          rewrite <- app_assoc. apply in_elt.
      - apply (IH (l1 ++ [f])). rewrite <- app_assoc. exact E. }
    exact (G files [] eq_refl). }
  destruct (extract_names_all a dir _ _ Hreads) as (acts & He & Hwr).
  exists acts. rewrite map_app, combine_app' in Hwr by (rewrite !map_length; reflexivity).
  cbn [map combine] in Hwr.
  do 3 eexists. split; [|split; [exact Hwr|split]].
  - unfold extract. rewrite Ho, Hl, Hnames. exact He.
  - unfold files, create_files. rewrite !map_map. cbn [pf_name pf_data].
    clear - Hw Hd. induction walk as [|f walk IH]; cbn [map combine]; constructor.
    + cbn [fst snd]. destruct (Hw f (or_introl eq_refl)) as (H1 & H2 & _).
      split; [now apply place_of_name|reflexivity].
    + apply IH. intros x Hx. apply Hw. right. exact Hx.
  - apply (place_of_name cwd dir [LISTFILE] dl); [|discriminate|exact Hd].
    constructor; [|constructor]. unfold component.
    split; [discriminate|]. split; [discriminate|]. split; [discriminate|].
    split; intros K; repeat (destruct K as [K|K]; [discriminate K|]); destruct K.
Qed.

Lemma pack_unpack c walk arc pre post cwd dir dl :
  lossless L -> built_at L md5 c (create_files c walk) arc pre post -> c_listfile c = LGenerate ->
  no_collision (LISTFILE :: map pf_name (create_files c walk)) ->
  hashes_apart ATTRIBUTES (LISTFILE :: map pf_name (create_files c walk)) ->
  (forall f, In f (create_files c walk) ->
     is_text (pf_name f) /\ listable (pf_name f) /\ ~ name_equiv LISTFILE (pf_name f)) ->
  reads_back L c (c_default c) (listfile_content (map pf_name (create_files c walk))) ->
  (forall f, In f walk -> f_parts f <> [] /\ Forall component (f_parts f) /\ reads_back L c (c_default c) (f_data f)) ->
  leads cwd dir dl ->
  exists acts ws p d, extract L (pre ++ arc ++ post) None (Some dir) true = (acts, Ok tt) /\
    writes_of acts = ws ++ [(p, d)] /\
    Forall2 (fun f w => leads cwd (fst w) (dl ++ f_parts f) /\ snd w = f_data f) walk ws /\
    leads cwd p (dl ++ [LISTFILE]).
Proof.
  intros HL Hb Hg Hcol Ha Hn Hrb Hw Hd. set (files := create_files c walk) in *.
  assert (Hall : forall f, In f files -> reads_back L c (pf_comp f) (pf_data f)).
  { intros f Hf. apply in_map_iff in Hf as (x & <- & Hx). apply Hw, Hx. }
  destruct (built_all c files arc pre post HL Hb Hg Hcol Ha Hn Hrb Hall)
    as (a & l & Ho & Hl & Hnames & Hr & Hrl & _ & _).
  apply (unpack_gen c walk (pre ++ arc ++ post) cwd dir dl a l); auto.
  exact (built_distinct c files arc pre post Hb Hcol).
Qed.
End V.
