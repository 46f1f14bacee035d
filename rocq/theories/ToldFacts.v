(** * What extracting and creating tell (C78) *)
From Verif Require Import Bytes Header Compress Listfile Builder Archive Signature Info Cli SpecCli CliCreate CliList CliVerify CliTold
  SpecReport SpecCliList SpecVerifyText SpecTold ReportFacts.
Open Scope N_scope.

Lemma changes_app x y : changes (x ++ y) = changes x ++ changes y.
Proof. apply flat_map_app. Qed.
Lemma out_app x y : out_lines (x ++ y) = out_lines x ++ out_lines y.
Proof. apply flat_map_app. Qed.
Lemma err_app x y : err_lines (x ++ y) = err_lines x ++ err_lines y.
Proof. apply flat_map_app. Qed.
Lemma changes_acts xs : changes (map Act xs) = xs.
Proof. induction xs; [reflexivity|]. cbn [map changes flat_map app]. unfold changes in IHxs. now rewrite IHxs. Qed.
Lemma out_acts xs : out_lines (map Act xs) = [].
Proof. now induction xs. Qed.
Lemma err_acts xs : err_lines (map Act xs) = [].
Proof. now induction xs. Qed.
Lemma changes_tell q l : changes (tell q l) = [].
Proof. now destruct q. Qed.
Lemma err_tell q l : err_lines (tell q l) = [].
Proof. now destruct q. Qed.
Lemma out_quiet l : out_lines (tell true l) = [].
Proof. reflexivity. Qed.
Lemma out_loud l : out_lines (tell false l) = [l].
Proof. reflexivity. Qed.

Section Facts.
Variable L : codecs.
Variable md5 : bytes -> bytes.
Variable why : bytes -> error -> bytes.

(** ** Extracting *)
Lemma names_same q a dir pres all names :
  changes (fst (extract_names_told L why q a dir pres all names)) = fst (extract_names L a dir pres names) /\
  snd (extract_names_told L why q a dir pres all names) = snd (extract_names L a dir pres names).
Proof.
  induction names as [|n r [IH1 IH2]]; cbn [extract_names_told extract_names fst snd]; [now rewrite changes_tell|].
  destruct (read_file L a n) as [d|e|]; [|destruct (extract_names_told _ _ _ _ _ _ _ r), (extract_names _ _ _ _ r); now split|now split].
  destruct (if pres then _ else _) as [p|]; [|now split].
  destruct (extract_names_told _ _ _ _ _ _ _ r), (extract_names _ _ _ _ r); cbn [fst snd] in *.
  now rewrite !changes_app, changes_acts, changes_tell, IH1.
Qed.
Lemma extract_same q file name output pres :
  changes (fst (extract_told L why q file name output pres)) = fst (extract L file name output pres) /\
  snd (extract_told L why q file name output pres) = snd (extract L file name output pres).
Proof.
  unfold extract_told, extract. destruct (open_archive L file) as [a|e|]; [|now split|now split].
  destruct name as [n|].
  - destruct (read_file L a n) as [d|e|]; [|now split|now split].
    destruct (match output with Some _ => _ | None => _ end) as [p|]; [|now split].
    cbn [fst snd]. now rewrite changes_app, changes_acts, changes_tell, app_nil_r.
  - destruct (list_files L a) as [l|e|]; [|now split|now split]. apply names_same.
Qed.

Lemma write_last p d : exists xs, write_actions p d = xs ++ [AWrite p d] /\ writes_of xs = [].
Proof.
  unfold write_actions. destruct (parts p) as [|c t]; [now exists []|]. now exists [AMkdirs (rooted p) (removelast (c :: t))].
Qed.

Lemma names_told a dir pres all names : forall evs r, extract_names_told L why false a dir pres all names = (evs, r) ->
  (r = Ok tt /\ exists gs, Forall2 (handled L why a) names gs /\ evs = concat gs ++ [Out (TICK ++ lit " Extracted " ++ decimal all ++ lit " files")]) \/
  (r = Panic /\ exists done rest gs, names = done ++ rest /\ rest <> [] /\ Forall2 (handled L why a) done gs /\ evs = concat gs).
Proof.
  induction names as [|n r IH]; intros evs res H; cbn [extract_names_told] in H.
  - injection H as <- <-. left. split; [reflexivity|]. exists []. now split.
  - destruct (read_file L a n) as [d|e|] eqn:R.
    + destruct (if pres then _ else _) as [p|] eqn:P; [|injection H as <- <-; right; split; [reflexivity|]; now exists [], (n :: r), []].
      destruct (extract_names_told L why false a dir pres all r) as [evs' res'] eqn:E. injection H as <- <-.
      destruct (write_last p d) as (xs & W & W0).
      assert (G : handled L why a n (map Act (write_actions p d) ++ [Out (lit "Extracted: " ++ n)])).
      { rewrite W. now constructor. }
      destruct (IH _ _ eq_refl) as [(-> & gs & F & ->)|(-> & dn & rest & gs & -> & NE & F & ->)].
      * left. split; [reflexivity|]. exists ((map Act (write_actions p d) ++ [Out (lit "Extracted: " ++ n)]) :: gs).
        split; [now constructor|]. cbn [concat tell]. now rewrite <- !app_assoc.
      * right. split; [reflexivity|]. exists (n :: dn), rest, ((map Act (write_actions p d) ++ [Out (lit "Extracted: " ++ n)]) :: gs).
        repeat split; [assumption|now constructor|]. cbn [concat tell]. now rewrite <- !app_assoc.
    + destruct (extract_names_told L why false a dir pres all r) as [evs' res'] eqn:E. injection H as <- <-.
      assert (G : handled L why a n [Grumble (lit "Failed to extract " ++ n ++ lit ": " ++ why n e)]) by now constructor.
      destruct (IH _ _ eq_refl) as [(-> & gs & F & ->)|(-> & dn & rest & gs & -> & NE & F & ->)].
      * left. split; [reflexivity|]. eexists (_ :: gs). split; [constructor; eassumption|]. reflexivity.
      * right. split; [reflexivity|]. eexists (n :: dn), rest, (_ :: gs).
        repeat split; [assumption|constructor; eassumption|]. reflexivity.
    + injection H as <- <-. right. split; [reflexivity|]. now exists [], (n :: r), [].
Qed.

Theorem all_told file output pres a l evs r :
  open_archive L file = Ok a -> list_files L a = Ok l -> lenN l < 2 ^ 64 ->
  extract_told L why false file None output pres = (evs, r) ->
  (r = Ok tt /\ exists gs k, Forall2 (handled L why a) (map fe_name l) gs /\ shown (lenN l) k /\
     evs = concat gs ++ [Out (tick ++ lit " Extracted " ++ k ++ lit " files")]) \/
  (r = Panic /\ exists done rest gs, map fe_name l = done ++ rest /\ rest <> [] /\ Forall2 (handled L why a) done gs /\ evs = concat gs).
Proof.
  intros O Q S H. unfold extract_told in H. rewrite O, Q in H.
  destruct (names_told _ _ _ _ _ _ _ H) as [(-> & gs & F & ->)|X]; [left|now right].
  split; [reflexivity|]. exists gs, (decimal (lenN l)). split; [assumption|]. split; [now apply decimal_shown|reflexivity].
Qed.

Lemma group_counts n a g : handled L why a n g -> lenN (writes_of (changes g)) + lenN (err_lines g) = 1.
Proof.
  intros [xs p d _ W|e _]; [|reflexivity].
  rewrite changes_app, changes_acts, err_app, err_acts. unfold writes_of in *. rewrite !flat_map_app, W. reflexivity.
Qed.
Lemma writes_app x y : writes_of (x ++ y) = writes_of x ++ writes_of y.
Proof. apply flat_map_app. Qed.
Lemma groups_count a names gs : Forall2 (handled L why a) names gs ->
  lenN (writes_of (changes (concat gs))) + lenN (err_lines (concat gs)) = lenN names.
Proof.
  induction 1 as [|n g names gs H F IH]; [reflexivity|]. cbn [concat].
  rewrite changes_app, writes_app, err_app, !lenN_app. pose proof (group_counts _ _ _ H). rewrite lenN_cons. lia.
Qed.
Theorem count_right file output pres a l evs :
  open_archive L file = Ok a -> list_files L a = Ok l -> lenN l < 2 ^ 64 ->
  extract_told L why false file None output pres = (evs, Ok tt) ->
  lenN (writes_of (changes evs)) + lenN (err_lines evs) = lenN l.
Proof.
  intros O Q S H. destruct (all_told _ _ _ _ _ _ _ O Q S H) as [(_ & gs & k & F & _ & ->)|(X & _)]; [|discriminate].
  rewrite changes_app, writes_app, err_app, !lenN_app. pose proof (groups_count _ _ _ F) as G.
  assert (M : lenN (map fe_name l) = lenN l) by (unfold lenN; now rewrite map_length). rewrite M in G.
  rewrite <- G. cbn [changes err_lines flat_map app]. change (writes_of []) with (@nil (bytes * bytes)). unfold lenN. cbn [length]. lia.
Qed.
Lemma groups_fine a names gs : Forall2 (handled L why a) names gs ->
  (err_lines (concat gs) = [] <-> forall n, In n names -> exists d, read_file L a n = Ok d).
Proof.
  induction 1 as [|n g names gs H F IH]; [split; [intros _ n []|reflexivity]|]. cbn [concat]. rewrite err_app. split.
  - intros E. apply app_eq_nil in E. destruct E as [E1 E2]. intros m [<-|M]; [|now apply IH].
    destruct H as [xs p d R _|e R]; [eauto|discriminate].
  - intros X. rewrite (proj2 IH) by (intros m M; apply X; now right).
    destruct H as [xs p d R _|e R]; [now rewrite err_app, err_acts|]. destruct (X n (or_introl eq_refl)) as [d Y]. congruence.
Qed.
(** The number in the last line is that of the files that were written exactly if all can be read. *)
Theorem count_exact file output pres a l evs :
  open_archive L file = Ok a -> list_files L a = Ok l -> lenN l < 2 ^ 64 ->
  extract_told L why false file None output pres = (evs, Ok tt) ->
  (lenN (writes_of (changes evs)) = lenN l <-> forall e, In e l -> exists d, read_file L a (fe_name e) = Ok d).
Proof.
  intros O Q S H. pose proof (count_right _ _ _ _ _ _ O Q S H) as C.
  destruct (all_told _ _ _ _ _ _ _ O Q S H) as [(_ & gs & k & F & _ & E)|(X & _)]; [|discriminate].
  pose proof (groups_fine _ _ _ F) as G.
  assert (X : err_lines evs = err_lines (concat gs)) by (subst evs; rewrite err_app; apply app_nil_r).
  rewrite X in C. split.
  - intros W. assert (err_lines (concat gs) = []).
    { destruct (err_lines (concat gs)); [reflexivity|]. rewrite lenN_cons in C. lia. }
    intros e I. apply G; [assumption|]. now apply in_map.
  - intros R. rewrite (proj2 G) in C; [change (lenN (@nil bytes)) with 0 in C; lia|]. intros n I. apply in_map_iff in I. destruct I as (e & <- & I). now apply R.
Qed.

(** A single file *)
Theorem one_told file n output pres evs r : extract_told L why false file (Some n) output pres = (evs, r) ->
  (r = Ok tt /\ exists a xs p d, open_archive L file = Ok a /\ read_file L a n = Ok d /\ writes_of xs = [] /\
     (forall o, output = Some o -> p = o) /\ (output = None -> pres = true -> p = n) /\
     evs = map Act (xs ++ [AWrite p d]) ++ [Out (lit "Extracted: " ++ n ++ lit " -> " ++ p)]) \/
  (r <> Ok tt /\ evs = []).
Proof.
  unfold extract_told. intros H. destruct (open_archive L file) as [a|e|] eqn:O; [|right; now injection H as <- <-|right; now injection H as <- <-].
  destruct (read_file L a n) as [d|e|] eqn:R; [|right; now injection H as <- <-|right; now injection H as <- <-].
  destruct (match output with Some _ => _ | None => _ end) as [p|] eqn:P; injection H as <- <-; [left|right; now split].
  destruct (write_last p d) as (xs & W & W0). split; [reflexivity|]. exists a, xs, p, d.
  repeat split; [assumption|assumption| | |now rewrite W].
  - intros o ->. congruence.
  - intros -> ->. congruence.
Qed.

(** When quiet: nothing on the standard output, the same failures *)
Lemma names_quiet a dir pres all names :
  out_lines (fst (extract_names_told L why true a dir pres all names)) = [] /\
  err_lines (fst (extract_names_told L why true a dir pres all names)) = err_lines (fst (extract_names_told L why false a dir pres all names)).
Proof.
  induction names as [|n r [IH1 IH2]]; cbn [extract_names_told fst]; [now split|].
  destruct (read_file L a n) as [d|e|]; [| |now split].
  - destruct (if pres then _ else _) as [p|]; [|now split].
    destruct (extract_names_told L why true _ _ _ _ r), (extract_names_told L why false _ _ _ _ r). cbn [fst] in *.
    now rewrite !out_app, !err_app, out_acts, out_quiet, !err_tell, IH1, IH2.
  - destruct (extract_names_told L why true _ _ _ _ r), (extract_names_told L why false _ _ _ _ r). cbn [fst] in *.
    split; [exact IH1|]. cbn. unfold err_lines in IH2. now rewrite IH2.
Qed.
Theorem extract_quiet file name output pres :
  out_lines (fst (extract_told L why true file name output pres)) = [] /\
  err_lines (fst (extract_told L why true file name output pres)) = err_lines (fst (extract_told L why false file name output pres)).
Proof.
  unfold extract_told. destruct (open_archive L file) as [a|e|]; [|now split|now split]. destruct name as [n|].
  - destruct (read_file L a n) as [d|e|]; [|now split|now split].
    destruct (match output with Some _ => _ | None => _ end) as [p|]; [|now split].
    cbn [fst]. now rewrite !out_app, !err_app, out_acts, !err_tell.
  - destruct (list_files L a) as [l|e|]; [|now split|now split]. apply names_quiet.
Qed.

(** ** Creating *)
Lemma entries_same q dir pats l : snd (add_entries_told q dir pats l) = add_entries dir pats l /\
  changes (fst (add_entries_told q dir pats l)) = [] /\ err_lines (fst (add_entries_told q dir pats l)) = [].
Proof.
  induction l as [|[e|] t IH]; cbn [add_entries_told add_entries]; [repeat split| |repeat split].
  destruct (en_dir e); [exact IH|]. destruct (ignored _ _ _); [exact IH|]. destruct (bytes_eqb _ _); [|repeat split].
  destruct (add_entries_told q dir pats t). cbn [fst snd] in *. destruct IH as (-> & IH & IH').
  rewrite changes_app, changes_tell, err_app, err_tell, IH, IH'. repeat split.
Qed.
Lemma entries_said dir pats l : exists ps,
  out_lines (fst (add_entries_told false dir pats l)) = map (fun p => lit "Added: " ++ stored_name p) ps /\
  forall fs, add_entries dir pats l = Ok fs -> ps = map fst fs.
Proof.
  induction l as [|[e|] t (ps & IH1 & IH2)]; cbn [add_entries_told add_entries].
  - exists []. split; [reflexivity|]. now intros fs [= <-].
  - destruct (en_dir e); [now exists ps|]. destruct (ignored _ _ _); [now exists ps|].
    destruct (bytes_eqb _ _); [|exists []; now split].
    destruct (add_entries_told false dir pats t). cbn [fst] in *. exists (en_parts e :: ps). split; [now rewrite out_app, IH1|].
    intros fs H. destruct (add_entries dir pats t) as [fs'|x|]; try discriminate. injection H as <-. cbn [map fst].
    now rewrite (IH2 _ eq_refl).
  - exists []. now split.
Qed.
Lemma entries_quiet dir pats l : out_lines (fst (add_entries_told true dir pats l)) = [].
Proof.
  induction l as [|[e|] t IH]; cbn [add_entries_told]; [reflexivity| |reflexivity].
  destruct (en_dir e); [exact IH|]. destruct (ignored _ _ _); [exact IH|]. destruct (bytes_eqb _ _); [|reflexivity].
  now destruct (add_entries_told true dir pats t).
Qed.

Theorem create_same q c path src follow deep pats s :
  snd (create_told L md5 q c path src follow deep pats s) = create_archive L md5 c src follow deep pats s.
Proof.
  unfold create_told, create_archive, added. destruct s as [d|ok t|]; [| |reflexivity].
  - destruct (file_name src) as [n|]; [|reflexivity]. cbn [bind]. now destruct (bind (read_all _ _) _).
  - destruct (entries_same q src pats (if ok then walk_tree follow deep [] t else [None])) as (E & _).
    destruct (add_entries_told q src pats _) as [evs r]. cbn [snd] in E. subst r.
    destruct (add_entries _ _ _) as [fs|e|]; [|reflexivity|reflexivity]. cbn [bind]. now destruct (bind (read_all _ _) _).
Qed.

Lemma read_names c l : forall files, read_all c l = Ok files -> map pf_name files = map fst l.
Proof.
  induction l as [|[n [d|]] t IH]; intros files H; cbn [read_all] in H; [now injection H as <-| |discriminate].
  destruct (read_all c t) as [r|e|]; try discriminate. injection H as <-. cbn [map fst]. now rewrite (IH _ eq_refl).
Qed.

Theorem create_said c path src follow deep pats s :
  (exists arc files, create_told L md5 false c path src follow deep pats s =
     (map Out ((lit "Creating archive: " ++ path) :: map (fun f => lit "Added: " ++ pf_name f) files) ++
      [Act (AWrite path arc); Out (tick ++ lit " Archive created successfully")], Ok arc) /\ build L md5 c files = Ok arc) \/
  (exists names r, create_told L md5 false c path src follow deep pats s =
     (map Out ((lit "Creating archive: " ++ path) :: map (fun n => lit "Added: " ++ n) names), r) /\ forall arc, r <> Ok arc).
Proof.
  assert (A : exists evs r names,
    (match s with
    | SFile d =>
        match file_name src with
        | Some n => (tell false (lit "Added: " ++ utf8_lossy n), Ok [(utf8_lossy n, d)])
        | None => ([], Err EIo)
        end
    | SDir ok t =>
        let (evs, r) := add_entries_told false src pats (if ok then walk_tree follow deep [] t else [None]) in
        (evs, fs <- r ;; Ok (map (fun f => (stored_name (fst f), snd f)) fs))
    | SMissing => ([], Err EIo)
    end) = (evs, r) /\ evs = map Out (map (fun n => lit "Added: " ++ n) names) /\ forall l, r = Ok l -> map fst l = names).
  { destruct s as [d|ok t|].
    - destruct (file_name src) as [n|].
      + do 2 eexists. exists [utf8_lossy n]. split; [reflexivity|]. split; [reflexivity|]. now intros l [= <-].
      + do 2 eexists. exists []. split; [reflexivity|]. split; [reflexivity|]. discriminate.
    - set (w := if ok then _ else _). destruct (entries_said src pats w) as (ps & E1 & E2).
      destruct (entries_same false src pats w) as (E3 & E4 & E5).
      destruct (add_entries_told false src pats w) as [evs r]. cbn [fst snd] in *. subst r.
      do 2 eexists. exists (map stored_name ps). split; [reflexivity|]. split.
      + rewrite (map_map stored_name (fun n => lit "Added: " ++ n)), <- E1. clear - E4 E5. induction evs as [|[l|l|x] evs IH]; [reflexivity| |discriminate|discriminate].
        cbn [out_lines flat_map app map]. f_equal. now apply IH.
      + intros l H. destruct (add_entries src pats w) as [fs|e|]; try discriminate. injection H as <-.
        rewrite (E2 _ eq_refl), !map_map. reflexivity.
    - do 2 eexists. exists []. split; [reflexivity|]. split; [reflexivity|]. discriminate. }
  destruct A as (evs & r & names & A & -> & N). unfold create_told. rewrite A. clear A.
  destruct r as [l|e|].
  - specialize (N _ eq_refl). destruct (read_all c l) as [files|e|] eqn:R; cbn [bind].
    + destruct (build L md5 c files) as [arc|e|] eqn:B.
      * left. exists arc, files. split; [|assumption]. rewrite <- N, <- (read_names _ _ _ R), (map_map pf_name (fun n => lit "Added: " ++ n)).
        cbn [tell map app]. reflexivity.
      * right. exists names, (Err e). now split.
      * right. exists names, Panic. now split.
    + right. exists names, (Err e). now split.
    + right. exists names, Panic. now split.
  - right. exists names, (Err e). now split.
  - right. exists names, Panic. now split.
Qed.

Theorem create_quiet c path src follow deep pats s :
  out_lines (fst (create_told L md5 true c path src follow deep pats s)) = [].
Proof.
  unfold create_told. destruct s as [d|ok t|]; [| |reflexivity].
  - destruct (file_name src) as [n|]; [|reflexivity]. now destruct (bind (read_all _ _) _).
  - pose proof (entries_quiet src pats (if ok then walk_tree follow deep [] t else [None])) as E.
    destruct (add_entries_told true src pats _) as [evs r]. cbn [fst] in E.
    destruct r as [fs|e|]; cbn [bind]; [|exact E|exact E]. destruct (bind (read_all _ _) _); [|exact E|exact E].
    cbn [fst tell app]. rewrite out_app, E. reflexivity.
Qed.
End Facts.
