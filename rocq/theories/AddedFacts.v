(** * What [archive create] says to have added is a wanted file of the directory *)
From Verif Require Import Bytes Header Compress Listfile SpecListfile TextFacts Builder Archive Cli SpecCli CliBuilt CliCreate SpecCreate CreateFacts CliTold SpecReport SpecTold ToldFacts.
Open Scope N_scope.

Lemma told_entry q dir pats l x : In (Out x) (fst (add_entries_told q dir pats l)) ->
  exists e, In (Some e) l /\ en_dir e = false /\ ignored dir pats (en_parts e) = false /\
    utf8_lossy (entry_path dir (en_parts e)) = entry_path dir (en_parts e) /\ x = lit "Added: " ++ stored_name (en_parts e).
Proof.
  induction l as [|[e|] t IH]; cbn [add_entries_told]; [intros []| |intros []].
  assert (R : In (Out x) (fst (add_entries_told q dir pats t)) -> exists e', In (Some e') (Some e :: t) /\ en_dir e' = false /\
    ignored dir pats (en_parts e') = false /\
    utf8_lossy (entry_path dir (en_parts e')) = entry_path dir (en_parts e') /\ x = lit "Added: " ++ stored_name (en_parts e')).
  { intros H. destruct (IH H) as (e' & H1 & H2). exists e'. split; [now right|exact H2]. }
  destruct (en_dir e) eqn:Ed; [exact R|]. destruct (ignored _ _ _) eqn:Ei; [exact R|].
  destruct (bytes_eqb _ _) eqn:Eb; [|intros []]. destruct (add_entries_told q dir pats t) as [evs r]. cbn [fst] in *.
  intros H. apply in_app_or in H. destruct H as [H|H]; [|now apply R].
  exists e. split; [now left|]. split; [exact Ed|]. split; [exact Ei|]. split; [now apply bytes_eqb_eq|].
  destruct q; cbn in H; [destruct H|]. destruct H as [H|[]]. now injection H as <-.
Qed.

Section S.
Variable L : codecs.
Variable md5 : bytes -> bytes.

Theorem added_seen q c path src follow deep pats ok t n : is_text src -> proper t ->
  In (Out (lit "Added: " ++ n)) (fst (create_told L md5 q c path src follow deep pats (SDir ok t))) ->
  ok = true /\ exists p d, file_at follow t p d /\ wanted src deep pats p /\ is_text (path_below src p) /\
    n = to_slash (with_slashes p).
Proof.
  intros Hs HP H.
  assert (K : In (Out (lit "Added: " ++ n)) (fst (add_entries_told q src pats (if ok then walk_tree follow deep [] t else [None])))).
  { unfold create_told in H. destruct (add_entries_told q src pats _) as [evs r]. cbn [fst].
    assert (A : forall x, In (Out (lit "Added: " ++ n)) (tell q (lit "Creating archive: " ++ path) ++ evs ++ x) ->
      (forall y, In y x -> y <> Out (lit "Added: " ++ n)) -> In (Out (lit "Added: " ++ n)) evs).
    { intros x Hi Hx. apply in_app_or in Hi. destruct Hi as [Hi|Hi].
      - destruct q; cbn in Hi; [destruct Hi|]. destruct Hi as [Hi|[]]. discriminate.
      - apply in_app_or in Hi. destruct Hi as [Hi|Hi]; [exact Hi|]. now apply Hx in Hi. }
    assert (A0 : In (Out (lit "Added: " ++ n)) (tell q (lit "Creating archive: " ++ path) ++ evs) -> In (Out (lit "Added: " ++ n)) evs).
    { intros Hi. apply (A []); [now rewrite app_nil_r|intros y []]. }
    destruct r as [l|e|]; cbn [bind] in H; [|now apply A0..].
    destruct (read_all c _) as [fs|e|]; cbn [bind] in H; [|now apply A0..].
    destruct (build L md5 c fs) as [arc|e|]; cbn [bind] in H; [|now apply A0..].
    apply (A _ H). intros y [<-|Hy]; [discriminate|]. destruct q; cbn in Hy; [destruct Hy|].
    destruct Hy as [<-|[]]. discriminate. }
  destruct (told_entry _ _ _ _ _ K) as ([p b d] & H1 & H2 & H3 & H4 & H5). cbn [en_dir en_parts] in *. subst b.
  destruct ok; [|destruct H1 as [H1|[]]; discriminate]. split; [reflexivity|].
  apply entries_files in H1. destruct H1 as [Hf Hd]. destruct (proper_parts _ _ _ _ Hf HP) as [HF Hp].
  rewrite (entry_path_below src p HF Hp) in H4.
  assert (HT : is_text (path_below src p)) by now apply lossy_same.
  exists p, d. split; [exact Hf|]. split; [split; [exact Hd|]; now apply (ignored_wanted src pats p HF Hp)|].
  split; [exact HT|]. apply app_inv_head in H5. rewrite H5. apply stored_name_is. exact (below_text src p Hs HT).
Qed.

Theorem added_all c path src follow deep pats ok t evs arc : is_text src -> proper t ->
  create_told L md5 false c path src follow deep pats (SDir ok t) = (evs, Ok arc) ->
  forall p d, file_at follow t p d -> wanted src deep pats p -> In (Out (lit "Added: " ++ to_slash (with_slashes p))) evs.
Proof.
  intros Hs HP H p d Hf Hw.
  pose proof (create_same L md5 false c path src follow deep pats (SDir ok t)) as Es. rewrite H in Es. cbn [snd] in Es. symmetry in Es.
  destruct (created_only L md5 c src follow deep pats ok t arc HP Es) as (-> & Hh & Ht).
  destruct (proj2 (added_iff src follow deep pats t HP)) as [fs Hfs]; [split; [exact Hh|intros q x Hq Wq; exact (proj1 (Ht q x Hq Wq))]|].
  pose proof (proj2 (added_exact src follow deep pats t fs HP Hfs p d) (conj Hf Hw)) as Hi.
  unfold added in Hfs. destruct (entries_said src pats (walk_tree follow deep [] t)) as (ps & E1 & E2).
  specialize (E2 _ Hfs).
  assert (K : In (Out (lit "Added: " ++ to_slash (with_slashes p))) (fst (add_entries_told false src pats (walk_tree follow deep [] t)))).
  { assert (Hl : In (lit "Added: " ++ stored_name p) (out_lines (fst (add_entries_told false src pats (walk_tree follow deep [] t))))).
    { rewrite E1, E2. apply (in_map (fun q => lit "Added: " ++ stored_name q) (map fst fs) p). apply (in_map fst fs (p, d)). exact Hi. }
    unfold out_lines in Hl. apply in_flat_map in Hl. destruct Hl as (e & He & Hl).
    destruct e as [y|y|y]; [|destruct Hl..]. destruct Hl as [Hl|[]]. subst y.
    rewrite <- (stored_name_is p) by exact (below_text src p Hs (proj1 (Ht p d Hf Hw))). exact He. }
  unfold create_told in H. destruct (add_entries_told false src pats _) as [ev r]. cbn [fst] in K.
  destruct r as [l|e|]; cbn [bind] in H; try discriminate.
  destruct (read_all c _) as [files|e|]; cbn [bind] in H; try discriminate.
  destruct (build L md5 c files) as [arc'|e|]; cbn [bind] in H; try discriminate.
  injection H as <- _. right. apply in_or_app. now left.
Qed.
End S.
