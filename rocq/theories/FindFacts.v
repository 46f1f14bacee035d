(** * Facts about what [file find] prints *)
From Coq Require Import Lia ZifyBool ZifyNat ZifyN.
From Verif Require Import Bytes Compress Header Archive CliList CliConfig Json CliInfo
  SpecCliList SpecReport SpecInfoText CliListFacts ReportFacts InfoTextFacts PrintedFacts.
Open Scope N_scope.

Lemma found_fine L compile lower file pattern regex fold names : find_cmd L compile lower file pattern regex fold = Ok names -> Forall clean names.
Proof.
  unfold find_cmd. intros H. destruct (open_archive L file) as [a| |] eqn:Ho; cbn [bind] in H; try discriminate.
  destruct (list_files L a) as [es| |] eqn:E; cbn [bind] in H; try discriminate.
  assert (F : Forall clean (map fe_name es)).
  { apply (source_fine L file a false false es Ho) in E. rewrite Forall_map. eapply Forall_impl; [|exact E]. intros e He. apply He. }
  assert (G : forall m, Forall clean (filter m (map fe_name es))).
  { intros m. rewrite Forall_forall in *. intros n Hn. apply filter_In in Hn as [Hn _]. now apply F. }
  destruct regex.
  - destruct (compile true _) as [m|]; cbn [of_option bind] in H; [|discriminate]. apply Ok_inj in H. subst. apply G.
  - destruct (compile false _) as [m|]; cbn [of_option bind] in H; [|discriminate]. apply Ok_inj in H. subst. apply G.
Qed.
Lemma one_line l : lines_of (line l) = [l] <-> clean l.
Proof.
  split; [|apply lines_app_line]. intros H. pose proof (lines_clean (line l)) as C. rewrite H in C. now inversion C.
Qed.
Lemma find_says L compile lower file pattern regex fold names quiet verbose :
  find_cmd L compile lower file pattern regex fold = Ok names -> lenN names < 2 ^ 64 ->
  (names = [] -> quiet = false ->
   (lines_of (print_find quiet verbose pattern names) = [lit "No files found matching pattern: " ++ pattern] <-> ~ In "010"%byte pattern)) /\
  (names = [] -> quiet = true -> print_find quiet verbose pattern names = []) /\
  (names <> [] -> exists n, shown (lenN names) n /\
   lines_of (print_find quiet verbose pattern names) =
   names ++ (if verbose && negb quiet then [[]; lit "Found " ++ n ++ lit " matching files"] else [])).
Proof.
  intros H Hn. apply found_fine in H. split; [|split].
  - intros -> ->. cbn [print_find]. rewrite one_line. unfold clean. rewrite in_app_iff. split; [tauto|]. intros X [Y|Y]; [|now apply X].
    revert Y. apply clean_check. reflexivity.
  - intros -> ->. reflexivity.
  - intros Hne. exists (decimal (lenN names)). split; [now apply decimal_shown|].
    destruct names as [|x names]; [easy|]. cbn [print_find]. rewrite lines_concat by exact H. f_equal.
    rewrite (andb_comm (negb quiet)). destruct (verbose && negb quiet); [|reflexivity].
    rewrite lines_line by (intros []). f_equal. apply lines_app_line.
    apply clean_app; [apply clean_check; reflexivity|]. apply clean_app; [|apply clean_check; reflexivity]. now apply decimal_clean.
Qed.
