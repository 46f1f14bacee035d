(** * Facts about printed verifications: JSON, CSV, the command *)
From Coq Require Import Lia ZifyBool ZifyNat ZifyN.
From Verif Require Import Bytes Compress Header Archive Signature Info CliList CliConfig CliVerbose InfoReport Json CliInfo CliVerify
  SpecListfile SpecCliList SpecReport SpecJson SpecInfoText SpecVerifyText ListfileFacts ReportFacts CliListFacts JsonFacts InfoTextFacts InfoJsonFacts PrintedFacts
  VerifyTextFacts.
From Verif Require Cli InfoLoad.
Open Scope N_scope.

Lemma number_in {A} (l : list A) : forall k i x, In (i, x) (numbered k l) -> exists j, i = (k + j)%nat /\ nth_error l j = Some x.
Proof.
  induction l as [|y l IH]; intros k i x H; [destruct H|]. cbn [numbered In] in H. destruct H as [H|H].
  - injection H as <- <-. exists 0%nat. split; [lia|reflexivity].
  - apply IH in H as (j & -> & E). exists (S j). split; [lia|exact E].
Qed.
Lemma fine_all why (l : list (bytes * verdict)) : failures why l = [] <-> forallb (fun x => is_fine (snd x)) l = true.
Proof.
  induction l as [|[n v] l IH]; [easy|]. cbn [forallb snd]. unfold failures in *. cbn [flat_map snd fst].
  destruct v; cbn [is_fine andb app]; [exact IH|easy|exact IH|easy].
Qed.
Lemma passed_fine why crc l : passed (tally_of why crc l) = forallb (fun x => is_fine (snd x)) l.
Proof.
  unfold passed. cbn [tally_of t_errors]. destruct (failures why l) as [|f fs] eqn:E.
  - symmetry. now apply (fine_all why).
  - destruct (forallb _ l) eqn:F; [|reflexivity]. apply (fine_all why) in F. congruence.
Qed.

(** ** JSON *)
Section Document.
Variable why : bytes -> error -> bytes.
Variables (crc : bool) (path : bytes) (r : report) (l : list (bytes * verdict)).
Hypothesis Hl : lenN l < 2 ^ 57.

Definition reasons_text : Prop := forall n v, In (n, v) l -> is_text n /\ forall e, is_text (why n e).
Lemma tidy_verify : is_text path -> reasons_text -> valid_json (verify_json path r (lenN l) (tally_of why crc l)).
Proof.
  intros Hp Hc.
  assert (B : forall f, how_many f l < 2 ^ 64).
  { intros f. eapply N.le_lt_trans; [apply many_le|]. eapply N.lt_trans; [exact Hl|reflexivity]. }
  assert (B0 : lenN l < 2 ^ 64) by (eapply N.lt_trans; [exact Hl|reflexivity]).
  unfold verify_json. cbn [tally_of t_verified t_errors t_warnings t_found t_readable t_missing t_corrupted].
  apply tidy_members; [reflexivity|].
  member; [now apply tidy_text|]. member; [apply tidy_num; destruct (i_version _); reflexivity|]. member; [now apply tidy_num|]. member; [apply tidy_num, B|].
  member.
  { apply tidy_members; [reflexivity|]. member; [constructor|]. member; [constructor|]. member; [|apply Forall_nil]. apply tidy_text.
    destruct (i_signature _); now apply text_lit. }
  member.
  { apply tidy_members; [reflexivity|]. member; [constructor|]. member; [constructor|].
    member; [destruct (r_het r); constructor|]. member; [destruct (r_bet r); constructor|].
    member; [destruct (i_md5 _); [apply tidy_md5|constructor]|apply Forall_nil]. }
  member; [apply tidy_members; [reflexivity|]; do 4 (member; [apply tidy_num, B|]); apply Forall_nil|].
  member.
  { apply tidy_list. intros v Hv. apply in_map_iff in Hv as (w & <- & Hv). apply in_map_iff in Hv as (n & <- & Hn). apply tidy_text.
    apply text_app; [now apply text_lit|]. unfold unchecked in Hn. destruct crc; [|destruct Hn]. apply in_map_iff in Hn as ((m & v) & <- & Hn).
    apply filter_In in Hn as [Hn _]. now apply (Hc m v). }
  member.
  { apply tidy_list. intros v Hv. apply in_map_iff in Hv as ((n & t) & <- & Hv). cbn [fst snd].
    unfold failures in Hv. apply in_flat_map in Hv as ((m & w) & Hm & Hv). destruct (Hc m w Hm) as [C1 C2]. cbn [fst snd] in Hv.
    assert (X : is_text n /\ is_text t).
    { destruct w as [s|e| |]; cbn [In] in Hv; try tauto; destruct Hv as [Hv|[]]; injection Hv as <- <-; (split; [exact C1|]); [apply C2|now apply text_lit]. }
    apply tidy_members; [reflexivity|]. member; [now apply tidy_text|]. member; [now apply tidy_text|apply Forall_nil]. }
  member; [constructor|apply Forall_nil].
Qed.
Lemma verify_looked p s : In (p, s) (verify_fields why crc path r l) -> look (verify_json path r (lenN l) (tally_of why crc l)) p = Some s.
Proof.
  clear Hl. intros H. unfold verify_fields in H. apply in_app_or in H as [H|H].
  { cbn [In map] in H.
    do 12 (destruct H as [H|H]; [injection H as <- <-; reflexivity|]).
    destruct H as [H|H]; [injection H as <- <-; cbn; destruct (r_het r); reflexivity|].
    destruct H as [H|H]; [injection H as <- <-; cbn; destruct (r_bet r); reflexivity|].
    do 5 (destruct H as [H|H]; [injection H as <- <-; reflexivity|]).
    destruct H as [H|H]; [injection H as <- <-; rewrite <- (passed_fine why crc l); reflexivity|].
    destruct H as [H|H].
    { injection H as <- <-. transitivity (Some (SItems (length (map JText (map (app crc_text) (unchecked crc l)))))); [reflexivity|].
      now rewrite !map_length. }
    destruct H as [H|H]; [|destruct H].
    injection H as <- <-.
    transitivity (Some (SItems (length (map (fun fe : bytes * bytes => JObject [(lit "file", JText (fst fe)); (lit "error", JText (snd fe))]) (failures why l)))));
      [reflexivity|]. now rewrite map_length. }
  apply in_app_or in H as [H|H].
  { destruct (i_md5 (r_info r)) as [m|] eqn:E; cbn [In map] in H;
      repeat (destruct H as [H|H]; [injection H as <- <-; unfold verify_json; rewrite E; reflexivity|]); destruct H. }
  apply in_app_or in H as [H|H].
  - apply in_map_iff in H as ((i & n) & E & H). injection E as <- <-. apply number_in in H as (j & -> & H). cbn [Nat.add fst snd].
    transitivity (look (JList (map JText (map (app crc_text) (unchecked crc l)))) [Item j]); [reflexivity|]. cbn [look].
    rewrite map_map. rewrite (map_nth_error _ _ _ H). reflexivity.
  - apply in_flat_map in H as ((i & f) & H & Hs). apply number_in in H as (j & -> & H). cbn [fst snd] in Hs. change (0 + j)%nat with j in Hs.
    assert (X : forall q, look (verify_json path r (lenN l) (tally_of why crc l)) (Member (lit "errors") :: Item j :: q) =
                          look (JObject [(lit "file", JText (fst f)); (lit "error", JText (snd f))]) q).
    { intros q. transitivity (look (JList (map (fun fe : bytes * bytes => JObject [(lit "file", JText (fst fe)); (lit "error", JText (snd fe))]) (failures why l)))
        (Item j :: q)); [reflexivity|]. cbn [look]. rewrite (map_nth_error _ _ _ H). reflexivity. }
    cbn [In] in Hs. repeat (destruct Hs as [Hs|Hs]; [injection Hs as <- <-; rewrite X; reflexivity|]). destruct Hs.
Qed.
Lemma json_said show : writes_json show -> is_text path -> reasons_text ->
  json_shows (print_json show (verify_json path r (lenN l) (tally_of why crc l))) (verify_fields why crc path r l).
Proof.
  intros Hs Hp Hc. destruct (printed show _ Hs (tidy_verify Hp Hc)) as (v & D & S). exists v. split; [exact D|]. intros p s H. rewrite S. now apply verify_looked.
Qed.

(** ** CSV *)
Lemma csv_said : exists v t n e w, shown (version_number (i_version (r_info r))) v /\ shown (lenN l) t /\ shown (how_many is_fine l) n /\
  shown (lenN (failures why l)) e /\ shown (lenN (unchecked crc l)) w /\
  (csv_text (verify_rows path v t n e w (forallb (fun x => is_fine (snd x)) l)) (print_verify_csv path r (lenN l) (tally_of why crc l)) <-> csv_plain path).
Proof.
  assert (B : forall n, n <= lenN l -> shown n (decimal n)).
  { intros n H. apply decimal_shown. eapply N.le_lt_trans; [exact H|]. eapply N.lt_trans; [exact Hl|reflexivity]. }
  assert (S4 : shown (lenN (failures why l)) (decimal (lenN (failures why l)))).
  { apply B. clear. unfold failures, lenN. induction l as [|[n v] t IH]; [apply N.le_refl|]. cbn [flat_map snd fst]. rewrite app_length.
    destruct v; cbn [length]; lia. }
  assert (S5 : shown (lenN (unchecked crc l)) (decimal (lenN (unchecked crc l)))).
  { apply B. clear. unfold unchecked. destruct crc; [|unfold lenN; cbn [length]; lia]. unfold lenN. rewrite map_length. apply (many_le is_read l). }
  pose proof (version_eq (i_version (r_info r))) as S1. pose proof (B _ (N.le_refl _)) as S2. pose proof (B _ (many_le is_fine l)) as S3.
  do 5 eexists. split; [exact S1|]. split; [exact S2|]. split; [exact S3|]. split; [exact S4|]. split; [exact S5|].
  set (rows := [(lit "metric", lit "value"); (lit "archive", path); (lit "format_version", decimal (version_shown (i_version (r_info r))));
    (lit "total_files", decimal (lenN l)); (lit "verified_files", decimal (how_many is_fine l)); (lit "errors", decimal (lenN (failures why l)));
    (lit "warnings", decimal (lenN (unchecked crc l))); (lit "passed", truth (forallb (fun x => is_fine (snd x)) l))]).
  assert (E : print_verify_csv path r (lenN l) (tally_of why crc l) = text_of rows).
  { unfold print_verify_csv. rewrite passed_fine. cbn [tally_of t_verified t_errors t_warnings].
    unfold rows, text_of. cbn [map concat fst snd]. rewrite app_nil_r. unfold lenN. rewrite map_length. reflexivity. }
  rewrite E. change (verify_rows _ _ _ _ _ _ _) with (rows_of rows).
  rewrite rows_csv by (unfold rows; repeat (apply Forall_cons; [apply csv_plainb; reflexivity|]); apply Forall_nil).
  split.
  - intros F. unfold rows in F. inversion F as [|? ? _ F']; subst. now inversion F'.
  - intros P. unfold rows. apply Forall_cons; [apply csv_plainb; reflexivity|]. apply Forall_cons; [exact P|].
    apply Forall_cons; [exact (shown_plain _ _ S1)|]. apply Forall_cons; [exact (shown_plain _ _ S2)|].
    apply Forall_cons; [exact (shown_plain _ _ S3)|]. apply Forall_cons; [exact (shown_plain _ _ S4)|].
    apply Forall_cons; [exact (shown_plain _ _ S5)|]. apply Forall_cons; [|apply Forall_nil].
    destruct (forallb _ l); apply csv_plainb; reflexivity.
Qed.
End Document.

(** ** The command *)
Section Command.
Variable L : codecs.
Variable md5 sha1 : bytes -> bytes.
Variable rd : N -> N -> N.
Variable show : json -> bytes.
Variable why : bytes -> error -> bytes.

Lemma combined {A B} (l : list (A * B)) : combine (map fst l) (map snd l) = l.
Proof. induction l as [|[x y] l IH]; [reflexivity|]. cbn. now rewrite IH. Qed.
Lemma judged_pairs a contents l : Forall (fun x => judged L a contents (fst x) (snd x)) l -> Forall2 (judged L a contents) (map fst l) (map snd l).
Proof. induction 1; [constructor|]. cbn [map]. now constructor. Qed.
Definition greeting (out : format) (quiet : bool) (path : bytes) : bytes :=
  if negb quiet && match out with Text => true | _ => false end then line (lit "Verifying archive: " ++ path) else [].
Lemma verify_checked form quiet verbose contents crc path file r l : checked L md5 sha1 rd file contents r l ->
  archive_verify L md5 sha1 rd show why form quiet verbose contents crc path file =
  (greeting form quiet path ++ out (talked why (verbose && negb quiet && match form with Text => true | _ => false end) l) ++
     print_verify show form quiet path r (lenN l) (tally_of why crc l),
   match failures why l with [] => Ok tt | _ => Err EInvalidFormat end).
Proof.
  intros (a & es & Ho & Hr & Hf & En & Hj). unfold archive_verify. rewrite Ho. cbn [bind]. rewrite Hr. cbn [bind]. rewrite Hf. cbn [bind].
  rewrite <- En. rewrite <- (app_nil_r (map fst l)) at 1. rewrite (check_all L why a contents crc _ _ _ (judged_pairs _ _ _ Hj)).
  cbn [check_names]. rewrite combined, plus_none, app_nil_r. unfold lenN. rewrite map_length. reflexivity.
Qed.
Lemma ending crc l : (match failures why l with [] => Ok tt | _ => Err EInvalidFormat end = Ok tt <-> Forall (fun x => is_fine (snd x) = true) l) /\
  t_errors (tally_of why crc l) = failures why l.
Proof.
  split; [|reflexivity]. rewrite Forall_forall, <- forallb_forall, <- (fine_all why). destruct (failures why l); split; easy.
Qed.
Lemma checked_names file contents r l : checked L md5 sha1 rd file contents r l -> Forall (fun x => is_text (fst x) /\ clean (fst x)) l.
Proof.
  intros (a & es & _ & _ & Hf & En & _). apply files_fine in Hf. apply Forall_forall. intros x Hx.
  assert (I : In (fst x) (map fe_name es)) by (rewrite <- En; now apply in_map). apply in_map_iff in I as (e & Ee & He).
  rewrite Forall_forall in Hf. destruct (Hf e He) as [[H1 H2] _]. rewrite <- Ee. now split.
Qed.

Lemma verify_text verbose contents crc path file r l : checked L md5 sha1 rd file contents r l -> countable l ->
  (forall n e, ~ In "010"%byte (why n e)) ->
  (lines_say (fst (archive_verify L md5 sha1 rd show why Text false verbose contents crc path file)) (verify_lines why verbose crc path r l) <->
   ~ In "010"%byte path) /\
  (snd (archive_verify L md5 sha1 rd show why Text false verbose contents crc path file) = Ok tt <-> Forall (fun x => is_fine (snd x) = true) l).
Proof.
  intros Hc [Hl Hs] Hw. rewrite (verify_checked _ _ _ _ _ _ _ _ _ Hc). cbn [fst snd]. split; [|apply (ending crc)].
  cbn [greeting negb andb print_verify]. rewrite !andb_true_r. rewrite text_doc. unfold greeting. cbn [negb andb].
  rewrite <- (whole_text why crc path r l Hl verbose Hs).
  - rewrite !out_app. rewrite out_cons. change (out []) with (@nil byte). rewrite app_nil_r. reflexivity.
  - intros n v Hn. pose proof (checked_names _ _ _ _ Hc) as C. rewrite Forall_forall in C. destruct (C _ Hn) as [_ C2]. split; [exact C2|]. intros e _. apply Hw.
Qed.
Lemma verify_said_json verbose contents crc path file r l : checked L md5 sha1 rd file contents r l -> countable l ->
  writes_json show -> is_text path -> (forall n e, is_text (why n e)) ->
  json_shows (fst (archive_verify L md5 sha1 rd show why Json false verbose contents crc path file)) (verify_fields why crc path r l).
Proof.
  intros Hc [Hl _] Hs Hp Hw. rewrite (verify_checked _ _ _ _ _ _ _ _ _ Hc). cbn [fst]. unfold greeting. cbn [negb andb print_verify].
  rewrite !andb_false_r. cbn [talked app out map concat]. apply (json_said why crc path r l Hl show Hs Hp).
  intros n v Hn. pose proof (checked_names _ _ _ _ Hc) as C. rewrite Forall_forall in C. destruct (C _ Hn) as [C1 _]. split; [exact C1|]. intros e. apply Hw.
Qed.
Lemma verify_said_csv verbose contents crc path file r l : checked L md5 sha1 rd file contents r l -> countable l ->
  exists v t n e w, shown (version_number (i_version (r_info r))) v /\ shown (lenN l) t /\ shown (how_many is_fine l) n /\
  shown (lenN (failures why l)) e /\ shown (lenN (unchecked crc l)) w /\
  (csv_text (verify_rows path v t n e w (forallb (fun x => is_fine (snd x)) l))
     (fst (archive_verify L md5 sha1 rd show why Csv false verbose contents crc path file)) <-> csv_plain path).
Proof.
  intros Hc [Hl _]. rewrite (verify_checked _ _ _ _ _ _ _ _ _ Hc). cbn [fst]. unfold greeting. cbn [negb andb print_verify].
  rewrite !andb_false_r. cbn [talked app out map concat]. exact (csv_said why crc path r l Hl).
Qed.

(** Nothing is printed when quiet *)
Lemma quiet_says form verbose contents crc path file : fst (archive_verify L md5 sha1 rd show why form true verbose contents crc path file) = [].
Proof.
  unfold archive_verify. cbn [negb andb]. rewrite !andb_false_r. cbn [andb].
  destruct (a <- open_archive L file;; _) as [[[a r] names]| |]; [|reflexivity|reflexivity].
  assert (S : forall t, fst (check_names L why a contents crc false names t) = []).
  { induction names as [|n names IH]; intros t; [reflexivity|]. cbn [check_names].
    assert (X : fst (check_name L why a contents crc false n t) = []).
    { unfold check_name. destruct (find_file a n) as [[fi|]| |]; try reflexivity. destruct contents; [|reflexivity]. now destruct (read_file L a n). }
    destruct (check_name L why a contents crc false n t) as [p [u| |]]; cbn [fst] in X; subst p; try reflexivity.
    specialize (IH u). destruct (check_names L why a contents crc false names u). exact IH. }
  specialize (S no_tally). destruct (check_names L why a contents crc false names no_tally) as [p [t| |]]; cbn [fst] in S; subst p; reflexivity.
Qed.

Lemma opened_tables file a : open_archive L file = Ok a -> a_hash a <> None \/ a_het a <> None.
Proof.
  unfold open_archive, open_with_options. destruct (find_header file) as [[[off ud] h]| |]; cbn [bind]; try discriminate.
  intros H. exact (InfoLoad.load_tables_loaded L _ _ H).
Qed.
(** How it ends *)
Lemma outcome form quiet verbose contents crc path file :
  snd (archive_verify L md5 sha1 rd show why form quiet verbose contents crc path file) = Cli.verify L md5 sha1 rd file contents.
Proof.
  unfold archive_verify, Cli.verify. destruct (open_archive L file) as [a|e|] eqn:Ho; cbn [bind]; [|reflexivity|reflexivity].
  destruct (get_info L md5 sha1 rd a) as [i|e|] eqn:Hi; cbn [bind].
  - destruct (report_there L md5 sha1 rd file a i Ho Hi) as (r & Hr & _). rewrite Hr. cbn [bind].
    destruct (list_files L a) as [es|e|]; cbn [bind]; [|reflexivity|reflexivity].
    set (talk := _ && _).
    assert (X : forall names t, match snd (check_names L why a contents crc talk names t), Cli.verify_names L a contents names with
      | Ok u, Ok bad => map fst (t_errors u) = map fst (t_errors t) ++ bad | Err e, Err e' => e = e' | Panic, Panic => True | _, _ => False end).
    { induction names as [|n names IH]; intros t; [cbn; now rewrite app_nil_r|]. cbn [check_names Cli.verify_names]. unfold check_name.
      destruct (find_file a n) as [[fi|]|e|]; cbn [bind snd]; try reflexivity; try exact I.
      - destruct contents; [destruct (read_file L a n) as [d|e|]|]; cbn [bind snd]; try exact I.
        + match goal with |- context [check_names _ _ _ _ _ _ names ?u] => specialize (IH u); destruct (check_names L why a true crc talk names u) as [p [w| |]] end;
            cbn [snd bind] in *; destruct (Cli.verify_names L a true names); cbn [bind]; try exact IH.
        + match goal with |- context [check_names _ _ _ _ _ _ names ?u] => specialize (IH u); destruct (check_names L why a true crc talk names u) as [p [w| |]] end;
            cbn [snd bind] in *; destruct (Cli.verify_names L a true names); cbn [bind]; try exact IH.
          rewrite IH. cbn [t_errors]. rewrite map_app, <- app_assoc. reflexivity.
        + match goal with |- context [check_names _ _ _ _ _ _ names ?u] => specialize (IH u); destruct (check_names L why a false crc talk names u) as [p [w| |]] end;
            cbn [snd bind] in *; destruct (Cli.verify_names L a false names); cbn [bind]; try exact IH.
      - match goal with |- context [check_names _ _ _ _ _ _ names ?u] => specialize (IH u); destruct (check_names L why a contents crc talk names u) as [p [w| |]] end;
          cbn [snd bind] in *; destruct (Cli.verify_names L a contents names); cbn [bind]; try exact IH.
        rewrite IH. cbn [t_errors]. rewrite map_app, <- app_assoc. reflexivity. }
    specialize (X (map fe_name es) no_tally). destruct (check_names L why a contents crc talk (map fe_name es) no_tally) as [p [t|e|]];
      cbn [snd] in *; destruct (Cli.verify_names L a contents (map fe_name es)) as [bad|e'|]; cbn [bind]; try easy.
    + cbn [no_tally t_errors map app] in X. destruct (t_errors t), bad; easy.
    + now subst e'.
  - assert (E : get_report L md5 sha1 rd a = Err e).
    { unfold get_report. pose proof (opened_tables file a Ho) as T. destruct (a_hash a); [cbn [bind]; now rewrite Hi|].
      destruct (a_het a); [cbn [bind]; now rewrite Hi|]. destruct T as [T|T]; now elim T. }
    rewrite E. reflexivity.
  - assert (E : get_report L md5 sha1 rd a = Panic).
    { unfold get_report. pose proof (opened_tables file a Ho) as T. destruct (a_hash a); [cbn [bind]; now rewrite Hi|].
      destruct (a_het a); [cbn [bind]; now rewrite Hi|]. destruct T as [T|T]; now elim T. }
    rewrite E. reflexivity.
Qed.

(** ** Before there is a report *)
Lemma cases file contents : (exists r l, checked L md5 sha1 rd file contents r l) \/ (exists l o, stops L md5 sha1 rd file contents l o).
Proof.
  destruct (open_archive L file) as [a|e|] eqn:Ho.
  2: { right. exists [], (Err e). apply stop_open. rewrite Ho. reflexivity. }
  2: { right. exists [], Panic. apply stop_open. rewrite Ho. exact I. }
  destruct (get_report L md5 sha1 rd a) as [r|e|] eqn:Hr.
  2: { right. exists [], (Err e). apply (stop_report _ _ _ _ _ _ a); [exact Ho|]. rewrite Hr. reflexivity. }
  2: { right. exists [], Panic. apply (stop_report _ _ _ _ _ _ a); [exact Ho|]. rewrite Hr. exact I. }
  destruct (list_files L a) as [es|e|] eqn:Hf.
  2: { right. exists [], (Err e). apply (stop_list _ _ _ _ _ _ a r); [exact Ho|exact Hr|]. rewrite Hf. reflexivity. }
  2: { right. exists [], Panic. apply (stop_list _ _ _ _ _ _ a r); [exact Ho|exact Hr|]. rewrite Hf. exact I. }
  destruct (names_cases L a contents (map fe_name es)) as [(vs & F)|(done & n & rest & vs & o & E & F & S)].
  - left. exists r, (combine (map fe_name es) vs), a, es. split; [exact Ho|]. split; [exact Hr|]. split; [exact Hf|]. clear - F.
    induction F as [|n v ns vs H F [IH1 IH2]]; [split; [reflexivity|apply Forall_nil]|]. cbn [combine map fst]. rewrite IH1. split; [reflexivity|].
    apply Forall_cons; [exact H|exact IH2].
  - right. assert (X : map fst (combine done vs) = done /\ Forall (fun x => judged L a contents (fst x) (snd x)) (combine done vs)).
    { clear - F. induction F as [|m v ns vs H F [IH1 IH2]]; [split; [reflexivity|apply Forall_nil]|]. cbn [combine map fst]. rewrite IH1. split; [reflexivity|].
      apply Forall_cons; [exact H|exact IH2]. }
    destruct X as [X1 X2]. rewrite <- X1 in E. exists (combine done vs), o. destruct o as [u|e|]; cbn [stuck] in S; [destruct S| |].
    + eapply (stop_find _ _ _ _ _ _ a); try eassumption. rewrite S. reflexivity.
    + destruct S as [S|(S1 & S2 & S3)]; [eapply (stop_find _ _ _ _ _ _ a); try eassumption; rewrite S; exact I|].
      eapply (stop_read _ _ _ _ _ _ a); eassumption.
Qed.
Lemma stopped form quiet verbose contents crc path file l o : stops L md5 sha1 rd file contents l o ->
  archive_verify L md5 sha1 rd show why form quiet verbose contents crc path file =
  (greeting form quiet path ++ out (talked why (verbose && negb quiet && match form with Text => true | _ => false end) l), o).
Proof.
  set (talk := verbose && negb quiet && _).
  assert (N0 : out (talked why talk []) = []) by (unfold talked; destruct talk; reflexivity).
  assert (G : forall a r es l n rest o, open_archive L file = Ok a -> get_report L md5 sha1 rd a = Ok r -> list_files L a = Ok es ->
      map fe_name es = map fst l ++ n :: rest -> Forall (fun x => judged L a contents (fst x) (snd x)) l -> stuck L a contents n o ->
      archive_verify L md5 sha1 rd show why form quiet verbose contents crc path file =
      (greeting form quiet path ++ out (talked why talk l), o)).
  { intros a r es l0 n rest o0 Ho Hr Hf E F S. unfold archive_verify. rewrite Ho. cbn [bind]. rewrite Hr. cbn [bind]. rewrite Hf. cbn [bind]. fold talk.
    rewrite E, (check_all L why a contents crc _ _ _ (judged_pairs _ _ _ F)), combined, plus_none.
    destruct (check_stuck L why a contents crc talk n rest (tally_of why crc l0) o0 S) as (u & -> & Hu). rewrite app_nil_r.
    destruct o0 as [?|?|], u as [?|?|]; try contradiction; [now subst|reflexivity]. }
  intros H. destruct H as [o H|a o Ho H|a r o Ho Hr H|a r es l n rest o Ho Hr Hf E F H|a r es l n rest Ho Hr Hf E F H1 H2 H3].
  - rewrite N0, app_nil_r. unfold archive_verify. destruct o as [u|e|]; destruct (open_archive L file) as [x|e'|]; cbn [fails] in H; try contradiction; [now subst|reflexivity].
  - rewrite N0, app_nil_r. unfold archive_verify. rewrite Ho. cbn [bind]. destruct o as [u|e|]; destruct (get_report _ _ _ _ a) as [x|e'|]; cbn [fails] in H; try contradiction; [now subst|reflexivity].
  - rewrite N0, app_nil_r. unfold archive_verify. rewrite Ho. cbn [bind]. rewrite Hr. cbn [bind]. destruct o as [u|e|]; destruct (list_files L a) as [x|e'|]; cbn [fails] in H; try contradiction; [now subst|reflexivity].
  - eapply G; try eassumption. destruct o as [u|e|]; destruct (find_file a n) as [x|e'|] eqn:Ef; cbn [fails] in H; try contradiction; cbn [stuck]; [congruence|now left].
  - eapply G; try eassumption. right. auto.
Qed.
Lemma stops_names file contents l o : stops L md5 sha1 rd file contents l o -> Forall (fun x => clean (fst x)) l.
Proof.
  assert (G : forall a es l n rest, list_files L a = Ok es -> map fe_name es = map fst l ++ n :: rest -> Forall (fun x : bytes * verdict => clean (fst x)) l).
  { intros a es l0 n rest Hf E. apply files_fine in Hf. apply Forall_forall. intros x Hx.
    assert (I : In (fst x) (map fe_name es)) by (rewrite E; apply in_or_app; left; now apply in_map). apply in_map_iff in I as (e & Ee & He).
    rewrite Forall_forall in Hf. destruct (Hf e He) as [[_ H2] _]. now rewrite <- Ee. }
  intros H. destruct H; try apply Forall_nil; eauto.
Qed.
Lemma fails_not_ok {A} (x : res A) o : fails x o -> o <> Ok tt.
Proof. destruct x, o; cbn [fails]; intros H E; (contradiction || discriminate). Qed.
Lemma stops_not_ok file contents l o : stops L md5 sha1 rd file contents l o -> o <> Ok tt.
Proof. intros H. destruct H; try (eapply fails_not_ok; eassumption). discriminate. Qed.
Lemma stopped_text verbose contents crc path file l o : stops L md5 sha1 rd file contents l o -> countable l ->
  (forall n e, ~ In "010"%byte (why n e)) -> ~ In "010"%byte path ->
  lines_say (fst (archive_verify L md5 sha1 rd show why Text false verbose contents crc path file))
    ([word (lit "Verifying archive: " ++ path)] ++ if verbose then map (progress why) l else []) /\
  snd (archive_verify L md5 sha1 rd show why Text false verbose contents crc path file) = o /\ o <> Ok tt.
Proof.
  intros Hs [Hl Hz] Hw Hp. rewrite (stopped _ _ _ _ _ _ _ _ _ Hs). cbn [fst snd]. split; [|split; [reflexivity|]].
  - unfold greeting. cbn [negb andb]. rewrite !andb_true_r.
    change (line (lit "Verifying archive: " ++ path) ++ out (talked why verbose l)) with (out ((lit "Verifying archive: " ++ path) :: talked why verbose l)).
    unfold lines_say. rewrite out_lines.
    + change ((lit "Verifying archive: " ++ path) :: talked why verbose l) with ([lit "Verifying archive: " ++ path] ++ talked why verbose l).
      apply says_app; [constructor; [reflexivity|constructor]|]. now apply talked_says.
    + apply Forall_cons; [apply clean_app; [now apply clean_check|exact Hp]|]. apply talked_clean; [exact Hz|].
      intros n v Hn. pose proof (stops_names _ _ _ _ Hs) as C. rewrite Forall_forall in C. split; [exact (C _ Hn)|]. intros e _. apply Hw.
  - exact (stops_not_ok _ _ _ _ Hs).
Qed.
Lemma stopped_else form verbose contents crc path file l o : stops L md5 sha1 rd file contents l o -> form <> Text ->
  archive_verify L md5 sha1 rd show why form false verbose contents crc path file = ([], o).
Proof.
  intros Hs Hf. rewrite (stopped _ _ _ _ _ _ _ _ _ Hs). unfold greeting. destruct form; [now elim Hf| |]; cbn [negb andb]; rewrite ?andb_false_r; reflexivity.
Qed.

(** ** Checksums: asking for them changes nothing unless the files are read *)
Lemma crc_idle form quiet verbose path file :
  archive_verify L md5 sha1 rd show why form quiet verbose false true path file = archive_verify L md5 sha1 rd show why form quiet verbose false false path file.
Proof.
  unfold archive_verify. destruct (a <- open_archive L file;; _) as [[[a r] names]| |]; [|reflexivity|reflexivity]. set (talk := _ && _).
  assert (E : forall t, check_names L why a false true talk names t = check_names L why a false false talk names t).
  { induction names as [|n names IH]; intros t; [reflexivity|]. cbn [check_names].
    change (check_name L why a false true talk n t) with (check_name L why a false false talk n t).
    destruct (check_name L why a false false talk n t) as [p [u| |]]; [now rewrite IH|reflexivity|reflexivity]. }
  now rewrite E.
Qed.
End Command.

(** ** The counts agree. *)
Lemma counts L a contents l : Forall (fun x => judged L a contents (fst x) (snd x)) l ->
  how_many is_there l + how_many is_gone l = lenN l /\
  how_many is_fine l + how_many is_broken l = how_many is_there l /\
  how_many is_read l = (if contents then how_many is_fine l else 0) /\
  (contents = false -> how_many is_broken l = 0).
Proof.
  induction 1 as [|[n v] l Hx H IH]; [destruct contents; cbn; auto|].
  rewrite !many_cons. cbn [snd fst] in *. replace (lenN ((n, v) :: l)) with (1 + lenN l) by (unfold lenN; cbn [length]; lia).
  destruct IH as (I1 & I2 & I3 & I4). destruct v as [s|e| |]; cbn [is_there is_gone is_fine is_broken is_read judged] in *.
  - destruct Hx as [-> _]. repeat split; try lia; discriminate.
  - destruct Hx as [-> _]. repeat split; try lia; discriminate.
  - destruct Hx as [-> _]. specialize (I4 eq_refl). repeat split; try lia.
  - destruct contents; repeat split; try lia; intros; specialize (I4 ltac:(assumption)); lia.
Qed.
Lemma one_verdict L a contents n v w : judged L a contents n v -> judged L a contents n w -> v = w.
Proof.
  unfold judged, there. destruct v as [s|e| |], w as [s'|e'| |]; intros H1 H2; try reflexivity; try (destruct H1; destruct H2; congruence).
  - destruct H1 as (_ & _ & d & E & <-), H2 as (_ & _ & d' & E' & <-). congruence.
  - destruct H1 as (_ & _ & d & E & _), H2 as (_ & _ & E'). congruence.
  - destruct H1 as (_ & (fi & E) & _). congruence.
  - destruct H1 as (_ & _ & E), H2 as (_ & _ & d & E' & _). congruence.
  - destruct H1 as (_ & _ & E), H2 as (_ & _ & E'). congruence.
  - destruct H1 as (_ & (fi & E) & _). congruence.
  - destruct H1 as (_ & fi & E). congruence.
  - destruct H2 as (_ & (fi & E) & _). congruence.
  - destruct H2 as (_ & (fi & E) & _). congruence.
  - destruct H2 as (_ & fi & E). congruence.
Qed.
