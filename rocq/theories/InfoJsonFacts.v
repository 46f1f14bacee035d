(** * Facts about inspections printed as JSON *)
From Coq Require Import Lia ZifyBool ZifyNat ZifyN.
From Verif Require Import Bytes Compress BlockTable Header Archive Signature Info CliList CliConfig InfoReport Json CliInfo
  SpecListfile SpecCliList SpecReport SpecPercent SpecHash SpecJson SpecInfoText ListfileFacts ReportFacts JsonFacts InfoTextFacts.
Open Scope N_scope.

(** ** Printed values *)
Lemma printed show v : writes_json show -> valid_json v -> exists v', json_document v' (print_json show v) /\ same_json v' v.
Proof.
  intros Hs Hv. destruct (Hs v Hv) as (v' & (w & t & w' & Hw & Ht & Hw' & E) & S). exists v'. split; [|exact S].
  exists w, t, (w' ++ [LF]). split; [exact Hw|]. split; [exact Ht|]. split.
  - apply Forall_app. split; [exact Hw'|]. apply Forall_cons; [right; right; left; reflexivity|apply Forall_nil].
  - unfold print_json, line. rewrite E, <- !app_assoc. reflexivity.
Qed.
Lemma printed_has show v fields : writes_json show -> valid_json v -> (forall p s, In (p, s) fields -> look v (map Member p) = Some s) ->
  json_has (print_json show v) fields.
Proof.
  intros Hs Hv Hf. destruct (printed show v Hs Hv) as (v' & D & S). exists v'. split; [exact D|]. intros p s H. rewrite S. now apply Hf.
Qed.
Lemma printed_same show v w : writes_json show -> valid_json v -> valid_json w -> print_json show v = print_json show w -> same_json v w.
Proof.
  intros Hs Hv Hw E. destruct (printed show v Hs Hv) as (v' & D & S). destruct (printed show w Hs Hw) as (w' & D' & S').
  rewrite E in D. pose proof (one_meaning _ _ _ D D') as X. subst w'. intros p. now rewrite <- S, <- S'.
Qed.

(** ** Tidy values *)
Lemma text_lit t : forallb (fun b => bN b <? 128) t = true -> is_text t.
Proof. intros H. apply text_ascii. apply Forall_forall. intros b Hb. rewrite forallb_forall in H. specialize (H b Hb). lia. Qed.
Definition keys_fine (l : list (bytes * json)) : bool :=
  (fix nodup (ks : list bytes) : bool := match ks with [] => true | k :: t => negb (existsb (bytes_eqb k) t) && nodup t end) (map fst l) &&
  forallb (fun m => forallb (fun b => bN b <? 128) (fst m)) l.
Lemma tidy_members l : keys_fine l = true -> Forall (fun m => valid_json (snd m)) l -> valid_json (JObject l).
Proof.
  unfold keys_fine. intros K V. apply andb_true_iff in K as [K1 K2]. apply tidy_object.
  - revert K1. generalize (map fst l). induction l0 as [|k t IH]; intros H; [constructor|]. apply andb_true_iff in H as [H1 H2].
    constructor; [|now apply IH]. intros I. apply negb_true_iff in H1.
    assert (X : existsb (bytes_eqb k) t = true) by (apply existsb_exists; exists k; split; [exact I|now apply bytes_eqb_eq]). congruence.
  - intros k v Hin. split.
    + rewrite forallb_forall in K2. exact (text_lit _ (K2 _ Hin)).
    + rewrite Forall_forall in V. exact (V _ Hin).
Qed.
Ltac member := apply Forall_cons; [cbn [snd]|].
Lemma tidy_maybe x : fits64 x -> valid_json (j_option JNum x).
Proof. destruct x; [intros H; now apply tidy_num|intros _; constructor]. Qed.
Lemma tidy_table t : small_table t -> valid_json (j_table t).
Proof.
  intros (H1 & H2 & H3). apply tidy_members; [reflexivity|]. member; [now apply tidy_maybe|]. member; [now apply tidy_num|].
  member; [now apply tidy_maybe|]. member; [constructor|apply Forall_nil].
Qed.
Lemma tidy_md5 m : valid_json (j_md5 m).
Proof. apply tidy_members; [reflexivity|]. repeat (member; [constructor|]). apply Forall_nil. Qed.
Lemma status_ascii s : is_text (status_text s).
Proof. destruct s; now apply text_lit. Qed.
Lemma tidy_info path r : is_text path -> small_report r -> valid_json (info_json path r).
Proof.
  intros Hp (S1 & S2 & S3 & S4 & S5 & S6 & S7 & S8 & S9).
  assert (T : forall o, (forall t, o = Some t -> small_table t) -> valid_json (j_option j_table o)).
  { intros [t|] Ht; [apply tidy_table; now apply Ht|constructor]. }
  apply tidy_members; [reflexivity|].
  member; [now apply tidy_text|]. member; [now apply tidy_num|]. member; [now apply tidy_num|]. member; [apply tidy_num, version_small|].
  member; [now apply tidy_num|]. member; [now apply tidy_num|]. member; [now apply tidy_num|]. member; [constructor|]. member; [constructor|].
  member; [apply tidy_text, status_ascii|].
  member.
  { apply tidy_members; [reflexivity|]. member; [now apply tidy_table|]. member; [now apply tidy_table|].
    member; [apply T; intros t Ht; apply S8; auto|]. member; [apply T; intros t Ht; apply S8; auto|]. member; [apply T; intros t Ht; apply S8; auto|].
    apply Forall_nil. }
  member; [apply tidy_members; [reflexivity|]; member; [constructor|]; member; [constructor|apply Forall_nil]|].
  member.
  { destruct (r_user r) as [[h d]|]; [|constructor]. destruct (S9 h d eq_refl). apply tidy_members; [reflexivity|].
    member; [now apply tidy_num|]. member; [now apply tidy_num|apply Forall_nil]. }
  member; [destruct (i_md5 _); [apply tidy_md5|constructor]|apply Forall_nil].
Qed.

(** ** The fields *)
Lemma looked_table name t (v : json) (X : forall q, look v (Member (lit "tables") :: Member name :: q) = look (j_table t) q) :
  forall p s, In (p, s) (table_fields name t) -> look v (map Member p) = Some s.
Proof.
  intros p s H. unfold table_fields in H. cbn [In] in H.
  repeat (destruct H as [H|H]; [injection H as <- <-; cbn [map]; rewrite X; try reflexivity; unfold maybe|]); [| |destruct H].
  - destruct t as [[n|] o c f]; reflexivity.
  - destruct t as [n o [c|] f]; reflexivity.
Qed.
Lemma looked_if name t (v : json) (X : forall q, look v (Member (lit "tables") :: Member name :: q) = look (j_option j_table t) q) :
  forall p s, In (p, s) (table_fields_if name t) -> look v (map Member p) = Some s.
Proof.
  destruct t as [t|]; [exact (looked_table name t v X)|]. intros p s [H|[]]. injection H as <- <-. cbn [map]. rewrite X. reflexivity.
Qed.
Lemma info_looked path r p s : In (p, s) (info_fields path r) -> look (info_json path r) (map Member p) = Some s.
Proof.
  intros H. unfold info_fields in H. apply in_app_or in H as [H|H].
  { cbn [In] in H. repeat (destruct H as [H|H]; [injection H as <- <-; try reflexivity|]).
    destruct H. }
  apply in_app_or in H as [H|H]; [revert H; apply looked_table; reflexivity|].
  apply in_app_or in H as [H|H]; [revert H; apply looked_table; reflexivity|].
  apply in_app_or in H as [H|H]; [revert H; apply looked_if; reflexivity|].
  apply in_app_or in H as [H|H]; [revert H; apply looked_if; reflexivity|].
  apply in_app_or in H as [H|H]; [revert H; apply looked_if; reflexivity|].
  apply in_app_or in H as [H|H].
  - destruct (r_user r) as [[h d]|] eqn:E; cbn [In] in H;
      repeat (destruct H as [H|H]; [injection H as <- <-; cbn; rewrite E; reflexivity|]); destruct H.
  - destruct (i_md5 (r_info r)) as [m|] eqn:E; cbn [In] in H;
      repeat (destruct H as [H|H]; [injection H as <- <-; cbn; rewrite E; reflexivity|]); destruct H.
Qed.
Lemma info_json_says show path r : writes_json show -> is_text path -> small_report r ->
  json_has (print_json show (info_json path r)) (info_fields path r).
Proof. intros Hs Hp Hr. apply printed_has; [exact Hs|now apply tidy_info|apply info_looked]. Qed.

(** ** Nothing is lost *)
Lemma table_back t t' : same_json (j_table t) (j_table t') -> t = t'.
Proof.
  intros S. pose proof (S [Member (lit "size")]) as A. pose proof (S [Member (lit "offset")]) as B.
  pose proof (S [Member (lit "compressed_size")]) as C. pose proof (S [Member (lit "failed_to_load")]) as D.
  destruct t as [s o c f], t' as [s' o' c' f']. cbn in A, B, C, D. injection B as <-. injection D as <-.
  assert (X : s = s') by (destruct s, s'; cbn in A; congruence). assert (Y : c = c') by (destruct c, c'; cbn in C; congruence). now subst.
Qed.
Lemma table_if_back t t' : same_json (j_option j_table t) (j_option j_table t') -> t = t'.
Proof.
  destruct t as [t|], t' as [t'|]; intros S; try reflexivity; try (discriminate (S [])). f_equal. now apply table_back.
Qed.
Lemma info_back path r path' r' : same_json (info_json path r) (info_json path' r') -> path = path' /\ r = r'.
Proof.
  intros S.
  assert (H1 : r_hash r = r_hash r') by (apply table_back; intros q; exact (S (Member (lit "tables") :: Member (lit "hash_table") :: q))).
  assert (H2 : r_block r = r_block r') by (apply table_back; intros q; exact (S (Member (lit "tables") :: Member (lit "block_table") :: q))).
  assert (H3 : r_het r = r_het r') by (apply table_if_back; intros q; exact (S (Member (lit "tables") :: Member (lit "het_table") :: q))).
  assert (H4 : r_bet r = r_bet r') by (apply table_if_back; intros q; exact (S (Member (lit "tables") :: Member (lit "bet_table") :: q))).
  assert (H5 : r_hi r = r_hi r') by (apply table_if_back; intros q; exact (S (Member (lit "tables") :: Member (lit "hi_block_table") :: q))).
  assert (P : path = path') by (pose proof (S [Member (lit "path")]) as X; cbn in X; congruence).
  assert (A1 : r_file_size r = r_file_size r') by (pose proof (S [Member (lit "file_size")]) as X; cbn in X; congruence).
  assert (A2 : r_offset r = r_offset r') by (pose proof (S [Member (lit "archive_offset")]) as X; cbn in X; congruence).
  assert (U : r_user r = r_user r').
  { pose proof (S [Member (lit "user_data")]) as X0. pose proof (S [Member (lit "user_data"); Member (lit "header_size")]) as X1.
    pose proof (S [Member (lit "user_data"); Member (lit "data_size")]) as X2. cbn in X0, X1, X2.
    destruct (r_user r) as [[h d]|], (r_user r') as [[h' d']|]; cbn in X0, X1, X2; congruence. }
  assert (I : r_info r = r_info r').
  { assert (B1 : i_version (r_info r) = i_version (r_info r')).
    { pose proof (S [Member (lit "format_version")]) as X. cbn in X. destruct (i_version (r_info r)), (i_version (r_info r')); cbn in X; congruence. }
    assert (B2 : i_file_count (r_info r) = i_file_count (r_info r')) by (pose proof (S [Member (lit "file_count")]) as X; cbn in X; congruence).
    assert (B3 : i_max_count (r_info r) = i_max_count (r_info r')) by (pose proof (S [Member (lit "max_file_count")]) as X; cbn in X; congruence).
    assert (B4 : i_sector_size (r_info r) = i_sector_size (r_info r')) by (pose proof (S [Member (lit "sector_size")]) as X; cbn in X; congruence).
    assert (B5 : i_encrypted (r_info r) = i_encrypted (r_info r')) by (pose proof (S [Member (lit "is_encrypted")]) as X; cbn in X; congruence).
    assert (B6 : i_has_signature (r_info r) = i_has_signature (r_info r')) by (pose proof (S [Member (lit "has_signature")]) as X; cbn in X; congruence).
    assert (B7 : i_signature (r_info r) = i_signature (r_info r')).
    { pose proof (S [Member (lit "signature_status")]) as X. cbn in X. destruct (i_signature (r_info r)), (i_signature (r_info r')); cbn in X; congruence. }
    assert (B8 : i_has_attributes (r_info r) = i_has_attributes (r_info r'))
      by (pose proof (S [Member (lit "special_files"); Member (lit "has_attributes")]) as X; cbn in X; congruence).
    assert (B9 : i_has_listfile (r_info r) = i_has_listfile (r_info r'))
      by (pose proof (S [Member (lit "special_files"); Member (lit "has_listfile")]) as X; cbn in X; congruence).
    assert (B10 : i_md5 (r_info r) = i_md5 (r_info r')).
    { pose proof (S [Member (lit "md5_status")]) as X0.
      pose proof (S [Member (lit "md5_status"); Member (lit "header_valid")]) as X1.
      pose proof (S [Member (lit "md5_status"); Member (lit "hash_table_valid")]) as X2.
      pose proof (S [Member (lit "md5_status"); Member (lit "block_table_valid")]) as X3.
      pose proof (S [Member (lit "md5_status"); Member (lit "hi_block_table_valid")]) as X4.
      pose proof (S [Member (lit "md5_status"); Member (lit "het_table_valid")]) as X5.
      pose proof (S [Member (lit "md5_status"); Member (lit "bet_table_valid")]) as X6. cbn in X0, X1, X2, X3, X4, X5, X6.
      destruct (i_md5 (r_info r)) as [[m1 m2 m3 m4 m5 m6]|], (i_md5 (r_info r')) as [[n1 n2 n3 n4 n5 n6]|];
        cbn in X0, X1, X2, X3, X4, X5, X6; congruence. }
    destruct (r_info r), (r_info r'); cbn in *. congruence. }
  split; [exact P|]. destruct r, r'; cbn in *. congruence.
Qed.
Lemma info_json_back show path r path' r' : writes_json show -> is_text path -> small_report r -> is_text path' -> small_report r' ->
  print_json show (info_json path r) = print_json show (info_json path' r') -> path = path' /\ r = r'.
Proof.
  intros Hs Hp Hr Hp' Hr' E. apply info_back. apply (printed_same show); [exact Hs|now apply tidy_info|now apply tidy_info|exact E].
Qed.
