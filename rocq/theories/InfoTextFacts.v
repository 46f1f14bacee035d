(** * Facts about printed inspections *)
From Coq Require Import Lia ZifyBool ZifyNat ZifyN.
From Verif Require Import Bytes Compress BlockTable Header Archive Signature Info CliList CliConfig CliVerbose Percent InfoReport Json CliInfo
  SpecListfile SpecAnon SpecCliList SpecReport SpecPercent SpecHash SpecJson SpecInfoText ReportFacts PercentFacts VerboseFacts JsonFacts CliListFacts.
Open Scope N_scope.

(** ** Reading what was printed *)
Definition clean (t : bytes) : Prop := ~ In "010"%byte t.
Lemma clean_app a b : clean a -> clean b -> clean (a ++ b).
Proof. unfold clean. intros Ha Hb H. apply in_app_or in H. tauto. Qed.
Lemma clean_check t : existsb (beqb "010"%byte) t = false -> clean t.
Proof.
  intros H I. assert (X : existsb (beqb "010"%byte) t = true) by (apply existsb_exists; exists "010"%byte; split; [exact I|reflexivity]). congruence.
Qed.
Lemma shown_clean n t : shown n t -> clean t.
Proof. intros H I. destruct (shown_plain _ _ H _ I) as (_ & _ & X & _). now apply X. Qed.

Lemma lines_line l d : clean l -> lines_of (line l ++ d) = l :: lines_of d.
Proof.
  unfold line. rewrite <- app_assoc. change ([LF] ++ d) with (LF :: d). induction l as [|b l IH]; intros H; [reflexivity|]. cbn [app lines_of].
  assert (E : beqb b "010"%byte = false).
  { destruct (beqb b "010"%byte) eqn:E; [|reflexivity]. apply beqb_eq in E. subst. elim H. now left. }
  rewrite E, IH; [reflexivity|]. intros I. apply H. now right.
Qed.

Definition dsec : Type := bytes * bytes * list (bytes * bytes).
Definition sec_lines (s : dsec) : list bytes :=
  let '(title, rul, rows) := s in title :: rul :: map (fun kv => fst kv ++ lit ": " ++ snd kv) rows.
Definition sec_text (s : dsec) : bytes := concat (map line (sec_lines s)).
Definition doc_text (s : dsec) (rest : list dsec) : bytes := sec_text s ++ concat (map (fun s => line [] ++ sec_text s) rest).
Definition sec_fine (s : dsec) : Prop :=
  let '(title, rul, rows) := s in
  title <> [] /\ clean title /\ rul <> [] /\ clean rul /\
  Forall (fun kv => fst kv <> [] /\ clean (fst kv) /\ (forall v, cut_label (fst kv ++ lit ": " ++ v) = (fst kv, v)) /\ clean (snd kv)) rows.

Lemma lines_concat ls d : Forall clean ls -> lines_of (concat (map line ls) ++ d) = ls ++ lines_of d.
Proof.
  induction 1 as [|l ls Hl _ IH]; [reflexivity|]. cbn [map concat app]. rewrite <- app_assoc, lines_line by exact Hl. now rewrite IH.
Qed.
Lemma sections_full ls : ls <> [] -> Forall (fun l => l <> []) ls -> sections_of ls = [ls].
Proof.
  intros Hn H. induction H as [|l ls Hl H IH]; [now elim Hn|]. destruct l as [|b l]; [now elim Hl|]. cbn [sections_of].
  destruct ls as [|l' ls]; [reflexivity|]. now rewrite IH.
Qed.
Lemma sections_cut ls rest : ls <> [] -> Forall (fun l => l <> []) ls -> sections_of (ls ++ [] :: rest) = ls :: sections_of rest.
Proof.
  intros Hn H. induction H as [|l ls Hl H IH]; [now elim Hn|]. destruct l as [|b l]; [now elim Hl|]. cbn [sections_of app].
  destruct ls as [|l' ls]; [reflexivity|]. rewrite IH by discriminate. reflexivity.
Qed.
Lemma fine_lines s : sec_fine s -> Forall clean (sec_lines s) /\ Forall (fun l => l <> []) (sec_lines s) /\ sec_lines s <> [].
Proof.
  destruct s as [[title rul] rows]. intros (H1 & H2 & H3 & H4 & H5). unfold sec_lines. split; [|split].
  - apply Forall_cons; [exact H2|]. apply Forall_cons; [exact H4|]. rewrite Forall_map. eapply Forall_impl; [|exact H5].
    intros kv (_ & A & _ & B). apply clean_app; [exact A|]. apply clean_app; [|exact B]. now apply clean_check.
  - apply Forall_cons; [exact H1|]. apply Forall_cons; [exact H3|]. rewrite Forall_map. eapply Forall_impl; [|exact H5].
    intros [k v] (A & _) E. cbn [fst snd] in *. destruct k; [now elim A|discriminate].
  - discriminate.
Qed.
Lemma fine_read s : sec_fine s -> read_section (sec_lines s) = (fst (fst s), snd s).
Proof.
  destruct s as [[title rul] rows]. intros (_ & _ & _ & _ & H). cbn [sec_lines read_section fst snd]. f_equal.
  rewrite map_map. induction H as [|[k v] rows (_ & _ & A & _) _ IH]; [reflexivity|]. cbn [map fst snd] in *. now rewrite A, IH.
Qed.
Lemma doc_read s rest : Forall sec_fine (s :: rest) -> read_text (doc_text s rest) = map (fun s => (fst (fst s), snd s)) (s :: rest).
Proof.
  unfold read_text, doc_text. revert s. induction rest as [|s' rest IH]; intros s H; inversion H as [|? ? Hs Hr]; subst;
    destruct (fine_lines _ Hs) as (C & E & N0).
  - cbn [map concat]. unfold sec_text. rewrite (lines_concat _ [] C). cbn [lines_of]. rewrite app_nil_r, sections_full by assumption.
    cbn [map]. now rewrite fine_read.
  - cbn [map concat]. unfold sec_text at 1. rewrite (lines_concat _ _ C). rewrite <- app_assoc, lines_line by (intros []).
    rewrite sections_cut by assumption. cbn [map]. rewrite fine_read by exact Hs. f_equal. now apply IH.
Qed.

(** Values are on one line. *)
Lemma lines_clean d : Forall clean (lines_of d).
Proof.
  induction d as [|b d IH]; [apply Forall_nil|]. cbn [lines_of]. destruct (beqb b "010"%byte) eqn:E.
  - apply Forall_cons; [intros []|exact IH].
  - assert (Hb : b <> "010"%byte) by (intros ->; now rewrite beqb_refl in E).
    destruct (lines_of d) as [|l r]; [apply Forall_cons; [intros [X|[]]; congruence|apply Forall_nil]|].
    inversion IH as [|? ? H1 H2]; subst. apply Forall_cons; [|exact H2]. intros [X|X]; [congruence|now apply H1].
Qed.
Lemma sections_clean ls : Forall clean ls -> Forall (Forall clean) (sections_of ls).
Proof.
  induction 1 as [|l ls Hl H IH]; [apply Forall_nil|]. destruct l as [|b l]; cbn [sections_of].
  - apply Forall_cons; [apply Forall_nil|exact IH].
  - destruct (sections_of ls) as [|s r]; [apply Forall_cons; [apply Forall_cons; [exact Hl|apply Forall_nil]|apply Forall_nil]|].
    inversion IH; subst. apply Forall_cons; [apply Forall_cons; assumption|assumption].
Qed.
Lemma cut_snd l x : In x (snd (cut_label l)) -> In x l.
Proof.
  revert x. induction l as [|b l IH]; intros x; [intros []|]. cbn [cut_label].
  destruct (bytes_eqb _ _); [intros H; rewrite <- (firstn_skipn 2 (b :: l)); apply in_or_app; now right|].
  destruct (cut_label l) as [k v]. intros H. right. now apply IH.
Qed.
Lemma values_clean d s r : In s (read_text d) -> In r (snd s) -> clean (snd r).
Proof.
  unfold read_text. rewrite in_map_iff. intros (sec & <- & Hs) Hr. pose proof (sections_clean _ (lines_clean d)) as C.
  rewrite Forall_forall in C. specialize (C _ Hs). destruct sec as [|title [|rul rows]]; try (destruct Hr).
  cbn [read_section snd] in Hr. apply in_map_iff in Hr as (l & <- & Hl). rewrite Forall_forall in C.
  intros I. apply cut_snd in I. now apply (C l); [right; right|].
Qed.

(** ** Values *)
Lemma hex64_shown n : n < 2 ^ 64 -> hex_shown n (hex64 n).
Proof.
  intros H. destruct (drop_zeros_spec (hex_digits 16 n)) as (A & B & C); [discriminate|]. unfold hex64. split; [exact A|]. split; [|exact C].
  rewrite B, hex_digits_value. f_equal. change (16 ^ N.of_nat 16) with (2 ^ 64). rewrite N.mod_small by exact H. lia.
Qed.
Lemma drop_zeros_in d x : In x (drop_zeros d) -> In x d.
Proof.
  induction d as [|b t IH]; [easy|]. destruct t as [|c t]; [easy|].
  change (drop_zeros (b :: c :: t)) with (if beqb b "0"%byte then drop_zeros (c :: t) else b :: c :: t).
  destruct (beqb b "0"%byte); [|easy]. intros H. right. now apply IH.
Qed.
Lemma hex64_clean n : clean (hex64 n).
Proof. intros H. apply drop_zeros_in in H. apply hex_digits_plain in H. destruct H as (_ & _ & H & _). now apply H. Qed.
Lemma size_clean n : n < 2 ^ 53 -> clean (format_size n).
Proof.
  intros H. destruct (size_right n H) as [[_ S]|(j & u & w & d1 & d2 & tw & t1 & t2 & Hu & _ & _ & _ & _ & S1 & S2 & S3 & -> & _)].
  - exact (shown_clean _ _ S).
  - repeat apply clean_app; try (now apply clean_check); try (eapply shown_clean; eassumption).
    cbn [In] in Hu. repeat (destruct Hu as [Hu|Hu]; [injection Hu as <- <-; now apply clean_check|]). destruct Hu.
Qed.

Definition packed_text (c : option N) : bytes := match c with Some c => lit " (compressed: " ++ decimal c ++ lit " bytes)" | None => [] end.
Definition table_text (t : table_info) : bytes :=
  (if ti_failed t then lit "Failed to load" ++ packed_text (ti_csize t)
   else match ti_size t with Some n => decimal n ++ lit " entries" | None => lit "Unknown size" end) ++
  lit " @ 0x" ++ hex64 (ti_offset t) ++ (if ti_failed t then [] else packed_text (ti_csize t)).
Lemma packed_is c : fits64 c -> packed_in c (packed_text c).
Proof. destruct c as [n|]; [|reflexivity]. intros H. exists (decimal n). split; [now apply decimal_shown|reflexivity]. Qed.
Lemma table_is t : small_table t -> table_value t (table_text t).
Proof.
  intros (H1 & H2 & H3). exists (packed_text (ti_csize t)), (lit "0x" ++ hex64 (ti_offset t)). split; [now apply packed_is|].
  split; [exists (hex64 (ti_offset t)); split; [now apply hex64_shown|reflexivity]|]. unfold table_text.
  destruct (ti_failed t); [rewrite app_nil_r, <- !app_assoc; reflexivity|]. destruct (ti_size t) as [n|].
  - exists (decimal n). split; [now apply decimal_shown|]. rewrite <- !app_assoc. reflexivity.
  - rewrite <- ?app_assoc. reflexivity.
Qed.
Lemma packed_clean c : fits64 c -> clean (packed_text c).
Proof.
  destruct c as [n|]; [|intros _ []]. intros H. apply clean_app; [now apply clean_check|]. apply clean_app; [|now apply clean_check].
  exact (shown_clean _ _ (decimal_shown _ H)).
Qed.
Lemma table_clean t : small_table t -> clean (table_text t).
Proof.
  intros (H1 & H2 & H3). pose proof (packed_clean _ H3) as P. unfold table_text. apply clean_app; [|apply clean_app; [now apply clean_check|]].
  - destruct (ti_failed t); [apply clean_app; [now apply clean_check|exact P]|]. destruct (ti_size t) as [n|]; [|now apply clean_check].
    apply clean_app; [exact (shown_clean _ _ (decimal_shown _ H1))|now apply clean_check].
  - apply clean_app; [apply hex64_clean|]. destruct (ti_failed t); [intros []|exact P].
Qed.

(** ** The text *)
Definition dashes : bytes := repeat "-"%byte 60.
Definition row_if (k : bytes) (t : option table_info) : list (bytes * bytes) := match t with Some t => [(k, table_text t)] | None => [] end.
Definition valid_text (b : bool) : bytes := if b then lit "Valid" else lit "Invalid".
Definition present_text (b : bool) : bytes := if b then lit "Present" else lit "Not present".
Definition info_first (path : bytes) (r : report) : dsec :=
  (lit "Archive Information", repeat "="%byte 60,
   [(lit "Archive path", path); (lit "Archive size", format_size (r_file_size r) ++ lit " bytes");
    (lit "Archive offset", lit "0x" ++ hex64 (r_offset r)); (lit "Format version", lit "v" ++ decimal (version_shown (i_version (r_info r))))]).
Definition info_rest (r : report) : list dsec :=
  let i := r_info r in
  [(lit "File Statistics", dashes,
    [(lit "Number of files", decimal (i_file_count i)); (lit "Maximum file capacity", decimal (i_max_count i));
     (lit "Sector size", decimal (i_sector_size i) ++ lit " bytes")]);
   (lit "Security Information", dashes,
    [(lit "Encrypted", if i_encrypted i then lit "Yes" else lit "No"); (lit "Digital signature", signature_text (i_signature i))]);
   (lit "Table Information", dashes,
    [(lit "Hash table", table_text (r_hash r)); (lit "Block table", table_text (r_block r))] ++
    row_if (lit "HET table") (r_het r) ++ row_if (lit "BET table") (r_bet r) ++ row_if (lit "Hi-block table") (r_hi r));
   (lit "Special Files", dashes,
    [(lit "(attributes) file", present_text (i_has_attributes i)); (lit "(listfile) file", present_text (i_has_listfile i))])] ++
  match r_user r with
  | Some (h, d) => [(lit "User Data", dashes, [(lit "Header size", decimal h ++ lit " bytes"); (lit "Data size", decimal d ++ lit " bytes")])]
  | None => []
  end ++
  match i_md5 i with
  | Some m => [(lit "MD5 Checksums (v4)", dashes,
      [(lit "MPQ header", valid_text (ms_header m)); (lit "Hash table", valid_text (ms_hash m)); (lit "Block table", valid_text (ms_block m));
       (lit "Hi-block table", valid_text (ms_hi m)); (lit "HET table", valid_text (ms_het m)); (lit "BET table", valid_text (ms_bet m))])]
  | None => []
  end.
Lemma table_line_is k t : table_line k t = line (k ++ lit ": " ++ table_text t).
Proof. reflexivity. Qed.
Definition rows_text (rows : list (bytes * bytes)) : bytes := concat (map (fun kv => line (fst kv ++ lit ": " ++ snd kv)) rows).
Lemma rows_if k t : rows_text (row_if k t) = table_line_if k t.
Proof. destruct t as [t|]; [|reflexivity]. cbn [table_line_if]. rewrite table_line_is. exact (app_nil_r _). Qed.
Lemma sec_text_is title rul rows : sec_text (title, rul, rows) = line title ++ line rul ++ rows_text rows.
Proof. unfold sec_text, sec_lines, rows_text. cbn [map concat]. now rewrite map_map. Qed.
Lemma rows_app a b : rows_text (a ++ b) = rows_text a ++ rows_text b.
Proof. unfold rows_text. now rewrite map_app, concat_app. Qed.
Lemma info_text_is path r : print_info_text path r = doc_text (info_first path r) (info_rest r).
Proof.
  unfold print_info_text, doc_text, info_first, info_rest. set (p := r_info r).
  rewrite !map_app, !concat_app. cbn [map concat]. rewrite !sec_text_is, rows_app, (rows_app (row_if _ _)), (rows_app (row_if _ _)), !rows_if.
  unfold rows_text. cbn [map concat fst snd]. rewrite <- !table_line_is. unfold heading, rule, entry, dashes. rewrite ?app_nil_r, <- !app_assoc.
  subst p. destruct (r_user r) as [[h d]|], (i_md5 (r_info r)) as [m|]; cbn [map concat]; rewrite ?sec_text_is; unfold rows_text;
    cbn [map concat fst snd]; rewrite ?app_nil_r, <- ?app_assoc; reflexivity.
Qed.

Lemma label_fine k v : k <> [] -> existsb (beqb "010"%byte) k = false -> (forall v, cut_label (k ++ lit ": " ++ v) = (k, v)) -> clean v ->
  fst (k, v) <> [] /\ clean (fst (k, v)) /\ (forall w, cut_label (fst (k, v) ++ lit ": " ++ w) = (fst (k, v), w)) /\ clean (snd (k, v)).
Proof. intros A B C D. split; [exact A|]. split; [now apply clean_check|]. split; [exact C|exact D]. Qed.
Ltac row := apply Forall_cons; [apply label_fine; [discriminate|reflexivity|intros; reflexivity|]|].
Ltac sec := split; [discriminate|split; [now apply clean_check|split; [discriminate|split; [now apply clean_check|]]]].
Lemma decimal_clean n : n < 2 ^ 64 -> clean (decimal n).
Proof. intros H. exact (shown_clean _ _ (decimal_shown _ H)). Qed.
Lemma version_small v : version_shown v < 2 ^ 64. Proof. destruct v; reflexivity. Qed.
Lemma lit_clean t : existsb (beqb "010"%byte) t = false -> clean t. Proof. exact (clean_check t). Qed.
Lemma row_if_fine k t : k <> [] -> existsb (beqb "010"%byte) k = false -> (forall v, cut_label (k ++ lit ": " ++ v) = (k, v)) ->
  (forall x, t = Some x -> small_table x) -> Forall (fun kv => fst kv <> [] /\ clean (fst kv) /\
    (forall v, cut_label (fst kv ++ lit ": " ++ v) = (fst kv, v)) /\ clean (snd kv)) (row_if k t).
Proof.
  intros A B C D. destruct t as [t|]; [|apply Forall_nil]. apply Forall_cons; [|apply Forall_nil]. apply label_fine; auto. apply table_clean. now apply D.
Qed.

Lemma info_fine path r : clean path -> small_report r -> r_file_size r < 2 ^ 53 -> Forall sec_fine (info_first path r :: info_rest r).
Proof.
  intros Hp (S1 & S2 & S3 & S4 & S5 & S6 & S7 & S8 & S9) Hs. unfold info_rest.
  apply Forall_cons; [sec; row; [exact Hp|]; row; [apply clean_app; [now apply size_clean|now apply clean_check]|];
    row; [apply clean_app; [now apply clean_check|apply hex64_clean]|];
    row; [apply clean_app; [now apply clean_check|apply decimal_clean, version_small]|apply Forall_nil]|].
  apply Forall_app. split; [|apply Forall_app; split].
  - apply Forall_cons; [sec; row; [now apply decimal_clean|]; row; [now apply decimal_clean|];
      row; [apply clean_app; [now apply decimal_clean|now apply clean_check]|apply Forall_nil]|].
    apply Forall_cons; [sec; row; [destruct (i_encrypted _); now apply clean_check|];
      row; [destruct (i_signature _); now apply clean_check|apply Forall_nil]|].
    apply Forall_cons; [sec|].
    { apply Forall_app. split; [row; [now apply table_clean|]; row; [now apply table_clean|apply Forall_nil]|].
      apply Forall_app. split; [|apply Forall_app; split]; (apply row_if_fine; [discriminate|reflexivity|intros; reflexivity|]); intros x Hx; apply S8; auto. }
    apply Forall_cons; [sec; row; [destruct (i_has_attributes _); now apply clean_check|];
      row; [destruct (i_has_listfile _); now apply clean_check|apply Forall_nil]|]. apply Forall_nil.
  - destruct (r_user r) as [[h d]|]; [|apply Forall_nil]. destruct (S9 h d eq_refl) as [Hh Hd]. apply Forall_cons; [sec|apply Forall_nil].
    row; [apply clean_app; [now apply decimal_clean|now apply clean_check]|].
    row; [apply clean_app; [now apply decimal_clean|now apply clean_check]|apply Forall_nil].
  - destruct (i_md5 _) as [m|]; [|apply Forall_nil]. apply Forall_cons; [sec|apply Forall_nil].
    repeat (row; [match goal with |- clean (valid_text ?b) => destruct b end; now apply clean_check|]). apply Forall_nil.
Qed.

Lemma rows_said A B (P : bytes * bytes -> bytes * (bytes -> Prop) -> Prop) (a b : list (bytes * bytes)) (x y : list (bytes * (bytes -> Prop))) :
  A = a ++ b -> B = x ++ y -> Forall2 P a x -> Forall2 P b y -> Forall2 P A B.
Proof. intros -> ->. apply Forall2_app. Qed.
Ltac cell := apply Forall2_cons; [split; [reflexivity|]|].
Lemma if_said k t : (forall x, t = Some x -> small_table x) ->
  Forall2 (fun r x => fst r = fst x /\ snd x (snd r)) (row_if k t) (if_any t (fun t => [(k, table_value t)])).
Proof. intros H. destruct t as [t|]; [|apply Forall2_nil]. cell; [apply table_is; now apply H|apply Forall2_nil]. Qed.

Lemma bytes_said n : n < 2 ^ 64 -> in_bytes n (decimal n ++ lit " bytes").
Proof. intros H. exists (decimal n). split; [now apply decimal_shown|reflexivity]. Qed.
Lemma info_said path r : small_report r -> r_file_size r < 2 ^ 53 ->
  Forall2 (fun s e => fst s = fst e /\ Forall2 (fun r x => fst r = fst x /\ snd x (snd r)) (snd s) (snd e))
    (map (fun s : dsec => (fst (fst s), snd s)) (info_first path r :: info_rest r)) (info_sections path r).
Proof.
  intros (S1 & S2 & S3 & S4 & S5 & S6 & S7 & S8 & S9) Hs. unfold info_sections, info_rest. rewrite map_cons, !map_app.
  apply (Forall2_app (l1 := [_; _; _; _; _]) (l1' := [_; _; _; _; _])); [|apply Forall2_app].
  - cell.
    { cell; [reflexivity|]. cell; [eexists; split; [now apply size_right|reflexivity]|].
      cell; [eexists; split; [now apply hex64_shown|reflexivity]|].
      cell; [eexists; split; [|reflexivity]; destruct (i_version _); now apply decimal_shown|apply Forall2_nil]. }
    cell.
    { cell; [now apply decimal_shown|]. cell; [now apply decimal_shown|]. cell; [now apply bytes_said|apply Forall2_nil]. }
    cell.
    { cell; [reflexivity|]. cell; [destruct (i_signature _); reflexivity|apply Forall2_nil]. }
    cell.
    { cbn [snd]. apply Forall2_app; [cell; [now apply table_is|]; cell; [now apply table_is|apply Forall2_nil]|].
      apply Forall2_app; [|apply Forall2_app]; apply if_said; intros x Hx; apply S8; auto. }
    cell; [|apply Forall2_nil].
    cell; [reflexivity|]. cell; [reflexivity|apply Forall2_nil].
  - destruct (r_user r) as [[h d]|]; [|apply Forall2_nil]. destruct (S9 h d eq_refl) as [Hh Hd]. cell; [|apply Forall2_nil].
    cell; [now apply bytes_said|]. cell; [now apply bytes_said|apply Forall2_nil].
  - destruct (i_md5 _) as [m|]; [|apply Forall2_nil]. cell; [|apply Forall2_nil]. repeat (cell; [reflexivity|]). apply Forall2_nil.
Qed.

Lemma info_text path r : small_report r -> r_file_size r < 2 ^ 53 ->
  text_says (print_info_text path r) (info_sections path r) <-> ~ In "010"%byte path.
Proof.
  intros Hr Hs. split.
  - unfold text_says. intros H.
    assert (X : exists s row, In s (read_text (print_info_text path r)) /\ In row (snd s) /\ snd row = path).
    { inversion H as [|s e ss es (_ & H2) _ E1 E2]; subst. clear H. exists s.
      inversion H2 as [|row x rows xs (_ & H3) _ E3 E4]; subst. cbn [snd] in H3. exists row.
      split; [now left|]. split; [now left|exact H3]. }
    destruct X as (s & row & X1 & X2 & <-). exact (values_clean _ _ _ X1 X2).
  - intros Hp. unfold text_says. rewrite info_text_is, doc_read by now apply info_fine. now apply info_said.
Qed.
