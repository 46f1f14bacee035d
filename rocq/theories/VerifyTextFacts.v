(** * Facts about printed verifications *)
From Coq Require Import Lia ZifyBool ZifyNat ZifyN.
From Verif Require Import Bytes Compress Header Archive Signature Info CliList CliConfig CliVerbose InfoReport Json CliInfo CliVerify
  SpecListfile SpecCliList SpecReport SpecJson SpecInfoText SpecVerifyText ListfileFacts ReportFacts CliListFacts JsonFacts InfoTextFacts InfoJsonFacts PrintedFacts.
From Verif Require Cli.
Open Scope N_scope.

(** ** The loop *)
Definition crc_text : bytes := lit "CRC verification requested but not yet implemented for file: ".
Definition tally_of (why : bytes -> error -> bytes) (crc : bool) (l : list (bytes * verdict)) : tally :=
  mkTally (how_many is_fine l) (failures why l) (map (app crc_text) (unchecked crc l))
    (how_many is_there l) (how_many is_read l) (how_many is_gone l) (how_many is_broken l).
Definition plus (t u : tally) : tally :=
  mkTally (t_verified t + t_verified u) (t_errors t ++ t_errors u) (t_warnings t ++ t_warnings u) (t_found t + t_found u)
    (t_readable t + t_readable u) (t_missing t + t_missing u) (t_corrupted t + t_corrupted u).
Definition progress_text (why : bytes -> error -> bytes) (x : bytes * verdict) : bytes :=
  match snd x with
  | Whole s => TICK ++ lit " " ++ fst x ++ lit " (" ++ decimal s ++ lit " bytes)"
  | Known => TICK ++ lit " " ++ fst x
  | Broken e => CROSS ++ lit " " ++ fst x ++ lit " - " ++ why (fst x) e
  | Gone => CROSS ++ lit " " ++ fst x ++ lit " - File not found"
  end.
Definition out (ls : list bytes) : bytes := concat (map line ls).

Lemma many_cons f x l : how_many f (x :: l) = (if f (snd x) then 1 else 0) + how_many f l.
Proof. unfold how_many, lenN. cbn [filter]. destruct (f (snd x)); cbn [length]; lia. Qed.
Lemma tally_cons why crc x l : tally_of why crc (x :: l) = plus (tally_of why crc [x]) (tally_of why crc l).
Proof.
  unfold tally_of, plus. cbn [t_verified t_errors t_warnings t_found t_readable t_missing t_corrupted]. rewrite !many_cons.
  unfold failures at 1. cbn [flat_map]. f_equal; try (unfold how_many, lenN; cbn [filter length]; lia).
  - unfold failures. cbn [flat_map]. rewrite app_nil_r. reflexivity.
  - unfold unchecked. destruct crc; [|reflexivity]. cbn [filter]. destruct (is_read (snd x)); reflexivity.
Qed.
Lemma plus_assoc t u v : plus (plus t u) v = plus t (plus u v).
Proof. unfold plus. cbn [t_verified t_errors t_warnings t_found t_readable t_missing t_corrupted]. rewrite <- !app_assoc, <- !N.add_assoc. reflexivity. Qed.
Lemma plus_none t : plus no_tally t = t.
Proof. destruct t. reflexivity. Qed.
Lemma plus_empty t why crc : plus t (tally_of why crc []) = t.
Proof.
  destruct t. unfold plus, tally_of. cbn. change (lenN []) with 0. unfold how_many, unchecked. cbn [filter lenN length N.of_nat].
  destruct crc; cbn [filter map]; rewrite !N.add_0_r, !app_nil_r; reflexivity.
Qed.

Section Loop.
Variable L : codecs.
Variable why : bytes -> error -> bytes.

Lemma check_judged a contents crc talk n v t : judged L a contents n v ->
  check_name L why a contents crc talk n t = (if talk then line (progress_text why (n, v)) else [], Ok (plus t (tally_of why crc [(n, v)]))).
Proof.
  assert (E : tally_of why crc [(n, v)] =
    match v with
    | Whole _ => mkTally 1 [] (if crc then [crc_text ++ n] else []) 1 1 0 0
    | Broken e => mkTally 0 [(n, why n e)] [] 1 0 0 1
    | Known => mkTally 1 [] [] 1 0 0 0
    | Gone => mkTally 0 [(n, lit "File not found in tables")] [] 0 0 1 0
    end) by (destruct v, crc; reflexivity).
  rewrite E. clear E. unfold judged, there, check_name, plus, progress_text. cbn [fst snd]. destruct v as [s|e| |]; intros H.
  - destruct H as (-> & (fi & ->) & d & -> & <-). cbn [t_verified t_errors t_warnings t_found t_readable t_missing t_corrupted].
    rewrite ?N.add_0_r, ?app_nil_r. reflexivity.
  - destruct H as (-> & (fi & ->) & ->). cbn [t_verified t_errors t_warnings t_found t_readable t_missing t_corrupted].
    rewrite ?N.add_0_r, ?app_nil_r. reflexivity.
  - destruct H as (-> & (fi & ->)). cbn [t_verified t_errors t_warnings t_found t_readable t_missing t_corrupted].
    rewrite ?N.add_0_r, ?app_nil_r. reflexivity.
  - rewrite H. cbn [t_verified t_errors t_warnings t_found t_readable t_missing t_corrupted]. rewrite ?N.add_0_r, ?app_nil_r. reflexivity.
Qed.
Definition talked (talk : bool) (l : list (bytes * verdict)) : list bytes := if talk then map (progress_text why) l else [].
Lemma check_all a contents crc talk names vs : Forall2 (judged L a contents) names vs -> forall rest t,
  check_names L why a contents crc talk (names ++ rest) t =
  (let (p, u) := check_names L why a contents crc talk rest (plus t (tally_of why crc (combine names vs))) in
   (out (talked talk (combine names vs)) ++ p, u)).
Proof.
  induction 1 as [|n v names vs Hj _ IH]; intros rest t.
  - cbn [app combine]. rewrite plus_empty. destruct talk; cbn; now destruct (check_names _ _ _ _ _ _ _ _).
  - cbn [app check_names combine]. rewrite (check_judged _ _ _ _ _ _ _ Hj). rewrite IH, plus_assoc, <- tally_cons.
    destruct (check_names _ _ _ _ _ _ _ _) as [p u]. destruct talk; cbn [talked map out concat app]; [rewrite <- app_assoc|]; reflexivity.
Qed.
Lemma judged_or a contents n : (exists v, judged L a contents n v) \/
  (exists e, find_file a n = Err e) \/ find_file a n = Panic \/ (contents = true /\ there a n /\ read_file L a n = Panic).
Proof.
  destruct (find_file a n) as [[fi|]|e|] eqn:E.
  - destruct contents; [|left; exists Known; split; [reflexivity|now exists fi]].
    destruct (read_file L a n) as [d|e|] eqn:R.
    + left. exists (Whole (lenN d)). split; [reflexivity|]. split; [now exists fi|]. now exists d.
    + left. exists (Broken e). split; [reflexivity|]. split; [now exists fi|exact R].
    + right. right. right. split; [reflexivity|]. split; [now exists fi|reflexivity].
  - left. now exists Gone.
  - right. left. now exists e.
  - right. right. now left.
Qed.
(** The first name that stops the loop *)
Definition stuck (a : archive) (contents : bool) (n : bytes) (r : res unit) : Prop :=
  match r with
  | Ok _ => False
  | Err e => find_file a n = Err e
  | Panic => find_file a n = Panic \/ (contents = true /\ there a n /\ read_file L a n = Panic)
  end.
Lemma names_cases a contents names : (exists vs, Forall2 (judged L a contents) names vs) \/
  (exists done n rest vs r, names = done ++ n :: rest /\ Forall2 (judged L a contents) done vs /\ stuck a contents n r).
Proof.
  induction names as [|n names IH]; [left; exists []; constructor|].
  destruct (judged_or a contents n) as [[v Hv]|H].
  - destruct IH as [(vs & H)|(done & m & rest & vs & r & -> & F & S)].
    + left. exists (v :: vs). now constructor.
    + right. exists (n :: done), m, rest, (v :: vs), r. split; [reflexivity|]. split; [now constructor|exact S].
  - right. exists [], n, names, []. destruct H as [(e & H)|H].
    + exists (Err e). split; [reflexivity|]. split; [constructor|exact H].
    + exists Panic. split; [reflexivity|]. split; [constructor|exact H].
Qed.
Lemma check_stuck a contents crc talk n rest t r : stuck a contents n r ->
  exists u, check_names L why a contents crc talk (n :: rest) t = ([], u) /\
  match r, u with Err e, Err e' => e = e' | Panic, Panic => True | _, _ => False end.
Proof.
  intros H. cbn [check_names]. unfold check_name. destruct r as [u|e|]; [destruct H| |]; cbn [stuck] in H.
  - rewrite H. now exists (Err e).
  - destruct H as [H|(-> & (fi & H) & R)]; [rewrite H|rewrite H, R]; now exists Panic.
Qed.
End Loop.

(** ** Printing as text *)
Lemma out_app a b : out (a ++ b) = out a ++ out b.
Proof. unfold out. now rewrite map_app, concat_app. Qed.
Definition opt {A} (x : option A) (f : A -> list bytes) : list bytes := match x with Some a => f a | None => [] end.
Definition head_lines (t : bytes) : list bytes := [[]; t; repeat "-"%byte 60].
Definition warn_lines (ws : list bytes) : list bytes :=
  match ws with [] => [] | ws => [[]; lit "Warnings:"] ++ map (fun w => lit "  " ++ ALERT ++ lit " " ++ w) ws end.
Definition fail_lines (es : list (bytes * bytes)) : list bytes :=
  match es with [] => [] | es => [[]; lit "Errors:"] ++ map (fun fe => lit "  " ++ CROSS ++ lit " " ++ fst fe ++ lit " - " ++ snd fe) es end.
Definition digest_lines (m : md5_status) : list bytes :=
  head_lines (lit "MD5 Checksum Verification (v4)") ++
    [lit "Header MD5:         " ++ valid_word (ms_header m);
     lit "Hash Table MD5:     " ++ valid_word (ms_hash m);
     lit "Block Table MD5:    " ++ valid_word (ms_block m);
     lit "Hi-Block Table MD5: " ++ valid_word (ms_hi m);
     lit "HET Table MD5:      " ++ valid_word (ms_het m);
     lit "BET Table MD5:      " ++ valid_word (ms_bet m)].
Definition verify_doc (path : bytes) (r : report) (total : N) (t : tally) : list bytes :=
  let i := r_info r in
  [[]; lit "Archive Verification Report"; repeat "="%byte 60;
   lit "Archive: " ++ path; lit "Format: MPQ v" ++ decimal (version_shown (i_version i))] ++
  head_lines (lit "Header Verification") ++
  [lit "MPQ Signature:      " ++ valid_word true;
   lit "Format Version:     Supported (v" ++ decimal (version_shown (i_version i)) ++ lit ")";
   lit "Digital Signature:  " ++ signature_text (i_signature i)] ++
  head_lines (lit "Table Verification") ++
  [lit "Hash Table:         " ++ loaded_word (negb (ti_failed (r_hash r)));
   lit "Block Table:        " ++ loaded_word (negb (ti_failed (r_block r)))] ++
  opt (r_het r) (fun t => [lit "HET Table:          " ++ loaded_word (negb (ti_failed t))]) ++
  opt (r_bet r) (fun t => [lit "BET Table:          " ++ loaded_word (negb (ti_failed t))]) ++
  opt (i_md5 i) digest_lines ++
  head_lines (lit "File Verification Summary") ++
  [lit "Total Files:        " ++ decimal total;
   lit "Files Found:        " ++ decimal (t_found t);
   lit "Files Readable:     " ++ decimal (t_readable t);
   lit "Files Missing:      " ++ decimal (t_missing t);
   lit "Files Corrupted:    " ++ decimal (t_corrupted t);
   [];
   lit "Verified:           " ++ decimal (t_verified t) ++ lit " / " ++ decimal total ++ lit " (" ++
        decimal (t_verified t * 100 / N.max total 1) ++ lit "%)"] ++
  warn_lines (t_warnings t) ++ fail_lines (t_errors t) ++
  [[]; lit "Overall Status"; repeat "="%byte 60;
   match t_errors t with [] => TICK ++ lit " Archive verification PASSED" | _ => CROSS ++ lit " Archive verification FAILED" end].

Lemma out_cons x l : out (x :: l) = line x ++ out l.
Proof. reflexivity. Qed.
Lemma out_one x : out [x] = line x.
Proof. apply app_nil_r. Qed.
Lemma out_map {A} (f : A -> bytes) l : concat (map (fun x => line (f x)) l) = out (map f l).
Proof. unfold out. now rewrite map_map. Qed.
Lemma text_doc path r total t : print_verify_text path r total t = out (verify_doc path r total t).
Proof.
  unfold print_verify_text, verify_doc, rule.
  assert (Hh : forall t, heading t = out (head_lines t)) by (intros x; unfold heading, head_lines, rule; rewrite !out_cons, app_nil_r; reflexivity).
  assert (Ho : forall k x, loaded_line k (loaded_if x) = out (opt x (fun t => [k ++ loaded_word (negb (ti_failed t))])))
    by (intros k [x|]; [symmetry; apply app_nil_r|reflexivity]).
  match goal with |- context [match i_md5 (r_info r) with Some m => @?F m | None => [] end] =>
    set (M := match i_md5 (r_info r) with Some m => F m | None => [] end) end.
  match goal with |- context [match t_warnings t with [] => [] | b :: l => @?F b l end ++ _] =>
    set (W := match t_warnings t with [] => [] | b :: l => F b l end) end.
  match goal with |- context [match t_errors t with [] => [] | b :: l => @?F b l end ++ _] =>
    set (V := match t_errors t with [] => [] | b :: l => F b l end) end.
  assert (HM : M = out (opt (i_md5 (r_info r)) digest_lines)).
  { subst M. destruct (i_md5 (r_info r)) as [m|]; [|reflexivity]. cbn [opt]. unfold digest_lines. rewrite out_app, <- Hh, !out_cons. rewrite app_nil_r. reflexivity. }
  assert (HW : W = out (warn_lines (t_warnings t))).
  { subst W. destruct (t_warnings t) as [|w ws]; [reflexivity|]. unfold warn_lines. rewrite out_app, <- out_map, !out_cons, app_nil_r, <- app_assoc. reflexivity. }
  assert (HV : V = out (fail_lines (t_errors t))).
  { subst V. destruct (t_errors t) as [|w ws]; [reflexivity|]. unfold fail_lines. rewrite out_app, <- out_map, !out_cons, app_nil_r, <- app_assoc. reflexivity. }
  rewrite HM, HW, HV. clearbody M W V. rewrite !out_app, !Ho, !Hh. clear.
  rewrite !out_cons. change (out []) with (@nil byte). rewrite !app_nil_r.
  rewrite <- ?app_assoc. reflexivity.
Qed.

Fixpoint breaks (d : bytes) : nat := match d with [] => 0 | b :: t => (if beqb b "010"%byte then 1 else 0) + breaks t end.
Lemma breaks_app a b : breaks (a ++ b) = (breaks a + breaks b)%nat.
Proof. induction a as [|x a IH]; [reflexivity|]. cbn [app breaks]. rewrite IH. lia. Qed.
Lemma breaks_clean d : breaks d = 0%nat -> clean d.
Proof.
  induction d as [|b d IH]; [intros _ []|]. cbn [breaks]. destruct (beqb b "010"%byte) eqn:E; [discriminate|]. intros H [X|X]; [|now apply IH].
  subst. now rewrite beqb_refl in E.
Qed.
Lemma lines_count d e : length (lines_of (d ++ "010"%byte :: e)) = (S (breaks d) + length (lines_of e))%nat.
Proof.
  induction d as [|b d IH]; [reflexivity|]. cbn [app lines_of breaks]. destruct (beqb b "010"%byte); cbn [length]; [lia|].
  destruct (lines_of (d ++ "010"%byte :: e)) as [|l r]; [cbn [length] in *; lia|]. cbn [length] in *. lia.
Qed.
Lemma out_count ls : length (lines_of (out ls)) = (length ls + fold_right (fun l n => breaks l + n) 0 ls)%nat.
Proof.
  induction ls as [|l ls IH]; [reflexivity|]. rewrite out_cons. unfold line. rewrite <- app_assoc.
  change ([LF] ++ out ls) with ("010"%byte :: out ls). rewrite lines_count, IH. cbn [length fold_right]. lia.
Qed.
Lemma F2_len {A B} (P : A -> B -> Prop) l m : Forall2 P l m -> length l = length m.
Proof. induction 1; cbn [length]; congruence. Qed.
Lemma out_clean ls (ps : list (bytes -> Prop)) : lines_say (out ls) ps -> length ls = length ps -> Forall clean ls.
Proof.
  intros H E. apply F2_len in H. rewrite out_count in H.
  assert (X : fold_right (fun l n => breaks l + n)%nat 0%nat ls = 0%nat) by lia. clear - X. induction ls as [|l ls IH]; [apply Forall_nil|].
  cbn [fold_right] in X. apply Forall_cons; [apply breaks_clean; lia|apply IH; lia].
Qed.
Lemma out_lines ls : Forall clean ls -> lines_of (out ls) = ls.
Proof. intros H. pose proof (lines_concat ls [] H) as X. rewrite !app_nil_r in X. exact X. Qed.

Lemma many_le f l : how_many f l <= lenN l.
Proof. unfold how_many, lenN. induction l as [|x l IH]; [apply N.le_refl|]. cbn [filter]. destruct (f (snd x)); cbn [length] in *; lia. Qed.
Lemma says_app ls ms ps qs : Forall2 (fun (l : bytes) (P : bytes -> Prop) => P l) ls ps -> Forall2 (fun (l : bytes) (P : bytes -> Prop) => P l) ms qs ->
  Forall2 (fun (l : bytes) (P : bytes -> Prop) => P l) (ls ++ ms) (ps ++ qs).
Proof. apply Forall2_app. Qed.
Lemma said_map {A} (f : A -> bytes) (g : A -> bytes -> Prop) l : (forall x, In x l -> g x (f x)) ->
  Forall2 (fun (l : bytes) (P : bytes -> Prop) => P l) (map f l) (map g l).
Proof.
  induction l as [|x l IH]; intros H; [constructor|]. cbn [map]. constructor; [apply H; now left|]. apply IH. intros y Hy. apply H. now right.
Qed.
Lemma label_said k s j w (P : bytes -> Prop) : s = k ++ lit ":" ++ repeat " "%byte (S j) -> P w -> labelled k P (s ++ w).
Proof. intros -> H. exists j, w. split; [|exact H]. now rewrite <- !app_assoc. Qed.
Definition sizes_small (l : list (bytes * verdict)) : Prop := Forall (fun x => match snd x with Whole s => s < 2 ^ 64 | _ => True end) l.

Section Said.
Variable why : bytes -> error -> bytes.
Variables (crc : bool) (path : bytes) (r : report) (l : list (bytes * verdict)).
Hypothesis Hl : lenN l < 2 ^ 57.

Lemma talked_says verbose : sizes_small l ->
  Forall2 (fun (l : bytes) (P : bytes -> Prop) => P l) (talked why verbose l) (if verbose then map (progress why) l else []).
Proof.
  clear Hl. intros H. unfold talked. destruct verbose; [|constructor]. induction H as [|[n v] l0 Hs _ IH]; [constructor|]. cbn [map].
  constructor; [|exact IH]. unfold progress, progress_text. cbn [snd fst] in *. destruct v as [s|e| |]; try reflexivity.
  exists (decimal s). split; [now apply decimal_shown|reflexivity].
Qed.
Lemma percent_fine p : p = how_many is_fine l * 100 / N.max (lenN l) 1 ->
  p < 2 ^ 64 /\ (l <> [] -> p * lenN l <= 100 * how_many is_fine l < (p + 1) * lenN l) /\ (l = [] -> p = 0).
Proof.
  intros E. pose proof (many_le is_fine l) as M. set (v := how_many is_fine l) in *. set (n := lenN l) in *.
  pose proof (N.div_mod (v * 100) (N.max n 1) ltac:(lia)) as D. pose proof (N.mod_lt (v * 100) (N.max n 1) ltac:(lia)) as B.
  rewrite <- E in D. split; [|split].
  - assert (p <= v * 100) by (rewrite E; apply N.div_le_upper_bound; [lia|]; nia). change (2 ^ 57) with 144115188075855872 in Hl.
    change (2 ^ 64) with 18446744073709551616. lia.
  - intros X. assert (0 < n) by (unfold n, lenN; destruct l; [now elim X|cbn [length]; lia]).
    rewrite N.max_l in D, B by lia. clear - D B. split; nia.
  - intros ->. rewrite E. reflexivity.
Qed.
Lemma version_eq v : shown (version_number v) (decimal (version_shown v)).
Proof. clear. destruct v; apply decimal_shown; reflexivity. Qed.

Definition report_lines : list (bytes -> Prop) :=
  let i := r_info r in
  [word []; word (lit "Archive Verification Report"); word (repeat "="%byte 60);
   word (lit "Archive: " ++ path); after_text (lit "Format: MPQ v") (shown (version_number (i_version i)))] ++
  title (lit "Header Verification") ++
  [labelled (lit "MPQ Signature") (word (lit "Valid"));
   labelled (lit "Format Version") (fun t => exists d, shown (version_number (i_version i)) d /\ t = lit "Supported (v" ++ d ++ lit ")");
   labelled (lit "Digital Signature") (word (signature_words (i_signature i)))] ++
  title (lit "Table Verification") ++
  [labelled (lit "Hash Table") (success (negb (ti_failed (r_hash r)))); labelled (lit "Block Table") (success (negb (ti_failed (r_block r))))] ++
  if_any (r_het r) (fun t => [labelled (lit "HET Table") (success (negb (ti_failed t)))]) ++
  if_any (r_bet r) (fun t => [labelled (lit "BET Table") (success (negb (ti_failed t)))]) ++
  if_any (i_md5 i) (fun m =>
    title (lit "MD5 Checksum Verification (v4)") ++
    [labelled (lit "Header MD5") (validity (ms_header m)); labelled (lit "Hash Table MD5") (validity (ms_hash m));
     labelled (lit "Block Table MD5") (validity (ms_block m)); labelled (lit "Hi-Block Table MD5") (validity (ms_hi m));
     labelled (lit "HET Table MD5") (validity (ms_het m)); labelled (lit "BET Table MD5") (validity (ms_bet m))]) ++
  title (lit "File Verification Summary") ++
  [labelled (lit "Total Files") (shown (lenN l)); labelled (lit "Files Found") (shown (how_many is_there l));
   labelled (lit "Files Readable") (shown (how_many is_read l)); labelled (lit "Files Missing") (shown (how_many is_gone l));
   labelled (lit "Files Corrupted") (shown (how_many is_broken l));
   word [];
   labelled (lit "Verified") (fun t => exists a b p q, shown (how_many is_fine l) a /\ shown (lenN l) b /\ shown p q /\
     (l <> [] -> p * lenN l <= 100 * how_many is_fine l < (p + 1) * lenN l) /\ (l = [] -> p = 0) /\
     t = a ++ lit " / " ++ b ++ lit " (" ++ q ++ lit "%)")] ++
  match unchecked crc l with
  | [] => []
  | ns => [word []; word (lit "Warnings:")] ++
          map (fun n => word (lit "  " ++ alert ++ lit " CRC verification requested but not yet implemented for file: " ++ n)) ns
  end ++
  match failures why l with
  | [] => []
  | fs => [word []; word (lit "Errors:")] ++ map (fun f => word (lit "  " ++ cross ++ lit " " ++ fst f ++ lit " - " ++ snd f)) fs
  end ++
  [word []; word (lit "Overall Status"); word (repeat "="%byte 60);
   word (match failures why l with [] => tick ++ lit " Archive verification PASSED" | _ => cross ++ lit " Archive verification FAILED" end)].
Lemma expected_split verbose : verify_lines why verbose crc path r l =
  [word (lit "Verifying archive: " ++ path)] ++ (if verbose then map (progress why) l else []) ++ report_lines.
Proof. reflexivity. Qed.

Lemma doc_says : Forall2 (fun (l : bytes) (P : bytes -> Prop) => P l) (verify_doc path r (lenN l) (tally_of why crc l)) report_lines.
Proof.
  assert (B : forall n, n <= lenN l -> shown n (decimal n)).
  { intros n H. apply decimal_shown. eapply N.le_lt_trans; [exact H|]. eapply N.lt_trans; [exact Hl|reflexivity]. }
  assert (Q : forall b, valid_word b = if b then lit "Valid" else lit "Invalid") by reflexivity.
  unfold verify_doc, report_lines. cbn [tally_of t_verified t_errors t_warnings t_found t_readable t_missing t_corrupted].
  apply says_app.
  { constructor; [reflexivity|]. constructor; [reflexivity|]. constructor; [reflexivity|]. constructor; [reflexivity|]. constructor; [|constructor].
    exists (decimal (version_shown (i_version (r_info r)))). split; [reflexivity|apply version_eq]. }
  apply says_app; [repeat (constructor; [reflexivity|]); constructor|].
  apply says_app.
  { constructor; [apply (label_said _ _ 5); reflexivity|]. constructor.
    - change (lit "Format Version:     Supported (v") with (lit "Format Version:     " ++ lit "Supported (v"). rewrite <- app_assoc.
      apply (label_said _ _ 4); [reflexivity|]. eexists. split; [apply version_eq|reflexivity].
    - constructor; [apply (label_said _ _ 1); [reflexivity|destruct (i_signature _); reflexivity]|constructor]. }
  apply says_app; [repeat (constructor; [reflexivity|]); constructor|].
  apply says_app.
  { constructor; [apply (label_said _ _ 8); [reflexivity|destruct (negb _); reflexivity]|].
    constructor; [apply (label_said _ _ 7); [reflexivity|destruct (negb _); reflexivity]|constructor]. }
  apply says_app.
  { destruct (r_het r); [|constructor]. constructor; [apply (label_said _ _ 9); [reflexivity|destruct (negb _); reflexivity]|constructor]. }
  apply says_app.
  { destruct (r_bet r); [|constructor]. constructor; [apply (label_said _ _ 9); [reflexivity|destruct (negb _); reflexivity]|constructor]. }
  apply says_app.
  { destruct (i_md5 (r_info r)) as [m|]; [|constructor]. cbn [opt if_any]. unfold digest_lines.
    apply says_app; [repeat (constructor; [reflexivity|]); constructor|].
    constructor; [apply (label_said _ _ 8); reflexivity|]. constructor; [apply (label_said _ _ 4); reflexivity|].
    constructor; [apply (label_said _ _ 3); reflexivity|]. constructor; [apply (label_said _ _ 0); reflexivity|].
    constructor; [apply (label_said _ _ 5); reflexivity|]. constructor; [apply (label_said _ _ 5); reflexivity|]. constructor. }
  apply says_app; [repeat (constructor; [reflexivity|]); constructor|].
  apply says_app.
  { constructor; [apply (label_said _ _ 7); [reflexivity|apply B, N.le_refl]|].
    constructor; [apply (label_said _ _ 7); [reflexivity|apply B, many_le]|].
    constructor; [apply (label_said _ _ 4); [reflexivity|apply B, many_le]|].
    constructor; [apply (label_said _ _ 5); [reflexivity|apply B, many_le]|].
    constructor; [apply (label_said _ _ 3); [reflexivity|apply B, many_le]|].
    constructor; [reflexivity|]. constructor; [|constructor].
    apply (label_said _ _ 10); [reflexivity|].
    destruct (percent_fine _ eq_refl) as (P1 & P2 & P3).
    exists (decimal (how_many is_fine l)), (decimal (lenN l)), (how_many is_fine l * 100 / N.max (lenN l) 1), (decimal (how_many is_fine l * 100 / N.max (lenN l) 1)).
    split; [apply B, many_le|]. split; [apply B, N.le_refl|]. split; [now apply decimal_shown|]. split; [exact P2|]. split; [exact P3|reflexivity]. }
  apply says_app.
  { clear. destruct (unchecked crc l) as [|n ns]; [constructor|]. 
    change (warn_lines (map (app crc_text) (n :: ns))) with
      ([[]; lit "Warnings:"] ++ map (fun w => lit "  " ++ ALERT ++ lit " " ++ w) (map (app crc_text) (n :: ns))). rewrite map_map.
    apply says_app; [constructor; [reflexivity|]; constructor; [reflexivity|constructor]|]. apply said_map. intros x _. reflexivity. }
  apply says_app.
  { clear. destruct (failures why l) as [|f fs]; [constructor|]. unfold fail_lines.
    apply says_app; [constructor; [reflexivity|]; constructor; [reflexivity|constructor]|]. apply said_map. intros x _. reflexivity. }
  constructor; [reflexivity|]. constructor; [reflexivity|]. constructor; [reflexivity|]. constructor; [|constructor].
  destruct (failures why l); reflexivity.
Qed.

Definition reasons_clean : Prop := forall n v, In (n, v) l -> clean n /\ forall e, v = Broken e -> clean (why n e).
Lemma doc_clean : clean path -> reasons_clean -> Forall clean (verify_doc path r (lenN l) (tally_of why crc l)).
Proof.
  intros Hp Hc.
  assert (B : forall n, n <= lenN l -> clean (decimal n)).
  { intros n H. apply (shown_clean n), decimal_shown. eapply N.le_lt_trans; [exact H|]. eapply N.lt_trans; [exact Hl|reflexivity]. }
  assert (Vr : forall v, clean (decimal (version_shown v))) by (intros []; now apply clean_check).
  assert (Hd : forall t, clean t -> Forall clean (head_lines t)).
  { intros t Ht. apply Forall_cons; [intros []|]. apply Forall_cons; [exact Ht|]. apply Forall_cons; [now apply clean_check|apply Forall_nil]. }
  assert (W1 : forall b, clean (valid_word b)) by (intros []; now apply clean_check).
  assert (W2 : forall b, clean (loaded_word b)) by (intros []; now apply clean_check).
  assert (K : forall a b, existsb (beqb "010"%byte) (lit a) = false -> clean b -> clean (lit a ++ b)).
  { intros a b H1 H2. apply clean_app; [now apply clean_check|exact H2]. }
  unfold verify_doc. cbn [tally_of t_verified t_errors t_warnings t_found t_readable t_missing t_corrupted].
  apply Forall_app. split.
  { apply Forall_cons; [intros []|]. apply Forall_cons; [now apply clean_check|]. apply Forall_cons; [now apply clean_check|].
    apply Forall_cons; [now apply K|]. apply Forall_cons; [now apply K|apply Forall_nil]. }
  apply Forall_app. split; [apply Hd; now apply clean_check|].
  apply Forall_app. split.
  { apply Forall_cons; [now apply K|]. apply Forall_cons; [apply K; [reflexivity|apply clean_app; [apply Vr|now apply clean_check]]|].
    apply Forall_cons; [apply K; [reflexivity|destruct (i_signature _); now apply clean_check]|apply Forall_nil]. }
  apply Forall_app. split; [apply Hd; now apply clean_check|].
  apply Forall_app. split; [apply Forall_cons; [now apply K|]; apply Forall_cons; [now apply K|apply Forall_nil]|].
  apply Forall_app. split; [destruct (r_het r); [apply Forall_cons; [now apply K|apply Forall_nil]|apply Forall_nil]|].
  apply Forall_app. split; [destruct (r_bet r); [apply Forall_cons; [now apply K|apply Forall_nil]|apply Forall_nil]|].
  apply Forall_app. split.
  { destruct (i_md5 _) as [m|]; [|apply Forall_nil]. cbn [opt]. unfold digest_lines. apply Forall_app. split; [apply Hd; now apply clean_check|].
    repeat (apply Forall_cons; [now apply K|]). apply Forall_nil. }
  apply Forall_app. split; [apply Hd; now apply clean_check|].
  apply Forall_app. split.
  { apply Forall_cons; [apply K; [reflexivity|apply B, N.le_refl]|].
    do 4 (apply Forall_cons; [apply K; [reflexivity|apply B, many_le]|]).
    apply Forall_cons; [intros []|]. apply Forall_cons; [|apply Forall_nil]. apply K; [reflexivity|].
    apply clean_app; [apply B, many_le|]. apply K; [reflexivity|]. apply clean_app; [apply B, N.le_refl|]. apply K; [reflexivity|].
    apply clean_app; [|now apply clean_check]. destruct (percent_fine _ eq_refl) as (P1 & _). now apply (shown_clean _ _ (decimal_shown _ P1)). }
  apply Forall_app. split.
  { assert (N0 : Forall clean (unchecked crc l)).
    { apply Forall_forall. intros n Hn. unfold unchecked in Hn. destruct crc; [|destruct Hn]. apply in_map_iff in Hn as ((m & v) & <- & Hn).
      apply filter_In in Hn as [Hn _]. now apply (Hc m v). }
    assert (G : Forall clean (map (fun w => lit "  " ++ ALERT ++ lit " " ++ w) (map (app crc_text) (unchecked crc l)))).
    { rewrite map_map. rewrite Forall_map. eapply Forall_impl; [|exact N0]. intros n Hn. apply K; [reflexivity|]. apply clean_app; [now apply clean_check|].
      apply K; [reflexivity|]. apply clean_app; [now apply clean_check|exact Hn]. }
    clear N0. revert G. generalize (map (app crc_text) (unchecked crc l)). intros [|w ws] G; [apply Forall_nil|]. unfold warn_lines.
    apply Forall_app. split; [apply Forall_cons; [intros []|]; apply Forall_cons; [now apply clean_check|apply Forall_nil]|exact G]. }
  apply Forall_app. split.
  { assert (G : Forall clean (map (fun fe => lit "  " ++ CROSS ++ lit " " ++ fst fe ++ lit " - " ++ snd fe) (failures why l))).
    { rewrite Forall_map. apply Forall_forall. intros [n t] Hn. unfold failures in Hn. apply in_flat_map in Hn as ((m & v) & Hm & Hn).
      destruct (Hc m v Hm) as [C1 C2]. cbn [fst snd] in *.
      apply K; [reflexivity|]. apply clean_app; [now apply clean_check|]. apply K; [reflexivity|].
      destruct v as [s|e| |]; cbn [In] in Hn; try tauto; destruct Hn as [Hn|[]]; injection Hn as <- <-.
      - apply clean_app; [exact C1|]. apply K; [reflexivity|]. now apply C2.
      - apply clean_app; [exact C1|]. apply K; [reflexivity|]. now apply clean_check. }
    revert G. generalize (failures why l). intros [|w ws] G; [apply Forall_nil|]. unfold fail_lines.
    apply Forall_app. split; [apply Forall_cons; [intros []|]; apply Forall_cons; [now apply clean_check|apply Forall_nil]|exact G]. }
  apply Forall_cons; [intros []|]. apply Forall_cons; [now apply clean_check|]. apply Forall_cons; [now apply clean_check|].
  apply Forall_cons; [|apply Forall_nil]. destruct (failures why l); now apply clean_check.
Qed.
Lemma talked_clean verbose : sizes_small l -> reasons_clean -> Forall clean (talked why verbose l).
Proof.
  intros Hs Hc. unfold talked. destruct verbose; [|apply Forall_nil]. rewrite Forall_map. apply Forall_forall. intros [n v] H.
  destruct (Hc n v H) as [C1 C2]. unfold sizes_small in Hs. rewrite Forall_forall in Hs. specialize (Hs _ H). cbn [snd] in Hs.
  unfold progress_text. cbn [fst snd].
  destruct v as [s|e| |]; (apply clean_app; [now apply clean_check|]; apply clean_app; [now apply clean_check|]).
  - apply clean_app; [exact C1|]. apply clean_app; [now apply clean_check|]. apply clean_app; [|now apply clean_check].
    now apply (shown_clean _ _ (decimal_shown _ Hs)).
  - apply clean_app; [exact C1|]. apply clean_app; [now apply clean_check|]. now apply C2.
  - exact C1.
  - apply clean_app; [exact C1|]. now apply clean_check.
Qed.

Lemma whole_text verbose : sizes_small l -> reasons_clean ->
  (lines_say (out ([lit "Verifying archive: " ++ path] ++ talked why verbose l ++ verify_doc path r (lenN l) (tally_of why crc l)))
     (verify_lines why verbose crc path r l) <-> clean path).
Proof.
  intros Hs Hc. rewrite expected_split. split.
  - intros H. apply out_clean in H.
    + cbn [app] in H. apply Forall_inv in H. intros I. apply H. apply in_or_app. now right.
    + rewrite !app_length, (F2_len _ _ _ (talked_says verbose Hs)), (F2_len _ _ _ doc_says). reflexivity.
  - intros Hp. unfold lines_say. rewrite out_lines.
    + apply says_app; [constructor; [reflexivity|constructor]|]. apply says_app; [now apply talked_says|apply doc_says].
    + cbn [app]. apply Forall_cons; [apply clean_app; [now apply clean_check|exact Hp]|]. apply Forall_app. split; [now apply talked_clean|now apply doc_clean].
Qed.
End Said.
