(** * The list file: generation and parsing. *)
From Verif Require Import Bytes Listfile SpecListfile.
Open Scope N_scope.

(** ** UTF-8 *)
Lemma cont_small : forallb (fun m => N.land (0x80 + N.of_nat m) 192 =? 128) (seq 0 64) = true.
Proof. vm_compute. reflexivity. Qed.
Lemma cont_land m : m < 64 -> N.land (0x80 + m) 192 = 128.
Proof.
  intros H. pose proof cont_small as G. rewrite forallb_forall in G.
  specialize (G (N.to_nat m)). rewrite N2Nat.id in G. apply N.eqb_eq, G, in_seq. lia.
Qed.
Lemma bN_Nb_small x : x < 256 -> bN (Nb x) = x.
Proof. intros H. rewrite bN_Nb. now apply N.mod_small. Qed.

Ltac byte_val :=
  repeat match goal with
  | |- context [bN (Nb ?x)] => rewrite (bN_Nb_small x) by (Z.to_euclidean_division_equations; lia)
  end.
Ltac yes c := replace c with true by (symmetry; rewrite ?andb_true_iff, ?N.leb_le, ?N.ltb_lt, ?N.eqb_eq; Z.to_euclidean_division_equations; lia).
Ltac no c := replace c with false by (symmetry; rewrite ?andb_false_iff, ?N.leb_gt, ?N.ltb_ge, ?N.eqb_neq; Z.to_euclidean_division_equations; lia).

Lemma encode_step c r : scalar c -> utf8_step (encode c ++ r) = (true, length (encode c)).
Proof.
  intros H. unfold encode.
  destruct (N.ltb_spec c 0x80) as [C1|C1].
  { unfold utf8_step. cbn [app length]. byte_val. yes (c <? 128). reflexivity. }
  destruct (N.ltb_spec c 0x800) as [C2|C2].
  { unfold utf8_step. cbn [app length]. unfold cont. cbn [nth_error]. byte_val.
    no (0xC0 + c / 64 <? 128). yes ((0xC2 <=? 0xC0 + c / 64) && (0xC0 + c / 64 <=? 0xDF)).
    rewrite cont_land by (apply N.mod_lt; lia). reflexivity. }
  destruct (N.ltb_spec c 0x10000) as [C3|C3].
  { unfold utf8_step. cbn [app length]. unfold cont, in_range. cbn [nth_error]. byte_val.
    set (b := 0xE0 + c / 4096). set (s := 0x80 + c / 64 mod 64).
    assert (Hb : 0xE0 <= b <= 0xEF) by (unfold b; Z.to_euclidean_division_equations; lia).
    assert (Hs : 0x80 <= s <= 0xBF) by (unfold s; Z.to_euclidean_division_equations; lia).
    assert (H0 : b = 0xE0 -> 0xA0 <= s) by (unfold b, s; Z.to_euclidean_division_equations; lia).
    assert (HD : b = 0xED -> s <= 0x9F).
    { destruct H; unfold b, s; Z.to_euclidean_division_equations; lia. }
    rewrite cont_land by (apply N.mod_lt; lia). clearbody b s.
    no (b <? 128). no ((0xC2 <=? b) && (b <=? 0xDF)). yes ((0xE0 <=? b) && (b <=? 0xEF)).
    destruct (N.eqb_spec b 0xE0) as [E|E].
    - specialize (H0 E). yes ((0xA0 <=? s) && (s <=? 0xBF)). reflexivity.
    - destruct (N.eqb_spec b 0xED) as [E'|E'].
      + specialize (HD E'). yes ((0x80 <=? s) && (s <=? 0x9F)). reflexivity.
      + yes ((0x80 <=? s) && (s <=? 0xBF)). reflexivity. }
  { assert (C4 : c < 0x110000) by (destruct H; lia).
    unfold utf8_step. cbn [app length]. unfold cont, in_range. cbn [nth_error]. byte_val.
    set (b := 0xF0 + c / 262144). set (s := 0x80 + c / 4096 mod 64).
    assert (Hb : 0xF0 <= b <= 0xF4) by (unfold b; Z.to_euclidean_division_equations; lia).
    assert (Hs : 0x80 <= s <= 0xBF) by (unfold s; Z.to_euclidean_division_equations; lia).
    assert (H0 : b = 0xF0 -> 0x90 <= s) by (unfold b, s; Z.to_euclidean_division_equations; lia).
    assert (H4 : b = 0xF4 -> s <= 0x8F) by (unfold b, s; Z.to_euclidean_division_equations; lia).
    rewrite !cont_land by (apply N.mod_lt; lia). clearbody b s.
    no (b <? 128). no ((0xC2 <=? b) && (b <=? 0xDF)). no ((0xE0 <=? b) && (b <=? 0xEF)).
    yes ((0xF0 <=? b) && (b <=? 0xF4)).
    destruct (N.eqb_spec b 0xF0) as [E|E].
    - specialize (H0 E). yes ((0x90 <=? s) && (s <=? 0xBF)). reflexivity.
    - destruct (N.eqb_spec b 0xF4) as [E'|E'].
      + specialize (H4 E'). yes ((0x80 <=? s) && (s <=? 0x8F)). reflexivity.
      + yes ((0x80 <=? s) && (s <=? 0xBF)). reflexivity. }
Qed.

Lemma encode_nonempty c : (0 < length (encode c))%nat.
Proof. unfold encode. destruct (c <? 0x80), (c <? 0x800), (c <? 0x10000); cbn; lia. Qed.

(** On text the conversion changes nothing. *)
Lemma utf8_lossy_valid d : is_text d -> utf8_lossy d = d.
Proof.
  intros (cs & Hs & ->). unfold utf8_lossy.
  assert (G : forall fuel, (length (concat (map encode cs)) <= fuel)%nat ->
              utf8_lossy_loop fuel (concat (map encode cs)) = concat (map encode cs)).
  { induction Hs as [|c cs Hc Hs IH]; intros fuel Hf; cbn [map concat] in *.
    - destruct fuel; reflexivity.
    - pose proof (encode_nonempty c) as Hn. rewrite app_length in Hf.
      destruct fuel as [|fuel]; [lia|]. cbn [utf8_lossy_loop].
      destruct (encode c ++ concat (map encode cs)) as [|x y] eqn:E.
      { apply (f_equal (@length byte)) in E. rewrite app_length in E. cbn in E. lia. }
      rewrite <- E, encode_step by exact Hc.
      rewrite firstn_app, Nat.sub_diag, firstn_all, firstn_O, app_nil_r.
      rewrite skipn_app, Nat.sub_diag, skipn_all, skipn_O. cbn [app].
      rewrite IH by lia. reflexivity. }
  apply G. reflexivity.
Qed.

Lemma text_app a b : is_text a -> is_text b -> is_text (a ++ b).
Proof.
  intros (x & Hx & ->) (y & Hy & ->). exists (x ++ y). split; [apply Forall_app; auto|].
  now rewrite map_app, concat_app.
Qed.
Lemma text_ascii d : Forall (fun b => bN b < 128) d -> is_text d.
Proof.
  intros H. exists (map bN d). split.
  - apply Forall_forall. intros x Hx. apply in_map_iff in Hx as (b & <- & Hb).
    rewrite Forall_forall in H. specialize (H b Hb). left. lia.
  - induction H as [|b d Hb H IH]; [reflexivity|]. cbn [map concat]. rewrite <- IH.
    unfold encode. replace (bN b <? 128) with true by lia. cbn [app]. f_equal.
    apply bN_inj. rewrite bN_Nb_small by lia. reflexivity.
Qed.

(** ** Trimming *)
Lemma strip_spec w : forall d r, strip w d = Some r <-> d = w ++ r.
Proof.
  induction w as [|x w IH]; intros d r; cbn [strip].
  - split; [intros [= ->]; reflexivity|intros ->; reflexivity].
  - destruct d as [|y d]; [split; [discriminate|discriminate]|].
    destruct (beqb x y) eqn:E.
    + apply beqb_eq in E as ->. rewrite IH. split; [intros ->; reflexivity|intros [= ->]; reflexivity].
    + split; [discriminate|]. intros [= <- _]. assert (beqb y y = true) as C by now apply beqb_eq. congruence.
Qed.
Lemma strip_any_spec ws d :
  match strip_any ws d with
  | Some r => exists w, In w ws /\ d = w ++ r
  | None => forall w r, In w ws -> d <> w ++ r
  end.
Proof.
  induction ws as [|w ws IH]; cbn [strip_any].
  - intros w r [].
  - destruct (strip w d) as [r|] eqn:E.
    + exists w. split; [left; reflexivity|]. now apply strip_spec.
    + destruct (strip_any ws d) as [r|].
      * destruct IH as (w' & Hw & ->). exists w'. split; [right; exact Hw|reflexivity].
      * intros w' r [<-|Hw]; [|now apply IH]. intros H. apply strip_spec in H. congruence.
Qed.

Definition starts_with_none (ws : list bytes) (d : bytes) : Prop := forall w r, In w ws -> d <> w ++ r.

Lemma trim_loop_none ws : ~ In [] ws -> forall fuel d, (length d <= fuel)%nat ->
  starts_with_none ws (trim_loop fuel ws d).
Proof.
  intros Hne. induction fuel as [|f IH]; intros d Hl; cbn [trim_loop].
  - destruct d; [|cbn in Hl; lia]. intros w r Hw E. symmetry in E. apply app_eq_nil in E as [-> _]. contradiction.
  - pose proof (strip_any_spec ws d) as S. destruct (strip_any ws d) as [d'|]; [|exact S].
    destruct S as (w & Hw & ->). apply IH. rewrite app_length in Hl.
    destruct w; [contradiction|]. cbn in Hl. lia.
Qed.
Lemma trim_loop_suffix ws : forall fuel d, exists p, d = p ++ trim_loop fuel ws d.
Proof.
  induction fuel as [|f IH]; intros d; cbn [trim_loop]; [exists []; reflexivity|].
  pose proof (strip_any_spec ws d) as S. destruct (strip_any ws d) as [d'|]; [|exists []; reflexivity].
  destruct S as (w & _ & ->). destruct (IH d') as (p & E). exists (w ++ p).
  rewrite <- app_assoc, <- E. reflexivity.
Qed.
Lemma trim_loop_id ws fuel d : starts_with_none ws d -> trim_loop fuel ws d = d.
Proof.
  destruct fuel as [|f]; [reflexivity|]. intros H. cbn [trim_loop].
  pose proof (strip_any_spec ws d) as S. destruct (strip_any ws d) as [d'|]; [|reflexivity].
  destruct S as (w & Hw & ->). elim (H w d' Hw). reflexivity.
Qed.

Definition rwhite : list bytes := map (@rev byte) white.
Lemma white_ne : ~ In [] white.
Proof. intros H. repeat (destruct H as [H|H]; [discriminate|]). destruct H. Qed.
Lemma rwhite_ne : ~ In [] rwhite.
Proof. intros H. cbn in H. repeat (destruct H as [H|H]; [discriminate|]). destruct H. Qed.

Lemma starts_prefix ws p q : starts_with_none ws (p ++ q) -> starts_with_none ws p.
Proof. intros H w r Hw ->. apply (H w (r ++ q) Hw). now rewrite app_assoc. Qed.

Lemma trim_end_prefix d : exists q, d = trim_end d ++ q.
Proof.
  unfold trim_end. destruct (trim_loop_suffix rwhite (length d) (rev d)) as (p & E).
  exists (rev p). rewrite <- rev_app_distr. fold rwhite. rewrite <- E. symmetry. apply rev_involutive.
Qed.

(** No white space at the start, none at the end. *)
Definition tidy (d : bytes) : Prop := starts_with_none white d /\ starts_with_none rwhite (rev d).

Lemma trim_tidy d : tidy (trim d).
Proof.
  unfold trim. split.
  - destruct (trim_end_prefix (trim_start d)) as (q & E).
    apply (starts_prefix white _ q). rewrite <- E. apply trim_loop_none; [exact white_ne|reflexivity].
  - unfold trim_end. rewrite rev_involutive. apply trim_loop_none; [exact rwhite_ne|].
    rewrite rev_length. reflexivity.
Qed.
Lemma tidy_trim d : tidy d -> trim d = d.
Proof.
  intros [H1 H2]. unfold trim, trim_start. rewrite trim_loop_id by exact H1.
  unfold trim_end. fold rwhite. rewrite trim_loop_id by exact H2. apply rev_involutive.
Qed.
Lemma trim_infix d : exists p q, d = p ++ trim d ++ q.
Proof.
  unfold trim. destruct (trim_loop_suffix white (length d) d) as (p & E).
  fold (trim_start d) in E. destruct (trim_end_prefix (trim_start d)) as (q & E').
  exists p, q. rewrite <- E'. exact E.
Qed.
(** A part from the start loses nothing at the start. *)
Lemma trim_of_prefix p q : starts_with_none white (p ++ q) -> exists r, p = trim p ++ r.
Proof.
  intros H. apply starts_prefix in H. unfold trim, trim_start. rewrite trim_loop_id by exact H.
  apply trim_end_prefix.
Qed.

(** The white space of the model and of the specification. *)
Lemma white_encoded : white = map encode white_space.
Proof. vm_compute. reflexivity. Qed.
Lemma tidy_spec d : tidy d <->
  forall w r, In w white_space -> d <> encode w ++ r /\ d <> r ++ encode w.
Proof.
  unfold tidy, starts_with_none, rwhite. rewrite white_encoded, map_map. split.
  - intros [H1 H2] w r Hw. split.
    + apply H1. now apply in_map.
    + intros ->. apply (H2 (rev (encode w)) (rev r)).
      * now apply (in_map (fun x => rev (encode x))).
      * apply rev_app_distr.
  - intros H. split.
    + intros x r Hx. apply in_map_iff in Hx as (w & <- & Hw). now apply H.
    + intros x r Hx E. apply in_map_iff in Hx as (w & <- & Hw).
      apply (proj2 (H w (rev r) Hw)). apply (f_equal (@rev byte)) in E.
      rewrite rev_involutive, rev_app_distr, rev_involutive in E. exact E.
Qed.

(** A carriage return at the end is trimmed and nothing else. *)
Lemma cr_only : forallb (fun w => (length w =? 1)%nat || negb (existsb (beqb x0d) w)) white = true.
Proof. vm_compute. reflexivity. Qed.
Lemma trim_cr n : n <> [] -> tidy n -> trim (n ++ [x0d]) = n.
Proof.
  intros Hne [H1 H2]. unfold trim, trim_start. rewrite trim_loop_id.
  - unfold trim_end. fold rwhite. rewrite rev_app_distr. cbn [rev app].
    rewrite app_length. cbn [length]. rewrite Nat.add_1_r. cbn [trim_loop].
    assert (strip_any rwhite (x0d :: rev n) = Some (rev n)) as ->.
    { reflexivity. }
    rewrite trim_loop_id by exact H2. apply rev_involutive.
  - intros w r Hw E. destruct r as [|x r] using rev_ind.
    + rewrite app_nil_r in E. subst w. pose proof cr_only as G. rewrite forallb_forall in G.
      specialize (G _ Hw). rewrite app_length in G. cbn [length] in G.
      rewrite existsb_app in G. cbn [existsb] in G.
      replace (beqb x0d x0d) with true in G by reflexivity. rewrite orb_true_r in G. cbn [negb] in G.
      rewrite orb_false_r in G. apply Nat.eqb_eq in G. destruct n; [contradiction|cbn in G; lia].
    + clear IHr. rewrite app_assoc in E. apply app_inj_tail in E as [E _]. now apply (H1 w r Hw).
Qed.

(** ** Lines *)
Lemma split_lines_line l rest : ~ In x0a l ->
  split_lines (l ++ x0a :: rest) = l :: split_lines rest.
Proof.
  induction l as [|c l IH]; intros H; cbn [app split_lines].
  - reflexivity.
  - assert (beqb c x0a = false) as ->.
    { destruct (beqb c x0a) eqn:E; [|reflexivity]. apply beqb_eq in E as ->. elim H. left. reflexivity. }
    rewrite IH; [reflexivity|]. intros C. apply H. right. exact C.
Qed.
Lemma split_lines_no_lf d l : In l (split_lines d) -> ~ In x0a l.
Proof.
  revert l. induction d as [|c d IH]; intros l H; cbn [split_lines] in H.
  - destruct H as [<-|[]]. intros [].
  - destruct (beqb c x0a) eqn:E.
    + destruct H as [<-|H]; [intros []|now apply IH].
    + destruct (split_lines d) as [|l0 r].
      * destruct H as [<-|[]]. intros [->|[]]. discriminate.
      * destruct H as [<-|H].
        -- intros [->|C]; [discriminate|]. revert C. apply IH. left. reflexivity.
        -- apply IH. right. exact H.
Qed.

Lemma before_semicolon_prefix d : exists q, d = before_semicolon d ++ q /\ ~ In x3b (before_semicolon d).
Proof.
  induction d as [|c d (q & E & H)]; cbn [before_semicolon].
  - exists []. split; [reflexivity|intros []].
  - destruct (beqb c x3b) eqn:B.
    + exists (c :: d). split; [reflexivity|intros []].
    + exists q. split; [cbn [app]; now rewrite <- E|]. intros [->|C]; [discriminate|contradiction].
Qed.

Lemma existsb_In x d : existsb (beqb x) d = true <-> In x d.
Proof.
  rewrite existsb_exists. split.
  - intros (y & H & E). apply beqb_eq in E as ->. exact H.
  - intros H. exists x. split; [exact H|now apply beqb_eq].
Qed.

(** A listable name is what its line gives. *)
Lemma parse_line_listable n : listable n -> parse_line (n ++ [x0d]) = Some n.
Proof.
  intros (Hne & Hlf & Hsc & Hh & Hw). apply tidy_spec in Hw. unfold parse_line.
  rewrite trim_cr by assumption. destruct n as [|c n]; [contradiction|].
  assert (beqb c x3b = false) as ->.
  { destruct (beqb c x3b) eqn:E; [|reflexivity]. apply beqb_eq in E as ->. elim Hsc. left. reflexivity. }
  assert (beqb c x23 = false) as ->.
  { destruct (beqb c x23) eqn:E; [|reflexivity]. apply beqb_eq in E as ->. elim (Hh n). reflexivity. }
  cbn [orb]. destruct (existsb (beqb x3b) (c :: n)) eqn:E; [|reflexivity].
  apply existsb_In in E. contradiction.
Qed.

(** Whatever a line gives is listable. *)
Lemma parse_line_gives line n : ~ In x0a line -> parse_line line = Some n -> listable n.
Proof.
  intros Hlf. unfold parse_line. pose proof (trim_tidy line) as Ht.
  destruct (trim_infix line) as (p & q & E).
  assert (Hlf' : ~ In x0a (trim line)).
  { intros C. apply Hlf. rewrite E. apply in_app_iff. right. apply in_app_iff. left. exact C. }
  clear E. destruct (trim line) as [|c t] eqn:Et; [discriminate|].
  destruct (beqb c x3b || beqb c x23) eqn:Ec; [discriminate|]. apply orb_false_iff in Ec as [E1 E2].
  set (l := c :: t) in *.
  set (name := if existsb (beqb x3b) l then trim (before_semicolon l) else l).
  assert (Hname : tidy name /\ ~ In x3b name /\ exists r, l = name ++ r).
  { unfold name. destruct (existsb (beqb x3b) l) eqn:Es.
    - split; [apply trim_tidy|]. destruct (before_semicolon_prefix l) as (r & Er & Hs).
      destruct (trim_of_prefix (before_semicolon l) r) as (r' & Er').
      { rewrite <- Er. apply Ht. }
      split.
      + intros C. apply Hs. rewrite Er'. apply in_app_iff. left. exact C.
      + exists (r' ++ r). rewrite app_assoc, <- Er'. exact Er.
    - split; [exact Ht|]. split; [|exists []; now rewrite app_nil_r].
      intros C. apply existsb_In in C. congruence. }
  destruct Hname as (H1 & H2 & r & H3). destruct name as [|x name]; [discriminate|].
  intros [= <-]. split; [discriminate|]. split.
  { intros C. apply Hlf'. rewrite H3. apply in_app_iff. left. exact C. }
  split; [exact H2|]. split.
  - intros r' [= -> _]. unfold l in H3. injection H3 as -> _. discriminate.
  - now apply tidy_spec.
Qed.

Lemma filter_map_In {A B} (f : A -> option B) l y :
  In y (filter_map f l) -> exists x, In x l /\ f x = Some y.
Proof.
  induction l as [|x l IH]; cbn [filter_map]; [intros []|].
  destruct (f x) as [z|] eqn:E.
  - intros [<-|H]; [exists x; split; [left; reflexivity|exact E]|].
    destruct (IH H) as (x' & H1 & H2). exists x'. split; [right; exact H1|exact H2].
  - intros H. destruct (IH H) as (x' & H1 & H2). exists x'. split; [right; exact H1|exact H2].
Qed.

Lemma parsed_listable data n : In n (parse_listfile data) -> listable n.
Proof.
  unfold parse_listfile. intros H. apply filter_map_In in H as (line & H1 & H2).
  eapply parse_line_gives; [|exact H2]. eapply split_lines_no_lf. exact H1.
Qed.

(** ** The generated list *)
Lemma listable_decide_LISTFILE : listable LISTFILE.
Proof.
  assert (G : parse_line LISTFILE = Some LISTFILE) by (vm_compute; reflexivity).
  eapply parse_line_gives; [|exact G]. intros H. cbn in H.
  repeat (destruct H as [H|H]; [discriminate|]). destruct H.
Qed.

Lemma parse_entries_lines names rest : Forall listable names ->
  filter_map parse_line (split_lines (concat (map (fun n => n ++ [x0d; x0a]) names) ++ rest)) =
  names ++ filter_map parse_line (split_lines rest).
Proof.
  induction 1 as [|n names Hn H IH]; cbn [map concat app]; [reflexivity|].
  replace (((n ++ [x0d; x0a]) ++ concat (map (fun n => n ++ [x0d; x0a]) names)) ++ rest)
    with ((n ++ [x0d]) ++ x0a :: (concat (map (fun n => n ++ [x0d; x0a]) names) ++ rest))
    by (rewrite <- !app_assoc; reflexivity).
  rewrite split_lines_line.
  - cbn [filter_map]. rewrite parse_line_listable by exact Hn. now rewrite IH.
  - intros C. apply in_app_iff in C as [C|[C|[]]]; [|discriminate]. destruct Hn as (_ & Hlf & _). contradiction.
Qed.

Lemma content_text names : Forall is_text names -> is_text (listfile_content names).
Proof.
  intros H. unfold listfile_content. apply text_app.
  - induction H as [|n names Hn H IH]; cbn [map concat]; [exists []; split; [constructor|reflexivity]|].
    apply text_app; [|exact IH]. apply text_app; [exact Hn|]. apply text_ascii. repeat constructor.
  - apply text_ascii. vm_compute. repeat constructor.
Qed.

Lemma listfile_round_trip names : Forall is_text names -> Forall listable names ->
  parse_listfile (listfile_content names) = names ++ [LISTFILE].
Proof.
  intros Ht Hl. unfold parse_listfile. rewrite utf8_lossy_valid by (now apply content_text).
  unfold listfile_content. rewrite parse_entries_lines by exact Hl. f_equal.
Qed.

Lemma listfile_exact names : Forall is_text names ->
  (parse_listfile (listfile_content names) = names ++ [LISTFILE] <-> Forall listable names).
Proof.
  intros Ht. split; [|intros Hl; now apply listfile_round_trip].
  intros E. apply Forall_forall. intros n Hn. apply (parsed_listable (listfile_content names)).
  rewrite E. apply in_app_iff. left. exact Hn.
Qed.

(** A name that is not listable *)
Lemma semicolon_cut : exists names, Forall is_text names /\ Forall (fun n => n <> []) names /\
  parse_listfile (listfile_content names) = [lit "a"; LISTFILE] /\ names = [lit "a;b.txt"].
Proof.
  exists [lit "a;b.txt"]. split; [|split; [|split; [vm_compute; reflexivity|reflexivity]]].
  - constructor; [apply text_ascii; vm_compute; repeat constructor|constructor].
  - constructor; [discriminate|constructor].
Qed.
