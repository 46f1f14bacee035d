(** * The list parser against the description of lists. *)
From Verif Require Import Bytes Listfile SpecListfile ListfileFacts TextFacts SpecLists Compress HetBet Archive ListingFacts.
From Coq Require Import ZifyBool ZifyN ZifyNat.
Open Scope N_scope.

(** ** Repairing *)
Ltac ifs := repeat match goal with
  | H : context [if ?c then _ else _] |- _ => let E := fresh "E" in destruct c eqn:E; cbn [negb] in *
  | |- context [if ?c then _ else _] => let E := fresh "E" in destruct c eqn:E; cbn [negb] in * end.

Lemma step_le d b n : utf8_step d = (b, n) -> (n <= length d)%nat /\ (n <= 4)%nat.
Proof.
  unfold utf8_step, cont, in_range. destruct d as [|x0 [|x1 [|x2 [|x3 d]]]]; cbn [nth_error length];
    intros H; ifs; try (injection H as <- <-); try lia; discriminate.
Qed.

(** A sequence that could begin a character is not cut before its end. *)
Lemma step_reaches p q : begins_char p -> (length p <= snd (utf8_step (p ++ q)))%nat.
Proof.
  intros (c & r & Hc & Hr & E). pose proof (encode_step c [] Hc) as S. rewrite app_nil_r, E in S.
  assert (L : (length p < length (p ++ r))%nat) by (rewrite app_length; destruct r; [congruence|cbn; lia]).
  assert (L4 : (length (p ++ r) <= 4)%nat) by (apply step_le in S; lia).
  revert S L L4. generalize (length (p ++ r)) at 1 2 3. intros n S L L4.
  destruct p as [|x0 [|x1 [|x2 [|x3 p]]]]; cbn [length] in L |- *; try lia.
  - pose proof (step_le ([x0] ++ q)). cbn [app] in *. unfold utf8_step, cont, in_range. cbn [nth_error]. ifs; cbn [snd]; lia.
  - cbn [app] in *. unfold utf8_step, cont, in_range in *. cbn [nth_error] in *. ifs; cbn [snd]; try lia; injection S as S; lia.
  - cbn [app] in *. unfold utf8_step, cont, in_range in *. cbn [nth_error] in *. ifs; cbn [snd]; try lia; try discriminate; injection S as S; lia.
Qed.

(** What is cut is one byte or begins a character. *)
Lemma step_begins d n : d <> [] -> utf8_step d = (false, n) -> n = 1%nat \/ begins_char (firstn n d).
Proof.
  intros Hd H. 
  assert (G : forall m, (m <> 0)%nat -> (n < n + m)%nat -> utf8_step (firstn n d ++ repeat x80 m) = (true, (n + m)%nat) -> length (firstn n d) = n -> begins_char (firstn n d)).
  { intros m Hm _ K Hl. destruct (step_scalar _ _ K) as (c & Hc & E). rewrite firstn_all2 in E by (rewrite app_length, repeat_length; lia).
    exists c, (repeat x80 m). split; [exact Hc|]. split; [destruct m; [lia|discriminate]|now symmetry]. }
  pose proof (step_le _ _ _ H) as [L _].
  unfold utf8_step, cont, in_range in H. destruct d as [|x0 d]; [congruence|]. cbn [nth_error] in H.
  destruct (bN x0 <? 128) eqn:B1; [discriminate|].
  destruct ((0xC2 <=? bN x0) && (bN x0 <=? 0xDF)) eqn:B2; [ifs; left; congruence|].
  destruct ((0xE0 <=? bN x0) && (bN x0 <=? 0xEF)) eqn:B3.
  { destruct d as [|x1 d]; [ifs; left; congruence|]. cbn [nth_error] in H.
    match type of H with context [negb ?x] => destruct x eqn:S1; cbn [negb] in H; [|left; congruence] end.
    right. assert (n = 2%nat) as -> by (ifs; congruence). apply (G 1%nat); [lia|lia| |reflexivity].
    cbn [firstn app repeat]. unfold utf8_step, cont, in_range. cbn [nth_error]. rewrite B1, B2, B3, S1. reflexivity. }
  destruct ((0xF0 <=? bN x0) && (bN x0 <=? 0xF4)) eqn:B4; [|left; congruence].
  destruct d as [|x1 d]; [ifs; left; congruence|]. cbn [nth_error] in H.
  match type of H with context [if negb ?x then (false, 1%nat) else _] => destruct x eqn:S1; cbn [negb] in H; [|left; congruence] end.
  right. destruct d as [|x2 d].
  { cbn [nth_error negb] in H. assert (n = 2%nat) as -> by congruence. apply (G 2%nat); [lia|lia| |reflexivity].
    cbn [firstn app repeat]. unfold utf8_step, cont, in_range. cbn [nth_error]. rewrite B1, B2, B3, B4, S1. reflexivity. }
  cbn [nth_error] in H. destruct (N.land (bN x2) 192 =? 128) eqn:C2; cbn [negb] in H.
  - assert (n = 3%nat) as -> by (ifs; congruence). apply (G 1%nat); [lia|lia| |reflexivity].
    cbn [firstn app repeat]. unfold utf8_step, cont, in_range. cbn [nth_error]. rewrite B1, B2, B3, B4, S1, C2. reflexivity.
  - assert (n = 2%nat) as -> by congruence. apply (G 2%nat); [lia|lia| |reflexivity].
    cbn [firstn app repeat]. unfold utf8_step, cont, in_range. cbn [nth_error]. rewrite B1, B2, B3, B4, S1. reflexivity.
Qed.
Lemma step_least d n b : d <> [] -> utf8_step d = (b, n) -> (0 < n)%nat.
Proof. intros Hd H. destruct d; [congruence|]. unfold utf8_step in H. ifs; injection H as <- <-; lia. Qed.

Lemma step_moves d : d <> [] -> (0 < snd (utf8_step d))%nat.
Proof.
  intros H. destruct d as [|b d]; [congruence|]. unfold utf8_step.
  repeat match goal with |- context [match ?x with _ => _ end] => destruct x end; cbn; lia.
Qed.
Lemma fuel_enough f : forall d, (length d <= f)%nat -> utf8_lossy_loop f d = utf8_lossy d.
Proof.
  unfold utf8_lossy.
  assert (G : forall f g d, (length d <= f)%nat -> (length d <= g)%nat -> utf8_lossy_loop f d = utf8_lossy_loop g d).
  { clear f. induction f as [|f IH]; intros g d Hf Hg.
    - destruct d; [|cbn [length] in Hf; lia]. destruct g; reflexivity.
    - destruct d as [|b d]; [destruct g; reflexivity|]. destruct g as [|g]; [cbn [length] in Hg; lia|].
      cbn [utf8_lossy_loop]. pose proof (step_moves (b :: d) ltac:(discriminate)) as Hp.
      assert (Hl : (length (skipn (snd (utf8_step (b :: d))) (b :: d)) <= length d)%nat).
      { rewrite skipn_length. cbn [length]. lia. }
      destruct (utf8_step (b :: d)) as [[] n]; cbn [snd] in Hl; cbn [length] in *; f_equal; apply IH; lia. }
  intros d Hd. apply G; lia.
Qed.
Lemma lossy_step d b n : d <> [] -> utf8_step d = (b, n) ->
  utf8_lossy d = (if b then firstn n d else replacement) ++ utf8_lossy (skipn n d).
Proof.
  intros Hd H. unfold utf8_lossy at 1. destruct d as [|x d]; [congruence|]. cbn [length utf8_lossy_loop]. rewrite H.
  pose proof (step_least _ _ _ Hd H). 
  assert (F : utf8_lossy_loop (length d) (skipn n (x :: d)) = utf8_lossy (skipn n (x :: d))).
  { apply fuel_enough. rewrite skipn_length. cbn [length]. lia. }
  rewrite F. destruct b; reflexivity.
Qed.

Lemma lossy_repaired d : repaired d (utf8_lossy d).
Proof.
  remember (length d) as k eqn:Hk. revert d Hk. induction k as [k IH] using lt_wf_ind. intros d Hk.
  destruct d as [|x d0]; [constructor|]. set (d := x :: d0) in *. assert (Hd : d <> []) by discriminate.
  destruct (utf8_step d) as [b n] eqn:S. rewrite (lossy_step d b n Hd S).
  pose proof (step_least d n b Hd S) as Hn. pose proof (step_le d b n S) as [Hl _].
  assert (R : repaired (skipn n d) (utf8_lossy (skipn n d))) by (eapply IH; [|reflexivity]; rewrite skipn_length; lia).
  rewrite <- (firstn_skipn n d) at 1. destruct b.
  - destruct (step_scalar d n S) as (c & Hc & E). rewrite E. now constructor.
  - change replacement with (encode 0xFFFD). constructor; auto.
    + intros E. apply (f_equal (@length byte)) in E. rewrite firstn_length in E. cbn [length] in E. lia.
    + intros c r Hc E. rewrite firstn_skipn in E. rewrite E, encode_step in S by exact Hc. discriminate.
    + rewrite firstn_length. destruct (step_begins d n Hd S) as [->|B]; [left; lia|now right].
    + intros q r E Hq B. pose proof (step_reaches _ r B) as K. rewrite <- app_assoc, <- E, firstn_skipn, S in K. cbn [snd] in K.
      rewrite app_length, firstn_length in K. destruct q; [congruence|cbn [length] in K; lia].
Qed.
Lemma repaired_lossy d t : repaired d t -> t = utf8_lossy d.
Proof.
  induction 1 as [|c d t Hc _ IH|p d t Hp Hno Hb Hlong _ IH]; [reflexivity| |].
  - assert (Hd : encode c ++ d <> []) by (pose proof (encode_nonempty c); destruct (encode c); [cbn in *; lia|discriminate]).
    rewrite (lossy_step _ _ _ Hd (encode_step c d Hc)), firstn_app, firstn_all, Nat.sub_diag, firstn_O, app_nil_r,
      skipn_app, skipn_all, Nat.sub_diag. cbn [app skipn]. now rewrite IH.
  - assert (Hd : p ++ d <> []) by (destruct p; [congruence|discriminate]).
    destruct (utf8_step (p ++ d)) as [b n] eqn:S. pose proof (step_least _ _ _ Hd S) as Hn. pose proof (step_le _ _ _ S) as [Hl _].
    destruct b.
    { destruct (step_scalar _ _ S) as (c & Hc & E). elim (Hno c (skipn n (p ++ d)) Hc). now rewrite <- E, firstn_skipn. }
    assert (n = length p) as ->.
    { destruct (Nat.lt_trichotomy n (length p)) as [K|[K|K]]; [|exact K|]; exfalso.
      - destruct Hb as [Hb|Hb]; [lia|]. pose proof (step_reaches p d Hb) as R. rewrite S in R. cbn [snd] in R. lia.
      - destruct (step_begins _ _ Hd S) as [->|B]; [destruct p; [congruence|cbn [length] in K; lia]|].
        rewrite firstn_app, firstn_all2 in B by lia. apply (Hlong (firstn (n - length p) d) (skipn (n - length p) d)); [now rewrite firstn_skipn| |exact B].
        intros E. apply (f_equal (@length byte)) in E. rewrite firstn_length in E. rewrite app_length in Hl. cbn [length] in E. lia. }
    rewrite (lossy_step _ _ _ Hd S), skipn_app, skipn_all, Nat.sub_diag. cbn [app skipn]. now rewrite IH.
Qed.

Theorem repaired_exactly d t : repaired d t <-> t = utf8_lossy d.
Proof. split; [apply repaired_lossy|intros ->; apply lossy_repaired]. Qed.

(** ** Lines *)
Lemma split_joined ls : ls <> [] -> Forall (fun l => ~ In x0a l) ls -> split_lines (joined ls) = ls.
Proof.
  intros Hn H. induction H as [|l ls Hl H IH]; [congruence|]. destruct ls as [|l' ls].
  - cbn [joined]. clear - Hl. induction l as [|c l IH]; [reflexivity|]. cbn [split_lines].
    destruct (beqb c x0a) eqn:E; [apply beqb_eq in E; subst; elim Hl; now left|]. rewrite IH; [reflexivity|]. intros K. apply Hl. now right.
  - change (joined (l :: l' :: ls)) with (l ++ x0a :: joined (l' :: ls)). rewrite split_lines_line by exact Hl. f_equal. apply IH. discriminate.
Qed.
Lemma joined_split d : split_lines d <> [] /\ joined (split_lines d) = d.
Proof.
  induction d as [|c d [Hn IH]]; [split; [discriminate|reflexivity]|]. cbn [split_lines]. destruct (beqb c x0a) eqn:E.
  - apply beqb_eq in E. subst c. split; [discriminate|]. destruct (split_lines d) as [|l r] eqn:S; [congruence|].
    change (joined ([] :: l :: r)) with (x0a :: joined (l :: r)). now rewrite IH.
  - destruct (split_lines d) as [|l r]; [congruence|]. split; [discriminate|]. destruct r as [|l' r]; cbn [joined app] in *; now rewrite IH.
Qed.

(** ** White space *)
Definition code (ws : list bytes) : Prop := ~ In [] ws /\ forall v w r s, In v ws -> In w ws -> v ++ r = w ++ s -> v = w.
Lemma apart_check ws : forallb (fun v => forallb (fun w => match strip v w with Some [] => true | Some _ => false | None => true end) ws) ws = true ->
  ~ In [] ws -> code ws.
Proof.
  intros H Hn. split; [exact Hn|]. intros v w r s Hv Hw E.
  assert (P : forall v w t, In v ws -> In w ws -> w = v ++ t -> v = w).
  { intros v' w' t Hv' Hw' Et. rewrite forallb_forall in H. specialize (H v' Hv'). rewrite forallb_forall in H. specialize (H w' Hw').
    rewrite (proj2 (strip_spec v' w' t) Et) in H. destruct t; [now rewrite app_nil_r in Et|discriminate]. }
  destruct (Nat.le_gt_cases (length v) (length w)) as [K|K].
  - apply (P v w (firstn (length w - length v) r) Hv Hw). apply (f_equal (firstn (length w))) in E.
    rewrite !firstn_app, Nat.sub_diag, firstn_O, app_nil_r, firstn_all, firstn_all2 in E by lia. now symmetry.
  - symmetry. apply (P w v (firstn (length v - length w) s) Hw Hv). apply (f_equal (firstn (length v))) in E.
    rewrite !firstn_app, Nat.sub_diag, firstn_O, app_nil_r, firstn_all, firstn_all2 in E by lia. exact E.
Qed.
Lemma white_code : code white.
Proof. apply apart_check; [vm_compute; reflexivity|exact white_ne]. Qed.
Lemma rwhite_code : code rwhite.
Proof. apply apart_check; [vm_compute; reflexivity|exact rwhite_ne]. Qed.

Lemma trim_code ws : code ws -> forall xs rest fuel, Forall (fun x => In x ws) xs -> starts_with_none ws rest ->
  (length (concat xs ++ rest) <= fuel)%nat -> trim_loop fuel ws (concat xs ++ rest) = rest.
Proof.
  intros [Hn Hc]. induction xs as [|x xs IH]; intros rest fuel Hx Hr Hl; cbn [concat app] in *.
  - now apply trim_loop_id.
  - inversion Hx as [|? ? Hx1 Hx2]; subst. rewrite <- app_assoc in *. rewrite app_length in Hl.
    assert (0 < length x)%nat by (destruct x; [contradiction|cbn; lia]). destruct fuel as [|f]; [lia|]. cbn [trim_loop].
    pose proof (strip_any_spec ws (x ++ concat xs ++ rest)) as S. destruct (strip_any ws (x ++ concat xs ++ rest)) as [d'|].
    + destruct S as (w & Hw & E). pose proof (Hc _ _ _ _ Hx1 Hw E) as <-. apply app_inv_head in E. rewrite <- E.
      apply IH; auto. lia.
    + elim (S x (concat xs ++ rest) Hx1 eq_refl).
Qed.
Lemma trim_parts ws : ~ In [] ws -> forall fuel d, exists xs, Forall (fun x => In x ws) xs /\ d = concat xs ++ trim_loop fuel ws d.
Proof.
  intros Hn. induction fuel as [|f IH]; intros d; cbn [trim_loop]; [exists []; split; [constructor|reflexivity]|].
  pose proof (strip_any_spec ws d) as S. destruct (strip_any ws d) as [d'|]; [|exists []; split; [constructor|reflexivity]].
  destruct S as (w & Hw & ->). destruct (IH d') as (xs & Hx & E). exists (w :: xs). split; [now constructor|].
  cbn [concat]. now rewrite <- app_assoc, <- E.
Qed.
Lemma blank_whites d : white_run d <-> exists xs, Forall (fun x => In x white) xs /\ d = concat xs.
Proof.
  rewrite white_encoded. split.
  - intros (cs & H & ->). exists (map encode cs). split; [|reflexivity]. apply Forall_map. revert H. apply Forall_impl. intros c. apply in_map.
  - intros (xs & H & ->). induction H as [|x xs Hx H (cs & Hc & E)]; [exists []; split; [constructor|reflexivity]|].
    apply in_map_iff in Hx as (c & <- & Hi). exists (c :: cs). split; [now constructor|]. cbn [concat map]. now rewrite E.
Qed.
Lemma blank_rev xs : Forall (fun x => In x white) xs -> exists ys, Forall (fun y => In y rwhite) ys /\ rev (concat xs) = concat ys.
Proof.
  induction 1 as [|x xs Hx H (ys & Hy & E)]; [exists []; split; [constructor|reflexivity]|].
  exists (ys ++ [rev x]). split.
  - apply Forall_app. split; [exact Hy|]. constructor; [|constructor]. now apply in_map.
  - cbn [concat]. rewrite rev_app_distr, E, concat_app. cbn [concat]. now rewrite app_nil_r.
Qed.
Lemma blank_unrev ys : Forall (fun y => In y rwhite) ys -> exists xs, Forall (fun x => In x white) xs /\ rev (concat ys) = concat xs.
Proof.
  induction 1 as [|y ys Hy H (xs & Hx & E)]; [exists []; split; [constructor|reflexivity]|].
  apply in_map_iff in Hy as (x & <- & Hi). exists (xs ++ [x]). split.
  - apply Forall_app. split; [exact Hx|]. constructor; [exact Hi|constructor].
  - cbn [concat]. rewrite rev_app_distr, rev_involutive, E, concat_app. cbn [concat]. now rewrite app_nil_r.
Qed.

(** The first byte of a white character is never the second of another. *)
Lemma heads_check : forallb (fun v => forallb (fun w => match v with [] => true | x :: _ => negb (existsb (beqb x) (tl w)) end) white) white = true.
Proof. vm_compute. reflexivity. Qed.
Lemma no_straddle core b : white_run b -> core <> [] -> starts_with_none white core -> starts_with_none white (core ++ b).
Proof.
  intros Hb Hne Hs w r Hw E. apply blank_whites in Hb as (xs & Hx & ->).
  destruct (Nat.le_gt_cases (length w) (length core)) as [K|K].
  - apply (Hs w (skipn (length w) core) Hw). apply (f_equal (firstn (length w))) in E.
    rewrite !firstn_app, Nat.sub_diag, firstn_O, firstn_O in E || rewrite !firstn_app in E.
    replace (length w - length core)%nat with 0%nat in E by lia. rewrite Nat.sub_diag, !firstn_O, !app_nil_r, firstn_all in E.
    rewrite <- E at 1. now rewrite firstn_skipn.
  - destruct xs as [|x xs].
    { cbn [concat] in E. rewrite app_nil_r in E. apply (f_equal (@length byte)) in E. rewrite app_length in E. lia. }
    inversion Hx as [|? ? Hx1 _]; subst. destruct x as [|x0 x]; [elim white_ne; exact Hx1|].
    assert (Hi : In x0 (tl w)).
    { destruct core as [|c0 core]; [congruence|]. destruct w as [|w0 w]; [cbn in K; lia|]. cbn [app concat] in E. injection E as _ E.
      cbn [length] in K. cbn [tl]. apply (f_equal (firstn (length w))) in E. rewrite !firstn_app, Nat.sub_diag, firstn_O, app_nil_r, firstn_all in E.
      rewrite <- E. apply in_or_app. right. destruct (length w - length core)%nat eqn:Z; [lia|]. left. reflexivity. }
    pose proof heads_check as H. rewrite forallb_forall in H. specialize (H _ Hx1). rewrite forallb_forall in H. specialize (H w Hw). cbn beta iota in H.
    rewrite (proj2 (existsb_In x0 (tl w)) Hi) in H. discriminate.
Qed.
Lemma nil_starts : starts_with_none white [].
Proof. intros w r Hw E. symmetry in E. apply app_eq_nil in E as [-> _]. now elim white_ne. Qed.

Lemma stripped_trim d core : stripped d core <-> core = trim d.
Proof.
  split.
  - intros (a & b & Ha & Hb & -> & Ht). apply tidy_spec in Ht. destruct Ht as [T1 T2].
    apply blank_whites in Ha as (xa & Hxa & ->). unfold trim, trim_start.
    destruct core as [|c core].
    + apply blank_whites in Hb as (xb & Hxb & ->).
      assert (E : concat xa ++ [] ++ concat xb = concat (xa ++ xb) ++ []) by (now rewrite app_nil_r, concat_app).
      rewrite E, (trim_code white white_code); [reflexivity|apply Forall_app; auto|exact nil_starts|reflexivity].
    + rewrite (trim_code white white_code); [|exact Hxa|apply no_straddle; [exact Hb|discriminate|exact T1]|reflexivity].
      apply blank_whites in Hb as (xb & Hxb & ->). unfold trim_end. rewrite rev_app_distr. destruct (blank_rev xb Hxb) as (yb & Hyb & Eb). rewrite Eb.
      fold rwhite. rewrite (trim_code rwhite rwhite_code); [now rewrite rev_involutive|exact Hyb|exact T2|].
      rewrite <- Eb, <- rev_app_distr, rev_length. reflexivity.
  - intros ->. destruct (trim_parts white white_ne (length d) d) as (xs & Hx & E). fold (trim_start d) in E.
    destruct (trim_parts rwhite rwhite_ne (length (trim_start d)) (rev (trim_start d))) as (ys & Hy & E2).
    destruct (blank_unrev ys Hy) as (zs & Hz & Ez).
    exists (concat xs), (concat zs). split; [apply blank_whites; eauto|]. split; [apply blank_whites; eauto|]. split.
    + rewrite E at 1. f_equal. apply (f_equal (@rev byte)) in E2. rewrite rev_involutive, rev_app_distr, Ez in E2. exact E2.
    + apply tidy_spec, trim_tidy.
Qed.

(** ** One line *)
Lemma before_first d p : ~ In x3b d -> first_part d p <-> p = d.
Proof.
  intros H. split.
  - intros [_ [->|(r & ->)]]; [reflexivity|]. elim H. apply in_or_app. right. now left.
  - intros ->. split; [exact H|now left].
Qed.
Lemma first_before d p : In x3b d -> first_part d p <-> p = before_semicolon d.
Proof.
  intros H. split.
  - intros [Hp [->|(r & ->)]]; [contradiction|]. clear H. induction p as [|c p IH]; [reflexivity|]. cbn [app before_semicolon].
    destruct (beqb c x3b) eqn:E; [apply beqb_eq in E; subst; elim Hp; now left|]. f_equal. apply IH. intros K. apply Hp. now right.
  - intros ->. induction d as [|c d IH]; [destruct H|]. cbn [before_semicolon]. destruct (beqb c x3b) eqn:E.
    + apply beqb_eq in E. subst c. split; [intros []|]. right. exists d. reflexivity.
    + assert (Hc : c <> x3b) by (intros ->; now rewrite (proj2 (beqb_eq x3b x3b) eq_refl) in E). destruct H as [H|H]; [congruence|].
      destruct (IH H) as [I1 I2]. split; [intros [K|K]; [congruence|now apply I1]|].
      destruct I2 as [I2|(r & I2)]; [left; now rewrite <- I2|right; exists r; cbn [app]; now rewrite <- I2].
Qed.
Lemma part_head c d : ~ no_name (c :: d) -> exists p, (if existsb (beqb x3b) (c :: d) then before_semicolon (c :: d) else c :: d) = c :: p /\
  exists q, c :: d = (c :: p) ++ q.
Proof.
  intros H. assert (Hc : c <> x3b) by (intros ->; apply H; right; left; eauto).
  destruct (existsb (beqb x3b) (c :: d)).
  - destruct (before_semicolon_prefix d) as (q & E & _). cbn [before_semicolon].
    destruct (beqb c x3b) eqn:B; [apply beqb_eq in B; congruence|]. exists (before_semicolon d). split; [reflexivity|]. exists q. cbn [app]. now rewrite <- E.
  - exists d. split; [reflexivity|]. exists []. now rewrite app_nil_r.
Qed.
Lemma line_read line o : line_says line o <-> o = parse_line line.
Proof.
  assert (D : forall core, core = [] \/ (exists c r, core = c :: r /\ (c = x3b \/ c = x23)) \/ ~ no_name core).
  { intros [|c r]; [now left|]. right. destruct (beqb c x3b) eqn:E1; [apply beqb_eq in E1; left; eauto 6|].
    destruct (beqb c x23) eqn:E2; [apply beqb_eq in E2; left; eauto 6|]. right.
    intros [K|[(q & K)|(q & K)]]; [discriminate| |]; injection K as K _; subst c; discriminate. }
  assert (P : forall p, first_part (trim line) p <-> p = if existsb (beqb x3b) (trim line) then before_semicolon (trim line) else trim line).
  { intros p. destruct (existsb (beqb x3b) (trim line)) eqn:E.
    - apply first_before. now apply existsb_In.
    - apply before_first. intros K. apply existsb_In in K. congruence. }
  pose proof (trim_tidy line) as Ht.
  assert (Q : ~ no_name (trim line) -> exists p n, first_part (trim line) p /\ stripped p n /\ parse_line line = Some n).
  { intros Hn. set (p := if existsb (beqb x3b) (trim line) then before_semicolon (trim line) else trim line).
    exists p, (trim p). split; [now apply P|]. split; [now apply stripped_trim|]. unfold parse_line.
    destruct (trim line) as [|c r] eqn:E; [elim Hn; now left|]. destruct (part_head c r Hn) as (q & Eq & s & Es). fold p in Eq.
    assert (beqb c x3b = false) as -> by (destruct (beqb c x3b) eqn:B; [apply beqb_eq in B; subst; elim Hn; right; left; eauto|reflexivity]).
    assert (beqb c x23 = false) as -> by (destruct (beqb c x23) eqn:B; [apply beqb_eq in B; subst; elim Hn; right; right; eauto|reflexivity]).
    cbn [orb].
    assert (Ep : (if existsb (beqb x3b) (c :: r) then trim (before_semicolon (c :: r)) else c :: r) = trim p).
    { unfold p. destruct (existsb (beqb x3b) (c :: r)); [reflexivity|]. symmetry. now apply tidy_trim. }
    rewrite Ep. destruct (trim p) as [|x y] eqn:T; [|reflexivity]. exfalso.
    assert (S : stripped p []) by (now apply stripped_trim). destruct S as (a & b & Ha & Hb & E2 & _). cbn [app] in E2.
    assert (W : white_run p).
    { apply blank_whites in Ha as (xa & Ha & ->). apply blank_whites in Hb as (xb & Hb & ->). apply blank_whites. exists (xa ++ xb).
      split; [apply Forall_app; auto|]. now rewrite concat_app. }
    destruct W as ([|w ws] & Hw & Ew); [rewrite Eq in Ew; discriminate|]. pose proof (proj1 (tidy_spec (c :: r)) Ht) as Hts.
    inversion Hw as [|? ? Hw1 _]; subst. destruct (Hts w (concat (map encode ws) ++ s) Hw1) as [K _]. apply K.
    rewrite Es, <- Eq, Ew. cbn [map concat]. now rewrite app_assoc. }
  assert (Z : no_name (trim line) -> parse_line line = None).
  { intros [K|[(q & K)|(q & K)]]; unfold parse_line; rewrite K; reflexivity. }
  split.
  - intros (core & Hs & H). apply stripped_trim in Hs. subst core. destruct H as [[H ->]|(H & p & n & H1 & H2 & ->)]; [symmetry; auto|].
    destruct (Q H) as (p' & n' & K1 & K2 & ->). apply P in H1, K1. apply stripped_trim in H2, K2. congruence.
  - intros ->. exists (trim line). split; [now apply stripped_trim|]. destruct (D (trim line)) as [K|[(c & r & K & Hc)|K]].
    + left. split; [now left|]. apply Z. now left.
    + assert (N : no_name (trim line)) by (destruct Hc as [-> | ->]; right; [left|right]; eauto). left. split; [exact N|now apply Z].
    + right. split; [exact K|]. destruct (Q K) as (p & n & H1 & H2 & H3). exists p, n. auto.
Qed.

Lemma filter_map_names {A} (f : A -> option bytes) l : filter_map f l = names_of (map f l).
Proof. induction l as [|x l IH]; [reflexivity|]. cbn [filter_map map names_of flat_map]. destruct (f x); cbn [app]; now rewrite IH. Qed.
Lemma says_lines ls : forall os, Forall2 line_says ls os <-> os = map parse_line ls.
Proof.
  induction ls as [|l ls IH]; intros os; split; intros H.
  - now inversion H.
  - subst os. constructor.
  - inversion H as [|? o ? os' H1 H2]; subst. cbn [map]. f_equal; [now apply line_read|now apply IH].
  - subst os. cbn [map]. constructor; [now apply line_read|now apply IH].
Qed.
Theorem lists_parsed data names : lists data names <-> parse_listfile data = names.
Proof.
  split.
  - intros (text & ls & os & Hr & (Hn & Hl & ->) & Ho & ->). apply repaired_lossy in Hr. apply says_lines in Ho. subst os.
    unfold parse_listfile. rewrite <- Hr, split_joined by assumption. apply filter_map_names.
  - intros <-. exists (utf8_lossy data), (split_lines (utf8_lossy data)), (map parse_line (split_lines (utf8_lossy data))).
    split; [apply lossy_repaired|]. destruct (joined_split (utf8_lossy data)) as [J1 J2]. split.
    + split; [exact J1|]. split; [|now symmetry]. apply Forall_forall. intros l. apply split_lines_no_lf.
    + split; [now apply says_lines|]. apply filter_map_names.
Qed.

Theorem lists_listed L a fi d names : find_file a LISTFILE = Ok (Some fi) -> read_file L a LISTFILE = Ok d -> lists d names ->
  forall l, list_files L a = Ok l <->
    exists rows,
      Forall2 (fun n r =>
        (exists fi, find_file a n = Ok (Some fi) /\
           r = [mkFE n (fi_size fi) (fi_csize fi) (fi_flags fi) None]) \/
        (find_file a n = Ok None /\ r = [])) names rows /\
      l = concat rows.
Proof. intros H1 H2 H3. apply lists_parsed in H3. rewrite <- H3. exact (ListingFacts.list_files_rows L a fi d H1 H2). Qed.
