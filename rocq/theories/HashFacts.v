(** * Facts about the hash commands *)
From Verif Require Import Bytes Crypto CryptoFacts SpecNames NameFacts SpecListfile HashTable CliList CliConfig CliHash SpecHash.
From Coq Require Import ZifyBool ZifyN ZifyNat.
Open Scope N_scope.

(** ** Digits *)
Lemma low_digit_val d : d < 16 -> hex_val (low_digit d) = Some d.
Proof.
  intros H. assert (K : In d [0;1;2;3;4;5;6;7;8;9;10;11;12;13;14;15]) by (cbn; lia).
  repeat (destruct K as [<-|K]; [reflexivity|]). destruct K.
Qed.
Lemma low_digits_value k : forall n acc,
  hex_num acc (low_digits k n) = Some (acc * 16 ^ N.of_nat k + n mod 16 ^ N.of_nat k).
Proof.
  induction k as [|k IH]; intros n acc; cbn [low_digits hex_num].
  - rewrite N.mod_1_r. f_equal. cbn. lia.
  - rewrite low_digit_val by (apply N.mod_lt; discriminate). rewrite IH. f_equal.
    rewrite N.shiftr_div_pow2.
    replace (2 ^ (4 * N.of_nat k)) with (16 ^ N.of_nat k) by (change 16 with (2 ^ 4); rewrite <- N.pow_mul_r; reflexivity).
    replace (N.of_nat (S k)) with (N.of_nat k + 1) by lia. rewrite N.pow_add_r, N.pow_1_r.
    rewrite (N.mod_mul_r n (16 ^ N.of_nat k) 16) by (try apply N.pow_nonzero; discriminate). lia.
Qed.
Lemma hex10_shows n : n < 2 ^ 32 -> shows (hex10 n) n.
Proof.
  intros H. exists (low_digits 8 n). split; [reflexivity|]. split; [reflexivity|].
  rewrite low_digits_value. change (16 ^ N.of_nat 8) with (2 ^ 32). now rewrite N.mod_small by exact H.
Qed.
Lemma shows_fun t n m : shows t n -> shows t m -> n = m.
Proof. intros (d & -> & _ & H) (e & E & _ & H'). apply app_inv_head in E. subst e. congruence. Qed.

Lemma low_digit_plain d : d < 16 -> json_plain (low_digit d).
Proof.
  intros H. assert (K : In d [0;1;2;3;4;5;6;7;8;9;10;11;12;13;14;15]) by (cbn; lia).
  repeat (destruct K as [<-|K]; [split; [vm_compute; discriminate|split; discriminate]|]). destruct K.
Qed.
Lemma low_digits_plain k n : Forall json_plain (low_digits k n).
Proof.
  induction k as [|k IH]; cbn [low_digits]; constructor; [|exact IH]. apply low_digit_plain. apply N.mod_lt. discriminate.
Qed.
Definition plainb (b : byte) : bool := (32 <=? bN b) && negb (beqb b jquote) && negb (beqb b jback).
Lemma plainb_spec b : plainb b = true <-> json_plain b.
Proof.
  unfold plainb, json_plain. rewrite !andb_true_iff, !negb_true_iff, N.leb_le.
  assert (X : forall c, beqb b c = false <-> b <> c).
  { intros c. rewrite <- not_true_iff_false, beqb_eq. reflexivity. }
  rewrite !X. tauto.
Qed.
Lemma plain_lit d : forallb plainb d = true -> Forall json_plain d.
Proof. rewrite forallb_forall, Forall_forall. intros H b Hb. now apply plainb_spec, H. Qed.
Lemma hex10_plain n : Forall json_plain (hex10 n).
Proof. unfold hex10. apply Forall_app. split; [apply plain_lit; reflexivity|apply low_digits_plain]. Qed.

(** ** JSON *)
Lemma chars_plain d : Forall json_plain d -> json_chars d d.
Proof. induction 1; constructor; assumption. Qed.
Lemma encode_len c : (length (encode c) <= 4)%nat.
Proof. unfold encode. repeat match goal with |- context [if ?b then _ else _] => destruct b end; cbn; lia. Qed.

Lemma chars_len t v : json_chars t v -> (length v <= length t)%nat /\ (length v = length t -> v = t /\ Forall json_plain t).
Proof.
  induction 1 as [|b t v Hb H [IH1 IH2]|c x t v Hc H [IH1 IH2]|h n t v Hh Hn H [IH1 IH2]|h l a b t v Hh Hl Ha Hb H [IH1 IH2]].
  - split; [reflexivity|]. split; constructor.
  - cbn [length]. split; [lia|]. intros E. destruct IH2 as [-> HF]; [lia|]. split; [reflexivity|now constructor].
  - cbn [length]. split; [lia|]. intros E. lia.
  - destruct Hh as [Hh _]. pose proof (encode_len n). cbn [length]. rewrite !app_length, Hh. split; [lia|]. intros E. lia.
  - destruct Hh as [Hh _]. destruct Hl as [Hl _].
    match goal with |- context [encode ?x] => pose proof (encode_len x) end.
    cbn [length]. rewrite !app_length. cbn [length]. rewrite !app_length, Hh, Hl. split; [lia|]. intros E. lia.
Qed.

Lemma hex_no_quote h : forall acc n, hex_num acc h = Some n -> ~ In jquote h.
Proof.
  induction h as [|b t IH]; intros acc n H; cbn [hex_num] in H; [intros []|].
  destruct (hex_val b) as [v|] eqn:E; [|discriminate]. intros [->|Hi]; [discriminate E|]. now apply IH in H.
Qed.
(** Text free of quotes in front of [t]: the first quote of [t] comes later. *)
Lemma skip_free (p : bytes) : ~ In jquote p -> forall t u w, p ++ t = u ++ jquote :: w ->
  exists u', u = p ++ u' /\ t = u' ++ jquote :: w.
Proof.
  induction p as [|b p IH]; intros Hp t u w E; [exists u; auto|].
  destruct u as [|c u]; cbn [app] in E; injection E as E1 E2.
  - exfalso. apply Hp. left. exact E1.
  - subst c. destruct (IH (fun h => Hp (or_intror h)) t u w E2) as (u' & -> & ->). exists u'. auto.
Qed.

Lemma quote_early t v : json_chars t v -> forall u w, t = u ++ jquote :: w -> ~ In jquote u ->
  exists v1 v2, v = v1 ++ jquote :: v2 /\ (length v1 < length u)%nat.
Proof.
  induction 1 as [|b t v Hb H IH|c x t v Hc H IH|h n t v Hh Hn H IH|h l a b t v Hh Hl Ha Hb H IH]; intros u w E Hu.
  - destruct u; discriminate.
  - destruct u as [|b' u]; injection E as E1 E2.
    + subst b. now destruct Hb as (_ & Hq & _).
    + subst b'. destruct (IH u w E2) as (v1 & v2 & -> & Hl); [intros X; apply Hu; now right|].
      exists (b :: v1), v2. split; [reflexivity|]. cbn [length]. lia.
  - destruct u as [|b' u]; injection E as E1 E2; [discriminate E1|]. subst b'.
    destruct u as [|c' u]; injection E2 as E3 E4.
    + subst c. assert (x = jquote) as ->.
      { repeat (destruct Hc as [Hc|Hc]; [try discriminate Hc; injection Hc as <-; reflexivity|]). destruct Hc. }
      exists [], v. split; [reflexivity|]. cbn. lia.
    + subst c'. destruct (IH u w E4) as (v1 & v2 & -> & Hl); [intros X; apply Hu; right; now right|].
      exists (x :: v1), v2. split; [reflexivity|]. cbn [length]. lia.
  - destruct Hh as [Hh Hv]. destruct (skip_free (jback :: "u"%byte :: h)) with (t := t) (u := u) (w := w) as (u' & -> & ->).
    + intros [X|[X|X]]; [discriminate X|discriminate X|]. exact (hex_no_quote _ _ _ Hv X).
    + exact E.
    + destruct (IH u' w eq_refl) as (v1 & v2 & -> & Hl); [intros X; apply Hu; apply in_or_app; now right|].
      exists (encode n ++ v1), v2. split; [now rewrite <- app_assoc|].
      pose proof (encode_len n). rewrite !app_length. cbn [length]. lia.
  - destruct Hh as [Hh Hv]. destruct Hl as [Hl Hw].
    destruct (skip_free (jback :: "u"%byte :: h ++ jback :: "u"%byte :: l)) with (t := t) (u := u) (w := w) as (u' & -> & ->).
    + intros [X|[X|X]]; [discriminate X|discriminate X|]. apply in_app_or in X. destruct X as [X|[X|[X|X]]];
        [exact (hex_no_quote _ _ _ Hv X)|discriminate X|discriminate X|exact (hex_no_quote _ _ _ Hw X)].
    + rewrite <- E. cbn [app]. do 2 f_equal. now rewrite <- app_assoc.
    + destruct (IH u' w eq_refl) as (v1 & v2 & -> & Hl'); [intros X; apply Hu; apply in_or_app; now right|].
      match goal with |- context [encode ?x] => pose proof (encode_len x); exists (encode x ++ v1), v2 end.
      split; [now rewrite <- app_assoc|].
      rewrite !app_length. cbn [length]. rewrite !app_length. cbn [length]. lia.
Qed.

Lemma first_quote d : In jquote d -> exists u w, d = u ++ jquote :: w /\ ~ In jquote u.
Proof.
  induction d as [|b t IH]; [intros []|]. intros H. destruct (beqb b jquote) eqn:E.
  - apply beqb_eq in E. subst b. exists [], t. auto.
  - destruct H as [->|H]; [rewrite beqb_refl in E; discriminate|].
    destruct (IH H) as (u & w & -> & Hu). exists (b :: u), w. split; [reflexivity|].
    intros [->|X]; [rewrite beqb_refl in E; discriminate|contradiction].
Qed.

(** Text between quotes that stands for itself is plain, and the quote after it is
    the next one. *)
Lemma self_quoted b n r r' : json_chars b n -> b ++ jquote :: r = n ++ jquote :: r' -> Forall json_plain n.
Proof.
  intros H E. apply app_eq_app in E. destruct E as (l & [[E1 E2]|[E1 E2]]).
  - (* b = n ++ l *) destruct l as [|c l].
    + rewrite app_nil_r in E1. subst b. destruct (chars_len _ _ H) as [_ H2]. now apply H2.
    + exfalso. cbn [app] in E2. injection E2 as <- E2.
      destruct (first_quote b) as (u & w & Eb & Hu); [rewrite E1; apply in_or_app; right; now left|].
      destruct (quote_early b n H u w Eb Hu) as (v1 & v2 & En & Hl).
      apply Hu. rewrite E1, En, <- app_assoc in Eb. cbn [app] in Eb.
      apply app_eq_app in Eb. destruct Eb as (x & [[X1 X2]|[X1 X2]]).
      * exfalso. apply (f_equal (@length byte)) in X1. rewrite app_length in X1. lia.
      * destruct x as [|c x]; [rewrite app_nil_r in X1; subst; lia|]. cbn [app] in X2. injection X2 as <- X2.
        rewrite X1. apply in_or_app. right. now left.
  - (* n = b ++ l *) destruct l as [|c l].
    + rewrite app_nil_r in E1. subst b. destruct (chars_len _ _ H) as [_ H2]. now apply H2.
    + exfalso. apply chars_len in H. destruct H as [H _]. apply (f_equal (@length byte)) in E1. rewrite app_length in E1. cbn [length] in E1. lia.
Qed.

Lemma plain_string d : Forall json_plain d -> json_string (quoted d) d.
Proof. intros H. exists d. split; [reflexivity|now apply chars_plain]. Qed.

Definition object_text (name : bytes) (ht : htype) (v : N) : bytes :=
  lit "{" ++ quoted (lit "filename") ++ lit ":" ++ quoted name ++
  lit "," ++ quoted (lit "type") ++ lit ":" ++ quoted (type_name ht) ++
  lit "," ++ quoted (lit "value") ++ lit ":" ++ quoted (hex10 v) ++ lit "}".

Lemma object_fine name ht v : Forall json_plain name ->
  json_object (object_text name ht v) [(lit "filename", name); (lit "type", type_name ht); (lit "value", hex10 v)].
Proof.
  intros H. unfold object_text, json_object.
  exists ((quoted (lit "filename") ++ lit ":" ++ quoted name) ++ lit "," ++
          (quoted (lit "type") ++ lit ":" ++ quoted (type_name ht)) ++ lit "," ++
          (quoted (lit "value") ++ lit ":" ++ quoted (hex10 v))).
  split; [now rewrite <- !app_assoc|]. apply json_more; [|apply json_more]; [| |apply json_last].
  - do 2 eexists. split; [reflexivity|]. split; apply plain_string; [apply plain_lit; reflexivity|exact H].
  - do 2 eexists. split; [reflexivity|]. split; apply plain_string; apply plain_lit; [|destruct ht]; reflexivity.
  - do 2 eexists. split; [reflexivity|]. split; apply plain_string; [apply plain_lit; reflexivity|apply hex10_plain].
Qed.

Lemma no_quotes b v : json_chars b v -> ~ In jquote v -> ~ In jquote b.
Proof.
  intros H Hv Hb. destruct (first_quote b Hb) as (u & w & E & Hu).
  destruct (quote_early b v H u w E Hu) as (v1 & v2 & -> & _). apply Hv. apply in_or_app. right. now left.
Qed.
Lemma same_quote (x : bytes) : ~ In jquote x -> forall y r r', ~ In jquote y -> x ++ jquote :: r = y ++ jquote :: r' -> x = y /\ r = r'.
Proof.
  induction x as [|a x IH]; intros Hx y r r' Hy E.
  - destruct y as [|b y]; cbn [app] in E; [injection E as E; auto|]. injection E as E1 E2. exfalso. apply Hy. left. now symmetry.
  - destruct y as [|b y]; cbn [app] in E; injection E as E1 E2; [exfalso; apply Hx; now left|]. subst b.
    destruct (IH (fun h => Hx (or_intror h)) y r r' (fun h => Hy (or_intror h)) E2) as [-> ->]. auto.
Qed.

(** An object that begins with a member of the name: the name is plain. *)
Lemma object_only_plain name rest l : 
  json_object (lit "{" ++ quoted (lit "filename") ++ lit ":" ++ quoted name ++ rest) ((lit "filename", name) :: l) ->
  Forall json_plain name.
Proof.
  intros (u & E & H). cbn [lit String.list_byte_of_string app] in E.
  change (lit "{" ++ quoted (lit "filename") ++ lit ":" ++ quoted name ++ rest)
    with ("{"%byte :: quoted (lit "filename") ++ lit ":" ++ quoted name ++ rest) in E.
  assert (M : exists t x, u = t ++ x /\ json_member t (lit "filename", name)).
  { inversion H as [t m Hm E1 E2|t x m l' Hm Hx E1 E2]; subst; [exists u, []|exists t, (lit "," ++ x)];
      (split; [rewrite ?app_nil_r; reflexivity|assumption]). }
  destruct M as (t & x & -> & k & v & -> & (kb & -> & Hk) & (vb & -> & Hv)). cbn [fst snd] in Hk, Hv.
  assert (E' : quoted (lit "filename") ++ lit ":" ++ quoted name ++ rest =
    (((jquote :: kb ++ [jquote]) ++ lit ":" ++ jquote :: vb ++ [jquote]) ++ x) ++ lit "}").
  { apply (f_equal (@tl byte)) in E. exact E. }
  clear E. unfold quoted in E'. rewrite <- !app_assoc in E'. cbn [app] in E'.
  apply (f_equal (@tl byte)) in E'. cbn [tl] in E'. rewrite <- !app_assoc in E'.
  assert (Hf : ~ In jquote (lit "filename")).
  { intros X. repeat (destruct X as [X|X]; [discriminate X|]). destruct X. }
  destruct (same_quote (lit "filename") Hf kb _ _ (no_quotes _ _ Hk Hf) E') as [_ E2].
  apply (f_equal (skipn 2)) in E2. cbn [skipn lit String.list_byte_of_string app] in E2.
  rewrite <- ?app_assoc in E2. cbn [app] in E2. symmetry in E2.
  exact (self_quoted _ _ _ _ Hv E2).
Qed.

Theorem json_iff name ht :
  (exists t l, generate Json name (Some ht) false = t ++ [LF] /\ json_object t ((lit "filename", name) :: l)) <->
  Forall json_plain name.
Proof.
  cbn [generate]. change (line (lit "{" ++ _)) with (object_text name ht (hash_string name (type_id ht)) ++ [LF]). split.
  - intros (t & l & E & H). apply app_inj_tail in E. destruct E as [<- _].
    eapply object_only_plain. unfold object_text in H. exact H.
  - intros H. do 2 eexists. split; [reflexivity|]. apply object_fine. exact H.
Qed.

Theorem json_object_of name ht : Forall json_plain name ->
  exists t h, generate Json name (Some ht) false = t ++ [LF] /\ shows h (hash_string name (type_id ht)) /\
    json_object t [(lit "filename", name); (lit "type", type_name ht); (lit "value", h)].
Proof.
  intros H. exists (object_text name ht (hash_string name (type_id ht))), (hex10 (hash_string name (type_id ht))).
  split; [reflexivity|]. split; [apply hex10_shows, hash_string_lt|]. now apply object_fine.
Qed.

Theorem text_value out name ht : out <> Json ->
  exists h, generate out name (Some ht) false = h ++ [LF] /\ shows h (hash_string name (type_id ht)).
Proof.
  intros Ho. eexists. split; [|apply hex10_shows, hash_string_lt]. destruct out; [reflexivity|congruence|reflexivity].
Qed.

Theorem all_not_json out name t : generate out name t true = generate Text name None false /\
  forall u r l, generate out name t true = u ++ r -> ~ json_object u l.
Proof.
  split; [destruct t; reflexivity|].
  intros u r l E (x & -> & _). assert (X : generate out name t true = lit "H" ++ tl (generate out name t true)).
  { destruct t; reflexivity. }
  rewrite X in E. discriminate E.
Qed.

(** Equivalent names *)
Theorem generate_equiv out a b t all : name_equiv a b -> out <> Json -> generate out a t all = generate out b t all.
Proof.
  intros H Ho. unfold generate. rewrite !(name_equiv_hash a b) by exact H.
  destruct (if all then None else t) as [h|]; [|reflexivity]. destruct out; [|congruence|]; now rewrite (name_equiv_hash a b _ H).
Qed.

Lemma row_fine verbose a b r : row_says verbose (fst r) (hash_string a (snd r)) (hash_string b (snd r)) (compare_row verbose a b r).
Proof.
  destruct r as [label ht]. cbn [fst snd]. unfold compare_row, row_says.
  exists (hex10 (hash_string a ht)), (hex10 (hash_string b ht)).
  split; [apply hex10_shows, hash_string_lt|]. split; [apply hex10_shows, hash_string_lt|].
  destruct (N.eqb_spec (hash_string a ht) (hash_string b ht)) as [X|X].
  - left. split; [exact X|]. rewrite orb_true_r. unfold line. now rewrite <- !app_assoc.
  - right. split; [exact X|]. destruct verbose; cbn [orb]; [unfold line; now rewrite <- !app_assoc|reflexivity].
Qed.

Theorem compare_rows verbose a b : exists rows,
  compare_cmd verbose a b =
    lit "Hash comparison:" ++ [LF; LF] ++ lit "Filenames:" ++ [LF] ++ lit "  1: " ++ a ++ [LF] ++ lit "  2: " ++ b ++ [LF; LF] ++
    concat rows /\
  Forall2 (fun x row => row_says verbose (fst x) (hash_string a (snd x)) (hash_string b (snd x)) row) labels rows.
Proof.
  exists (map (compare_row verbose a b) table_types). split.
  - unfold compare_cmd, line. rewrite flat_map_concat_map. rewrite <- !app_assoc. reflexivity.
  - change labels with table_types. generalize table_types. intros l. induction l as [|r l IH]; constructor; [apply row_fine|exact IH].
Qed.

Theorem compare_equiv verbose a b : name_equiv a b -> exists hs,
  compare_cmd verbose a b =
    lit "Hash comparison:" ++ [LF; LF] ++ lit "Filenames:" ++ [LF] ++ lit "  1: " ++ a ++ [LF] ++ lit "  2: " ++ b ++ [LF; LF] ++
    concat (map (fun x => fst (fst x) ++ lit " " ++ snd x ++ lit " vs " ++ snd x ++ lit " [MATCH]" ++ [LF]) (combine labels hs)) /\
  Forall2 (fun x h => shows h (hash_string a (snd x))) labels hs.
Proof.
  intros H. exists (map (fun x => hex10 (hash_string a (snd x))) labels). split.
  - unfold compare_cmd, line. rewrite flat_map_concat_map. rewrite <- !app_assoc. cbn [app].
    do 3 f_equal. do 17 f_equal. 
    change labels with table_types. generalize table_types. intros l. induction l as [|[label ht] l IH]; [reflexivity|].
    cbn [map combine concat fst snd]. rewrite IH. f_equal. unfold compare_row. rewrite (name_equiv_hash a b ht H), N.eqb_refl, orb_true_r.
    unfold line. now rewrite <- !app_assoc.
  - generalize labels. intros l. induction l as [|x l IH]; constructor; [apply hex10_shows, hash_string_lt|exact IH].
Qed.

(** Names whose first three hashes agree are found alike in every table. *)
Theorem compare_lookup a b : hash_string a 0 = hash_string b 0 -> hash_string a 1 = hash_string b 1 ->
  hash_string a 2 = hash_string b 2 -> forall t loc, ht_find_file t a loc = ht_find_file t b loc.
Proof.
  intros H0 H1 H2 t loc. unfold ht_find_file. unfold HT_NAME_A, HT_NAME_B, HT_TABLE_OFFSET. now rewrite H0, H1, H2.
Qed.

(** ** By the numbers *)
Lemma types_spec ht nm id : In (ht, nm, id) types -> type_name ht = nm /\ type_id ht = id.
Proof. intros H. repeat (destruct H as [[= <- <- <-]|H]; [split; reflexivity|]). destruct H. Qed.
Theorem json_types name ht nm id : In (ht, nm, id) types -> Forall json_plain name ->
  exists t h, generate Json name (Some ht) false = t ++ [LF] /\ shows h (hash_string name id) /\
    json_object t [(lit "filename", name); (lit "type", nm); (lit "value", h)].
Proof. intros H. destruct (types_spec _ _ _ H) as [<- <-]. apply json_object_of. Qed.
Theorem text_types out name ht nm id : In (ht, nm, id) types -> out <> Json ->
  exists h, generate out name (Some ht) false = h ++ [LF] /\ shows h (hash_string name id).
Proof. intros H. destruct (types_spec _ _ _ H) as [<- <-]. apply text_value. Qed.
Theorem all_values out name t :
  exists h0 h1 h2 h3 h4,
    generate out name t true = lit "Hash values:" ++ [LF] ++ lit "  Table offset: " ++ h0 ++ [LF] ++
      lit "  Name A:       " ++ h1 ++ [LF] ++ lit "  Name B:       " ++ h2 ++ [LF] ++
      lit "  File key:     " ++ h3 ++ [LF] ++ lit "  Key2 mix:     " ++ h4 ++ [LF] /\
    shows h0 (hash_string name 0) /\ shows h1 (hash_string name 1) /\ shows h2 (hash_string name 2) /\
    shows h3 (hash_string name 3) /\ shows h4 (hash_string name 4).
Proof.
  exists (hex10 (hash_string name 0)), (hex10 (hash_string name 1)), (hex10 (hash_string name 2)),
    (hex10 (hash_string name 3)), (hex10 (hash_string name 4)).
  split; [|repeat split; apply hex10_shows, hash_string_lt].
  unfold generate, line, HT_TABLE_OFFSET, HT_NAME_A, HT_NAME_B, HT_FILE_KEY, HT_KEY2_MIX. now rewrite <- !app_assoc.
Qed.

(** ** Backslashes *)
Lemma quote_back t v : json_chars t v -> forall u w, t = u ++ jquote :: w -> In jback u.
Proof.
  induction 1 as [|b t v Hb H IH|c x t v Hc H IH|h n t v Hh Hn H IH|h l a b t v Hh Hl Ha Hb H IH]; intros u w E.
  - destruct u; discriminate.
  - destruct u as [|c u]; [injection E as E1 E2; subst b; now destruct Hb as (_ & Hb & _)|].
    injection E as E1 E2. right. exact (IH u w E2).
  - destruct u as [|c' u]; [discriminate E|]. injection E as <- _. now left.
  - destruct u as [|c' u]; [discriminate E|]. injection E as <- _. now left.
  - destruct u as [|c' u]; [discriminate E|]. injection E as <- _. now left.
Qed.

Lemma object_value name rest l : ~ In jquote name ->
  json_object (lit "{" ++ quoted (lit "filename") ++ lit ":" ++ quoted name ++ rest) l ->
  exists b v r, json_chars (name ++ b) v /\ (name ++ b) ++ jquote :: r = name ++ jquote :: rest.
Proof.
  intros Hn (u & E & H).
  assert (M : exists t x m, u = t ++ x /\ json_member t m).
  { inversion H as [t m Hm E1 E2|t x m l' Hm Hx E1 E2]; subst; [exists u, [], m|exists t, (lit "," ++ x), m];
      (split; [rewrite ?app_nil_r; reflexivity|assumption]). }
  destruct M as (t & x & m & -> & k & v & -> & (kb & -> & Hk) & (vb & -> & Hv)).
  change (lit "{" ++ quoted (lit "filename") ++ lit ":" ++ quoted name ++ rest)
    with ("{"%byte :: quoted (lit "filename") ++ lit ":" ++ quoted name ++ rest) in E.
  assert (E' : quoted (lit "filename") ++ lit ":" ++ quoted name ++ rest =
    (((jquote :: kb ++ [jquote]) ++ lit ":" ++ jquote :: vb ++ [jquote]) ++ x) ++ lit "}").
  { apply (f_equal (@tl byte)) in E. exact E. }
  clear E. unfold quoted in E'. rewrite <- !app_assoc in E'. cbn [app] in E'.
  apply (f_equal (@tl byte)) in E'. cbn [tl] in E'. rewrite <- !app_assoc in E'.
  assert (Hf : ~ In jquote (lit "filename")).
  { intros X. repeat (destruct X as [X|X]; [discriminate X|]). destruct X. }
  assert (Hkb : ~ In jquote kb).
  { intros X. destruct (first_quote kb X) as (u & w & -> & Hu). pose proof (quote_back _ _ Hk u w eq_refl) as Y.
    rewrite <- app_assoc in E'. cbn [app] in E'.
    destruct (same_quote (lit "filename") Hf u _ _ Hu E') as [E1 _]. subst u.
    repeat (destruct Y as [Y|Y]; [discriminate Y|]). destruct Y. }
  destruct (same_quote (lit "filename") Hf kb _ _ Hkb E') as [_ E2].
  apply (f_equal (skipn 2)) in E2. cbn [skipn lit String.list_byte_of_string app] in E2.
  rewrite <- ?app_assoc in E2. cbn [app] in E2.
  apply app_eq_app in E2. destruct E2 as (z & [[E1 E2]|[E1 E2]]).
  - (* name = vb ++ z *) destruct z as [|c z].
    + rewrite app_nil_r in E1. subst vb. exists [], (snd m), rest. rewrite app_nil_r. auto.
    + exfalso. cbn [app] in E2. injection E2 as <- _. apply Hn. rewrite E1. apply in_or_app. right. now left.
  - (* vb = name ++ z *) subst vb. exists z, (snd m), (x ++ lit "}"). split; [exact Hv|].
    rewrite <- app_assoc. f_equal. symmetry. exact E2.
Qed.

Theorem backslash_malformed ht t : generate Json (lit "Scripts\Common.j") (Some ht) false = t ++ [LF] ->
  forall l, ~ json_object t l.
Proof.
  cbn [generate]. change (line (lit "{" ++ quoted (lit "filename") ++ _))
    with (object_text (lit "Scripts\Common.j") ht (hash_string (lit "Scripts\Common.j") (type_id ht)) ++ [LF]).
  intros E l H. apply app_inj_tail in E. destruct E as [<- _]. unfold object_text in H.
  apply object_value in H.
  2: { intros X. repeat (destruct X as [X|X]; [discriminate X|]). destruct X. }
  destruct H as (b & v & r & H & _). cbn [lit String.list_byte_of_string app] in H.
  do 7 (inversion H as [|? ? ? _ H' E1 E2| | |]; clear H; subst; rename H' into H).
  inversion H as [|? ? ? Hb _ E1 E2|? ? ? ? Hc _ E1 E2| |]; subst.
  - now destruct Hb as (_ & _ & Hb).
  - repeat (destruct Hc as [Hc|Hc]; [discriminate Hc|]). destruct Hc.
Qed.

Theorem backslash_other ht : exists t l, generate Json (lit "dir\new.txt") (Some ht) false = t ++ [LF] /\
  json_object t ((lit "filename", lit "dir" ++ ["010"%byte] ++ lit "ew.txt") :: l).
Proof.
  cbn [generate]. do 2 eexists. split; [reflexivity|].
  exists ((quoted (lit "filename") ++ lit ":" ++ quoted (lit "dir\new.txt")) ++ lit "," ++
          (quoted (lit "type") ++ lit ":" ++ quoted (type_name ht)) ++ lit "," ++
          (quoted (lit "value") ++ lit ":" ++ quoted (hex10 (hash_string (lit "dir\new.txt") (type_id ht))))).
  split; [now rewrite <- !app_assoc|]. apply json_more; [|apply json_more]; [| |apply json_last].
  - do 2 eexists. split; [reflexivity|]. split; [apply plain_string; apply plain_lit; reflexivity|].
    exists (lit "dir" ++ jback :: "n"%byte :: lit "ew.txt"). split; [reflexivity|].
    assert (P : forall d t v, Forall json_plain d -> json_chars t v -> json_chars (d ++ t) (d ++ v)).
    { intros d t v Hd Ht. induction Hd; [exact Ht|]. now apply json_char. }
    apply (P (lit "dir")); [apply plain_lit; reflexivity|]. apply json_escape; [cbn; tauto|].
    apply chars_plain, plain_lit. reflexivity.
  - instantiate (1 := (_, _)). do 2 eexists. split; [reflexivity|]. split; apply plain_string; apply plain_lit; [|destruct ht]; reflexivity.
  - instantiate (1 := (_, _)). do 2 eexists. split; [reflexivity|]. split; apply plain_string; [apply plain_lit; reflexivity|apply hex10_plain].
Qed.
