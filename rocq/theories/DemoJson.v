(** * A writer of JSON, indented as [serde_json::to_string_pretty] does *)
From Coq Require Import Lia ZifyBool ZifyNat ZifyN.
From Verif Require Import Bytes SpecListfile SpecReport SpecHash CliList CliHash ReportFacts Json SpecJson JsonFacts.
Open Scope N_scope.

Definition esc_char (b : byte) : bytes :=
  if beqb b jquote then [jback; jquote]
  else if beqb b jback then [jback; jback]
  else if beqb b "008"%byte then [jback; "b"%byte]
  else if beqb b "012"%byte then [jback; "f"%byte]
  else if beqb b "010"%byte then [jback; "n"%byte]
  else if beqb b "013"%byte then [jback; "r"%byte]
  else if beqb b "009"%byte then [jback; "t"%byte]
  else if bN b <? 32 then jback :: "u"%byte :: low_digits 4 (bN b)
  else [b].
Definition written (t : bytes) : bytes := jquote :: concat (map esc_char t) ++ [jquote].
Definition indent (k : nat) : bytes := LF :: repeat " "%byte (2 * k).
Fixpoint joined (l : list bytes) : bytes :=
  match l with [] => [] | [x] => x | x :: t => x ++ lit "," ++ joined t end.
Fixpoint pretty_at (k : nat) (v : json) : bytes :=
  match v with
  | JNull => lit "null"
  | JBool b => if b then lit "true" else lit "false"
  | JNum n => decimal n
  | JText t => written t
  | JList [] => lit "[]"
  | JList l => lit "[" ++ (joined (map (fun x => indent (S k) ++ pretty_at (S k) x) l) ++ indent k) ++ lit "]"
  | JObject [] => lit "{}"
  | JObject l => lit "{" ++ (joined (map (fun m => indent (S k) ++ written (fst m) ++ lit ": " ++ pretty_at (S k) (snd m)) l) ++ indent k) ++ lit "}"
  end.
Definition pretty (v : json) : bytes := pretty_at 0 v.

Lemma esc_chars b : forall t v, json_chars t v -> json_chars (esc_char b ++ t) (b :: v).
Proof.
  intros t v H. unfold esc_char.
  assert (X : forall c, beqb b c = false -> b <> c) by (intros c E ->; now rewrite beqb_refl in E).
  repeat match goal with |- context [if beqb b ?c then _ else _] =>
    let E := fresh "E" in destruct (beqb b c) eqn:E; [apply beqb_eq in E; subst b; apply json_escape; [cbn; tauto|exact H]|apply X in E] end.
  destruct (bN b <? 32) eqn:Hs.
  - assert (A : In b (map Nb (map N.of_nat (seq 0 32)))).
    { apply in_map_iff. exists (bN b). split; [apply Nb_bN|]. apply in_map_iff. exists (N.to_nat (bN b)). split; [lia|]. apply in_seq. lia. }
    assert (Q : Forall (fun b => hex_word (low_digits 4 (bN b)) (bN b) /\ scalar (bN b) /\ encode (bN b) = [b]) (map Nb (map N.of_nat (seq 0 32)))).
    { cbn [seq map]. repeat (apply Forall_cons; [split; [split; vm_compute; reflexivity|split; [left; vm_compute; reflexivity|vm_compute; reflexivity]]|]).
      apply Forall_nil. }
    rewrite Forall_forall in Q. destruct (Q b A) as (Q1 & Q2 & Q3).
    change (b :: v) with ([b] ++ v). rewrite <- Q3. now apply json_unicode.
  - apply json_char; [|exact H]. repeat split; [lia| |]; congruence.
Qed.
Lemma written_string t : json_string (written t) t.
Proof.
  exists (concat (map esc_char t)). split; [reflexivity|]. induction t as [|b t IH]; [constructor|]. cbn [map concat]. now apply esc_chars.
Qed.
Lemma indent_blank k : blank_text (indent k).
Proof.
  apply Forall_cons; [right; right; left; reflexivity|]. apply Forall_forall. intros x Hx. apply repeat_spec in Hx. subst. left. reflexivity.
Qed.

Fixpoint json_size (v : json) : nat :=
  match v with
  | JList l => S (list_sum (map json_size l))
  | JObject l => S (list_sum (map (fun m => json_size (snd m)) l))
  | _ => 1%nat
  end.
Lemma sum_in {A} (f : A -> nat) l x : In x l -> (f x <= list_sum (map f l))%nat.
Proof.
  induction l as [|y l IH]; intros []; subst; cbn [map list_sum fold_right].
  - change (fold_right Nat.add 0%nat (map f l)) with (list_sum (map f l)). lia.
  - change (fold_right Nat.add 0%nat (map f l)) with (list_sum (map f l)). specialize (IH H). lia.
Qed.
Lemma pretty_text n : forall v, (json_size v < n)%nat -> valid_json v -> forall k, json_text v (pretty_at k v).
Proof.
  induction n as [|n IH]; intros v Hn Hv k; [lia|]. destruct Hv as [|b|m Hm|t Ht|l Hl|l Hd Hl].
  - constructor.
  - destruct b; constructor.
  - constructor. now apply decimal_shown.
  - constructor. apply written_string.
  - destruct l as [|x l]; [exact (text_no_items [] (Forall_nil _))|].
    change (pretty_at k (JList (x :: l))) with
      (lit "[" ++ (joined (map (fun x => indent (S k) ++ pretty_at (S k) x) (x :: l)) ++ indent k) ++ lit "]").
    apply text_list. assert (B : forall y, In y (x :: l) -> json_text y (pretty_at (S k) y)).
    { intros y Hy. apply IH; [|now apply Hl]. cbn [json_size] in Hn. pose proof (sum_in json_size (x :: l) y Hy). lia. }
    clear - B. revert x B. induction l as [|y l IHl]; intros x B.
    + cbn [map joined]. rewrite <- app_assoc. apply items_one; [apply indent_blank|apply B; now left|apply indent_blank].
    + change (joined (map (fun x => indent (S k) ++ pretty_at (S k) x) (x :: y :: l))) with
        ((indent (S k) ++ pretty_at (S k) x) ++ lit "," ++ joined (map (fun x => indent (S k) ++ pretty_at (S k) x) (y :: l))).
      rewrite <- !app_assoc. apply (items_more _ _ _ []); [apply indent_blank|apply B; now left|apply Forall_nil|].
      apply IHl. intros z Hz. apply B. now right.
  - destruct l as [|x l]; [exact (text_no_members [] (Forall_nil _))|].
    change (pretty_at k (JObject (x :: l))) with
      (lit "{" ++ (joined (map (fun m => indent (S k) ++ written (fst m) ++ lit ": " ++ pretty_at (S k) (snd m)) (x :: l)) ++ indent k) ++ lit "}").
    apply text_object. assert (B : forall y, In y (x :: l) -> json_text (snd y) (pretty_at (S k) (snd y))).
    { intros [key y] Hy. apply IH; [|exact (proj2 (Hl key y Hy))]. cbn [json_size] in Hn.
      pose proof (sum_in (fun m : bytes * json => json_size (snd m)) (x :: l) (key, y) Hy). cbn [snd] in *. lia. }
    assert (W : blank_text (lit " ")) by (apply Forall_cons; [now left|apply Forall_nil]).
    clear - B W. revert x B. induction l as [|y l IHl]; intros x B.
    + cbn [map joined]. rewrite <- !app_assoc. change (lit ": " ++ pretty_at (S k) (snd x) ++ indent k) with
        ([] ++ lit ":" ++ lit " " ++ pretty_at (S k) (snd x) ++ indent k). destruct x as [key x]. cbn [fst snd].
      apply members_one; [apply indent_blank|apply written_string|apply Forall_nil|exact W|exact (B (key, x) (or_introl eq_refl))|apply indent_blank].
    + change (joined (map (fun m => indent (S k) ++ written (fst m) ++ lit ": " ++ pretty_at (S k) (snd m)) (x :: y :: l))) with
        ((indent (S k) ++ written (fst x) ++ lit ": " ++ pretty_at (S k) (snd x)) ++ lit "," ++
         joined (map (fun m => indent (S k) ++ written (fst m) ++ lit ": " ++ pretty_at (S k) (snd m)) (y :: l))).
      rewrite <- !app_assoc. destruct x as [key x]. cbn [fst snd].
      change (lit ": " ++ ?z) with ([] ++ lit ":" ++ lit " " ++ z).
      apply (members_more _ _ _ [] (lit " ") _ _ []); [apply indent_blank|apply written_string|apply Forall_nil|exact W|
        exact (B (key, x) (or_introl eq_refl))|apply Forall_nil|].
      apply IHl. intros z Hz. apply B. now right.
Qed.

Lemma pretty_writes : writes_json pretty.
Proof.
  intros v Hv. exists v. split; [|intros p; reflexivity]. exists [], (pretty v), []. split; [apply Forall_nil|].
  split; [exact (pretty_text (S (json_size v)) v (Nat.lt_succ_diag_r _) Hv 0)|]. split; [apply Forall_nil|]. now rewrite app_nil_r.
Qed.
