(** * Facts about JSON texts: a text has one meaning; there is a writer. *)
From Coq Require Import Lia ZifyBool ZifyNat ZifyN.
From Verif Require Import Bytes SpecListfile SpecReport SpecAnon SpecHash CliList CliHash ReportFacts Json SpecJson.
Open Scope N_scope.

(** ** A parser *)
Definition is_ws (b : byte) : bool := existsb (beqb b) [" "; "009"; "010"; "013"]%byte.
Fixpoint skip (d : bytes) : bytes := match d with b :: t => if is_ws b then skip t else d | [] => [] end.

Fixpoint escape_of (c : byte) (l : list (byte * byte)) : option byte :=
  match l with
  | (e, x) :: t => if beqb c e then Some x else escape_of c t
  | [] => None
  end.
Definition push (x : bytes) (r : option (bytes * bytes)) : option (bytes * bytes) :=
  match r with Some (v, d) => Some (x ++ v, d) | None => None end.
Fixpoint p_chars (d : bytes) : option (bytes * bytes) :=
  match d with
  | [] => None
  | b :: t =>
      if beqb b jquote then Some ([], t)
      else if beqb b jback then
        match t with
        | c :: t1 =>
            if beqb c "u"%byte then
              match t1 with
              | a1 :: a2 :: a3 :: a4 :: t2 =>
                  match hex_num 0 [a1; a2; a3; a4] with
                  | Some n =>
                      if (0xD800 <=? n) && (n <? 0xDC00) then
                        match t2 with
                        | _ :: _ :: b1 :: b2 :: b3 :: b4 :: t3 =>
                            match hex_num 0 [b1; b2; b3; b4] with
                            | Some m => push (encode (0x10000 + (n - 0xD800) * 0x400 + (m - 0xDC00))) (p_chars t3)
                            | None => None
                            end
                        | _ => None
                        end
                      else push (encode n) (p_chars t2)
                  | None => None
                  end
              | _ => None
              end
            else match escape_of c escapes with Some x => push [x] (p_chars t1) | None => None end
        | [] => None
        end
      else push [b] (p_chars t)
  end.

Definition is_digit (b : byte) : bool := (48 <=? bN b) && (bN b <=? 57).
Fixpoint p_digits (d : bytes) : bytes * bytes :=
  match d with
  | b :: t => if is_digit b then let (x, r) := p_digits t in (b :: x, r) else ([], d)
  | [] => ([], [])
  end.
Definition after_word (w d : bytes) : option bytes := if bytes_eqb (firstn (length w) d) w then Some (skipn (length w) d) else None.

Fixpoint p_value (f : nat) (d : bytes) : option (json * bytes) :=
  match f with
  | O => None
  | S f =>
      match d with
      | [] => None
      | b :: t =>
          if beqb b "n"%byte then match after_word (lit "null") d with Some r => Some (JNull, r) | None => None end
          else if beqb b "t"%byte then match after_word (lit "true") d with Some r => Some (JBool true, r) | None => None end
          else if beqb b "f"%byte then match after_word (lit "false") d with Some r => Some (JBool false, r) | None => None end
          else if beqb b jquote then match p_chars t with Some (x, r) => Some (JText x, r) | None => None end
          else if beqb b "["%byte then
            match skip t with
            | c :: r => if beqb c "]"%byte then Some (JList [], r)
                        else match p_items f t with Some (l, r) => Some (JList l, r) | None => None end
            | [] => None
            end
          else if beqb b "{"%byte then
            match skip t with
            | c :: r => if beqb c "}"%byte then Some (JObject [], r)
                        else match p_members f t with Some (l, r) => Some (JObject l, r) | None => None end
            | [] => None
            end
          else let (x, r) := p_digits d in Some (JNum (dec_value x), r)
      end
  end
with p_items (f : nat) (d : bytes) : option (list json * bytes) :=
  match f with
  | O => None
  | S f =>
      match p_value f (skip d) with
      | Some (v, r) =>
          match skip r with
          | c :: r' => if beqb c ","%byte then match p_items f r' with Some (l, r) => Some (v :: l, r) | None => None end
                       else Some ([v], r')
          | [] => None
          end
      | None => None
      end
  end
with p_members (f : nat) (d : bytes) : option (list (bytes * json) * bytes) :=
  match f with
  | O => None
  | S f =>
      match skip d with
      | _ :: t =>
          match p_chars t with
          | Some (k, r) =>
              match skip r with
              | _ :: r =>
                  match p_value f (skip r) with
                  | Some (v, r) =>
                      match skip r with
                      | c :: r' => if beqb c ","%byte then match p_members f r' with Some (l, r) => Some ((k, v) :: l, r) | None => None end
                                   else Some ([(k, v)], r')
                      | [] => None
                      end
                  | None => None
                  end
              | [] => None
              end
          | None => None
          end
      | [] => None
      end
  end.

(** ** It understands every text *)
Lemma is_ws_in b : is_ws b = true <-> In b [" "; "009"; "010"; "013"]%byte.
Proof.
  unfold is_ws. rewrite existsb_exists. split.
  - intros (x & Hx & E). apply beqb_eq in E. now subst.
  - intros H. exists b. split; [exact H|apply beqb_refl].
Qed.
Lemma skip_blank w d : blank_text w -> skip (w ++ d) = skip d.
Proof.
  induction 1 as [|b w Hb _ IH]; [reflexivity|]. cbn [skip app].
  apply is_ws_in in Hb. now rewrite Hb.
Qed.
Lemma skip_stay b d : is_ws b = false -> skip (b :: d) = b :: d.
Proof. intros H. cbn [skip]. now rewrite H. Qed.

Lemma escape_found c x : In (c, x) escapes -> beqb c "u"%byte = false /\ escape_of c escapes = Some x.
Proof.
  cbn [escapes In]. intros H. repeat (destruct H as [H|H]; [injection H as <- <-; split; reflexivity|]). destruct H.
Qed.
Lemma hex_word_four h n : hex_word h n -> exists a b c d, h = [a; b; c; d] /\ hex_num 0 [a; b; c; d] = Some n.
Proof.
  intros [Hl Hn]. destruct h as [|a [|b [|c [|d [|]]]]]; try discriminate. now exists a, b, c, d.
Qed.
Lemma chars_read t v : json_chars t v -> forall r, p_chars (t ++ jquote :: r) = Some (v, r).
Proof.
  induction 1 as [|b t v (H1 & H2 & H3) _ IH|c x t v Hin _ IH|h n t v Hh Hs _ IH|h l a b t v Hh Hl Ha Hb _ IH]; intros r.
  - reflexivity.
  - cbn [app p_chars].
    assert (E1 : beqb b jquote = false) by (destruct (beqb b jquote) eqn:E; [apply beqb_eq in E; congruence|reflexivity]).
    assert (E2 : beqb b jback = false) by (destruct (beqb b jback) eqn:E; [apply beqb_eq in E; congruence|reflexivity]).
    rewrite E1, E2, IH. reflexivity.
  - destruct (escape_found _ _ Hin) as [E1 E2]. cbn [app p_chars].
    change (beqb jback jquote) with false. change (beqb jback jback) with true. cbn iota. rewrite E1, E2, IH. reflexivity.
  - destruct (hex_word_four _ _ Hh) as (a1 & a2 & a3 & a4 & -> & E). cbn [app p_chars].
    change (beqb jback jquote) with false. change (beqb jback jback) with true. cbn iota.
    change (beqb "u" "u") with true. cbn iota. rewrite E.
    assert (F : (0xD800 <=? n) && (n <? 0xDC00) = false) by (unfold scalar in Hs; lia).
    rewrite F, IH. reflexivity.
  - destruct (hex_word_four _ _ Hh) as (a1 & a2 & a3 & a4 & -> & E). destruct (hex_word_four _ _ Hl) as (b1 & b2 & b3 & b4 & -> & E').
    cbn [app p_chars].
    change (beqb jback jquote) with false. change (beqb jback jback) with true. cbn iota.
    change (beqb "u" "u") with true. cbn iota. rewrite E.
    assert (F : (0xD800 <=? a) && (a <? 0xDC00) = true) by lia.
    rewrite F, E', IH. reflexivity.
Qed.
Lemma string_read c k r : json_string c k -> exists t, c ++ r = jquote :: t /\ p_chars t = Some (k, r).
Proof.
  intros (b & -> & H). exists (b ++ jquote :: r). split; [|now apply chars_read].
  cbn [app]. now rewrite <- app_assoc.
Qed.

Definition safe (r : bytes) : Prop := match r with b :: _ => is_digit b = false | [] => True end.
Lemma digits_read t : forall r, Forall digit t -> safe r -> p_digits (t ++ r) = (t, r).
Proof.
  induction t as [|b t IH]; intros r Ht Hr.
  - destruct r as [|b r]; [reflexivity|]. cbn [app p_digits]. cbn [safe] in Hr. now rewrite Hr.
  - inversion Ht as [|? ? Hb Ht']; subst. cbn [app p_digits].
    assert (E : is_digit b = true) by (unfold is_digit; unfold digit in Hb; lia).
    rewrite E, IH by assumption. reflexivity.
Qed.

(** How texts begin *)
Definition opening (b : byte) : Prop := is_ws b = false /\ beqb b "]"%byte = false /\ beqb b "}"%byte = false.
Lemma digit_opening b : digit b -> opening b /\ beqb b "n"%byte = false /\ beqb b "t"%byte = false /\ beqb b "f"%byte = false /\
  beqb b jquote = false /\ beqb b "["%byte = false /\ beqb b "{"%byte = false.
Proof.
  intros H. unfold opening.
  assert (X : forall c, (bN c <? 48) || (57 <? bN c) = true -> beqb b c = false).
  { intros c Hc. destruct (beqb b c) eqn:E; [|reflexivity]. apply beqb_eq in E. subst. unfold digit in H. lia. }
  repeat split; try (apply X; reflexivity). unfold is_ws. cbn [existsb]. rewrite !X by reflexivity. reflexivity.
Qed.
Lemma starts_open v t : json_text v t -> exists b u, t = b :: u /\ opening b.
Proof.
  intros H. inversion H as [| | |n t' Hs|t' c Hs| | | |]; subst; try (do 2 eexists; split; [reflexivity|repeat split; reflexivity]).
  - destruct Hs as (Hd & _ & Hn & _). destruct t as [|b u]; [now elim Hn|]. exists b, u. split; [reflexivity|].
    inversion Hd; subst. now apply digit_opening.
  - destruct Hs as (b & -> & _). do 2 eexists. split; [reflexivity|]. repeat split; reflexivity.
Qed.

Scheme json_text_3 := Induction for json_text Sort Prop
  with items_text_3 := Induction for items_text Sort Prop
  with members_text_3 := Induction for members_text Sort Prop.
Combined Scheme json_texts_ind from json_text_3, items_text_3, members_text_3.

Definition understood {A} (p : nat -> bytes -> option (A * bytes)) (v : A) (t e : bytes) : Prop :=
  exists k, forall f, (k <= f)%nat -> forall r, safe r -> p f (t ++ e ++ r) = Some (v, r).

Lemma safe_ws w d : blank_text w -> safe d -> safe (w ++ d).
Proof.
  intros Hw Hd. destruct Hw as [|b w Hb _]; [exact Hd|]. cbn [app safe].
  cbn [In] in Hb. repeat (destruct Hb as [<-|Hb]; [reflexivity|]). destruct Hb.
Qed.

Lemma items_start l t : items_text l t -> forall e, exists b u, skip (t ++ e) = b :: u /\ opening b.
Proof.
  intros H e. inversion H as [w v t' w' Hw Ht Hw'|w v t' w' l' r Hw Ht Hw' Hl]; subst;
    destruct (starts_open _ _ Ht) as (b & u & -> & Ho); rewrite <- !app_assoc, skip_blank by exact Hw; cbn [app];
    rewrite skip_stay by apply Ho; do 2 eexists; split; try reflexivity; exact Ho.
Qed.
Lemma members_start l t : members_text l t -> forall e, exists b u, skip (t ++ e) = b :: u /\ opening b.
Proof.
  intros H e. inversion H as [w k c w1 w2 v t' w' Hw (b & -> & _)|w k c w1 w2 v t' w' l' r Hw (b & -> & _)]; subst;
    rewrite <- !app_assoc, skip_blank by exact Hw; cbn [app]; rewrite skip_stay by reflexivity;
    do 2 eexists; (split; [reflexivity|]); repeat split; reflexivity.
Qed.

Lemma p_list f t : p_value (S f) ("["%byte :: t) =
  match skip t with
  | c :: r => if beqb c "]"%byte then Some (JList [], r)
              else match p_items f t with Some (l, r) => Some (JList l, r) | None => None end
  | [] => None
  end.
Proof. reflexivity. Qed.
Lemma p_object f t : p_value (S f) ("{"%byte :: t) =
  match skip t with
  | c :: r => if beqb c "}"%byte then Some (JObject [], r)
              else match p_members f t with Some (l, r) => Some (JObject l, r) | None => None end
  | [] => None
  end.
Proof. reflexivity. Qed.
Lemma skip_word w b d : blank_text w -> is_ws b = false -> skip (w ++ b :: d) = b :: d.
Proof. intros Hw Hb. rewrite skip_blank by exact Hw. now apply skip_stay. Qed.
Lemma p_items_eq f d : p_items (S f) d =
  match p_value f (skip d) with
  | Some (v, r) =>
      match skip r with
      | c :: r' => if beqb c ","%byte then match p_items f r' with Some (l, r) => Some (v :: l, r) | None => None end
                   else Some ([v], r')
      | [] => None
      end
  | None => None
  end.
Proof. reflexivity. Qed.
Lemma p_members_eq f d w t k r u w2 r2 : skip d = w :: t -> p_chars t = Some (k, r) -> skip r = u :: w2 -> skip w2 = r2 ->
  p_members (S f) d =
  match p_value f r2 with
  | Some (v, r) =>
      match skip r with
      | c :: r' => if beqb c ","%byte then match p_members f r' with Some (l, r) => Some ((k, v) :: l, r) | None => None end
                   else Some ([(k, v)], r')
      | [] => None
      end
  | None => None
  end.
Proof. intros E1 E2 E3 E4. cbn [p_members]. rewrite E1, E2, E3, E4. reflexivity. Qed.

Lemma text_skip v t d : json_text v t -> skip (t ++ d) = t ++ d.
Proof. intros H. destruct (starts_open _ _ H) as (b & u & -> & Ho & _). cbn [app]. now apply skip_stay. Qed.

Lemma texts_read :
  (forall v t, json_text v t -> understood p_value v t []) /\
  (forall l t, items_text l t -> understood p_items l t (lit "]")) /\
  (forall l t, members_text l t -> understood p_members l t (lit "}")).
Proof.
  apply json_texts_ind.
  - exists 1%nat. intros [|f] Hf r _; [lia|reflexivity].
  - exists 1%nat. intros [|f] Hf r _; [lia|reflexivity].
  - exists 1%nat. intros [|f] Hf r _; [lia|reflexivity].
  - intros n t (Hd & Hv & Hn & _). exists 1%nat. intros [|f] Hf r Hr; [lia|].
    destruct t as [|b t]; [now elim Hn|]. inversion Hd as [|? ? Hb Hd']; subst.
    destruct (digit_opening _ Hb) as (_ & E1 & E2 & E3 & E4 & E5 & E6).
    change (([] : bytes) ++ r) with r. pose proof (digits_read (b :: t) r Hd Hr) as Hp. cbn [app] in Hp |- *.
    cbn [p_value]. rewrite E1, E2, E3, E4, E5, E6, Hp. reflexivity.
  - intros t c Hs. exists 1%nat. intros [|f] Hf r _; [lia|]. destruct (string_read c t r Hs) as (u & E & Hp).
    cbn [app]. rewrite E. cbn [p_value]. change (beqb jquote "n") with false. change (beqb jquote "t") with false.
    change (beqb jquote "f") with false. change (beqb jquote jquote) with true. cbn iota. now rewrite Hp.
  - intros w Hw. exists 1%nat. intros [|f] Hf r _; [lia|].
    change ((lit "[" ++ w ++ lit "]") ++ [] ++ r) with ("["%byte :: (w ++ lit "]") ++ r). rewrite <- app_assoc, p_list.
    change (lit "]" ++ r) with ("]"%byte :: r). rewrite skip_word by (exact Hw || reflexivity). reflexivity.
  - intros l t Ht [k IH]. exists (S k). intros [|f] Hf r Hr; [lia|].
    change ((lit "[" ++ t ++ lit "]") ++ [] ++ r) with ("["%byte :: (t ++ lit "]") ++ r). rewrite <- app_assoc, p_list.
    destruct (items_start _ _ Ht (lit "]" ++ r)) as (b & u & -> & _ & E & _). rewrite E, IH by (lia || exact Hr). reflexivity.
  - intros w Hw. exists 1%nat. intros [|f] Hf r _; [lia|].
    change ((lit "{" ++ w ++ lit "}") ++ [] ++ r) with ("{"%byte :: (w ++ lit "}") ++ r). rewrite <- app_assoc, p_object.
    change (lit "}" ++ r) with ("}"%byte :: r). rewrite skip_word by (exact Hw || reflexivity). reflexivity.
  - intros l t Ht [k IH]. exists (S k). intros [|f] Hf r Hr; [lia|].
    change ((lit "{" ++ t ++ lit "}") ++ [] ++ r) with ("{"%byte :: (t ++ lit "}") ++ r). rewrite <- app_assoc, p_object.
    destruct (members_start _ _ Ht (lit "}" ++ r)) as (b & u & -> & _ & _ & E). rewrite E, IH by (lia || exact Hr). reflexivity.
  - intros w v t w' Hw Ht [k IH] Hw'. exists (S k). intros [|f] Hf r Hr; [lia|]. rewrite <- !app_assoc, p_items_eq.
    rewrite skip_blank by exact Hw. rewrite (text_skip _ _ _ Ht). change (t ++ w' ++ lit "]" ++ r) with (t ++ [] ++ w' ++ lit "]" ++ r).
    rewrite IH by (lia || (apply safe_ws; [exact Hw'|reflexivity])).
    change (lit "]" ++ r) with ("]"%byte :: r). rewrite skip_word by (exact Hw' || reflexivity). reflexivity.
  - intros w v t w' l u Hw Ht [k IH] Hw' Hl [k' IH']. exists (S (k + k')). intros [|f] Hf r Hr; [lia|]. rewrite <- !app_assoc, p_items_eq.
    rewrite skip_blank by exact Hw. rewrite (text_skip _ _ _ Ht).
    change (t ++ w' ++ lit "," ++ u ++ lit "]" ++ r) with (t ++ [] ++ w' ++ ","%byte :: u ++ lit "]" ++ r).
    rewrite IH by (lia || (apply safe_ws; [exact Hw'|reflexivity])).
    rewrite skip_word by (exact Hw' || reflexivity). change (beqb "," ",") with true. cbn iota.
    rewrite IH' by (lia || exact Hr). reflexivity.
  - intros w key c w1 w2 v t w' Hw Hk Hw1 Hw2 Ht [k IH] Hw'. exists (S k). intros [|f] Hf r Hr; [lia|]. rewrite <- !app_assoc.
    set (e := lit "}" ++ r).
    destruct (string_read c key (w1 ++ lit ":" ++ w2 ++ t ++ w' ++ e) Hk) as (u & E & Hp).
    rewrite (p_members_eq f _ jquote u key (w1 ++ lit ":" ++ w2 ++ t ++ w' ++ e) ":"%byte (w2 ++ t ++ w' ++ e) (t ++ w' ++ e)).
    + change (t ++ w' ++ e) with (t ++ [] ++ w' ++ e).
      rewrite IH by (lia || (apply safe_ws; [exact Hw'|reflexivity])).
      subst e. change (lit "}" ++ r) with ("}"%byte :: r). rewrite skip_word by (exact Hw' || reflexivity). reflexivity.
    + rewrite E. now apply skip_word.
    + exact Hp.
    + change (lit ":" ++ w2 ++ t ++ w' ++ e) with (":"%byte :: w2 ++ t ++ w' ++ e). now apply skip_word.
    + rewrite skip_blank by exact Hw2. exact (text_skip _ _ _ Ht).
  - intros w key c w1 w2 v t w' l u0 Hw Hk Hw1 Hw2 Ht [k IH] Hw' Hl [k' IH']. exists (S (k + k')). intros [|f] Hf r Hr; [lia|].
    rewrite <- !app_assoc.
    set (e := lit "," ++ u0 ++ lit "}" ++ r).
    destruct (string_read c key (w1 ++ lit ":" ++ w2 ++ t ++ w' ++ e) Hk) as (u & E & Hp).
    rewrite (p_members_eq f _ jquote u key (w1 ++ lit ":" ++ w2 ++ t ++ w' ++ e) ":"%byte (w2 ++ t ++ w' ++ e) (t ++ w' ++ e)).
    + change (t ++ w' ++ e) with (t ++ [] ++ w' ++ e).
      rewrite IH by (lia || (apply safe_ws; [exact Hw'|reflexivity])).
      subst e. change (lit "," ++ u0 ++ lit "}" ++ r) with (","%byte :: u0 ++ lit "}" ++ r).
      rewrite skip_word by (exact Hw' || reflexivity). change (beqb "," ",") with true. cbn iota.
      rewrite IH' by (lia || exact Hr). reflexivity.
    + rewrite E. now apply skip_word.
    + exact Hp.
    + change (lit ":" ++ w2 ++ t ++ w' ++ e) with (":"%byte :: w2 ++ t ++ w' ++ e). now apply skip_word.
    + rewrite skip_blank by exact Hw2. exact (text_skip _ _ _ Ht).
Qed.

(** A text is a text for one value. *)
Lemma document_read v d : json_document v d -> exists k, forall f, (k <= f)%nat -> exists r, p_value f (skip d) = Some (v, r).
Proof.
  intros (w & t & w' & Hw & Ht & Hw' & ->). destruct (proj1 texts_read v t Ht) as [k Hk]. exists k. intros f Hf. exists w'.
  rewrite skip_blank by exact Hw. rewrite (text_skip _ _ _ Ht). change (t ++ w') with (t ++ [] ++ w'). apply Hk; [exact Hf|].
  rewrite <- (app_nil_r w'). apply safe_ws; [exact Hw'|exact I].
Qed.
Lemma one_meaning v v' d : json_document v d -> json_document v' d -> v = v'.
Proof.
  intros H H'. destruct (document_read _ _ H) as [k Hk]. destruct (document_read _ _ H') as [k' Hk'].
  destruct (Hk (k + k')%nat) as [r E]; [lia|]. destruct (Hk' (k + k')%nat) as [r' E']; [lia|]. congruence.
Qed.
