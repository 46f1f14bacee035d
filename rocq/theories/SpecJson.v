(** * Specification: JSON texts (RFC 8259), as far as they are used: unsigned numbers. *)
From Verif Require Import Bytes SpecListfile SpecReport SpecHash Json.
Open Scope N_scope.

(** White space *)
Definition blank_text (w : bytes) : Prop := Forall (fun b => In b [" "; "009"; "010"; "013"]%byte) w.

(** A value and a text for it *)
Inductive json_text : json -> bytes -> Prop :=
  | text_null : json_text JNull (lit "null")
  | text_true : json_text (JBool true) (lit "true")
  | text_false : json_text (JBool false) (lit "false")
  | text_num n t : shown n t -> json_text (JNum n) t
  | text_string t c : json_string c t -> json_text (JText t) c
  | text_no_items w : blank_text w -> json_text (JList []) (lit "[" ++ w ++ lit "]")
  | text_list l t : items_text l t -> json_text (JList l) (lit "[" ++ t ++ lit "]")
  | text_no_members w : blank_text w -> json_text (JObject []) (lit "{" ++ w ++ lit "}")
  | text_object l t : members_text l t -> json_text (JObject l) (lit "{" ++ t ++ lit "}")
with items_text : list json -> bytes -> Prop :=
  | items_one w v t w' : blank_text w -> json_text v t -> blank_text w' -> items_text [v] (w ++ t ++ w')
  | items_more w v t w' l r : blank_text w -> json_text v t -> blank_text w' -> items_text l r ->
      items_text (v :: l) (w ++ t ++ w' ++ lit "," ++ r)
with members_text : list (bytes * json) -> bytes -> Prop :=
  | members_one w k c w1 w2 v t w' : blank_text w -> json_string c k -> blank_text w1 -> blank_text w2 -> json_text v t ->
      blank_text w' -> members_text [(k, v)] (w ++ c ++ w1 ++ lit ":" ++ w2 ++ t ++ w')
  | members_more w k c w1 w2 v t w' l r : blank_text w -> json_string c k -> blank_text w1 -> blank_text w2 -> json_text v t ->
      blank_text w' -> members_text l r ->
      members_text ((k, v) :: l) (w ++ c ++ w1 ++ lit ":" ++ w2 ++ t ++ w' ++ lit "," ++ r).

Definition json_document (v : json) (d : bytes) : Prop :=
  exists w t w', blank_text w /\ json_text v t /\ blank_text w' /\ d = w ++ t ++ w'.

(** What is found in a value on a way through its members and items *)
Inductive way := Member (k : bytes) | Item (i : nat).
Inductive shape := SNull | STruth (b : bool) | SNumber (n : N) | SText (t : bytes) | SItems (n : nat) | SMembers (n : nat).
Definition shape_of (v : json) : shape :=
  match v with
  | JNull => SNull | JBool b => STruth b | JNum n => SNumber n | JText t => SText t
  | JList l => SItems (length l) | JObject l => SMembers (length l)
  end.
Definition member (k : bytes) (l : list (bytes * json)) : option json :=
  match filter (fun m => bytes_eqb (fst m) k) l with (_, v) :: _ => Some v | [] => None end.
Fixpoint look (v : json) (p : list way) : option shape :=
  match p with
  | [] => Some (shape_of v)
  | Member k :: q =>
      match v with
      | JObject l => match member k l with Some x => look x q | None => None end
      | _ => None
      end
  | Item i :: q =>
      match v with
      | JList l => match nth_error l i with Some x => look x q | None => None end
      | _ => None
      end
  end.
(** The same but for the order of members *)
Definition same_json (v v' : json) : Prop := forall p, look v p = look v' p.

(** Values that JSON can express: texts in UTF-8, members of different names; numbers of 64 bits *)
Inductive valid_json : json -> Prop :=
  | tidy_null : valid_json JNull
  | tidy_bool b : valid_json (JBool b)
  | tidy_num n : n < 2 ^ 64 -> valid_json (JNum n)
  | tidy_text t : is_text t -> valid_json (JText t)
  | tidy_list l : (forall v, In v l -> valid_json v) -> valid_json (JList l)
  | tidy_object l : NoDup (map fst l) -> (forall k v, In (k, v) l -> is_text k /\ valid_json v) -> valid_json (JObject l).

(** What is asked of a library that writes JSON *)
Definition writes_json (show : json -> bytes) : Prop :=
  forall v, valid_json v -> exists v', json_document v' (show v) /\ same_json v' v.
