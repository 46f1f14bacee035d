(** * Vocabulary for what the command line tool prints. *)
From Coq Require Import Sorting.Sorted.
From Verif Require Import Bytes.
Open Scope N_scope.

(** ** Order *)
(** Dictionary order on byte strings. *)
Inductive text_le : bytes -> bytes -> Prop :=
| le_empty d : text_le [] d
| le_first x y a b : bN x < bN y -> text_le (x :: a) (y :: b)
| le_later x a b : text_le a b -> text_le (x :: a) (x :: b).
Definition in_order {A} (name : A -> bytes) (l : list A) : Prop :=
  StronglySorted (fun x y => text_le (name x) (name y)) l.

(** The items with a given name, in their order. *)
Definition named {A} (name : A -> bytes) (n : bytes) (l : list A) : list A :=
  filter (fun x => bytes_eqb (name x) n) l.

(** ** Comma separated values (RFC 4180) *)
(** Text that stands for itself. *)
Definition csv_plain (v : bytes) : Prop :=
  forall b, In b v -> b <> ","%byte /\ b <> """"%byte /\ b <> "010"%byte /\ b <> "013"%byte.
(** Quotes doubled. *)
Fixpoint double_quotes (v : bytes) : bytes :=
  match v with
  | [] => []
  | b :: t => if beqb b """"%byte then b :: b :: double_quotes t else b :: double_quotes t
  end.
(** A field and the text for it. *)
Inductive csv_field : bytes -> bytes -> Prop :=
| field_plain v : csv_plain v -> csv_field v v
| field_quoted v : csv_field v ([""""%byte] ++ double_quotes v ++ [""""%byte]).
(** A record of at least one field. *)
Inductive csv_record : list bytes -> bytes -> Prop :=
| record_last v t : csv_field v t -> csv_record [v] t
| record_more v t vs ts : csv_field v t -> csv_record vs ts -> csv_record (v :: vs) (t ++ [","%byte] ++ ts).
(** Records, each with a line end. *)
Inductive csv_text : list (list bytes) -> bytes -> Prop :=
| text_nil : csv_text [] []
| text_lf r t rs ts : csv_record r t -> csv_text rs ts -> csv_text (r :: rs) (t ++ ["010"%byte] ++ ts)
| text_crlf r t rs ts : csv_record r t -> csv_text rs ts ->
    csv_text (r :: rs) (t ++ ["013"; "010"]%byte ++ ts).

(** ** Hexadecimal digits *)
(** The value of a row of digits 0-9, A-F. *)
Definition hex_value (b : byte) : option N :=
  let v := bN b in
  if (48 <=? v) && (v <=? 57) then Some (v - 48)
  else if (65 <=? v) && (v <=? 70) then Some (v - 55)
  else None.
Fixpoint hex_number (acc : N) (d : bytes) : option N :=
  match d with
  | [] => Some acc
  | b :: t => match hex_value b with Some v => hex_number (16 * acc + v) t | None => None end
  end.

(** Eight digits for a number. *)
Definition hex_of (n : N) (t : bytes) : Prop := length t = 8%nat /\ hex_number 0 t = Some n.

(** ** Sums *)
Definition total {A} (f : A -> N) (l : list A) : N := fold_right (fun x s => f x + s) 0 l.

(** ** Characters *)
(** Position [i] of a text lies inside a character: the byte there continues one. *)
Definition inside_char (d : bytes) (i : nat) : Prop :=
  exists b, nth_error d i = Some b /\ 128 <= bN b < 192.
