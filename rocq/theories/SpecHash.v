(** * Specification: JSON text (RFC 8259) without white space, objects of strings *)
From Verif Require Import Bytes SpecListfile CliHash.
Open Scope N_scope.

Definition jquote : byte := "034"%byte.
Definition jback : byte := "092"%byte.

(** Hexadecimal digits of either case *)
Definition hex_val (b : byte) : option N :=
  let v := bN b in
  if (48 <=? v) && (v <=? 57) then Some (v - 48)
  else if (65 <=? v) && (v <=? 70) then Some (v - 55)
  else if (97 <=? v) && (v <=? 102) then Some (v - 87)
  else None.
Fixpoint hex_num (acc : N) (d : bytes) : option N :=
  match d with
  | [] => Some acc
  | b :: t => match hex_val b with Some v => hex_num (16 * acc + v) t | None => None end
  end.
Definition hex_word (h : bytes) (n : N) : Prop := length h = 4%nat /\ hex_num 0 h = Some n.

(** A character that stands for itself *)
Definition json_plain (b : byte) : Prop := 32 <= bN b /\ b <> jquote /\ b <> jback.

Definition escapes : list (byte * byte) :=
  [ (jquote, jquote); (jback, jback); ("/", "/"); ("b", "008"); ("f", "012"); ("n", "010"); ("r", "013"); ("t", "009") ]%byte.

(** What is written between the quotes, and the text that is meant *)
Inductive json_chars : bytes -> bytes -> Prop :=
| json_end : json_chars [] []
| json_char b t v : json_plain b -> json_chars t v -> json_chars (b :: t) (b :: v)
| json_escape c x t v : In (c, x) escapes -> json_chars t v -> json_chars (jback :: c :: t) (x :: v)
| json_unicode h n t v : hex_word h n -> scalar n -> json_chars t v ->
    json_chars (jback :: "u"%byte :: h ++ t) (encode n ++ v)
| json_pair h l a b t v : hex_word h a -> hex_word l b ->
    0xD800 <= a < 0xDC00 -> 0xDC00 <= b < 0xE000 -> json_chars t v ->
    json_chars (jback :: "u"%byte :: h ++ jback :: "u"%byte :: l ++ t)
      (encode (0x10000 + (a - 0xD800) * 0x400 + (b - 0xDC00)) ++ v).

Definition json_string (t v : bytes) : Prop := exists b, t = jquote :: b ++ [jquote] /\ json_chars b v.
Definition json_member (t : bytes) (m : bytes * bytes) : Prop :=
  exists k v, t = k ++ lit ":" ++ v /\ json_string k (fst m) /\ json_string v (snd m).
Inductive json_members : bytes -> list (bytes * bytes) -> Prop :=
| json_last t m : json_member t m -> json_members t [m]
| json_more t u m l : json_member t m -> json_members u l -> json_members (t ++ lit "," ++ u) (m :: l).
Definition json_object (t : bytes) (l : list (bytes * bytes)) : Prop :=
  exists u, t = lit "{" ++ u ++ lit "}" /\ json_members u l.

(** Ten characters for a number of 32 bits *)
Definition shows (t : bytes) (n : N) : Prop :=
  exists d, t = lit "0x" ++ d /\ length d = 8%nat /\ hex_num 0 d = Some n.

(** The five hashes that are compared, with their labels *)
Definition labels : list (bytes * N) :=
  [(lit "Table offset:", 0); (lit "Name A:      ", 1); (lit "Name B:      ", 2); (lit "File key:    ", 3); (lit "Key2 mix:    ", 4)].

(** What is said about two hashes: a match is always shown, a difference if asked for. *)
Definition row_says (verbose : bool) (label : bytes) (h1 h2 : N) (row : bytes) : Prop :=
  exists t1 t2, shows t1 h1 /\ shows t2 h2 /\
    (h1 = h2 /\ row = label ++ lit " " ++ t1 ++ lit " vs " ++ t2 ++ lit " [" ++ lit "MATCH" ++ lit "]" ++ ["010"%byte] \/
     h1 <> h2 /\ row = if verbose then label ++ lit " " ++ t1 ++ lit " vs " ++ t2 ++ lit " [" ++ lit "DIFFER" ++ lit "]" ++ ["010"%byte]
                       else []).

(** The types of hashes that can be asked for: what they are called and their numbers *)
Definition types : list (htype * bytes * N) :=
  [ (TableOffset, lit "TableOffset", 0); (NameA, lit "NameA", 1); (NameB, lit "NameB", 2); (FileKey, lit "FileKey", 3);
    (Key2Mix, lit "Key2Mix", 4) ].
