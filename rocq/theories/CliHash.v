(** * The commands [hash generate] and [hash compare]
    (storm-cli/src/commands/hash.rs:1-100).

    Simplification: text without colours. *)
From Verif Require Import Bytes Crypto CliList CliConfig.
Open Scope N_scope.

(** main.rs:424-431 [HashType], and as [{:?}] prints it *)
Inductive htype := TableOffset | NameA | NameB | FileKey | Key2Mix.
Definition type_name (t : htype) : bytes :=
  match t with
  | TableOffset => lit "TableOffset" | NameA => lit "NameA" | NameB => lit "NameB"
  | FileKey => lit "FileKey" | Key2Mix => lit "Key2Mix"
  end.
(** hash.rs:39-45 *)
Definition type_id (t : htype) : N :=
  match t with
  | TableOffset => HT_TABLE_OFFSET | NameA => HT_NAME_A | NameB => HT_NAME_B
  | FileKey => HT_FILE_KEY | Key2Mix => HT_KEY2_MIX
  end.

(** [{:08x}] and [{:#010x}] *)
Definition low_digit (d : N) : byte := if d <? 10 then Nb (48 + d) else Nb (87 + d).
Fixpoint low_digits (k : nat) (n : N) : bytes :=
  match k with
  | O => []
  | S k' => low_digit (N.shiftr n (4 * N.of_nat k') mod 16) :: low_digits k' n
  end.
Definition hex10 (n : N) : bytes := lit "0x" ++ low_digits 8 n.

Definition QUOTE : byte := "034"%byte.
Definition quoted (d : bytes) : bytes := QUOTE :: d ++ [QUOTE].

(** hash.rs:11-60 [generate] *)
Definition generate (out : format) (name : bytes) (t : option htype) (all : bool) : bytes :=
  match (if all then None else t) with
  | None =>
      line (lit "Hash values:") ++
      line (lit "  Table offset: " ++ hex10 (hash_string name HT_TABLE_OFFSET)) ++
      line (lit "  Name A:       " ++ hex10 (hash_string name HT_NAME_A)) ++
      line (lit "  Name B:       " ++ hex10 (hash_string name HT_NAME_B)) ++
      line (lit "  File key:     " ++ hex10 (hash_string name HT_FILE_KEY)) ++
      line (lit "  Key2 mix:     " ++ hex10 (hash_string name HT_KEY2_MIX))
  | Some ht =>
      let v := hash_string name (type_id ht) in
      match out with
      | Json => line (lit "{" ++ quoted (lit "filename") ++ lit ":" ++ quoted name ++
                      lit "," ++ quoted (lit "type") ++ lit ":" ++ quoted (type_name ht) ++
                      lit "," ++ quoted (lit "value") ++ lit ":" ++ quoted (hex10 v) ++ lit "}")
      | _ => line (hex10 v)
      end
  end.

(** hash.rs:71-78 *)
Definition table_types : list (bytes * N) :=
  [(lit "Table offset:", 0); (lit "Name A:      ", 1); (lit "Name B:      ", 2); (lit "File key:    ", 3); (lit "Key2 mix:    ", 4)].
(** hash.rs:80-99, one turn of the loop *)
Definition compare_row (verbose : bool) (a b : bytes) (row : bytes * N) : bytes :=
  let (label, ht) := row in
  let h1 := hash_string a ht in
  let h2 := hash_string b ht in
  if verbose || (h1 =? h2) then
    line (label ++ lit " " ++ hex10 h1 ++ lit " vs " ++ hex10 h2 ++ lit " [" ++
          (if h1 =? h2 then lit "MATCH" else lit "DIFFER") ++ lit "]")
  else [].
(** hash.rs:63-102 [compare] *)
Definition compare_cmd (verbose : bool) (a b : bytes) : bytes :=
  line (lit "Hash comparison:") ++ line [] ++ line (lit "Filenames:") ++
  line (lit "  1: " ++ a) ++ line (lit "  2: " ++ b) ++ line [] ++
  flat_map (compare_row verbose a b) table_types.
