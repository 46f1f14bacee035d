(** * C58: the hash commands tell the hashes that archives are searched with. *)
From Verif Require Import Bytes Crypto SpecNames HashTable CliList CliConfig CliHash SpecHash HashFacts.
Open Scope N_scope.

(** One hash, as text *)
Theorem C58_text :
  forall (out : format) (name : bytes) (ht : htype) (called : bytes) (id : N), In (ht, called, id) types -> out <> Json ->
  exists h, generate out name (Some ht) false = h ++ [LF] /\ shows h (hash_string name id).
Proof. exact text_types. Qed.
Print Assumptions C58_text.

(** All of them *)
Theorem C58_all :
  forall (out : format) (name : bytes) (t : option htype), exists h0 h1 h2 h3 h4,
    generate out name t true = lit "Hash values:" ++ [LF] ++ lit "  Table offset: " ++ h0 ++ [LF] ++
      lit "  Name A:       " ++ h1 ++ [LF] ++ lit "  Name B:       " ++ h2 ++ [LF] ++
      lit "  File key:     " ++ h3 ++ [LF] ++ lit "  Key2 mix:     " ++ h4 ++ [LF] /\
    shows h0 (hash_string name 0) /\ shows h1 (hash_string name 1) /\ shows h2 (hash_string name 2) /\
    shows h3 (hash_string name 3) /\ shows h4 (hash_string name 4).
Proof. exact all_values. Qed.
Print Assumptions C58_all.

(** One hash, as JSON, of names without quotes, backslashes and control characters *)
Theorem C58_json_partial :
  forall (name : bytes) (ht : htype) (called : bytes) (id : N), In (ht, called, id) types -> Forall json_plain name ->
  exists t h, generate Json name (Some ht) false = t ++ [LF] /\ shows h (hash_string name id) /\
    json_object t [(lit "filename", name); (lit "type", called); (lit "value", h)].
Proof. exact json_types. Qed.
Print Assumptions C58_json_partial.

(** For other names the text is not an object with that name. *)
Theorem C58_json_iff :
  forall (name : bytes) (ht : htype),
  (exists t l, generate Json name (Some ht) false = t ++ [LF] /\ json_object t ((lit "filename", name) :: l)) <->
  Forall json_plain name.
Proof. exact json_iff. Qed.
Print Assumptions C58_json_iff.

(** Comparing: a row for every hash that agrees, and for the others if asked for. *)
Theorem C58_compare :
  forall (verbose : bool) (a b : bytes), exists rows,
  compare_cmd verbose a b =
    lit "Hash comparison:" ++ [LF; LF] ++ lit "Filenames:" ++ [LF] ++ lit "  1: " ++ a ++ [LF] ++ lit "  2: " ++ b ++ [LF; LF] ++
    concat rows /\
  Forall2 (fun x row => row_says verbose (fst x) (hash_string a (snd x)) (hash_string b (snd x)) row) labels rows.
Proof. exact compare_rows. Qed.
Print Assumptions C58_compare.

(** Names that mean the same file: five matches, and the same hashes. *)
Theorem C58_equivalent :
  forall (a b : bytes), name_equiv a b ->
  (forall verbose, exists hs,
    compare_cmd verbose a b =
      lit "Hash comparison:" ++ [LF; LF] ++ lit "Filenames:" ++ [LF] ++ lit "  1: " ++ a ++ [LF] ++ lit "  2: " ++ b ++ [LF; LF] ++
      concat (map (fun x => fst (fst x) ++ lit " " ++ snd x ++ lit " vs " ++ snd x ++ lit " [MATCH]" ++ [LF]) (combine labels hs)) /\
    Forall2 (fun x h => shows h (hash_string a (snd x))) labels hs) /\
  forall out t all, out <> Json -> generate out a t all = generate out b t all.
Proof.
  exact (fun a b H => conj (fun verbose => compare_equiv verbose a b H) (fun out t all => generate_equiv out a b t all H)).
Qed.
Print Assumptions C58_equivalent.

(** Conversely, names that match in the first three rows are found alike in every table. *)
Theorem C58_matches_found_alike :
  forall (a b : bytes), hash_string a 0 = hash_string b 0 -> hash_string a 1 = hash_string b 1 ->
  hash_string a 2 = hash_string b 2 -> forall (t : list hentry) (loc : N), ht_find_file t a loc = ht_find_file t b loc.
Proof. exact compare_lookup. Qed.
Print Assumptions C58_matches_found_alike.

Example C58_example :
  Forall json_plain (lit "war3map.j") /\
  generate Json (lit "war3map.j") (Some FileKey) false =
    lit "{""filename"":""war3map.j"",""type"":""FileKey"",""value"":""0x54556402""}" ++ [LF] /\
  generate Text (lit "(listfile)") (Some NameA) false = lit "0xfd657910" ++ [LF] /\
  shows (lit "0xfd657910") 0xfd657910 /\
  name_equiv (lit "A/b.txt") (lit "a\B.TXT").
Proof.
  split; [apply plain_lit; vm_compute; reflexivity|]. split; [vm_compute; reflexivity|]. split; [vm_compute; reflexivity|].
  split; [exists (lit "fd657910"); repeat split|]. apply name_equivb_sound. vm_compute. reflexivity.
Qed.

(** Names in archives are written with backslashes; these are not escaped.  Here the
    text is not JSON at all: *)
Theorem C58_backslash_refuted :
  forall (ht : htype) (t : bytes), generate Json (lit "Scripts\Common.j") (Some ht) false = t ++ [LF] ->
  forall l, ~ json_object t l.
Proof. exact backslash_malformed. Qed.
Print Assumptions C58_backslash_refuted.

(** ... and here it has another name: a line feed in place of a backslash and an n. *)
Theorem C58_other_name_refuted :
  forall (ht : htype), exists t l, generate Json (lit "dir\new.txt") (Some ht) false = t ++ [LF] /\
  json_object t ((lit "filename", lit "dir" ++ ["010"%byte] ++ lit "ew.txt") :: l).
Proof. exact backslash_other. Qed.
Print Assumptions C58_other_name_refuted.

(** Asked for all hashes, JSON or not, the answer is text. *)
Theorem C58_all_json_refuted :
  forall (out : format) (name : bytes) (t : option htype),
  generate out name t true = generate Text name None false /\
  forall u r l, generate out name t true = u ++ r -> ~ json_object u l.
Proof. exact all_not_json. Qed.
Print Assumptions C58_all_json_refuted.
