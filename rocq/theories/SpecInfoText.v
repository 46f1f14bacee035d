(** * Specification: what a printed inspection should say. *)
From Verif Require Import Bytes Header Archive Signature Info InfoReport SpecListfile SpecCliList SpecReport SpecPercent Json SpecJson.
Open Scope N_scope.

(** ** Reading a printed text: sections are separated by empty lines, the second line of a section
    is a rule, the others are labels and values. *)
Fixpoint lines_of (d : bytes) : list bytes :=
  match d with
  | [] => []
  | b :: t =>
      if beqb b "010"%byte then [] :: lines_of t
      else match lines_of t with [] => [[b]] | l :: r => (b :: l) :: r end
  end.
Fixpoint sections_of (ls : list bytes) : list (list bytes) :=
  match ls with
  | [] => []
  | [] :: t => [] :: sections_of t
  | l :: t => match sections_of t with [] => [[l]] | s :: r => (l :: s) :: r end
  end.
Fixpoint cut_label (l : bytes) : bytes * bytes :=
  match l with
  | [] => ([], [])
  | b :: t => if bytes_eqb (firstn 2 l) (lit ": ") then ([], skipn 2 l) else let (k, v) := cut_label t in (b :: k, v)
  end.
Definition read_section (s : list bytes) : bytes * list (bytes * bytes) :=
  match s with
  | title :: _ :: rows => (title, map cut_label rows)
  | _ => ([], [])
  end.
Definition read_text (d : bytes) : list (bytes * list (bytes * bytes)) := map read_section (sections_of (lines_of d)).

(** The sections, labels and values are these. *)
Definition text_says (d : bytes) (expected : list (bytes * list (bytes * (bytes -> Prop)))) : Prop :=
  Forall2 (fun s e => fst s = fst e /\ Forall2 (fun r x => fst r = fst x /\ snd x (snd r)) (snd s) (snd e)) (read_text d) expected.

(** ** Values *)
Definition word (w : bytes) (t : bytes) : Prop := t = w.
Definition in_bytes (n : N) (t : bytes) : Prop := exists d, shown n d /\ t = d ++ lit " bytes".
Definition in_hex (n : N) (t : bytes) : Prop := exists d, hex_shown n d /\ t = lit "0x" ++ d.
Definition signature_words (s : sig_status) : bytes :=
  match s with
  | SigNone => lit "No signature"
  | WeakValid => lit "Weak signature (Valid)" | WeakInvalid => lit "Weak signature (Invalid)"
  | StrongValid => lit "Strong signature (Valid)" | StrongInvalid => lit "Strong signature (Invalid)"
  end.
(** A table: its entries, or that it could not be loaded, where it is, and its stored size if known *)
Definition packed_in (c : option N) (t : bytes) : Prop :=
  match c with Some n => exists d, shown n d /\ t = lit " (compressed: " ++ d ++ lit " bytes)" | None => t = [] end.
Definition table_value (i : table_info) (t : bytes) : Prop :=
  exists p o, packed_in (ti_csize i) p /\ in_hex (ti_offset i) o /\
    match ti_failed i, ti_size i with
    | true, _ => t = lit "Failed to load" ++ p ++ lit " @ " ++ o
    | false, Some n => exists d, shown n d /\ t = d ++ lit " entries @ " ++ o ++ p
    | false, None => t = lit "Unknown size @ " ++ o ++ p
    end.
Definition if_any {A B} (x : option A) (f : A -> list B) : list B := match x with Some a => f a | None => [] end.
Definition validity (b : bool) : bytes -> Prop := word (if b then lit "Valid" else lit "Invalid").
Definition presence (b : bool) : bytes -> Prop := word (if b then lit "Present" else lit "Not present").

Definition info_sections (path : bytes) (r : report) : list (bytes * list (bytes * (bytes -> Prop))) :=
  let i := r_info r in
  [(lit "Archive Information",
    [(lit "Archive path", word path);
     (lit "Archive size", fun t => exists d, size_shown (r_file_size r) d /\ t = d ++ lit " bytes");
     (lit "Archive offset", in_hex (r_offset r));
     (lit "Format version", fun t => exists d, shown (version_number (i_version i)) d /\ t = lit "v" ++ d)]);
   (lit "File Statistics",
    [(lit "Number of files", shown (i_file_count i)); (lit "Maximum file capacity", shown (i_max_count i));
     (lit "Sector size", in_bytes (i_sector_size i))]);
   (lit "Security Information",
    [(lit "Encrypted", word (if i_encrypted i then lit "Yes" else lit "No"));
     (lit "Digital signature", word (signature_words (i_signature i)))]);
   (lit "Table Information",
    [(lit "Hash table", table_value (r_hash r)); (lit "Block table", table_value (r_block r))] ++
    if_any (r_het r) (fun t => [(lit "HET table", table_value t)]) ++
    if_any (r_bet r) (fun t => [(lit "BET table", table_value t)]) ++
    if_any (r_hi r) (fun t => [(lit "Hi-block table", table_value t)]));
   (lit "Special Files",
    [(lit "(attributes) file", presence (i_has_attributes i)); (lit "(listfile) file", presence (i_has_listfile i))])] ++
  if_any (r_user r) (fun u =>
   [(lit "User Data", [(lit "Header size", in_bytes (fst u)); (lit "Data size", in_bytes (snd u))])]) ++
  if_any (i_md5 i) (fun m =>
   [(lit "MD5 Checksums (v4)",
     [(lit "MPQ header", validity (ms_header m)); (lit "Hash table", validity (ms_hash m)); (lit "Block table", validity (ms_block m));
      (lit "Hi-block table", validity (ms_hi m)); (lit "HET table", validity (ms_het m)); (lit "BET table", validity (ms_bet m))])]).

(** Numbers of 64 bits *)
Definition fits64 (x : option N) : Prop := match x with Some n => n < 2 ^ 64 | None => True end.
Definition small_table (t : table_info) : Prop := fits64 (ti_size t) /\ ti_offset t < 2 ^ 64 /\ fits64 (ti_csize t).
Definition small_report (r : report) : Prop :=
  r_file_size r < 2 ^ 64 /\ r_offset r < 2 ^ 64 /\ i_file_count (r_info r) < 2 ^ 64 /\ i_max_count (r_info r) < 2 ^ 64 /\
  i_sector_size (r_info r) < 2 ^ 64 /\ small_table (r_hash r) /\ small_table (r_block r) /\
  (forall t, r_het r = Some t \/ r_bet r = Some t \/ r_hi r = Some t -> small_table t) /\
  (forall h d, r_user r = Some (h, d) -> h < 2 ^ 64 /\ d < 2 ^ 64).

(** ** Fields of a JSON document: the way to each and what is there *)
Definition maybe (x : option N) : shape := match x with Some n => SNumber n | None => SNull end.
Definition table_fields (name : bytes) (t : table_info) : list (list bytes * shape) :=
  [([lit "tables"; name], SMembers 4);
   ([lit "tables"; name; lit "size"], maybe (ti_size t)); ([lit "tables"; name; lit "offset"], SNumber (ti_offset t));
   ([lit "tables"; name; lit "compressed_size"], maybe (ti_csize t)); ([lit "tables"; name; lit "failed_to_load"], STruth (ti_failed t))].
Definition table_fields_if (name : bytes) (t : option table_info) : list (list bytes * shape) :=
  match t with Some t => table_fields name t | None => [([lit "tables"; name], SNull)] end.
Definition info_fields (path : bytes) (r : report) : list (list bytes * shape) :=
  let i := r_info r in
  [([], SMembers 14);
   ([lit "path"], SText path); ([lit "file_size"], SNumber (r_file_size r)); ([lit "archive_offset"], SNumber (r_offset r));
   ([lit "format_version"], SNumber (version_number (i_version i))); ([lit "file_count"], SNumber (i_file_count i));
   ([lit "max_file_count"], SNumber (i_max_count i)); ([lit "sector_size"], SNumber (i_sector_size i));
   ([lit "is_encrypted"], STruth (i_encrypted i)); ([lit "has_signature"], STruth (i_has_signature i));
   ([lit "signature_status"], SText (status_word (i_signature i)));
   ([lit "tables"], SMembers 5); ([lit "special_files"], SMembers 2);
   ([lit "special_files"; lit "has_attributes"], STruth (i_has_attributes i));
   ([lit "special_files"; lit "has_listfile"], STruth (i_has_listfile i))] ++
  table_fields (lit "hash_table") (r_hash r) ++ table_fields (lit "block_table") (r_block r) ++
  table_fields_if (lit "het_table") (r_het r) ++ table_fields_if (lit "bet_table") (r_bet r) ++
  table_fields_if (lit "hi_block_table") (r_hi r) ++
  match r_user r with
  | Some (h, d) => [([lit "user_data"], SMembers 2); ([lit "user_data"; lit "header_size"], SNumber h);
                    ([lit "user_data"; lit "data_size"], SNumber d)]
  | None => [([lit "user_data"], SNull)]
  end ++
  match i_md5 i with
  | Some m =>
      [([lit "md5_status"], SMembers 6); ([lit "md5_status"; lit "header_valid"], STruth (ms_header m));
       ([lit "md5_status"; lit "hash_table_valid"], STruth (ms_hash m)); ([lit "md5_status"; lit "block_table_valid"], STruth (ms_block m));
       ([lit "md5_status"; lit "hi_block_table_valid"], STruth (ms_hi m)); ([lit "md5_status"; lit "het_table_valid"], STruth (ms_het m));
       ([lit "md5_status"; lit "bet_table_valid"], STruth (ms_bet m))]
  | None => [([lit "md5_status"], SNull)]
  end.

(** A document with these fields *)
Definition json_has (d : bytes) (fields : list (list bytes * shape)) : Prop :=
  exists v, json_document v d /\ forall p s, In (p, s) fields -> look v (map Member p) = Some s.

(** ** Listings *)
(** One line for each file, and how many they are *)
Definition hash_row (e : fentry) (l : bytes) : Prop :=
  match fe_hashes e with
  | Some (a, b) => exists s t, hex_of a s /\ hex_of b t /\ l = fe_name e ++ lit " [" ++ s ++ lit " " ++ t ++ lit "]"
  | None => l = fe_name e
  end.
Definition text_lists (d : bytes) (es : list fentry) : Prop :=
  exists rows n, lines_of d = rows ++ [[]; lit "Total: " ++ n ++ lit " files"] /\ shown (lenN es) n /\ Forall2 hash_row es rows.
(** The members of each item *)
Definition json_lists (d : bytes) (es : list fentry) : Prop :=
  exists v, json_document v d /\ look v [] = Some (SItems (length es)) /\
  forall i e, nth_error es i = Some e ->
    look v [Item i; Member (lit "name")] = Some (SText (fe_name e)) /\
    match fe_hashes e with
    | Some (a, b) => exists s t, hex_of a s /\ hex_of b t /\ look v [Item i] = Some (SMembers 3) /\
        look v [Item i; Member (lit "hash1")] = Some (SText s) /\ look v [Item i; Member (lit "hash2")] = Some (SText t)
    | None => look v [Item i] = Some (SMembers 1)
    end.
Definition json_names (d : bytes) (names : list bytes) : Prop :=
  exists v, json_document v d /\ look v [] = Some (SItems (length names)) /\
  forall i n, nth_error names i = Some n -> look v [Item i] = Some (SText n).

(** A value after spaces *)
Definition spaced (P : bytes -> Prop) (t : bytes) : Prop := exists k w, t = repeat " "%byte k ++ w /\ P w.
Definition file_sections (name : bytes) (size : N) : list (bytes * list (bytes * (bytes -> Prop))) :=
  [(lit "File Information", [(lit "Filename", word name); (lit "Size", spaced (in_bytes size))])].
