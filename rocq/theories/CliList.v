(** * The command line tool: listing, finding and analysing
    (storm-cli/src/commands/file.rs, storm-cli/src/commands/archive.rs,
    storm-cli/src/output.rs).

    Printed text is a byte list.  Simplifications: colours are left out; for
    JSON output see [CliInfo]; of the table that
    [--verbose] prints only the column with the names is represented (the other
    columns are computed with floating point numbers, which does not panic). *)
From Verif Require Import Bytes Header Compress BlockTable Archive.
Open Scope N_scope.

(** ** Text *)
Definition LF : byte := "010"%byte.
Definition line (d : bytes) : bytes := d ++ [LF].
(** [{}] for a number *)
Definition decimal (n : N) : bytes := dec_digits 20 n [].
(** [{:08X}] *)
Definition hex_digit (d : N) : byte := if d <? 10 then Nb (48 + d) else Nb (55 + d).
Fixpoint hex_digits (k : nat) (n : N) : bytes :=
  match k with
  | O => []
  | S k' => hex_digit (N.shiftr n (4 * N.of_nat k') mod 16) :: hex_digits k' n
  end.
Definition hex8 (n : N) : bytes := hex_digits 8 n.

Section List.
Variable L : codecs.
(** Compiling a pattern, as a regular expression or as a glob pattern: [None] for
    an invalid one, otherwise which names it matches. *)
Variable compile : bool -> bytes -> option (bytes -> bool).
(** [str::to_lowercase] *)
Variable lower : bytes -> bytes.

(** file.rs:17-57 [list] up to the printing; the error for an invalid pattern
    carries only a message, any kind will do. *)
Definition list_source (all hashes : bool) (a : archive) : res (list fentry) :=
  if all then (if hashes then list_all_with_hashes a else list_all a)
  else if hashes then list_with_hashes L a else list_files L a.
Definition list_cmd (file : bytes) (all : bool) (pattern : option bytes) (regex hashes : bool)
  : res (list fentry) :=
  a <- open_archive L file ;;
  es <- list_source all hashes a ;;
  es <- (match pattern with
         | None => Ok es
         | Some p => m <- of_option EInvalidFormat (compile regex p) ;;
                     Ok (filter (fun e => m (fe_name e)) es)
         end) ;;
  Ok (sort_entries es).

(** file.rs:168-215 [find]: the names printed *)
Definition find_cmd (file pattern : bytes) (regex ignore_case : bool) : res (list bytes) :=
  a <- open_archive L file ;;
  es <- list_files L a ;;
  let names := map fe_name es in
  if regex then
    m <- of_option EInvalidFormat
           (compile true (if ignore_case then lit "(?i)" ++ pattern else pattern)) ;;
    Ok (filter m names)
  else
    m <- of_option EInvalidFormat (compile false (if ignore_case then lower pattern else pattern)) ;;
    Ok (filter (fun n => m (if ignore_case then lower n else n)) names).

(** archive.rs:648-653, 740-754: what [analyze] says about each file: the method
    and whether it is supported.  [file_info.flags as u8] *)
Definition supported (m : method) : bool :=
  match m with
  | MNone | MZlib | MBZip2 | MLzma | MSparse | MAdpcmMono | MAdpcmStereo => true
  | _ => false
  end.
Fixpoint analyze_entries (a : archive) (es : list fentry) : res (list (bytes * method * bool)) :=
  match es with
  | [] => Ok []
  | e :: t =>
      r <- find_file a (fe_name e) ;;
      rest <- analyze_entries a t ;;
      match r with
      | Some fi => let m := from_flags (fi_flags fi mod 256) in Ok ((fe_name e, m, supported m) :: rest)
      | None => Ok rest
      end
  end.
(** archive.rs:615-704 [analyze]; the sums of the sizes are left out. *)
Definition analyze (file : bytes) : res (list (bytes * method * bool)) :=
  a <- open_archive L file ;;
  es <- list_with_hashes L a ;;
  analyze_entries a es.

End List.

(** ** Printing *)
(** output.rs:356-375 [print_file_list], text *)
Definition print_names_text (names : list bytes) : bytes :=
  concat (map line names) ++ line [] ++ line (lit "Total: " ++ decimal (lenN names) ++ lit " files").
(** output.rs:356-375 [print_file_list], CSV *)
Definition print_names_csv (names : list bytes) : bytes :=
  line (lit "filename") ++ concat (map line names).
(** output.rs:300-353 [print_file_list_with_hashes], CSV *)
Definition csv_row (e : fentry) : bytes :=
  match fe_hashes e with
  | Some (a, b) => line (fe_name e ++ lit "," ++ hex8 a ++ lit "," ++ hex8 b)
  | None => line (fe_name e ++ lit ",NA,NA")
  end.
Definition print_hashes_csv (es : list fentry) : bytes :=
  if existsb (fun e => match fe_hashes e with Some _ => true | None => false end) es
  then line (lit "filename,hash1,hash2") ++ concat (map csv_row es)
  else print_names_csv (map fe_name es).

(** output.rs:453-458: [&entry.name[..36]] panics inside a character. *)
Definition char_boundary (d : bytes) (i : nat) : bool :=
  match nth_error d i with
  | Some b => (bN b <? 128) || (192 <=? bN b)
  | None => Nat.eqb i (length d)
  end.
Definition display_name (n : bytes) : res bytes :=
  if 39 <? lenN n
  then if char_boundary n 36 then Ok (firstn 36 n ++ lit "...") else Panic
  else Ok n.

(** output.rs:378-550 [print_file_list_verbose]: the column with the names.  The
    sums of the sizes (483-484) are checked additions. *)
Fixpoint print_verbose (es : list fentry) (size csize : N) : res (list bytes) :=
  match es with
  | [] => Ok []
  | e :: t =>
      n <- display_name (fe_name e) ;;
      size <- add64 size (fe_size e) ;;
      csize <- add64 csize (fe_csize e) ;;
      rest <- print_verbose t size csize ;;
      Ok (n :: rest)
  end.
