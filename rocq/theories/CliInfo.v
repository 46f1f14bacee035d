(** * What [archive info], [file info] and the JSON listings print
    (storm-cli/src/output.rs:14-375, 552-574; commands/archive.rs:148-156; commands/file.rs:219-234).

    Simplification: text without colours; [path] is what [display] makes of the path; [show] is
    [serde_json::to_string_pretty]. *)
From Verif Require Import Bytes Compress BlockTable Header Archive Signature Info CliList CliConfig CliVerbose Percent InfoReport Json.
Open Scope N_scope.

(** [{:X}] of a [u64] *)
Definition hex64 (n : N) : bytes := drop_zeros (hex_digits 16 n).

(** ** Text *)
(** output.rs:153-174 [print_table_info] *)
Definition table_line (name : bytes) (t : table_info) : bytes :=
  let packed := match ti_csize t with Some c => lit " (compressed: " ++ decimal c ++ lit " bytes)" | None => [] end in
  line (name ++ lit ": " ++
    (if ti_failed t then lit "Failed to load" ++ packed
     else match ti_size t with Some n => decimal n ++ lit " entries" | None => lit "Unknown size" end) ++
    lit " @ 0x" ++ hex64 (ti_offset t) ++
    (if ti_failed t then [] else packed)).
Definition table_line_if (name : bytes) (t : option table_info) : bytes :=
  match t with Some t => table_line name t | None => [] end.
(** output.rs:176-186 [print_md5_status] *)
Definition md5_line (name : bytes) (valid : bool) : bytes :=
  line (name ++ lit ": " ++ if valid then lit "Valid" else lit "Invalid").
(** output.rs:206-215 [format_signature_status]; [StrongNoKey] is never made *)
Definition signature_text (s : sig_status) : bytes :=
  match s with
  | SigNone => lit "No signature"
  | WeakValid => lit "Weak signature (Valid)" | WeakInvalid => lit "Weak signature (Invalid)"
  | StrongValid => lit "Strong signature (Valid)" | StrongInvalid => lit "Strong signature (Invalid)"
  end.
Definition rule (c : byte) (n : nat) : bytes := line (repeat c n).
(** the heading of a later section *)
Definition heading (t : bytes) : bytes := line [] ++ line t ++ rule "-"%byte 60.
Definition entry (k v : bytes) : bytes := line (k ++ lit ": " ++ v).

(** output.rs:31-151 [print_archive_info_text] *)
Definition print_info_text (path : bytes) (r : report) : bytes :=
  let i := r_info r in
  line (lit "Archive Information") ++ rule "="%byte 60 ++
  entry (lit "Archive path") path ++
  entry (lit "Archive size") (format_size (r_file_size r) ++ lit " bytes") ++
  entry (lit "Archive offset") (lit "0x" ++ hex64 (r_offset r)) ++
  entry (lit "Format version") (lit "v" ++ decimal (version_shown (i_version i))) ++
  heading (lit "File Statistics") ++
  entry (lit "Number of files") (decimal (i_file_count i)) ++
  entry (lit "Maximum file capacity") (decimal (i_max_count i)) ++
  entry (lit "Sector size") (decimal (i_sector_size i) ++ lit " bytes") ++
  heading (lit "Security Information") ++
  entry (lit "Encrypted") (if i_encrypted i then lit "Yes" else lit "No") ++
  entry (lit "Digital signature") (signature_text (i_signature i)) ++
  heading (lit "Table Information") ++
  table_line (lit "Hash table") (r_hash r) ++
  table_line (lit "Block table") (r_block r) ++
  table_line_if (lit "HET table") (r_het r) ++
  table_line_if (lit "BET table") (r_bet r) ++
  table_line_if (lit "Hi-block table") (r_hi r) ++
  heading (lit "Special Files") ++
  entry (lit "(attributes) file") (if i_has_attributes i then lit "Present" else lit "Not present") ++
  entry (lit "(listfile) file") (if i_has_listfile i then lit "Present" else lit "Not present") ++
  (match r_user r with
   | Some (h, d) =>
       heading (lit "User Data") ++
       entry (lit "Header size") (decimal h ++ lit " bytes") ++
       entry (lit "Data size") (decimal d ++ lit " bytes")
   | None => []
   end) ++
  (match i_md5 i with
   | Some m =>
       heading (lit "MD5 Checksums (v4)") ++
       md5_line (lit "MPQ header") (ms_header m) ++
       md5_line (lit "Hash table") (ms_hash m) ++
       md5_line (lit "Block table") (ms_block m) ++
       md5_line (lit "Hi-block table") (ms_hi m) ++
       md5_line (lit "HET table") (ms_het m) ++
       md5_line (lit "BET table") (ms_bet m)
   | None => []
   end).

(** ** JSON *)
(** output.rs:230-235 and so on *)
Definition j_table (t : table_info) : json :=
  JObject [(lit "size", j_option JNum (ti_size t)); (lit "offset", JNum (ti_offset t));
           (lit "compressed_size", j_option JNum (ti_csize t)); (lit "failed_to_load", JBool (ti_failed t))].
(** output.rs:269-276; archive.rs:584-593 of the command *)
Definition j_md5 (m : md5_status) : json :=
  JObject [(lit "header_valid", JBool (ms_header m)); (lit "hash_table_valid", JBool (ms_hash m));
           (lit "block_table_valid", JBool (ms_block m)); (lit "hi_block_table_valid", JBool (ms_hi m));
           (lit "het_table_valid", JBool (ms_het m)); (lit "bet_table_valid", JBool (ms_bet m))].
(** output.rs:217-277 [print_archive_info_json] *)
Definition info_json (path : bytes) (r : report) : json :=
  let i := r_info r in
  JObject [
    (lit "path", JText path);
    (lit "file_size", JNum (r_file_size r));
    (lit "archive_offset", JNum (r_offset r));
    (lit "format_version", JNum (version_shown (i_version i)));
    (lit "file_count", JNum (i_file_count i));
    (lit "max_file_count", JNum (i_max_count i));
    (lit "sector_size", JNum (i_sector_size i));
    (lit "is_encrypted", JBool (i_encrypted i));
    (lit "has_signature", JBool (i_has_signature i));
    (lit "signature_status", JText (status_text (i_signature i)));
    (lit "tables", JObject [
       (lit "hash_table", j_table (r_hash r));
       (lit "block_table", j_table (r_block r));
       (lit "het_table", j_option j_table (r_het r));
       (lit "bet_table", j_option j_table (r_bet r));
       (lit "hi_block_table", j_option j_table (r_hi r))]);
    (lit "special_files", JObject [
       (lit "has_attributes", JBool (i_has_attributes i));
       (lit "has_listfile", JBool (i_has_listfile i))]);
    (lit "user_data", j_option (fun u => JObject [(lit "header_size", JNum (fst u)); (lit "data_size", JNum (snd u))]) (r_user r));
    (lit "md5_status", j_option j_md5 (i_md5 i))].

(** output.rs:316-332: a listing with hashes; output.rs:363-366: one of names *)
Definition hashes_json (es : list fentry) : json :=
  JList (map (fun e =>
    JObject ((lit "name", JText (fe_name e)) ::
             match fe_hashes e with
             | Some (a, b) => [(lit "hash1", JText (hex8 a)); (lit "hash2", JText (hex8 b))]
             | None => []
             end)) es).
Definition names_json (names : list bytes) : json := JList (map JText names).
(** output.rs:305-315 *)
Definition print_hashes_text (es : list fentry) : bytes :=
  concat (map (fun e => line (fe_name e ++
    match fe_hashes e with Some (a, b) => lit " [" ++ hex8 a ++ lit " " ++ hex8 b ++ lit "]" | None => [] end)) es) ++
  line [] ++ line (lit "Total: " ++ decimal (lenN es) ++ lit " files").
(** output.rs:300-375, commands/file.rs:62-70: a listing that is not verbose *)
Definition print_listing (show : json -> bytes) (out : format) (hashes : bool) (es : list fentry) : bytes :=
  match out, hashes with
  | Text, true => print_hashes_text es
  | Json, true => print_json show (hashes_json es)
  | Csv, true => print_hashes_csv es
  | Text, false => print_names_text (map fe_name es)
  | Json, false => print_json show (names_json (map fe_name es))
  | Csv, false => print_names_csv (map fe_name es)
  end.
(** commands/file.rs:203-213: what [find] prints *)
Definition print_find (quiet verbose : bool) (pattern : bytes) (names : list bytes) : bytes :=
  match names with
  | [] => if quiet then [] else line (lit "No files found matching pattern: " ++ pattern)
  | _ => concat (map line names) ++
         if negb quiet && verbose then line [] ++ line (lit "Found " ++ decimal (lenN names) ++ lit " matching files") else []
  end.

(** output.rs:552-574 [print_file_info] *)
Definition print_file_info (show : json -> bytes) (out : format) (name : bytes) (size : N) : bytes :=
  match out with
  | Text =>
      line (lit "File Information") ++ rule "="%byte 50 ++
      line (lit "Filename: " ++ name) ++ line (lit "Size:     " ++ decimal size ++ lit " bytes")
  | Json => print_json show (JObject [(lit "filename", JText name); (lit "size", JNum size)])
  | Csv => line (lit "filename,size") ++ line (name ++ lit "," ++ decimal size)
  end.

Section Commands.
Variable L : codecs.
Variable md5 sha1 : bytes -> bytes.
Variable rd : N -> N -> N.
Variable show : json -> bytes.

(** output.rs:14-29, commands/archive.rs:148-156 [info] *)
Definition archive_info (out : format) (path file : bytes) : res bytes :=
  a <- open_archive L file ;;
  r <- get_report L md5 sha1 rd a ;;
  Ok (match out with
      | Text => print_info_text path r
      | Json => print_json show (info_json path r)
      | Csv => print_info_csv path r
      end).

(** commands/file.rs:219-234 [info]: what is printed, or the error and the message in front of it
    (anyhow's [context]) *)
Inductive told_info := Printed (t : bytes) | Refused (message : bytes) (e : error) | Crashed.
Definition file_info (out : format) (file name : bytes) : told_info :=
  match open_archive L file with
  | Ok a =>
      match read_file L a name with
      | Ok d => Printed (print_file_info show out name (lenN d))
      | Err e => Refused (lit "File not found: " ++ name) e
      | Panic => Crashed
      end
  | Err e => Refused [] e
  | Panic => Crashed
  end.
End Commands.
