(** * What [archive verify] prints (storm-cli/src/commands/archive.rs:158-608).

    Simplifications: text without colours; [show] is [serde_json::to_string_pretty]; [why n e] is the
    text of the error [e] that reading [n] ended with.  The counters are lengths of lists in memory
    and do not overflow. *)
From Verif Require Import Bytes Compress Header Archive Signature Info CliList CliConfig CliVerbose InfoReport Json CliInfo.
Open Scope N_scope.

(** [{:?}] of [Some (s : SignatureStatus)] *)
Definition debug_status (s : sig_status) : bytes := lit "Some(" ++ status_text s ++ lit ")".
(** U+2713, U+2717, U+26A0 *)
Definition TICK : bytes := map Nb [226; 156; 147].
Definition CROSS : bytes := map Nb [226; 156; 151].
Definition ALERT : bytes := map Nb [226; 154; 160].

(** archive.rs:309-320, 346-352: what the loop counts of [VerificationResults] and [FileChecks] *)
Record tally := mkTally {
  t_verified : N; t_errors : list (bytes * bytes); t_warnings : list bytes;
  t_found : N; t_readable : N; t_missing : N; t_corrupted : N
}.
Definition no_tally : tally := mkTally 0 [] [] 0 0 0 0.

Section Verify.
Variable L : codecs.
Variable md5 sha1 : bytes -> bytes.
Variable rd : N -> N -> N.
Variable show : json -> bytes.
Variable why : bytes -> error -> bytes.

(** archive.rs:226-288: one name; what is printed if [talk], and the new counts *)
Definition check_name (a : archive) (contents crc talk : bool) (n : bytes) (t : tally) : bytes * res tally :=
  let say l := if talk then line l else [] in
  match find_file a n with
  | Ok (Some _) =>
      let t := mkTally (t_verified t) (t_errors t) (t_warnings t) (t_found t + 1) (t_readable t) (t_missing t) (t_corrupted t) in
      if contents then
        match read_file L a n with
        | Ok d =>
            (say (TICK ++ lit " " ++ n ++ lit " (" ++ decimal (lenN d) ++ lit " bytes)"),
             Ok (mkTally (t_verified t + 1) (t_errors t)
                   (t_warnings t ++ if crc then [lit "CRC verification requested but not yet implemented for file: " ++ n] else [])
                   (t_found t) (t_readable t + 1) (t_missing t) (t_corrupted t)))
        | Err e =>
            (say (CROSS ++ lit " " ++ n ++ lit " - " ++ why n e),
             Ok (mkTally (t_verified t) (t_errors t ++ [(n, why n e)]) (t_warnings t)
                   (t_found t) (t_readable t) (t_missing t) (t_corrupted t + 1)))
        | Panic => ([], Panic)
        end
      else
        (say (TICK ++ lit " " ++ n),
         Ok (mkTally (t_verified t + 1) (t_errors t) (t_warnings t) (t_found t) (t_readable t) (t_missing t) (t_corrupted t)))
  | Ok None =>
      (say (CROSS ++ lit " " ++ n ++ lit " - File not found"),
       Ok (mkTally (t_verified t) (t_errors t ++ [(n, lit "File not found in tables")]) (t_warnings t)
             (t_found t) (t_readable t) (t_missing t + 1) (t_corrupted t)))
  | Err e => ([], Err e)
  | Panic => ([], Panic)
  end.
Fixpoint check_names (a : archive) (contents crc talk : bool) (names : list bytes) (t : tally) : bytes * res tally :=
  match names with
  | [] => ([], Ok t)
  | n :: r =>
      let (p, t) := check_name a contents crc talk n t in
      match t with
      | Ok t => let (q, u) := check_names a contents crc talk r t in (p ++ q, u)
      | Err e => (p, Err e)
      | Panic => (p, Panic)
      end
  end.

(** archive.rs:185-219: of the tables, whether they are loaded *)
Definition loaded_if (t : option table_info) : option bool :=
  match t with Some t => Some (negb (ti_failed t)) | None => None end.

(** archive.rs:366-543: as text.  The signature of the archive is always said to be valid and the
    version to be supported (archive.rs:186-190). *)
Definition valid_word (b : bool) : bytes := if b then lit "Valid" else lit "Invalid".
Definition loaded_word (b : bool) : bytes := if b then lit "Loaded successfully" else lit "Failed to load".
Definition loaded_line (k : bytes) (b : option bool) : bytes :=
  match b with Some b => line (k ++ loaded_word b) | None => [] end.
Definition print_verify_text (path : bytes) (r : report) (total : N) (t : tally) : bytes :=
  let i := r_info r in
  line [] ++ line (lit "Archive Verification Report") ++ rule "="%byte 60 ++
  line (lit "Archive: " ++ path) ++
  line (lit "Format: MPQ v" ++ decimal (version_shown (i_version i))) ++
  heading (lit "Header Verification") ++
  line (lit "MPQ Signature:      " ++ valid_word true) ++
  line (lit "Format Version:     Supported (v" ++ decimal (version_shown (i_version i)) ++ lit ")") ++
  line (lit "Digital Signature:  " ++ signature_text (i_signature i)) ++
  heading (lit "Table Verification") ++
  line (lit "Hash Table:         " ++ loaded_word (negb (ti_failed (r_hash r)))) ++
  line (lit "Block Table:        " ++ loaded_word (negb (ti_failed (r_block r)))) ++
  loaded_line (lit "HET Table:          ") (loaded_if (r_het r)) ++
  loaded_line (lit "BET Table:          ") (loaded_if (r_bet r)) ++
  (match i_md5 i with
   | Some m =>
       heading (lit "MD5 Checksum Verification (v4)") ++
       line (lit "Header MD5:         " ++ valid_word (ms_header m)) ++
       line (lit "Hash Table MD5:     " ++ valid_word (ms_hash m)) ++
       line (lit "Block Table MD5:    " ++ valid_word (ms_block m)) ++
       line (lit "Hi-Block Table MD5: " ++ valid_word (ms_hi m)) ++
       line (lit "HET Table MD5:      " ++ valid_word (ms_het m)) ++
       line (lit "BET Table MD5:      " ++ valid_word (ms_bet m))
   | None => []
   end) ++
  heading (lit "File Verification Summary") ++
  line (lit "Total Files:        " ++ decimal total) ++
  line (lit "Files Found:        " ++ decimal (t_found t)) ++
  line (lit "Files Readable:     " ++ decimal (t_readable t)) ++
  line (lit "Files Missing:      " ++ decimal (t_missing t)) ++
  line (lit "Files Corrupted:    " ++ decimal (t_corrupted t)) ++
  line [] ++
  line (lit "Verified:           " ++ decimal (t_verified t) ++ lit " / " ++ decimal total ++ lit " (" ++
        decimal (t_verified t * 100 / N.max total 1) ++ lit "%)") ++
  (match t_warnings t with
   | [] => []
   | ws => line [] ++ line (lit "Warnings:") ++ concat (map (fun w => line (lit "  " ++ ALERT ++ lit " " ++ w)) ws)
   end) ++
  (match t_errors t with
   | [] => []
   | es => line [] ++ line (lit "Errors:") ++
           concat (map (fun fe => line (lit "  " ++ CROSS ++ lit " " ++ fst fe ++ lit " - " ++ snd fe)) es)
   end) ++
  line [] ++ line (lit "Overall Status") ++ rule "="%byte 60 ++
  line (match t_errors t with [] => TICK ++ lit " Archive verification PASSED" | _ => CROSS ++ lit " Archive verification FAILED" end).

(** archive.rs:544-593: as JSON *)
Definition passed (t : tally) : bool := match t_errors t with [] => true | _ => false end.
Definition verify_json (path : bytes) (r : report) (total : N) (t : tally) : json :=
  let i := r_info r in
  JObject [
    (lit "archive", JText path);
    (lit "format_version", JNum (version_shown (i_version i)));
    (lit "total_files", JNum total);
    (lit "verified_files", JNum (t_verified t));
    (lit "header_checks", JObject [
       (lit "signature_valid", JBool true);
       (lit "version_supported", JBool true);
       (lit "signature_status", JText (debug_status (i_signature i)))]);
    (lit "table_checks", JObject [
       (lit "hash_table_loaded", JBool (negb (ti_failed (r_hash r))));
       (lit "block_table_loaded", JBool (negb (ti_failed (r_block r))));
       (lit "het_table_loaded", j_option JBool (loaded_if (r_het r)));
       (lit "bet_table_loaded", j_option JBool (loaded_if (r_bet r)));
       (lit "md5_checksums", j_option j_md5 (i_md5 i))]);
    (lit "file_checks", JObject [
       (lit "files_found", JNum (t_found t));
       (lit "files_readable", JNum (t_readable t));
       (lit "files_missing", JNum (t_missing t));
       (lit "files_corrupted", JNum (t_corrupted t))]);
    (lit "warnings", JList (map JText (t_warnings t)));
    (lit "errors", JList (map (fun fe => JObject [(lit "file", JText (fst fe)); (lit "error", JText (snd fe))]) (t_errors t)));
    (lit "passed", JBool (passed t))].

(** archive.rs:594-603: as CSV *)
Definition print_verify_csv (path : bytes) (r : report) (total : N) (t : tally) : bytes :=
  line (lit "metric,value") ++
  line (lit "archive," ++ path) ++
  line (lit "format_version," ++ decimal (version_shown (i_version (r_info r)))) ++
  line (lit "total_files," ++ decimal total) ++
  line (lit "verified_files," ++ decimal (t_verified t)) ++
  line (lit "errors," ++ decimal (lenN (t_errors t))) ++
  line (lit "warnings," ++ decimal (lenN (t_warnings t))) ++
  line (lit "passed," ++ truth (passed t)).

(** archive.rs:354-608 [print_detailed_verify_result] *)
Definition print_verify (out : format) (quiet : bool) (path : bytes) (r : report) (total : N) (t : tally) : bytes :=
  if quiet then []
  else match out with
       | Text => print_verify_text path r total t
       | Json => print_json show (verify_json path r total t)
       | Csv => print_verify_csv path r total t
       end.

(** archive.rs:158-302 [verify]: what is printed and how it ends; the final error carries only a
    message, any kind will do *)
Definition archive_verify (out : format) (quiet verbose contents crc : bool) (path file : bytes) : bytes * res unit :=
  let text := match out with Text => true | _ => false end in
  let hello := if negb quiet && text then line (lit "Verifying archive: " ++ path) else [] in
  match (a <- open_archive L file ;; r <- get_report L md5 sha1 rd a ;; l <- list_files L a ;; Ok (a, r, map fe_name l)) with
  | Ok (a, r, names) =>
      let (p, t) := check_names a contents crc (verbose && negb quiet && text) names no_tally in
      match t with
      | Ok t => (hello ++ p ++ print_verify out quiet path r (lenN names) t,
                 match t_errors t with [] => Ok tt | _ => Err EInvalidFormat end)
      | Err e => (hello ++ p, Err e)
      | Panic => (hello ++ p, Panic)
      end
  | Err e => (hello, Err e)
  | Panic => (hello, Panic)
  end.
End Verify.
