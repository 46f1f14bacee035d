(** * C77: what [archive verify] prints, as text, JSON and CSV, and how it ends. *)
From Verif Require Import Bytes Compress SpecCompress ToyCodec Header Archive Signature Info CliList CliConfig InfoReport Json CliInfo CliVerify
  SpecListfile SpecCliList SpecReport SpecJson SpecInfoText SpecVerifyText Demo34 DemoOther DemoReport DemoJson DemoCli
  VerifyPrintFacts InfoJsonFacts DemoVerify.
From Verif Require Cli DemoArchive.
Open Scope N_scope.

(** ** Every verification either has a report, about every listed name, or stops before there is one;
    there is one thing to say about each name. *)
Theorem C77_cases : forall L md5 sha1 rd file contents,
  (exists r l, checked L md5 sha1 rd file contents r l) \/ (exists l o, stops L md5 sha1 rd file contents l o).
Proof. exact cases. Qed.
Print Assumptions C77_cases.

Theorem C77_verdict : forall L a contents n v w, judged L a contents n v -> judged L a contents n w -> v = w.
Proof. exact one_verdict. Qed.
Print Assumptions C77_verdict.

(** It ends as C39 and C43 say, whatever the output. *)
Theorem C77_outcome : forall L md5 sha1 rd show why form quiet verbose contents crc path file,
  snd (archive_verify L md5 sha1 rd show why form quiet verbose contents crc path file) = Cli.verify L md5 sha1 rd file contents.
Proof. exact outcome. Qed.
Print Assumptions C77_outcome.

(** ** Text: exactly these lines, for exactly the paths of one line, and success exactly if every
    listed name is fine.  Error messages are taken to have one line. *)
Theorem C77_text : forall L md5 sha1 rd show why verbose contents crc path file r l,
  checked L md5 sha1 rd file contents r l -> countable l -> (forall n e, ~ In "010"%byte (why n e)) ->
  (lines_say (fst (archive_verify L md5 sha1 rd show why Text false verbose contents crc path file)) (verify_lines why verbose crc path r l) <->
   ~ In "010"%byte path) /\
  (snd (archive_verify L md5 sha1 rd show why Text false verbose contents crc path file) = Ok tt <-> Forall (fun x => is_fine (snd x) = true) l).
Proof. exact verify_text. Qed.
Print Assumptions C77_text.

Example C77_text_example : (exists r, checked toy toy_md5 toy_md5 every_read hurt true r hurt_names /\ countable hurt_names) /\
  lines_of (fst (archive_verify toy toy_md5 toy_md5 every_read pretty a_reason Text false true true true (lit "h.mpq") hurt)) =
  [lit "Verifying archive: h.mpq"; cross ++ lit " a.txt - it cannot be read"; tick ++ lit " b.txt (712 bytes)"; tick ++ lit " (listfile) (26 bytes)"; [];
   lit "Archive Verification Report"; repeat "="%byte 60; lit "Archive: h.mpq"; lit "Format: MPQ v1"; [];
   lit "Header Verification"; repeat "-"%byte 60; lit "MPQ Signature:      Valid"; lit "Format Version:     Supported (v1)";
   lit "Digital Signature:  No signature"; [];
   lit "Table Verification"; repeat "-"%byte 60; lit "Hash Table:         Loaded successfully"; lit "Block Table:        Loaded successfully"; [];
   lit "File Verification Summary"; repeat "-"%byte 60; lit "Total Files:        3"; lit "Files Found:        3"; lit "Files Readable:     2";
   lit "Files Missing:      0"; lit "Files Corrupted:    1"; []; lit "Verified:           2 / 3 (66%)"; [];
   lit "Warnings:"; lit "  " ++ alert ++ lit " CRC verification requested but not yet implemented for file: b.txt";
   lit "  " ++ alert ++ lit " CRC verification requested but not yet implemented for file: (listfile)"; [];
   lit "Errors:"; lit "  " ++ cross ++ lit " a.txt - it cannot be read"; [];
   lit "Overall Status"; repeat "="%byte 60; cross ++ lit " Archive verification FAILED"].
Proof. exact (conj hurt_checked hurt_lines). Qed.

(** ** JSON and CSV *)
Theorem C77_json : forall L md5 sha1 rd show why verbose contents crc path file r l,
  checked L md5 sha1 rd file contents r l -> countable l -> writes_json show -> is_text path -> (forall n e, is_text (why n e)) ->
  json_shows (fst (archive_verify L md5 sha1 rd show why Json false verbose contents crc path file)) (verify_fields why crc path r l).
Proof. exact verify_said_json. Qed.
Print Assumptions C77_json.

Example C77_json_example : forall r, In ([Member (lit "errors"); Item 0; Member (lit "file")], SText (lit "a.txt")) (verify_fields a_reason true (lit "h.mpq") r hurt_names) /\
  In ([Member (lit "verified_files")], SNumber 2) (verify_fields a_reason true (lit "h.mpq") r hurt_names) /\
  In (lit "    ""files_corrupted"": 1") (lines_of (fst (archive_verify toy toy_md5 toy_md5 every_read pretty a_reason Json false true true true (lit "h.mpq") hurt))).
Proof.
  intros r. split; [|split].
  - unfold verify_fields. apply in_or_app. right. apply in_or_app. right. apply in_or_app. right. right. left. reflexivity.
  - unfold verify_fields. apply in_or_app. left. do 4 right. left. reflexivity.
  - apply line_there. vm_compute. reflexivity.
Qed.

Theorem C77_csv : forall L md5 sha1 rd show why verbose contents crc path file r l, checked L md5 sha1 rd file contents r l -> countable l ->
  exists v t n e w, shown (version_number (i_version (r_info r))) v /\ shown (lenN l) t /\ shown (how_many is_fine l) n /\
  shown (lenN (failures why l)) e /\ shown (lenN (unchecked crc l)) w /\
  (csv_text (verify_rows path v t n e w (forallb (fun x => is_fine (snd x)) l))
     (fst (archive_verify L md5 sha1 rd show why Csv false verbose contents crc path file)) <-> csv_plain path).
Proof. exact verify_said_csv. Qed.
Print Assumptions C77_csv.

Example C77_csv_example : fst (archive_verify toy toy_md5 toy_md5 every_read pretty a_reason Csv false true true true (lit "h.mpq") hurt) =
  concat (map line [lit "metric,value"; lit "archive,h.mpq"; lit "format_version,1"; lit "total_files,3"; lit "verified_files,2"; lit "errors,1";
                    lit "warnings,2"; lit "passed,false"]).
Proof. vm_compute. reflexivity. Qed.

(** ** Nothing when quiet; without a report only what was checked before *)
Theorem C77_quiet : forall L md5 sha1 rd show why form verbose contents crc path file,
  fst (archive_verify L md5 sha1 rd show why form true verbose contents crc path file) = [].
Proof. exact quiet_says. Qed.
Print Assumptions C77_quiet.

Theorem C77_stopped : forall L md5 sha1 rd show why verbose contents crc path file l o,
  stops L md5 sha1 rd file contents l o -> countable l -> (forall n e, ~ In "010"%byte (why n e)) -> ~ In "010"%byte path ->
  lines_say (fst (archive_verify L md5 sha1 rd show why Text false verbose contents crc path file))
    ([word (lit "Verifying archive: " ++ path)] ++ if verbose then map (progress why) l else []) /\
  snd (archive_verify L md5 sha1 rd show why Text false verbose contents crc path file) = o /\ o <> Ok tt.
Proof. exact stopped_text. Qed.
Print Assumptions C77_stopped.

Theorem C77_stopped_else : forall L md5 sha1 rd show why form verbose contents crc path file l o,
  stops L md5 sha1 rd file contents l o -> form <> Text ->
  archive_verify L md5 sha1 rd show why form false verbose contents crc path file = ([], o).
Proof. exact stopped_else. Qed.
Print Assumptions C77_stopped_else.

Example C77_stopped_example : stops toy toy_md5 toy_md5 every_read (lit "no archive") true [] (Err EInvalidFormat) /\
  archive_verify toy toy_md5 toy_md5 every_read pretty a_reason Text false true true false (lit "n.mpq") (lit "no archive") =
  (line (lit "Verifying archive: n.mpq"), Err EInvalidFormat).
Proof. split; [apply stop_open|]; vm_compute; reflexivity. Qed.

(** ** The counts agree. *)
Theorem C77_counts : forall L a contents l, Forall (fun x => judged L a contents (fst x) (snd x)) l ->
  how_many is_there l + how_many is_gone l = lenN l /\
  how_many is_fine l + how_many is_broken l = how_many is_there l /\
  how_many is_read l = (if contents then how_many is_fine l else 0) /\
  (contents = false -> how_many is_broken l = 0).
Proof. exact counts. Qed.
Print Assumptions C77_counts.

(** ** Files are never missing from an archive that has a list: names of the list without a file are passed over. *)
Theorem C77_never_missing : forall L md5 sha1 rd file contents r l a, checked L md5 sha1 rd file contents r l -> open_archive L file = Ok a ->
  there a (lit "(listfile)") -> how_many is_gone l = 0.
Proof. exact never_gone. Qed.
Print Assumptions C77_never_missing.

(** In one without a list, files that can be read are missing, and the verification fails. *)
Theorem C77_unlisted_refuted : exists file a, open_archive toy file = Ok a /\
  (exists d, read_file toy a (lit "a.txt") = Ok d) /\ (exists d, read_file toy a (lit "b.txt") = Ok d) /\
  forall md5 sha1 why contents, let (d, o) := archive_verify toy md5 sha1 every_read pretty why Text false false contents false (lit "o.mpq") file in
    o = Err EInvalidFormat /\ In (lit "Files Found:        0") (lines_of d) /\ In (lit "Files Missing:      3") (lines_of d) /\
    In (cross ++ lit " Archive verification FAILED") (lines_of d).
Proof. exact unlisted_said. Qed.
Print Assumptions C77_unlisted_refuted.

(** ** Passed although a digest or the signature is wrong *)
Theorem C77_passed_refuted :
  (let (d, o) := archive_verify toy toy_md5 toy_md5 all_read pretty a_reason Text false false true false (lit "f.mpq") four_soft in
   o = Ok tt /\ In (lit "Header MD5:         Invalid") (lines_of d) /\ In (tick ++ lit " Archive verification PASSED") (lines_of d)) /\
  (let (d, o) := archive_verify toy DemoArchive.no_md5 DemoArchive.no_md5 all_read pretty a_reason Text false false true false (lit "u.mpq") unsigned_arc in
   o = Ok tt /\ In (lit "Digital Signature:  Weak signature (Invalid)") (lines_of d) /\ In (tick ++ lit " Archive verification PASSED") (lines_of d)).
Proof. exact passed_said. Qed.
Print Assumptions C77_passed_refuted.

(** ** Asking for checksums without reading the files does nothing, and nothing is said about it. *)
Theorem C77_crc_ignored : forall L md5 sha1 rd show why form quiet verbose path file,
  archive_verify L md5 sha1 rd show why form quiet verbose false true path file =
  archive_verify L md5 sha1 rd show why form quiet verbose false false path file.
Proof. exact crc_idle. Qed.
Print Assumptions C77_crc_ignored.
