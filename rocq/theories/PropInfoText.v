(** * C76: what is printed about archives, files and listings, as text and as JSON. *)
From Verif Require Import Bytes HashTable BlockTable Header Compress SpecCompress ToyCodec Archive Signature Info CliList CliConfig InfoReport Json CliInfo
  SpecListfile SpecCliList SpecReport SpecJson SpecInfoText Demo34 DemoOther DemoReport DemoJson JsonFacts PrintedFacts InfoJsonFacts DemoInfoText.
Open Scope N_scope.

(** ** JSON documents have one meaning. *)
Theorem C76_unambiguous : forall v v' d, json_document v d -> json_document v' d -> v = v'.
Proof. exact one_meaning. Qed.
Print Assumptions C76_unambiguous.

Example C76_unambiguous_example :
  json_document (JList [JNum 12; JNull]) (lit "[12, null]") /\
  pretty (JList [JNum 12; JText (lit "a""b")]) = lit "[" ++ LF :: lit "  12," ++ LF :: lit "  ""a\""b""" ++ LF :: lit "]".
Proof.
  split; [|vm_compute; reflexivity]. exists [], (lit "[12, null]"), []. split; [apply Forall_nil|]. split; [|split; [apply Forall_nil|reflexivity]].
  apply (text_list _ (lit "12, null")). apply (items_more [] _ (lit "12") [] _ (lit " null")); [apply Forall_nil| |apply Forall_nil|].
  - apply text_num. apply (ReportFacts.decimal_shown 12). reflexivity.
  - apply (items_one (lit " ") _ (lit "null") []); [apply Forall_cons; [now left|apply Forall_nil]|apply text_null|apply Forall_nil].
Qed.

(** There is such a library. *)
Theorem C76_writer : writes_json pretty.
Proof. exact pretty_writes. Qed.
Print Assumptions C76_writer.

(** ** An inspection is printed exactly when the archive opens and the inspection succeeds. *)
Theorem C76_printed : forall L md5 sha1 rd show out path file d, archive_info L md5 sha1 rd show out path file = Ok d <->
  exists a r, open_archive L file = Ok a /\ get_report L md5 sha1 rd a = Ok r /\
    d = match out with Text => print_info_text path r | Json => print_json show (info_json path r) | Csv => print_info_csv path r end.
Proof. exact inspected. Qed.
Print Assumptions C76_printed.

(** Text: sections, labels and values are those of the report, for exactly the paths of one line. *)
Theorem C76_text : forall L md5 sha1 rd show path file d, lenN file < 2 ^ 53 -> archive_info L md5 sha1 rd show Text path file = Ok d ->
  exists a r, open_archive L file = Ok a /\ get_report L md5 sha1 rd a = Ok r /\
    (text_says d (info_sections path r) <-> ~ In "010"%byte path).
Proof. exact inspected_text. Qed.
Print Assumptions C76_text.

Example C76_text_example : exists d, archive_info toy toy_md5 toy_md5 every_read pretty Text (lit "o.mpq") o_file = Ok d /\
  get_report toy toy_md5 toy_md5 every_read o_arc = Ok o_report /\
  lines_of d =
    [lit "Archive Information"; repeat "="%byte 60; lit "Archive path: o.mpq"; lit "Archive size: 706 bytes"; lit "Archive offset: 0x200";
     lit "Format version: v2"; [];
     lit "File Statistics"; repeat "-"%byte 60; lit "Number of files: 3"; lit "Maximum file capacity: 4"; lit "Sector size: 512 bytes"; [];
     lit "Security Information"; repeat "-"%byte 60; lit "Encrypted: Yes"; lit "Digital signature: No signature"; [];
     lit "Table Information"; repeat "-"%byte 60; lit "Hash table: 4 entries @ 0x4C"; lit "Block table: 3 entries @ 0x8C";
     lit "Hi-block table: 3 entries @ 0xBC"; [];
     lit "Special Files"; repeat "-"%byte 60; lit "(attributes) file: Present"; lit "(listfile) file: Not present"; [];
     lit "User Data"; repeat "-"%byte 60; lit "Header size: 16 bytes"; lit "Data size: 16 bytes"].
Proof. eexists. split; [vm_compute; reflexivity|]. split; [vm_compute; reflexivity|vm_compute; reflexivity]. Qed.

(** JSON: every field is that of the report. *)
Theorem C76_json : forall L md5 sha1 rd show path file d, writes_json show -> is_text path -> lenN file < 2 ^ 63 ->
  archive_info L md5 sha1 rd show Json path file = Ok d ->
  exists a r, open_archive L file = Ok a /\ get_report L md5 sha1 rd a = Ok r /\ json_has d (info_fields path r).
Proof. exact inspected_json. Qed.
Print Assumptions C76_json.

(** Nothing of the report is lost: what is printed alike is alike. *)
Theorem C76_json_complete : forall L md5 sha1 rd show path file path' file' d a r a' r', writes_json show -> is_text path -> is_text path' ->
  lenN file < 2 ^ 63 -> lenN file' < 2 ^ 63 ->
  archive_info L md5 sha1 rd show Json path file = Ok d -> archive_info L md5 sha1 rd show Json path' file' = Ok d ->
  open_archive L file = Ok a -> get_report L md5 sha1 rd a = Ok r -> open_archive L file' = Ok a' -> get_report L md5 sha1 rd a' = Ok r' ->
  path = path' /\ r = r'.
Proof. exact inspected_alike. Qed.
Print Assumptions C76_json_complete.

Example C76_json_example : is_text (lit "o.mpq") /\
  exists d, archive_info toy toy_md5 toy_md5 every_read pretty Json (lit "o.mpq") o_file = Ok d /\
  In ([lit "tables"; lit "hi_block_table"; lit "size"], SNumber 3) (info_fields (lit "o.mpq") o_report) /\
  In ([lit "user_data"; lit "data_size"], SNumber 16) (info_fields (lit "o.mpq") o_report) /\
  firstn 4 (lines_of d) = [lit "{"; lit "  ""path"": ""o.mpq"","; lit "  ""file_size"": 706,"; lit "  ""archive_offset"": 512,"].
Proof.
  split; [apply text_lit; reflexivity|]. eexists. split; [vm_compute; reflexivity|].
  split; [vm_compute; auto 100|]. split; [vm_compute; auto 100|vm_compute; reflexivity].
Qed.

(** ** Listings: the names, and the hashes if asked for, in the order of the listing *)
Theorem C76_listing_json : forall L compile show file all pattern regex hashes es, writes_json show ->
  list_cmd L compile file all pattern regex hashes = Ok es ->
  json_lists (print_listing show Json true es) es /\ json_names (print_listing show Json false es) (map fe_name es).
Proof. exact listing_json. Qed.
Print Assumptions C76_listing_json.

Theorem C76_listing_text : forall L compile show file all pattern regex hashes es,
  list_cmd L compile file all pattern regex hashes = Ok es -> lenN es < 2 ^ 64 -> text_lists (print_listing show Text true es) es.
Proof. exact listing_text. Qed.
Print Assumptions C76_listing_text.

Example C76_listing_example : exists es, list_cmd toy (fun _ _ => None) o_file true None false true = Ok es /\ lenN es = 3 /\
  firstn 1 (lines_of (print_listing pretty Text true es)) = [lit "file_00000000.dat [775DB9F0 8FB0A0BC]"] /\
  firstn 4 (lines_of (print_listing pretty Json true es)) =
    [lit "["; lit "  {"; lit "    ""name"": ""file_00000000.dat"","; lit "    ""hash1"": ""775DB9F0"","].
Proof. eexists. split; [vm_compute; reflexivity|]. split; [vm_compute; reflexivity|]. split; vm_compute; reflexivity. Qed.

(** ** One file: printed exactly when it can be read, with its size *)
Theorem C76_file : forall L show out file name t, file_info L show out file name = Printed t <->
  exists a d, open_archive L file = Ok a /\ read_file L a name = Ok d /\ t = print_file_info show out name (lenN d).
Proof. exact file_printed. Qed.
Print Assumptions C76_file.

Theorem C76_file_text : forall show name size, size < 2 ^ 64 ->
  text_says (print_file_info show Text name size) (file_sections name size) <-> ~ In "010"%byte name.
Proof. exact file_text. Qed.
Print Assumptions C76_file_text.

Theorem C76_file_json : forall show name size, writes_json show -> is_text name -> size < 2 ^ 64 ->
  json_has (print_file_info show Json name size) [([], SMembers 2); ([lit "filename"], SText name); ([lit "size"], SNumber size)].
Proof. exact file_json. Qed.
Print Assumptions C76_file_json.

Theorem C76_file_csv : forall show name size, size < 2 ^ 64 -> exists n, shown size n /\
  (csv_text [[lit "filename"; lit "size"]; [name; n]] (print_file_info show Csv name size) <-> csv_plain name).
Proof. exact file_csv. Qed.
Print Assumptions C76_file_csv.

Example C76_file_example : file_info toy pretty Text o_file (lit "a.txt") =
  Printed (concat (map line [lit "File Information"; repeat "="%byte 50; lit "Filename: a.txt"; lit "Size:     8 bytes"])).
Proof. vm_compute. reflexivity. Qed.

(** ** The size of the archive is given in a larger unit and then called bytes. *)
Theorem C76_size_refuted : exists L file path d, lossless L /\ lenN file = 1536 /\
  (forall md5 sha1 rd show, archive_info L md5 sha1 rd show Text path file = Ok d) /\
  In (lit "Archive size: 1.50 KB bytes") (lines_of d).
Proof. exact kilo_said. Qed.
Print Assumptions C76_size_refuted.

(** ** A file that is there but damaged is said not to be found. *)
Theorem C76_reason_refuted : exists L file a name fi, lossless L /\ open_archive L file = Ok a /\ find_file a name = Ok (Some fi) /\
  forall show out, file_info L show out file name = Refused (lit "File not found: " ++ name) ECompression.
Proof. exact damaged_said. Qed.
Print Assumptions C76_reason_refuted.
