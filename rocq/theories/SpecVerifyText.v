(** * Specification: what a printed verification should say. *)
From Verif Require Import Bytes Compress Header Archive Signature Info InfoReport SpecListfile SpecCliList SpecReport Json SpecJson SpecInfoText.
Open Scope N_scope.

(** ** What there is to say about a listed name: read in full, not readable, there (and not read), not there *)
Inductive verdict := Whole (size : N) | Broken (e : error) | Known | Gone.
Definition judged (L : codecs) (a : archive) (contents : bool) (n : bytes) (v : verdict) : Prop :=
  match v with
  | Whole s => contents = true /\ there a n /\ exists d, read_file L a n = Ok d /\ lenN d = s
  | Broken e => contents = true /\ there a n /\ read_file L a n = Err e
  | Known => contents = false /\ there a n
  | Gone => find_file a n = Ok None
  end.
(** An archive, what is reported about it, and its listed names with what there is to say about them *)
Definition checked (L : codecs) (md5 sha1 : bytes -> bytes) (rd : N -> N -> N) (file : bytes) (contents : bool) (r : report)
    (l : list (bytes * verdict)) : Prop :=
  exists a es, open_archive L file = Ok a /\ get_report L md5 sha1 rd a = Ok r /\ list_files L a = Ok es /\
    map fst l = map fe_name es /\ Forall (fun x => judged L a contents (fst x) (snd x)) l.
(** Or how the verification ends before there is a report, and the names checked until then *)
Definition fails {A} (x : res A) (o : res unit) : Prop :=
  match x, o with Err e, Err e' => e = e' | Panic, Panic => True | _, _ => False end.
Inductive stops (L : codecs) (md5 sha1 : bytes -> bytes) (rd : N -> N -> N) (file : bytes) (contents : bool)
    : list (bytes * verdict) -> res unit -> Prop :=
  | stop_open o : fails (open_archive L file) o -> stops L md5 sha1 rd file contents [] o
  | stop_report a o : open_archive L file = Ok a -> fails (get_report L md5 sha1 rd a) o -> stops L md5 sha1 rd file contents [] o
  | stop_list a r o : open_archive L file = Ok a -> get_report L md5 sha1 rd a = Ok r -> fails (list_files L a) o ->
      stops L md5 sha1 rd file contents [] o
  | stop_find a r es l n rest o : open_archive L file = Ok a -> get_report L md5 sha1 rd a = Ok r -> list_files L a = Ok es ->
      map fe_name es = map fst l ++ n :: rest -> Forall (fun x => judged L a contents (fst x) (snd x)) l -> fails (find_file a n) o ->
      stops L md5 sha1 rd file contents l o
  | stop_read a r es l n rest : open_archive L file = Ok a -> get_report L md5 sha1 rd a = Ok r -> list_files L a = Ok es ->
      map fe_name es = map fst l ++ n :: rest -> Forall (fun x => judged L a contents (fst x) (snd x)) l ->
      contents = true -> there a n -> read_file L a n = Panic ->
      stops L md5 sha1 rd file contents l Panic.
(** No file of more than 64 bits, a number of names of less than 58 *)
Definition countable (l : list (bytes * verdict)) : Prop :=
  lenN l < 2 ^ 57 /\ Forall (fun x => match snd x with Whole s => s < 2 ^ 64 | _ => True end) l.
Definition is_there (v : verdict) : bool := match v with Gone => false | _ => true end.
Definition is_read (v : verdict) : bool := match v with Whole _ => true | _ => false end.
Definition is_gone (v : verdict) : bool := match v with Gone => true | _ => false end.
Definition is_broken (v : verdict) : bool := match v with Broken _ => true | _ => false end.
Definition is_fine (v : verdict) : bool := match v with Whole _ | Known => true | _ => false end.
Definition how_many (f : verdict -> bool) (l : list (bytes * verdict)) : N := lenN (filter (fun x => f (snd x)) l).

(** The failures, with their reasons, and the files whose checksums were not compared *)
Definition failures (why : bytes -> error -> bytes) (l : list (bytes * verdict)) : list (bytes * bytes) :=
  flat_map (fun x => match snd x with
                     | Broken e => [(fst x, why (fst x) e)]
                     | Gone => [(fst x, lit "File not found in tables")]
                     | _ => []
                     end) l.
Definition unchecked (crc : bool) (l : list (bytes * verdict)) : list bytes :=
  if crc then map fst (filter (fun x => is_read (snd x)) l) else [].

(** ** As text: these lines *)
Definition lines_say (d : bytes) (expected : list (bytes -> Prop)) : Prop := Forall2 (fun l P => P l) (lines_of d) expected.
(** A label, spaces and a value; a sign and a value *)
Definition labelled (k : bytes) (P : bytes -> Prop) (l : bytes) : Prop :=
  exists j w, l = k ++ lit ":" ++ repeat " "%byte (S j) ++ w /\ P w.
Definition after_text (k : bytes) (P : bytes -> Prop) (l : bytes) : Prop := exists w, l = k ++ w /\ P w.
Definition title (t : bytes) : list (bytes -> Prop) := [word []; word t; word (repeat "-"%byte 60)].
Definition tick : bytes := ["226"; "156"; "147"]%byte.
Definition cross : bytes := ["226"; "156"; "151"]%byte.
Definition alert : bytes := ["226"; "154"; "160"]%byte.
Definition success (b : bool) : bytes -> Prop := word (if b then lit "Loaded successfully" else lit "Failed to load").

(** While the names are checked *)
Definition progress (why : bytes -> error -> bytes) (x : bytes * verdict) (l : bytes) : Prop :=
  match snd x with
  | Whole s => exists d, shown s d /\ l = tick ++ lit " " ++ fst x ++ lit " (" ++ d ++ lit " bytes)"
  | Known => l = tick ++ lit " " ++ fst x
  | Broken e => l = cross ++ lit " " ++ fst x ++ lit " - " ++ why (fst x) e
  | Gone => l = cross ++ lit " " ++ fst x ++ lit " - File not found"
  end.

Definition verify_lines (why : bytes -> error -> bytes) (verbose crc : bool) (path : bytes) (r : report) (l : list (bytes * verdict))
  : list (bytes -> Prop) :=
  let i := r_info r in
  [word (lit "Verifying archive: " ++ path)] ++
  (if verbose then map (progress why) l else []) ++
  [word []; word (lit "Archive Verification Report"); word (repeat "="%byte 60);
   word (lit "Archive: " ++ path); after_text (lit "Format: MPQ v") (shown (version_number (i_version i)))] ++
  title (lit "Header Verification") ++
  [labelled (lit "MPQ Signature") (word (lit "Valid"));
   labelled (lit "Format Version") (fun t => exists d, shown (version_number (i_version i)) d /\ t = lit "Supported (v" ++ d ++ lit ")");
   labelled (lit "Digital Signature") (word (signature_words (i_signature i)))] ++
  title (lit "Table Verification") ++
  [labelled (lit "Hash Table") (success (negb (ti_failed (r_hash r)))); labelled (lit "Block Table") (success (negb (ti_failed (r_block r))))] ++
  if_any (r_het r) (fun t => [labelled (lit "HET Table") (success (negb (ti_failed t)))]) ++
  if_any (r_bet r) (fun t => [labelled (lit "BET Table") (success (negb (ti_failed t)))]) ++
  if_any (i_md5 i) (fun m =>
    title (lit "MD5 Checksum Verification (v4)") ++
    [labelled (lit "Header MD5") (validity (ms_header m)); labelled (lit "Hash Table MD5") (validity (ms_hash m));
     labelled (lit "Block Table MD5") (validity (ms_block m)); labelled (lit "Hi-Block Table MD5") (validity (ms_hi m));
     labelled (lit "HET Table MD5") (validity (ms_het m)); labelled (lit "BET Table MD5") (validity (ms_bet m))]) ++
  title (lit "File Verification Summary") ++
  [labelled (lit "Total Files") (shown (lenN l)); labelled (lit "Files Found") (shown (how_many is_there l));
   labelled (lit "Files Readable") (shown (how_many is_read l)); labelled (lit "Files Missing") (shown (how_many is_gone l));
   labelled (lit "Files Corrupted") (shown (how_many is_broken l));
   word [];
   labelled (lit "Verified") (fun t => exists a b p q, shown (how_many is_fine l) a /\ shown (lenN l) b /\ shown p q /\
     (l <> [] -> p * lenN l <= 100 * how_many is_fine l < (p + 1) * lenN l) /\ (l = [] -> p = 0) /\
     t = a ++ lit " / " ++ b ++ lit " (" ++ q ++ lit "%)")] ++
  match unchecked crc l with
  | [] => []
  | ns => [word []; word (lit "Warnings:")] ++
          map (fun n => word (lit "  " ++ alert ++ lit " CRC verification requested but not yet implemented for file: " ++ n)) ns
  end ++
  match failures why l with
  | [] => []
  | fs => [word []; word (lit "Errors:")] ++ map (fun f => word (lit "  " ++ cross ++ lit " " ++ fst f ++ lit " - " ++ snd f)) fs
  end ++
  [word []; word (lit "Overall Status"); word (repeat "="%byte 60);
   word (match failures why l with [] => tick ++ lit " Archive verification PASSED" | _ => cross ++ lit " Archive verification FAILED" end)].

(** ** As JSON: what is where *)
Definition json_shows (d : bytes) (fields : list (list way * shape)) : Prop :=
  exists v, json_document v d /\ forall p s, In (p, s) fields -> look v p = Some s.
Fixpoint numbered {A} (i : nat) (l : list A) : list (nat * A) := match l with [] => [] | x :: t => (i, x) :: numbered (S i) t end.
Definition flag_or_null (t : option table_info) : shape := match t with Some t => STruth (negb (ti_failed t)) | None => SNull end.
Definition verify_fields (why : bytes -> error -> bytes) (crc : bool) (path : bytes) (r : report) (l : list (bytes * verdict))
  : list (list way * shape) :=
  let i := r_info r in
  let f := fun ks s => (map (fun k => Member k) ks, s) in
  [f [] (SMembers 10);
   f [lit "archive"] (SText path); f [lit "format_version"] (SNumber (version_number (i_version i)));
   f [lit "total_files"] (SNumber (lenN l)); f [lit "verified_files"] (SNumber (how_many is_fine l));
   f [lit "header_checks"] (SMembers 3); f [lit "header_checks"; lit "signature_valid"] (STruth true);
   f [lit "header_checks"; lit "version_supported"] (STruth true);
   f [lit "header_checks"; lit "signature_status"] (SText (lit "Some(" ++ status_word (i_signature i) ++ lit ")"));
   f [lit "table_checks"] (SMembers 5);
   f [lit "table_checks"; lit "hash_table_loaded"] (STruth (negb (ti_failed (r_hash r))));
   f [lit "table_checks"; lit "block_table_loaded"] (STruth (negb (ti_failed (r_block r))));
   f [lit "table_checks"; lit "het_table_loaded"] (flag_or_null (r_het r));
   f [lit "table_checks"; lit "bet_table_loaded"] (flag_or_null (r_bet r));
   f [lit "file_checks"] (SMembers 4);
   f [lit "file_checks"; lit "files_found"] (SNumber (how_many is_there l));
   f [lit "file_checks"; lit "files_readable"] (SNumber (how_many is_read l));
   f [lit "file_checks"; lit "files_missing"] (SNumber (how_many is_gone l));
   f [lit "file_checks"; lit "files_corrupted"] (SNumber (how_many is_broken l));
   f [lit "passed"] (STruth (forallb (fun x => is_fine (snd x)) l));
   f [lit "warnings"] (SItems (length (unchecked crc l)));
   f [lit "errors"] (SItems (length (failures why l)))] ++
  match i_md5 i with
  | Some m =>
      let g := fun k b => f [lit "table_checks"; lit "md5_checksums"; k] (STruth b) in
      [f [lit "table_checks"; lit "md5_checksums"] (SMembers 6);
       g (lit "header_valid") (ms_header m); g (lit "hash_table_valid") (ms_hash m); g (lit "block_table_valid") (ms_block m);
       g (lit "hi_block_table_valid") (ms_hi m); g (lit "het_table_valid") (ms_het m); g (lit "bet_table_valid") (ms_bet m)]
  | None => [f [lit "table_checks"; lit "md5_checksums"] SNull]
  end ++
  map (fun x => ([Member (lit "warnings"); Item (fst x)],
                 SText (lit "CRC verification requested but not yet implemented for file: " ++ snd x))) (numbered 0 (unchecked crc l)) ++
  flat_map (fun x => [([Member (lit "errors"); Item (fst x)], SMembers 2);
                      ([Member (lit "errors"); Item (fst x); Member (lit "file")], SText (fst (snd x)));
                      ([Member (lit "errors"); Item (fst x); Member (lit "error")], SText (snd (snd x)))]) (numbered 0 (failures why l)).

(** ** As CSV *)
Definition verify_rows (path v t n e w : bytes) (ok : bool) : list (list bytes) :=
  [[lit "metric"; lit "value"]; [lit "archive"; path]; [lit "format_version"; v]; [lit "total_files"; t]; [lit "verified_files"; n];
   [lit "errors"; e]; [lit "warnings"; w]; [lit "passed"; yes_no ok]].
