(** * C78: what [file extract] and [archive create] tell on the way. *)
From Verif Require Import Bytes Header Compress SpecCompress ToyCodec Builder Archive Signature Info Cli SpecCli CliBuilt CliCreate CliVerify
  SpecReport SpecCliList SpecVerifyText CliTold SpecTold ToldFacts SpecListfile SpecCreate AddedFacts DemoArchive DemoCli DemoOther DemoReport DemoVerify DemoTold.
From Verif Require DemoCreate TextFacts.
Open Scope N_scope.

(** ** Telling changes nothing: the same files are written and it ends alike as in C34 and C59. *)
Theorem C78_extract_same : forall L why quiet file name output preserve,
  changes (fst (extract_told L why quiet file name output preserve)) = fst (extract L file name output preserve) /\
  snd (extract_told L why quiet file name output preserve) = snd (extract L file name output preserve).
Proof. exact extract_same. Qed.
Print Assumptions C78_extract_same.

Theorem C78_create_same : forall L md5 quiet c path src follow deep pats s,
  snd (create_told L md5 quiet c path src follow deep pats s) = create_archive L md5 c src follow deep pats s.
Proof. exact create_same. Qed.
Print Assumptions C78_create_same.

(** ** Extracting everything: one line for every listed name, in their order, each right after its
    file was written; and at the end the number of listed names.  It stops early only by a panic. *)
Theorem C78_extract_all : forall L why file output preserve a l evs r,
  open_archive L file = Ok a -> list_files L a = Ok l -> lenN l < 2 ^ 64 ->
  extract_told L why false file None output preserve = (evs, r) ->
  (r = Ok tt /\ exists gs k, Forall2 (handled L why a) (map fe_name l) gs /\ shown (lenN l) k /\
     evs = concat gs ++ [Out (tick ++ lit " Extracted " ++ k ++ lit " files")]) \/
  (r = Panic /\ exists done rest gs, map fe_name l = done ++ rest /\ rest <> [] /\ Forall2 (handled L why a) done gs /\ evs = concat gs).
Proof. exact all_told. Qed.
Print Assumptions C78_extract_all.

(** The number at the end is the number of files written exactly if every listed name can be read. *)
Theorem C78_count_partial : forall L why file output preserve a l evs,
  open_archive L file = Ok a -> list_files L a = Ok l -> lenN l < 2 ^ 64 ->
  extract_told L why false file None output preserve = (evs, Ok tt) ->
  (lenN (writes_of (changes evs)) + lenN (err_lines evs) = lenN l) /\
  (lenN (writes_of (changes evs)) = lenN l <-> forall e, In e l -> exists d, read_file L a (fe_name e) = Ok d).
Proof.
  exact (fun L why file output preserve a l evs Ho Hl B E =>
    conj (count_right L no_md5 why file output preserve a l evs Ho Hl B E) (count_exact L no_md5 why file output preserve a l evs Ho Hl B E)).
Qed.
Print Assumptions C78_count_partial.

(** It is not always: three files are said to be extracted, two are, and the command succeeds. *)
Theorem C78_count_refuted : exists file evs,
  extract_told toy a_reason false file None (Some (lit "out")) false = (evs, Ok tt) /\
  out_lines evs = [lit "Extracted: b.txt"; lit "Extracted: (listfile)"; tick ++ lit " Extracted 3 files"] /\
  err_lines evs = [lit "Failed to extract a.txt: it cannot be read"] /\ lenN (writes_of (changes evs)) = 2.
Proof. exact (ex_intro _ hurt hurt_told). Qed.
Print Assumptions C78_count_refuted.

(** After a successful [archive verify --check-contents] it is, and nothing is complained about. *)
Theorem C78_verified : forall L md5 sha1 rd why file output preserve a l evs,
  verify L md5 sha1 rd file true = Ok tt -> open_archive L file = Ok a -> list_files L a = Ok l -> lenN l < 2 ^ 64 ->
  extract_told L why false file None output preserve = (evs, Ok tt) ->
  err_lines evs = [] /\ lenN (writes_of (changes evs)) = lenN l.
Proof. exact verified_count. Qed.
Print Assumptions C78_verified.

Example C78_verified_example : verify toy no_md5 no_md5 every_read demo_arc true = Ok tt /\
  exists a l evs, open_archive toy demo_arc = Ok a /\ list_files toy a = Ok l /\
  extract_told toy a_reason false demo_arc None None true = (evs, Ok tt) /\
  lenN l = 5 /\ last (out_lines evs) [] = tick ++ lit " Extracted 5 files".
Proof. exact whole_told. Qed.

(** ** Extracting one file: its content is written, then the line is printed; or nothing happens at all. *)
Theorem C78_extract_one : forall L why file n output preserve evs r,
  extract_told L why false file (Some n) output preserve = (evs, r) ->
  (r = Ok tt /\ exists a xs p d, open_archive L file = Ok a /\ read_file L a n = Ok d /\ writes_of xs = [] /\
     (forall o, output = Some o -> p = o) /\ (output = None -> preserve = true -> p = n) /\
     evs = map Act (xs ++ [AWrite p d]) ++ [Out (lit "Extracted: " ++ n ++ lit " -> " ++ p)]) \/
  (r <> Ok tt /\ evs = []).
Proof. exact one_told. Qed.
Print Assumptions C78_extract_one.

Example C78_extract_one_example :
  extract_told toy a_reason false demo_arc (Some (lit "d.txt")) (Some (lit "e")) false =
  ([Act (AMkdirs false []); Act (AWrite (lit "e") (lit "plain")); Out (lit "Extracted: d.txt -> e")], Ok tt).
Proof. vm_compute. reflexivity. Qed.

(** ** Creating: the names in the archive are told in their order, and the success after the archive
    was written; without success nothing is written. *)
Theorem C78_create : forall L md5 c path src follow deep pats s,
  (exists arc files, create_told L md5 false c path src follow deep pats s =
     (map Out ((lit "Creating archive: " ++ path) :: map (fun f => lit "Added: " ++ pf_name f) files) ++
      [Act (AWrite path arc); Out (tick ++ lit " Archive created successfully")], Ok arc) /\ build L md5 c files = Ok arc) \/
  (exists names r, create_told L md5 false c path src follow deep pats s =
     (map Out ((lit "Creating archive: " ++ path) :: map (fun n => lit "Added: " ++ n) names), r) /\ forall arc, r <> Ok arc).
Proof. exact create_said. Qed.
Print Assumptions C78_create.

Example C78_create_example : exists arc,
  create_told toy no_md5 false (DemoCreate.demo_cfg V1) (lit "x.mpq") (lit "src") false true [lit ".tmp"] (SDir true DemoCreate.demo_tree) =
  ([Out (lit "Creating archive: x.mpq"); Out (lit "Added: a.txt"); Out (lit "Added: sub/b.txt"); Act (AWrite (lit "x.mpq") arc);
    Out (tick ++ lit " Archive created successfully")], Ok arc).
Proof. exact tree_told. Qed.

(** What is said to be added is, however it ends, a file of the directory that is to be packed,
    under its path below the directory. *)
Theorem C78_added_seen : forall L md5 quiet c path src follow deep pats ok t n,
  is_text src -> proper t ->
  In (Out (lit "Added: " ++ n)) (fst (create_told L md5 quiet c path src follow deep pats (SDir ok t))) ->
  ok = true /\ exists p d, file_at follow t p d /\ wanted src deep pats p /\ is_text (path_below src p) /\
    n = to_slash (with_slashes p).
Proof. exact added_seen. Qed.
Print Assumptions C78_added_seen.

(** After success all of them have been named. *)
Theorem C78_added_all : forall L md5 c path src follow deep pats ok t evs arc,
  is_text src -> proper t ->
  create_told L md5 false c path src follow deep pats (SDir ok t) = (evs, Ok arc) ->
  forall p d, file_at follow t p d -> wanted src deep pats p -> In (Out (lit "Added: " ++ to_slash (with_slashes p))) evs.
Proof. exact added_all. Qed.
Print Assumptions C78_added_all.

Example C78_added_seen_example :
  is_text (lit "src") /\ proper DemoCreate.demo_tree /\
  In (Out (lit "Added: " ++ lit "sub/b.txt"))
    (fst (create_told toy no_md5 false (DemoCreate.demo_cfg V1) (lit "x.mpq") (lit "src") false true [lit ".tmp"] (SDir true DemoCreate.demo_tree))).
Proof.
  split; [apply TextFacts.lossy_same; vm_compute; reflexivity|]. split; [exact DemoCreate.demo_proper|].
  destruct tree_told as [arc E]. rewrite E. right. right. now left.
Qed.

(** "Added" says no more than that the name was seen: the file need not be readable. *)
Theorem C78_added_refuted : exists t,
  create_told toy no_md5 false (DemoCreate.demo_cfg V1) (lit "x.mpq") (lit "src") false true [] (SDir true t) =
  ([Out (lit "Creating archive: x.mpq"); Out (lit "Added: a.txt")], Err EIo).
Proof. exact (ex_intro _ shut_tree shut_told). Qed.
Print Assumptions C78_added_refuted.
