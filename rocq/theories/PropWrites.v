(** * Property C57: what the C API writes to the disk. *)
From Verif Require Import Bytes SpecNames Compress SpecTables SpecCompress ToyCodec Header Listfile Builder BuildOk SpecBuilding Create EndToEnd
  Archive SpecArchive DemoArchive DemoSuccess Ffi SpecFfi SpecAnswers SpecWrites FfiWrites FfiDemo DemoWrites.
Open Scope N_scope.

(** In every execution, whatever the disk answers, a write happens only in a call of
    [SFileCreateArchive] that was asked to make the file, or of
    [SFileExtractFile], to the file that the caller named; what is written is an
    empty archive, or the file as the archive of the handle has it, which is what an
    earlier call had read from the disk. *)
Theorem C57_every_write (L : codecs) (md5 sha1 : bytes -> bytes) (crc32 : bytes -> N) (rd : archive -> N -> N -> N)
    (clients : list client) (c : state) (j : list (nat * deed)) (t : nat) (path data : bytes) (ok : bool) :
  journal (initial, map (run L md5 sha1 crc32 rd) clients) ((t, Did (AWriteDisk path data) ok) :: j) c ->
  exists cl rest, open_calls (deeds t j) = cl :: rest /\ may_write L md5 j (lately (deeds t j)) cl path data.
Proof. exact (writes L md5 sha1 crc32 rd clients j c t path data ok). Qed.
Print Assumptions C57_every_write.

(** The result of these calls tells what became of the write. *)
Theorem C57_reported (L : codecs) (md5 sha1 : bytes -> bytes) (crc32 : bytes -> N) (rd : archive -> N -> N -> N)
    (clients : list client) (c : state) (j : list (nat * deed)) (t : nat) (cl : call) (past : list event) (r : ret) :
  journal (initial, map (run L md5 sha1 crc32 rd) clients) ((t, Did (AEnd cl past r) tt) :: j) c ->
  (exists rest, open_calls (deeds t j) = cl :: rest) /\ reports (lately (deeds t j)) cl r.
Proof. exact (ends L md5 sha1 crc32 rd clients j c t cl past r). Qed.
Print Assumptions C57_reported.

(** Every execution has a journal, and every journal is that of an execution. *)
Theorem C57_journals (c c' : state) : steps c c' <-> exists j, journal c j c'.
Proof. exact (conj (steps_journal c c') (fun H => match H with ex_intro _ j K => journal_steps c j c' K end)). Qed.
Print Assumptions C57_journals.

(** The empty archive that is written can be opened, and it holds nothing but its
    list. *)
Theorem C57_new_archive :
  forall (L : codecs) (md5 : bytes -> bytes) (data : bytes),
  lossless L -> calm_encoders L -> (forall x, lenN (md5 x) = 16) ->
  (exists z, zlib_enc L (listfile_content []) = Ok z) ->
  build L md5 (create_config (Some V2)) [] = Ok data ->
  exists a l, open_archive L data = Ok a /\ list_files L a = Ok l /\ map fe_name l = [special_listfile] /\
    (forall name, hashes_apart name [special_listfile] -> find_file a name = Ok None).
Proof. exact created. Qed.
Print Assumptions C57_new_archive.

(** Making an archive, an existing one, and taking a file out of it. *)
Definition disk57 (p : bytes) : option bytes := if bytes_eqb p mpq then Some demo_file else None.
Definition client57 : client :=
  open_then (fun a => calls [CExtract a (Some (lit "d.txt")) (Some (lit "out/d")); CExtract a (Some (lit "no")) (Some (lit "x"));
    CCreateArchive (Some (lit "new.mpq")) 1 16 true; CCreateArchive (Some (lit "new.mpq")) 1 16 true;
    CCreateArchive (Some (lit "none.mpq")) 5 16 true; CCreateArchive (Some (lit "new.mpq")) 4 16 true;
    CCreateArchive (Some (lit "n2.mpq")) 2 17 true]).
Example C57_example :
  exists j c data, journal (initial, map (run toy no_md5 no_md5 zero_crc full) [client57]) j c /\ agrees disk57 j /\ finished c /\
  build toy no_md5 (create_config (Some V2)) [] = Ok data /\
  written j = [(0%nat, lit "out/d", lit "plain", true); (0%nat, lit "new.mpq", data, true)] /\
  map (fun e => (e_ret e, e_err e)) (rev (s_log (fst c))) =
    [(RHandle 1, 0); (RBool true, 0); (RBool false, 2); (RHandle 2, 0); (RBool false, 183); (RBool false, 2); (RHandle 3, 0);
     (RBool false, 87)].
Proof.
  destruct (j_run_fine disk57 [(0, 1000)]%nat [client57]) as [J A].
  exists (snd (j_run disk57 [(0, 1000)]%nat [client57])), (fst (j_run disk57 [(0, 1000)]%nat [client57])).
  eexists. split; [exact J|]. split; [exact A|]. split; [apply finishedb_sound; vm_compute; reflexivity|].
  split; [vm_compute; reflexivity|]. split; vm_compute; reflexivity.
Qed.

(** "New" does not keep two calls from making the same file, each for itself: the
    second one overwrites what the first has made. *)
Theorem C57_create_new_refuted :
  exists L md5 sha1 crc32 rd clients j c e1 e2 path,
  journal (initial, map (run L md5 sha1 crc32 rd) clients) j c /\ agrees (fun _ => None) j /\ finished c /\
  In e1 (s_log (fst c)) /\ In e2 (s_log (fst c)) /\
  e_call e1 = CCreateArchive (Some path) 1 16 true /\ e_call e2 = CCreateArchive (Some path) 1 16 true /\
  e_ret e1 = RHandle 1 /\ e_ret e2 = RHandle 2.
Proof. exact new_race. Qed.
Print Assumptions C57_create_new_refuted.

(** The size of the hash table that was asked for is not the one of the archive. *)
Theorem C57_table_size_refuted :
  exists L md5 sha1 crc32 rd clients j c e path data a,
  journal (initial, map (run L md5 sha1 crc32 rd) clients) j c /\ agrees (fun _ => None) j /\ finished c /\
  In e (s_log (fst c)) /\ e_call e = CCreateArchive (Some path) 1 1024 true /\ e_ret e = RHandle 1 /\
  on_disk (fun _ => None) j path = Some data /\ open_archive L data = Ok a /\ h_hash_count (a_header a) <> 1024.
Proof. exact table_size. Qed.
Print Assumptions C57_table_size_refuted.
