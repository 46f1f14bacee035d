(** * Properties C16, C18, C19 for archives of version 3 and 4. *)
From Verif Require Import Bytes Crypto SpecNames HashTable BlockTable Header SpecHeader Compress SpecTables
  SpecCompress ToyCodec Listfile Adler HetBet Builder Attributes Archive Signature SpecArchive SpecArchive34 Info SpecDigest
  Open34Facts Archive34Facts Layout34Facts Large34Facts InfoFacts DemoArchive Demo34.
Open Scope N_scope.

(** C16 in version 3 and 4: the header, the files, the two extended tables and
    the classic tables follow each other without gap or overlap, where the
    header and the block table say. *)
Theorem C16_regions_disjoint_v3_v4 :
  forall (L : codecs) (md5 : bytes -> bytes) (c : config) (files : list pending) (arc pre post : bytes) (a : archive),
  built34_at L md5 c files arc pre post -> open_archive L (pre ++ arc ++ post) = Ok a ->
  exists bt rs het bet, a_block a = Some bt /\
    let h := a_header a in
    h_het_pos h = Some het /\ h_bet_pos h = Some bet /\
    (forall v, h_v4 h = Some v -> v4_het_size v = bet - het /\ v4_bet_size v = get_hash_table_pos h - bet) /\
    let all := (0, h_size h) :: rs ++
               (het, bet - het) :: (bet, get_hash_table_pos h - bet) ::
               (get_hash_table_pos h, 16 * h_hash_count h) ::
               (get_block_table_pos h, 16 * h_block_count h) ::
               match a_hi a with
               | Some _ => match h_hi_pos h with Some p => [(p, 2 * h_block_count h)] | None => [] end
               | None => []
               end in
    back_to_back 0 all (lenN arc) /\ pairwise_apart all /\ Forall (inside (lenN arc)) all /\
    entry_count c files = lenN rs /\
    forall i f, nth_error (prepare_listfile c files) i = Some f ->
      exists b n, nth_error bt i = Some b /\
        nth_error rs i = Some (pos_full (a_hi a) (N.of_nat i) (be_pos b), n) /\
        (lenN (pf_data f) <= 4000000000 -> n = be_csize b + checksum_bytes c f).
Proof. exact built34_layout. Qed.
Print Assumptions C16_regions_disjoint_v3_v4.

Example C16_v3_v4_example :
  exists a, open_archive toy four_file = Ok a /\ built34_at toy toy_md5 four_cfg four_files four_arc demo_pre demo_post /\
    (h_size (a_header a), h_het_pos (a_header a), h_bet_pos (a_header a), get_hash_table_pos (a_header a), lenN four_arc)
    = (208, Some 269, Some 321, 454, 758).
Proof. eexists. split; [vm_compute; reflexivity|]. split; [exact four_built|]. vm_compute. reflexivity. Qed.

(** C18 fails: a file is read with the content of another... *)
Theorem C18_wrong_file_refuted :
  exists L md5 c files arc a name f,
    lossless L /\ built34_at L md5 c files arc [] [] /\
    no_collision (special_listfile :: map pf_name files) /\
    hashes_apart special_attributes (special_listfile :: map pf_name files) /\
    open_archive L arc = Ok a /\ means files name f /\ reads_back L c (pf_comp f) (pf_data f) /\
    exists d, read_file L a name = Ok d /\ d <> pf_data f.
Proof. exact five_wrong. Qed.
Print Assumptions C18_wrong_file_refuted.

(** ... a name that was never added is read with the content of a file... *)
Theorem C18_absent_name_refuted :
  exists L md5 c files arc a name d,
    lossless L /\ built34_at L md5 c files arc [] [] /\
    hashes_apart name (special_listfile :: map pf_name files) /\
    open_archive L arc = Ok a /\ read_file L a name = Ok d.
Proof. exact five_absent. Qed.
Print Assumptions C18_absent_name_refuted.

(** ... and an archive of files with ordinary names may not open at all. *)
Theorem C18_unopenable_refuted :
  exists L md5 c files arc,
    lossless L /\ built34_at L md5 c files arc [] [] /\
    no_collision (special_listfile :: map pf_name files) /\
    hashes_apart special_attributes (special_listfile :: map pf_name files) /\
    forall a, open_archive L arc <> Ok a.
Proof. exact many_unopenable. Qed.
Print Assumptions C18_unopenable_refuted.

(** What remains true: with at most four entries everything is found. *)
Theorem C18_few_entries_partial :
  forall (L : codecs) (md5 : bytes -> bytes) (c : config) (files : list pending) (arc pre post : bytes),
  lossless L -> built34_at L md5 c files arc pre post -> entry_count c files <= 4 ->
  no_collision (special_listfile :: map pf_name files) ->
  hashes_apart special_attributes (special_listfile :: map pf_name files) ->
  exists a, open_archive L (pre ++ arc ++ post) = Ok a /\
    (forall name f, means files name f -> reads_back L c (pf_comp f) (pf_data f) ->
       read_file L a name = Ok (pf_data f)) /\
    (forall name, hashes_apart name (special_listfile :: map pf_name files) ->
       find_file a name = Ok None /\ read_file L a name = Err EFileNotFound).
Proof. exact few_entries. Qed.
Print Assumptions C18_few_entries_partial.

Example C18_few_entries_example :
  exists a, open_archive toy four_file = Ok a /\ read_file toy a (lit "DIR/A.TXT") = Ok (lit "hello world").
Proof.
  destruct (C18_few_entries_partial toy toy_md5 four_cfg four_files four_arc demo_pre demo_post
    toy_lossless four_built ltac:(vm_compute; discriminate) four_no_collision four_apart) as (a & Ho & Hr & _).
  exists a. split; [exact Ho|]. apply (Hr _ file_a four_means). left. vm_compute. repeat split.
  - discriminate.
  - right. left. left. reflexivity.
Qed.

(** Otherwise a lookup gives the right file, or the first file, or a crash. *)
Theorem C18_right_or_first_partial :
  forall (L : codecs) (md5 : bytes -> bytes) (c : config) (files : list pending) (arc pre post : bytes) (a : archive),
  built34_at L md5 c files arc pre post ->
  no_collision (special_listfile :: map pf_name files) ->
  open_archive L (pre ++ arc ++ post) = Ok a ->
  (forall name f, means files name f ->
     find_file a name = Panic \/
     exists fi, find_file a name = Ok (Some fi) /\
       (points_to L c a f fi \/ exists f0, hd_error files = Some f0 /\ points_to L c a f0 fi)) /\
  (forall name, hashes_apart name (special_listfile :: map pf_name files) ->
     find_file a name = Panic \/ find_file a name = Ok None \/
     exists fi f0, find_file a name = Ok (Some fi) /\
       hd_error (prepare_listfile c files) = Some f0 /\ points_to L c a f0 fi).
Proof. exact right_or_first. Qed.
Print Assumptions C18_right_or_first_partial.

(** The same for the content read, if the first file is readable under another
    name. *)
Theorem C18_reads_right_or_first_partial :
  forall (L : codecs) (md5 : bytes -> bytes) (c : config) (files : list pending) (arc pre post : bytes) (a : archive)
         (f0 : pending) (rest : list pending),
  lossless L -> built34_at L md5 c files arc pre post ->
  no_collision (special_listfile :: map pf_name files) ->
  open_archive L (pre ++ arc ++ post) = Ok a ->
  files = f0 :: rest -> pf_encrypt f0 = false -> reads_back L c (pf_comp f0) (pf_data f0) ->
  (forall name f, means files name f -> reads_back L c (pf_comp f) (pf_data f) ->
     read_file L a name = Ok (pf_data f) \/ read_file L a name = Ok (pf_data f0) \/
     read_file L a name = Panic) /\
  (forall name, hashes_apart name (special_listfile :: map pf_name files) ->
     read_file L a name = Err EFileNotFound \/ read_file L a name = Ok (pf_data f0) \/
     read_file L a name = Panic).
Proof. exact reads_right_or_first. Qed.
Print Assumptions C18_reads_right_or_first_partial.

Example C18_right_or_first_example :
  built34_at toy no_md5 five_cfg five_files five_arc [] [] /\ open_archive toy five_arc = Ok five_open /\
  read_file toy five_open (lit "c.txt") = Ok (lit "AA") /\ read_file toy five_open (lit "d.txt") = Ok (lit "DDDDD").
Proof.
  split; [exact five_built|]. split; [exact five_opens|]. split; [exact five_reads_c|]. vm_compute. reflexivity.
Qed.

(** An archive whose first file has four megabytes, is stored without
    compression and is followed by another entry is never built. *)
Theorem C18_large_file_refuted :
  forall (L : codecs) (md5 : bytes -> bytes) (c : config) (f0 f1 : pending) (rest : list pending) (arc : bytes),
  c_version c = V3 \/ c_version c = V4 -> pf_comp f0 = 0 ->
  2 ^ 22 <= lenN (pf_data f0) -> lenN (pf_data f0) <= 4000000000 ->
  build L md5 c (f0 :: f1 :: rest) <> Ok arc.
Proof. exact large_never_built. Qed.
Print Assumptions C18_large_file_refuted.

Example C18_large_file_example :
  exists f : pending, pf_comp f = 0 /\ 2 ^ 22 <= lenN (pf_data f) /\ lenN (pf_data f) <= 4000000000.
Proof.
  exists (plain (lit "big") (zeros (2 ^ 22))). cbn [plain pf_comp pf_data]. rewrite zeros_length.
  repeat split; vm_compute; discriminate.
Qed.

(** C19: all digests of a built archive are reported valid. *)
Theorem C19_built_digests_valid :
  forall (L : codecs) (md5 : bytes -> bytes) (c : config) (files : list pending) (arc pre post : bytes) (a : archive),
  built34_at L md5 c files arc pre post -> c_version c = V4 ->
  opened L (pre ++ arc ++ post) a ->
  exists s, validate_v4 md5 a = Ok (Some s) /\ forall d, flag s d = true.
Proof. exact built_digests_valid. Qed.
Print Assumptions C19_built_digests_valid.

(** A change outside the header leaves exactly those digests valid whose region
    still has the same digest. *)
Theorem C19_change_detected :
  forall (L : codecs) (md5 : bytes -> bytes) (c : config) (files : list pending) (arc pre post g : bytes),
  built34_at L md5 c files arc pre post -> c_version c = V4 ->
  let f := pre ++ arc ++ post in
  lenN g = lenN f -> reached_at g (lenN pre) -> part g (lenN pre) 208 = part f (lenN pre) 208 ->
  (exists a, open_with_options L g false = Ok a) /\
  forall a, opened L g a -> exists s, validate_v4 md5 a = Ok (Some s) /\
    forall d, flag s d = true <->
      md5 (region_bytes g (lenN pre) (a_header a) d) = md5 (region_bytes f (lenN pre) (a_header a) d).
Proof. exact digests_tell. Qed.
Print Assumptions C19_change_detected.

(** The header digest of whatever archive is opened is reported valid exactly if
    the 16 bytes behind the digested 192 bytes are their digest. *)
Theorem C19_header_change_detected :
  forall (L : codecs) (md5 : bytes -> bytes) (g : bytes) (a : archive) (s : md5_status),
  opened L g a -> validate_v4 md5 a = Ok (Some s) ->
  (flag s DHeader = true <-> md5 (part g (a_off a) 192) = part g (a_off a + 192) 16).
Proof. exact header_digest_tells. Qed.
Print Assumptions C19_header_change_detected.

(** This is what the inspection reports. *)
Theorem C19_inspection_reports :
  forall (L : codecs) (md5 sha1 : bytes -> bytes) (rd : N -> N -> N) (a : archive) (i : info),
  get_info L md5 sha1 rd a = Ok i -> validate_v4 md5 a = Ok (i_md5 i).
Proof. exact info_digests. Qed.
Print Assumptions C19_inspection_reports.

Example C19_example :
  (exists a i, open_archive toy four_file = Ok a /\ get_info toy toy_md5 toy_md5 (fun _ n => n) a = Ok i /\
     i_md5 i = Some (mkMS true true true true true true)) /\
  lenN four_bad = lenN four_file /\ part four_bad 512 208 = part four_file 512 208 /\
  exists a i, open_archive toy four_bad = Ok a /\ get_info toy toy_md5 toy_md5 (fun _ n => n) a = Ok i /\
    i_md5 i = Some (mkMS true false true true true true).
Proof.
  split; [eexists; eexists; split; [vm_compute; reflexivity|]; split; vm_compute; reflexivity|].
  split; [vm_compute; reflexivity|]. split; [vm_compute; reflexivity|].
  eexists. eexists. split; [vm_compute; reflexivity|]. split; vm_compute; reflexivity.
Qed.
