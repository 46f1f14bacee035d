(** * Properties C10, C11, C16, C17, C20, C25: archives of version 1 and 2. *)
From Verif Require Import Bytes Crypto SpecNames HashTable BlockTable Header SpecHeader Compress SpecTables
  SpecCompress ToyCodec Listfile Adler Builder Attributes Archive SpecArchive
  ArchiveFacts LayoutFacts ChecksumFacts DemoArchive.
Open Scope N_scope.

(** C10: every file of at most one sector is read back exactly, under every
    spelling of its name. *)
Theorem C10_small_files_round_trip :
  forall (L : codecs) (md5 : bytes -> bytes) (c : config) (files : list pending) (arc pre post : bytes),
  lossless L -> built_at L md5 c files arc pre post ->
  no_collision (special_listfile :: map pf_name files) ->
  hashes_apart special_attributes (special_listfile :: map pf_name files) ->
  exists a, open_archive L (pre ++ arc ++ post) = Ok a /\
    forall name f, means files name f ->
      lenN (pf_data f) <= sector_bytes c -> lenN (pf_data f) < 2 ^ 32 ->
      exact_on (pf_comp f) (pf_data f) -> read_file L a name = Ok (pf_data f).
Proof. exact round_trip_small. Qed.
Print Assumptions C10_small_files_round_trip.

Example C10_example :
  exists a, open_archive toy demo_file = Ok a /\ read_file toy a (lit "DIR/A.TXT") = Ok (lit "hello world").
Proof.
  destruct (C10_small_files_round_trip toy no_md5 demo_cfg demo_files demo_arc demo_pre demo_post
    toy_lossless demo_built_at demo_no_collision demo_apart) as (a & Ho & Hr).
  exists a. split; [exact Ho|]. apply (Hr _ file_a demo_means_a).
  - vm_compute. discriminate.
  - vm_compute. reflexivity.
  - right. left. vm_compute. auto.
Qed.

(** C10, the reason for the premise on "(attributes)": a file of that name with
    other content makes an archive that cannot be opened. *)
Theorem C10_attributes_name_refuted :
  exists L c f arc, lossless L /\ pf_name f = special_attributes /\
    build L no_md5 c [f] = Ok arc /\ forall a, open_archive L arc <> Ok a.
Proof.
  exact (ex_intro _ toy (ex_intro _ demo_cfg (ex_intro _ attr_file (ex_intro _ attr_arc
    (conj toy_lossless (conj eq_refl attr_unopenable)))))).
Qed.
Print Assumptions C10_attributes_name_refuted.

(** C11 fails for files of several sectors stored without compression... *)
Theorem C11_uncompressed_refuted :
  exists L c f, lossless L /\ pf_comp f = 0 /\ read_back_wrong L c f.
Proof.
  exact (ex_intro _ toy (ex_intro _ bad_cfg (ex_intro _ raw_file
    (conj toy_lossless (conj eq_refl raw_wrong))))).
Qed.
Print Assumptions C11_uncompressed_refuted.

(** ... always ... *)
Theorem C11_uncompressed_always_refuted :
  forall (L : codecs) (md5 : bytes -> bytes) (c : config) (files : list pending) (arc pre post : bytes),
  built_at L md5 c files arc pre post ->
  no_collision (special_listfile :: map pf_name files) ->
  hashes_apart special_attributes (special_listfile :: map pf_name files) ->
  exists a, open_archive L (pre ++ arc ++ post) = Ok a /\
    forall name f, means files name f ->
      sector_bytes c < lenN (pf_data f) -> lenN (pf_data f) <= 4000000000 -> pf_comp f = 0 ->
      read_file L a name <> Ok (pf_data f).
Proof. exact round_trip_raw_wrong. Qed.
Print Assumptions C11_uncompressed_always_refuted.

(** ... and for files with a sector of which compression saves one byte. *)
Theorem C11_compressed_refuted :
  exists L c f, lossless L /\ pf_comp f = ZLIB /\ read_back_wrong L c f.
Proof.
  exact (ex_intro _ triple (ex_intro _ bad_cfg (ex_intro _ tight_file
    (conj triple_lossless (conj eq_refl tight_wrong))))).
Qed.
Print Assumptions C11_compressed_refuted.

(** C11, what holds: files of several sectors of which at least one shrinks and
    none shrinks by exactly one byte.  Missing: the cases refuted above, files
    of more than 4e9 bytes, and the lossy or refuted compression methods. *)
Theorem C11_big_files_round_trip_partial :
  forall (L : codecs) (md5 : bytes -> bytes) (c : config) (files : list pending) (arc pre post : bytes),
  lossless L -> built_at L md5 c files arc pre post ->
  no_collision (special_listfile :: map pf_name files) ->
  hashes_apart special_attributes (special_listfile :: map pf_name files) ->
  exists a, open_archive L (pre ++ arc ++ post) = Ok a /\
    forall name f, means files name f ->
      sector_bytes c < lenN (pf_data f) -> lenN (pf_data f) <= 4000000000 -> pf_comp f <> 0 ->
      (forall s, is_sector (sector_bytes c) (pf_data f) s ->
         exact_on (pf_comp f) s /\ clear_cut L (pf_comp f) s) ->
      (exists s, is_sector (sector_bytes c) (pf_data f) s /\ shrinks L (pf_comp f) s) ->
      read_file L a name = Ok (pf_data f).
Proof. exact round_trip_big. Qed.
Print Assumptions C11_big_files_round_trip_partial.

(** Three encrypted sectors, of which the last is compressed. *)
Example C11_example :
  exists a, open_archive toy demo_file = Ok a /\ read_file toy a (lit "C.bin") = Ok (pf_data file_c).
Proof.
  destruct (C11_big_files_round_trip_partial toy no_md5 demo_cfg demo_files demo_arc demo_pre demo_post
    toy_lossless demo_built_at demo_no_collision demo_apart) as (a & Ho & Hr).
  exists a. split; [exact Ho|]. apply (Hr _ file_c demo_means_c).
  - vm_compute. reflexivity.
  - vm_compute. discriminate.
  - discriminate.
  - exact demo_c_sectors.
  - exact demo_c_shrinks.
Qed.

(** Exactly when a file of several sectors, packed with a method that is exact on
    them, is read back. *)
Theorem C11_big_files_iff :
  forall (L : codecs) (md5 : bytes -> bytes) (c : config) (files : list pending) (arc pre post : bytes),
  lossless L -> built_at L md5 c files arc pre post ->
  no_collision (special_listfile :: map pf_name files) ->
  hashes_apart special_attributes (special_listfile :: map pf_name files) ->
  exists a, open_archive L (pre ++ arc ++ post) = Ok a /\
    forall name f, means files name f ->
      sector_bytes c < lenN (pf_data f) -> lenN (pf_data f) <= 4000000000 ->
      (forall s, is_sector (sector_bytes c) (pf_data f) s -> exact_on (pf_comp f) s) ->
      (read_file L a name = Ok (pf_data f) <->
       pf_comp f <> 0 /\
       (forall s, is_sector (sector_bytes c) (pf_data f) s -> clear_cut L (pf_comp f) s) /\
       exists s, is_sector (sector_bytes c) (pf_data f) s /\ shrinks L (pf_comp f) s).
Proof. exact round_trip_exact. Qed.
Print Assumptions C11_big_files_iff.

(** Both sides hold of the file above. *)
Example C11_iff_example :
  (exists a, open_archive toy demo_file = Ok a /\ read_file toy a (lit "C.bin") = Ok (pf_data file_c)) /\
  pf_comp file_c <> 0 /\
  (forall s, is_sector (sector_bytes demo_cfg) (pf_data file_c) s -> clear_cut toy (pf_comp file_c) s) /\
  exists s, is_sector (sector_bytes demo_cfg) (pf_data file_c) s /\ shrinks toy (pf_comp file_c) s.
Proof.
  split; [exact C11_example|]. split; [discriminate|]. split; [|exact demo_c_shrinks].
  intros s Hs. exact (proj2 (demo_c_sectors s Hs)).
Qed.

(** C16: the regions follow each other without gap or overlap, where the header
    and the block table say. *)
Theorem C16_regions_disjoint :
  forall (L : codecs) (md5 : bytes -> bytes) (c : config) (files : list pending) (arc pre post : bytes),
  built_at L md5 c files arc pre post ->
  hashes_apart special_attributes (special_listfile :: map pf_name files) ->
  exists a bt rs, open_archive L (pre ++ arc ++ post) = Ok a /\ a_block a = Some bt /\
    let h := a_header a in
    let all := (0, h_size h) :: rs ++
               (get_hash_table_pos h, 16 * h_hash_count h) ::
               (get_block_table_pos h, 16 * h_block_count h) ::
               match a_hi a with
               | Some _ => match h_hi_pos h with Some p => [(p, 2 * h_block_count h)] | None => [] end
               | None => []
               end in
    back_to_back 0 all (lenN arc) /\ pairwise_apart all /\ Forall (inside (lenN arc)) all /\
    lenN (prepare_listfile c files) = lenN rs /\
    forall i f, nth_error (prepare_listfile c files) i = Some f ->
      exists b n, nth_error bt i = Some b /\
        nth_error rs i = Some (pos_full (a_hi a) (N.of_nat i) (be_pos b), n) /\
        (lenN (pf_data f) <= 4000000000 -> n = be_csize b + checksum_bytes c f).
Proof. exact built_layout. Qed.
Print Assumptions C16_regions_disjoint.

Example C16_example :
  match open_archive toy demo_file with
  | Ok a =>
      match a_block a with
      | Some bt => map (fun b => (be_pos b, be_csize b, be_size b)) bt =
          [(44, 11, 11); (59, 4, 200); (67, 1044, 1224); (1123, 5, 5); (1132, 48, 48)] /\
          get_hash_table_pos (a_header a) = 1184 /\ get_block_table_pos (a_header a) = 1440 /\
          lenN demo_arc = 1520 /\ a_hi a = None
      | None => False
      end
  | _ => False
  end.
Proof. vm_compute. repeat split; reflexivity. Qed.

(** C17 *)
Theorem C17_absent_names :
  forall (L : codecs) (md5 : bytes -> bytes) (c : config) (files : list pending) (arc pre post : bytes),
  built_at L md5 c files arc pre post ->
  hashes_apart special_attributes (special_listfile :: map pf_name files) ->
  exists a, open_archive L (pre ++ arc ++ post) = Ok a /\
    forall name, hashes_apart name (special_listfile :: map pf_name files) ->
      find_file a name = Ok None /\ read_file L a name = Err EFileNotFound.
Proof. exact built_absent. Qed.
Print Assumptions C17_absent_names.

Example C17_example :
  exists a, open_archive toy demo_file = Ok a /\
    find_file a (lit "missing.txt") = Ok None /\ read_file toy a (lit "missing.txt") = Err EFileNotFound.
Proof.
  destruct (C17_absent_names toy no_md5 demo_cfg demo_files demo_arc demo_pre demo_post
    demo_built_at demo_apart) as (a & Ho & Hr).
  exists a. split; [exact Ho|]. apply Hr. apply hashes_apartb_sound. vm_compute. reflexivity.
Qed.

(** C20: for files of at most one sector stored with checksums.  Whatever the
    stored bytes are replaced by (checksum apart), only content with the
    checksum of the original is ever returned; and a change of one byte of a
    file stored as it is is always noticed. *)
Theorem C20_single_sector :
  forall (L : codecs) (md5 : bytes -> bytes) (c : config) (files : list pending) (arc pre post : bytes),
  lossless L -> built_at L md5 c files arc pre post -> c_crcs c = true ->
  no_collision (special_listfile :: map pf_name files) ->
  hashes_apart special_attributes (special_listfile :: map pf_name files) ->
  exists a, open_archive L (pre ++ arc ++ post) = Ok a /\
    forall name f, means files name f ->
      lenN (pf_data f) <= sector_bytes c -> lenN (pf_data f) < 2 ^ 32 ->
      exact_on (pf_comp f) (pf_data f) ->
      exists fi, find_file a name = Ok (Some fi) /\ read_file L a name = Ok (pf_data f) /\
        (forall g, slice (fi_pos fi + fi_csize fi) 4 g = slice (fi_pos fi + fi_csize fi) 4 (a_file a) ->
           forall d, read_file L (with_file a g) name = Ok d -> adler32 d = adler32 (pf_data f)) /\
        (pf_comp f = 0 -> pf_encrypt f = false ->
         forall u x y v, pf_data f = u ++ x :: v -> y <> x ->
         forall g, slice (fi_pos fi + fi_csize fi) 4 g = slice (fi_pos fi + fi_csize fi) 4 (a_file a) ->
           slice (fi_pos fi) (fi_csize fi) g = Some (u ++ y :: v) ->
           read_file L (with_file a g) name = Err EChecksum).
Proof. exact built_checked. Qed.
Print Assumptions C20_single_sector.

Example C20_example :
  match open_archive toy demo_file with
  | Ok a =>
      slice (512 + 1123) 5 (a_file a) = Some (lit "plain") /\
      read_file toy a (lit "d.txt") = Ok (lit "plain") /\
      read_file toy (with_file a (upd (a_file a) (512 + 1123 + 2) "b"%byte)) (lit "d.txt") = Err EChecksum
  | _ => False
  end.
Proof. vm_compute. repeat split; reflexivity. Qed.

(** C20 fails for files of several sectors: a mismatch is only logged. *)
Theorem C20_several_sectors_refuted :
  exists L c f arc i b, lossless L /\ altered_unnoticed L c f arc i b.
Proof.
  exact (ex_intro _ toy (ex_intro _ demo_cfg (ex_intro _ crc_file (ex_intro _ crc_arc (ex_intro _ 66%nat
    (ex_intro _ "!"%byte (conj toy_lossless crc_unnoticed))))))).
Qed.
Print Assumptions C20_several_sectors_refuted.

(** C25 fails: an archive opened without loading its tables answers every
    request with an error instead of loading them on demand. *)
Theorem C25_deferred_loading_refuted :
  forall (L : codecs) (file : bytes) (a : archive) (name : bytes),
  open_with_options L file false = Ok a ->
  find_file a name = Err EInvalidFormat /\ read_file L a name = Err EInvalidFormat /\
  list_files L a = Err EInvalidFormat /\ list_all a = Err EInvalidFormat.
Proof. exact deferred_useless. Qed.
Print Assumptions C25_deferred_loading_refuted.

Example C25_example :
  match open_with_options toy demo_file false, open_with_options toy demo_file true with
  | Ok a, Ok b => read_file toy a (lit "d.txt") = Err EInvalidFormat /\ read_file toy b (lit "d.txt") = Ok (lit "plain")
  | _, _ => False
  end.
Proof. vm_compute. split; reflexivity. Qed.
