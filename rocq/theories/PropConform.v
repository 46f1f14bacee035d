(** * C64: what the builder stores, other tools can read. *)
From Verif Require Import Bytes SpecNames Header Compress SpecTables SpecCompress ToyCodec HetBet Builder Archive SpecArchive
  SpecArchive34 DemoArchive Demo34 SpecStored SpecConform ConformFacts DemoConform.
Open Scope N_scope.

(** C64 for files of which every unit becomes shorter by more than one byte or not at
    all, if whatever is encrypted has whole words, and a file of several sectors has
    one that shrinks.  Missing: the cases refuted below, and methods that other tools do
    not know by the same byte. *)
Theorem C64_built_files_stored_partial :
  forall (L : codecs) (md5 : bytes -> bytes) (c : config) (files : list pending) (arc pre post : bytes),
  lossless L -> built_at L md5 c files arc pre post ->
  no_collision (special_listfile :: map pf_name files) ->
  hashes_apart special_attributes (special_listfile :: map pf_name files) ->
  exists a, open_archive L (pre ++ arc ++ post) = Ok a /\
    forall name f, means files name f -> lenN (pf_data f) <= 4000000000 -> In (pf_comp f) common_methods ->
      (forall s, unit_of (sector_bytes c) (pf_data f) s ->
         clear_cut L (pf_comp f) s /\ (pf_encrypt f = true -> in_words L (pf_comp f) s)) ->
      (sector_bytes c < lenN (pf_data f) ->
         exists s, is_sector (sector_bytes c) (pf_data f) s /\ shrinks L (pf_comp f) s) ->
      exists fi, find_file a name = Ok (Some fi) /\ fi_size fi = lenN (pf_data f) /\
        stored_as L true (pre ++ arc ++ post) (lenN pre) (sector_bytes c) name (fi_pos fi) (fi_csize fi) (fi_flags fi)
          (pf_data f) /\
        flags_tell (c_crcs c) (sector_bytes c <? lenN (pf_data f)) (pf_encrypt f) (pf_fix f) (fi_flags fi).
Proof. exact built_stored. Qed.
Print Assumptions C64_built_files_stored_partial.

(** Two sectors, the second compressed, both encrypted with an altered key *)
Example C64_stored_example :
  exists a fi, open_archive toy conf_bytes = Ok a /\ find_file a (lit "DIR/Fit.bin") = Ok (Some fi) /\
    stored_as toy true conf_bytes 0 512 (lit "DIR/Fit.bin") (fi_pos fi) (fi_csize fi) (fi_flags fi) (pf_data fit_file) /\
    flags_tell true true true true (fi_flags fi).
Proof.
  destruct (C64_built_files_stored_partial toy no_md5 conf_cfg conf_files conf_bytes [] [] toy_lossless conf_built
    conf_no_collision conf_apart) as (a & Ho & H).
  destruct (H _ _ means_fit) as (fi & H1 & _ & H2 & H3).
  - vm_compute. discriminate.
  - right. left. reflexivity.
  - exact fit_units.
  - exact fit_shrinks.
  - exists a, fi. cbn [app] in Ho, H2. rewrite app_nil_r in Ho, H2. auto.
Qed.

(** The same in version 3 and 4 for what the hash table and the block table say. *)
Theorem C64_built34_files_stored_partial :
  forall (L : codecs) (md5 : bytes -> bytes) (c : config) (files : list pending) (arc pre post : bytes) (a : archive),
  lossless L -> built34_at L md5 c files arc pre post ->
  no_collision (special_listfile :: map pf_name files) -> open_archive L (pre ++ arc ++ post) = Ok a ->
  forall name f, means files name f -> lenN (pf_data f) <= 4000000000 -> In (pf_comp f) common_methods ->
    (forall s, unit_of (sector_bytes c) (pf_data f) s ->
       clear_cut L (pf_comp f) s /\ (pf_encrypt f = true -> in_words L (pf_comp f) s)) ->
    (sector_bytes c < lenN (pf_data f) ->
       exists s, is_sector (sector_bytes c) (pf_data f) s /\ shrinks L (pf_comp f) s) ->
    exists fi, find_file_classic a name = Ok (Some fi) /\ fi_size fi = lenN (pf_data f) /\
      stored_as L true (pre ++ arc ++ post) (lenN pre) (sector_bytes c) name (fi_pos fi) (fi_csize fi) (fi_flags fi)
        (pf_data f) /\
      flags_tell (c_crcs c) (sector_bytes c <? lenN (pf_data f)) (pf_encrypt f) (pf_fix f) (fi_flags fi).
Proof. exact built34_stored. Qed.
Print Assumptions C64_built34_files_stored_partial.

(** The file that is read with the content of another one (C18) is there. *)
Example C64_stored34_example :
  read_file toy five_open (lit "c.txt") = Ok (lit "AA") /\
  exists fi, find_file_classic five_open (lit "c.txt") = Ok (Some fi) /\
    stored_as toy true five_arc 0 512 (lit "c.txt") (fi_pos fi) (fi_csize fi) (fi_flags fi) (lit "CCCC").
Proof.
  split; [exact five_reads_c|].
  destruct (C64_built34_files_stored_partial toy no_md5 five_cfg five_files five_arc [] [] five_open toy_lossless
    five_built five_no_collision ltac:(cbn [app]; rewrite app_nil_r; exact five_opens) _ _ five_means_c) as (fi & H1 & _ & H2 & _).
  - vm_compute. discriminate.
  - left. reflexivity.
  - exact five_units_c.
  - intros H. vm_compute in H. discriminate.
  - exists fi. cbn [app] in H2. rewrite app_nil_r in H2. auto.
Qed.

(** A file of several sectors of which none shrinks is stored as no tool expects: with
    a table, but not marked as compressed. *)
Theorem C64_uncompressed_refuted :
  forall (L : codecs) (md5 : bytes -> bytes) (c : config) (files : list pending) (arc pre post : bytes),
  built_at L md5 c files arc pre post ->
  no_collision (special_listfile :: map pf_name files) ->
  hashes_apart special_attributes (special_listfile :: map pf_name files) ->
  exists a, open_archive L (pre ++ arc ++ post) = Ok a /\
    forall name f, means files name f -> sector_bytes c < lenN (pf_data f) -> lenN (pf_data f) <= 4000000000 ->
      (forall s, is_sector (sector_bytes c) (pf_data f) s -> ~ shrinks L (pf_comp f) s) ->
      exists fi, find_file a name = Ok (Some fi) /\ forall whole,
        ~ stored_as L whole (pre ++ arc ++ post) (lenN pre) (sector_bytes c) name (fi_pos fi) (fi_csize fi) (fi_flags fi)
            (pf_data f).
Proof. exact built_odd. Qed.
Print Assumptions C64_uncompressed_refuted.

Example C64_uncompressed_example :
  exists a fi, open_archive toy conf_bytes = Ok a /\ find_file a (lit "plain.bin") = Ok (Some fi) /\
    ~ stored_as toy false conf_bytes 0 512 (lit "plain.bin") (fi_pos fi) (fi_csize fi) (fi_flags fi) (pf_data plain_file).
Proof.
  destruct (C64_uncompressed_refuted toy no_md5 conf_cfg conf_files conf_bytes [] [] conf_built
    conf_no_collision conf_apart) as (a & Ho & H).
  destruct (H _ _ means_plain) as (fi & H1 & H2).
  - reflexivity.
  - vm_compute. discriminate.
  - exact plain_none.
  - exists a, fi. cbn [app] in Ho, H2. rewrite app_nil_r in Ho, H2. split; [exact Ho|]. split; [exact H1|exact (H2 false)].
Qed.

(** The last bytes of encrypted data that are no whole word are encrypted too. *)
Theorem C64_tail_refuted :
  exists L md5 c files arc a name f fi, lossless L /\ built_at L md5 c files arc [] [] /\
    open_archive L arc = Ok a /\ means files name f /\ In (pf_comp f) common_methods /\
    lenN (pf_data f) <= sector_bytes c /\ clear_cut L (pf_comp f) (pf_data f) /\
    find_file a name = Ok (Some fi) /\
    forall whole, ~ stored_as L whole arc 0 (sector_bytes c) name (fi_pos fi) (fi_csize fi) (fi_flags fi) (pf_data f).
Proof.
  exact (ex_intro _ toy (ex_intro _ no_md5 (ex_intro _ conf_cfg (ex_intro _ conf_files (ex_intro _ conf_bytes
    (ex_intro _ conf_arc (ex_intro _ _ (ex_intro _ _ (ex_intro _ _ (conj toy_lossless (conj conf_built
    (conj conf_opens (conj means_rest (conj (or_introl eq_refl) (conj rest_small
    (conj rest_clear (conj rest_found rest_odd))))))))))))))))).
Qed.
Print Assumptions C64_tail_refuted.

(** Data that compression makes shorter by one byte are packed, and with the method
    byte as long as before: they look as if they were not packed. *)
Theorem C64_one_byte_refuted :
  exists L md5 c files arc a name f fi, lossless L /\ built_at L md5 c files arc [] [] /\
    open_archive L arc = Ok a /\ means files name f /\ In (pf_comp f) common_methods /\
    lenN (pf_data f) <= sector_bytes c /\ pf_encrypt f = false /\
    find_file a name = Ok (Some fi) /\
    forall whole, ~ stored_as L whole arc 0 (sector_bytes c) name (fi_pos fi) (fi_csize fi) (fi_flags fi) (pf_data f).
Proof.
  exact (ex_intro _ toy (ex_intro _ no_md5 (ex_intro _ conf_cfg (ex_intro _ conf_files (ex_intro _ conf_bytes
    (ex_intro _ conf_arc (ex_intro _ _ (ex_intro _ _ (ex_intro _ _ (conj toy_lossless (conj conf_built
    (conj conf_opens (conj means_even (conj (or_intror (or_introl eq_refl)) (conj even_small
    (conj eq_refl (conj even_found even_odd))))))))))))))))).
Qed.
Print Assumptions C64_one_byte_refuted.

(** The size recorded is the one of the packed file, or of the table and the packed sectors. *)
Theorem C64_sizes :
  forall (L : codecs) (md5 : bytes -> bytes) (c : config) (files : list pending) (arc pre post : bytes),
  built_at L md5 c files arc pre post ->
  no_collision (special_listfile :: map pf_name files) ->
  hashes_apart special_attributes (special_listfile :: map pf_name files) ->
  exists a, open_archive L (pre ++ arc ++ post) = Ok a /\
    forall name f, means files name f -> lenN (pf_data f) <= 4000000000 ->
      exists fi, find_file a name = Ok (Some fi) /\ takes L (sector_bytes c) (pf_comp f) (pf_data f) (fi_csize fi).
Proof. exact built_takes. Qed.
Print Assumptions C64_sizes.

Theorem C64_sizes34 :
  forall (L : codecs) (md5 : bytes -> bytes) (c : config) (files : list pending) (arc pre post : bytes) (a : archive),
  built34_at L md5 c files arc pre post ->
  no_collision (special_listfile :: map pf_name files) -> open_archive L (pre ++ arc ++ post) = Ok a ->
  forall name f, means files name f -> lenN (pf_data f) <= 4000000000 ->
    exists fi, find_file_classic a name = Ok (Some fi) /\ takes L (sector_bytes c) (pf_comp f) (pf_data f) (fi_csize fi).
Proof. exact built34_takes. Qed.
Print Assumptions C64_sizes34.

Example C64_sizes_example : fi_csize (conf_info (lit "plain.bin")) = 4 * 3 + 600 /\ fi_csize (conf_info (lit "DIR/Fit.bin")) = 4 * 3 + 512 + 4 /\
  fi_csize (conf_info (lit "five.txt")) = 5.
Proof. vm_compute. repeat split. Qed.

(** With checksums the sectors end behind what is recorded: the last word of the table is larger. *)
Theorem C64_checksums_refuted :
  exists L md5 c files arc a name f fi ends, lossless L /\ built_at L md5 c files arc [] [] /\
    open_archive L arc = Ok a /\ means files name f /\ pf_encrypt f = false /\ sector_bytes c < lenN (pf_data f) /\
    find_file a name = Ok (Some fi) /\ N.testbit (fi_flags fi) 26 = true /\
    slice (fi_pos fi + 4 * 2) 4 arc = Some (le32 ends) /\ lenN (pf_data f) <= 2 * sector_bytes c /\ fi_csize fi + 8 = ends.
Proof.
  exists toy, no_md5, conf_cfg, conf_files, conf_bytes, conf_arc, (lit "plain.bin"), plain_file, (conf_info (lit "plain.bin")), 620.
  split; [exact toy_lossless|]. split; [exact conf_built|]. split; [exact conf_opens|]. split; [exact means_plain|].
  vm_compute. repeat split. discriminate.
Qed.
Print Assumptions C64_checksums_refuted.
