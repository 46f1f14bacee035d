(** * Properties C22, C23, C37: the file list, the attributes and the listing. *)
From Verif Require Import Bytes Crypto SpecNames Compress SpecTables SpecCompress ToyCodec Listfile Builder
  Attributes Archive SpecArchive SpecListfile ListfileFacts SpecAttributes AttributesFacts AcceptFacts ListingFacts
  DemoArchive.
Open Scope N_scope.

(** C22: a generated list is parsed back exactly if all names are listable, and
    only then. *)
Theorem C22_generated_list_parsed_back : forall names : list bytes,
  Forall is_text names ->
  (parse_listfile (listfile_content names) = names ++ [special_listfile] <-> Forall listable names).
Proof. exact listfile_exact. Qed.
Print Assumptions C22_generated_list_parsed_back.

(** Whatever the bytes of a list file, only listable names come out of it. *)
Theorem C22_parsed_names_listable : forall (data n : bytes), In n (parse_listfile data) -> listable n.
Proof. exact parsed_listable. Qed.
Print Assumptions C22_parsed_names_listable.

(** Names that are not listable exist: a semicolon cuts the name short. *)
Theorem C22_every_name_refuted :
  exists names, Forall is_text names /\ Forall (fun n => n <> []) names /\
    parse_listfile (listfile_content names) = [lit "a"; special_listfile] /\ names = [lit "a;b.txt"].
Proof. exact semicolon_cut. Qed.
Print Assumptions C22_every_name_refuted.

(** Two names, one of them not ASCII. *)
Example C22_example :
  let names := [lit "dir\a b.txt"; lit "m" ++ encode 0xFC ++ lit "ller" ++ encode 0x1F600] in
  parse_listfile (listfile_content names) = names ++ [special_listfile].
Proof.
  cbv zeta. apply C22_generated_list_parsed_back.
  - constructor; [apply text_ascii; vm_compute; repeat constructor|constructor; [|constructor]].
    exists [0x6D; 0xFC; 0x6C; 0x6C; 0x65; 0x72; 0x1F600]. split; [|vm_compute; reflexivity].
    repeat (constructor; [unfold scalar; lia|]). constructor.
  - apply Forall_forall. intros n Hn.
    apply (C22_parsed_names_listable (listfile_content
      [lit "dir\a b.txt"; lit "m" ++ encode 0xFC ++ lit "ller" ++ encode 0x1F600])).
    destruct Hn as [<-|[<-|[]]]; vm_compute; auto.
Qed.

(** C23: serialising a record and parsing the bytes, possibly with more bytes
    behind them, gives the record back. *)
Theorem C23_attributes_round_trip : forall (a : attrs) (extra : bytes),
  at_version a = 100 -> attrs_typed a -> Forall (carries (at_flags a)) (at_files a) ->
  exists d, attr_bytes a = Ok d /\ attr_parse (d ++ extra) (lenN (at_files a)) = Ok a.
Proof. exact attr_same. Qed.
Print Assumptions C23_attributes_round_trip.

(** On arbitrary bytes the parser never crashes: it either refuses them as
    malformed or gives for every file the values at their places, all of them
    inside the data. *)
Theorem C23_arbitrary_bytes : forall (data : bytes) (n : N), n < 2 ^ 59 ->
  attr_parse data n = Err EInvalidFormat \/
  exists a s, attr_parse data n = Ok a /\ at_version a = 100 /\ slice 0 4 data = Some (le32 100) /\
    slice 4 4 data = Some s /\ at_flags a = le_dec s /\
    whole_size (at_flags a) n <= lenN data /\ lenN (at_files a) = n /\
    forall i f, nthN (at_files a) i = Some f -> file_at data (at_flags a) n i f.
Proof. exact attr_parse_total. Qed.
Print Assumptions C23_arbitrary_bytes.

(** They are accepted if the version is 100 and all announced columns are there. *)
Theorem C23_accepted : forall (data : bytes) (n : N) (s : bytes), n < 2 ^ 59 ->
  slice 0 4 data = Some (le32 100) -> slice 4 4 data = Some s -> whole_size (le_dec s) n <= lenN data ->
  exists a, attr_parse data n = Ok a.
Proof. exact attr_accepts. Qed.
Print Assumptions C23_accepted.

(** Truncated data are refused. *)
Theorem C23_truncation_refused : forall (a : attrs) (d p q : bytes),
  at_version a = 100 -> attrs_typed a -> attr_bytes a = Ok d -> d = p ++ q -> q <> [] ->
  attr_parse p (lenN (at_files a)) = Err EInvalidFormat.
Proof. exact attr_truncated. Qed.
Print Assumptions C23_truncation_refused.

(** Ten files with all four fields, the last two marked as patches. *)
Definition demo_attrs : attrs :=
  mkAttrs 100 15 (map (fun i => mkFA (Some (N.of_nat i * 1000003)) (Some (2 ^ 63 + N.of_nat i))
                                     (Some (repeat (Nb (N.of_nat i)) 16)) (Some (7 <? i)%nat)) (seq 0 10)).
Lemma demo_attrs_ok : at_version demo_attrs = 100 /\ attrs_typed demo_attrs /\
  Forall (carries (at_flags demo_attrs)) (at_files demo_attrs).
Proof.
  split; [reflexivity|]. split.
  - split; [reflexivity|]. split; [reflexivity|]. intros f Hf. vm_compute in Hf.
    repeat (destruct Hf as [<-|Hf]; [repeat split; intros v [= <-]; reflexivity|]). destruct Hf.
  - vm_compute. repeat constructor.
Qed.
Example C23_example :
  exists d, attr_bytes demo_attrs = Ok d /\ lenN d = 290 /\ attr_parse (d ++ lit "more") 10 = Ok demo_attrs /\
    attr_parse (firstn 289 d) 10 = Err EInvalidFormat.
Proof.
  destruct demo_attrs_ok as (H1 & H2 & H3).
  destruct (C23_attributes_round_trip demo_attrs (lit "more") H1 H2 H3) as (d & Ed & Hp).
  exists d. split; [exact Ed|]. split; [vm_compute in Ed; apply Ok_inj in Ed; subst d; reflexivity|].
  split; [exact Hp|].
  apply (C23_truncation_refused demo_attrs d _ (skipn 289 d) H1 H2 Ed).
  - symmetry. apply firstn_skipn.
  - vm_compute in Ed. apply Ok_inj in Ed. subst d. vm_compute. discriminate.
Qed.

(** An unknown flag, and unused bits that are set *)
Example C23_accepted_example :
  exists a, attr_parse (le32 100 ++ le32 0x108 ++ [xff]) 3 = Ok a.
Proof. exact (C23_accepted (le32 100 ++ le32 0x108 ++ [xff]) 3 (le32 0x108) eq_refl eq_refl eq_refl ltac:(discriminate)). Qed.

(** C37: the listing of an archive with a readable list file: for each name of
    the list, in order, the data of the file it resolves to, if any. *)
Theorem C37_listing : forall (L : codecs) (a : archive) (fi : finfo) (d : bytes),
  find_file a special_listfile = Ok (Some fi) -> read_file L a special_listfile = Ok d ->
  forall l, list_files L a = Ok l <->
    exists rows,
      Forall2 (fun n r =>
        (exists fi, find_file a n = Ok (Some fi) /\
           r = [mkFE n (fi_size fi) (fi_csize fi) (fi_flags fi) None]) \/
        (find_file a n = Ok None /\ r = [])) (parse_listfile d) rows /\
      l = concat rows.
Proof. exact list_files_rows. Qed.
Print Assumptions C37_listing.

(** A built archive with a generated list shows the names that were added, in
    order, with their sizes. *)
Theorem C37_built_archive_lists_its_files :
  forall (L : codecs) (md5 : bytes -> bytes) (c : config) (files : list pending) (arc pre post : bytes),
  lossless L -> built_at L md5 c files arc pre post -> c_listfile c = LGenerate ->
  no_collision (special_listfile :: map pf_name files) ->
  hashes_apart special_attributes (special_listfile :: map pf_name files) ->
  (forall f, In f files ->
     is_text (pf_name f) /\ listable (pf_name f) /\ ~ name_equiv special_listfile (pf_name f)) ->
  reads_back L c (c_default c) (listfile_content (map pf_name files)) ->
  exists a l, open_archive L (pre ++ arc ++ post) = Ok a /\ list_files L a = Ok l /\
    map fe_name l = map pf_name files ++ [special_listfile] /\
    forall e f, In e l -> means files (fe_name e) f -> lenN (pf_data f) < 2 ^ 32 ->
      fe_size e = lenN (pf_data f).
Proof. exact built_listing. Qed.
Print Assumptions C37_built_archive_lists_its_files.

Example C37_example :
  exists a l, open_archive toy demo_file = Ok a /\ list_files toy a = Ok l /\
    map fe_name l = [lit "dir\a.txt"; lit "dir\b.txt"; lit "c.bin"; lit "d.txt"; lit "(listfile)"] /\
    forall e f, In e l -> means demo_files (fe_name e) f -> lenN (pf_data f) < 2 ^ 32 ->
      fe_size e = lenN (pf_data f).
Proof.
  apply (C37_built_archive_lists_its_files toy no_md5 demo_cfg demo_files demo_arc demo_pre demo_post
    toy_lossless demo_built_at eq_refl demo_no_collision demo_apart).
  - intros f Hf. split; [|split].
    + repeat (destruct Hf as [<-|Hf]; [apply text_ascii; vm_compute; repeat constructor|]). destruct Hf.
    + apply (C22_parsed_names_listable (listfile_content (map pf_name demo_files))).
      repeat (destruct Hf as [<-|Hf]; [vm_compute; auto 6|]). destruct Hf.
    + intros H. apply NameFacts.name_equivb_complete in H.
      repeat (destruct Hf as [<-|Hf]; [vm_compute in H; discriminate|]). destruct Hf.
  - left. split; [vm_compute; discriminate|]. split; [vm_compute; reflexivity|]. right. left. vm_compute. auto.
Qed.
