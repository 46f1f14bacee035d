(** * C37, C41, C42, C49 for archives of version 3 and 4. *)
From Verif Require Import Bytes Crypto SpecNames NameFacts Compress SpecTables SpecCompress ToyCodec Header Listfile
  Builder Attributes Archive SpecArchive SpecArchive34 SpecListfile ListfileFacts Signature Info SpecDigest Cli SpecCli
  CliFacts CliBuilt34 DemoArchive Demo34 DemoCli DemoCli34.
Open Scope N_scope.

(** C37: with at most four entries the listing shows what was added. *)
Theorem C37_v3_v4_few_entries_partial :
  forall (L : codecs) (md5 : bytes -> bytes) (c : config) (files : list pending) (arc pre post : bytes),
  lossless L -> built34_at L md5 c files arc pre post -> entry_count c files <= 4 -> c_listfile c = LGenerate ->
  no_collision (special_listfile :: map pf_name files) ->
  hashes_apart special_attributes (special_listfile :: map pf_name files) ->
  (forall f, In f files ->
     is_text (pf_name f) /\ listable (pf_name f) /\ ~ name_equiv special_listfile (pf_name f)) ->
  reads_back L c (c_default c) (listfile_content (map pf_name files)) ->
  exists a l, open_archive L (pre ++ arc ++ post) = Ok a /\ list_files L a = Ok l /\
    map fe_name l = map pf_name files ++ [special_listfile] /\
    forall e f, In e l -> means files (fe_name e) f -> lenN (pf_data f) < 2 ^ 32 ->
      fe_size e = lenN (pf_data f).
Proof. exact few34_listing. Qed.
Print Assumptions C37_v3_v4_few_entries_partial.

(** C41: such an archive is verified... *)
Theorem C41_v3_v4_few_entries_partial :
  forall (L : codecs) (md5 sha1 : bytes -> bytes) (rd : N -> N -> N)
    (c : config) (files : list pending) (arc pre post : bytes) (cc : bool),
  lossless L -> built34_at L md5 c files arc pre post -> entry_count c files <= 4 -> c_listfile c = LGenerate ->
  no_collision (special_listfile :: map pf_name files) ->
  hashes_apart special_attributes (special_listfile :: map pf_name files) ->
  hashes_apart (lit "(signature)") (special_listfile :: map pf_name files) ->
  (forall f, In f files ->
     is_text (pf_name f) /\ listable (pf_name f) /\ ~ name_equiv special_listfile (pf_name f)) ->
  reads_back L c (c_default c) (listfile_content (map pf_name files)) ->
  (forall f, In f files -> reads_back L c (pf_comp f) (pf_data f)) ->
  verify L md5 sha1 rd (pre ++ arc ++ post) cc = Ok tt.
Proof. exact few34_verify. Qed.
Print Assumptions C41_v3_v4_few_entries_partial.

(** ... but not one with more files: the verification of a freshly built archive
    with a list fails. *)
Theorem C41_version_3_refuted :
  exists (files : list pending) (arc : bytes),
    built34_at toy no_md5 five_cfg files arc [] [] /\ c_listfile five_cfg = LGenerate /\
    no_collision (special_listfile :: map pf_name files) /\
    hashes_apart special_attributes (special_listfile :: map pf_name files) /\
    verify toy no_md5 no_md5 all_read arc true = Err EInvalidFormat.
Proof. exact many_not_verified. Qed.
Print Assumptions C41_version_3_refuted.

(** C42: a directory of at most three files is packed and unpacked unchanged... *)
Theorem C42_v3_v4_few_files_partial :
  forall (L : codecs) (md5 : bytes -> bytes) (c : config) (walk : list found) (arc pre post : bytes)
    (cwd : place) (dir : bytes) (dl : place),
  lossless L -> built34_at L md5 c (create_files c walk) arc pre post -> lenN walk <= 3 -> c_listfile c = LGenerate ->
  no_collision (special_listfile :: map pf_name (create_files c walk)) ->
  hashes_apart special_attributes (special_listfile :: map pf_name (create_files c walk)) ->
  (forall f, In f (create_files c walk) ->
     is_text (pf_name f) /\ listable (pf_name f) /\ ~ name_equiv special_listfile (pf_name f)) ->
  reads_back L c (c_default c) (listfile_content (map pf_name (create_files c walk))) ->
  (forall f, In f walk ->
     f_parts f <> [] /\ Forall component (f_parts f) /\ reads_back L c (c_default c) (f_data f)) ->
  leads cwd dir dl ->
  exists acts ws p d, extract L (pre ++ arc ++ post) None (Some dir) true = (acts, Ok tt) /\
    writes_of acts = ws ++ [(p, d)] /\
    Forall2 (fun f w => leads cwd (fst w) (dl ++ f_parts f) /\ snd w = f_data f) walk ws /\
    leads cwd p (dl ++ [special_listfile]).
Proof. exact (fun L md5 => few34_pack L md5 md5 N.min). Qed.
Print Assumptions C42_v3_v4_few_files_partial.

(** ... but not one of four: a file is unpacked with the content of another,
    though the tool reports success, and verifies the archive. *)
Theorem C42_version_3_refuted :
  exists (walk : list found) (arc : bytes),
    built34_at toy no_md5 cfg3 (create_files cfg3 walk) arc [] [] /\
    no_collision (special_listfile :: map pf_name (create_files cfg3 walk)) /\
    hashes_apart special_attributes (special_listfile :: map pf_name (create_files cfg3 walk)) /\
    verify toy no_md5 no_md5 all_read arc true = Ok tt /\
    exists acts, extract toy arc None (Some (lit "out")) true = (acts, Ok tt) /\
    exists f p d, In f walk /\ In (AWrite p d) acts /\
      leads [lit "home"] p ([lit "home"; lit "out"] ++ f_parts f) /\ d <> f_data f.
Proof. exact walk3_wrong. Qed.
Print Assumptions C42_version_3_refuted.

(** C49: what inspection reports; here every entry counts, and in version 4 all
    digests are reported valid. *)
Theorem C49_v3_v4_few_entries_partial :
  forall (L : codecs) (md5 sha1 : bytes -> bytes) (rd : N -> N -> N)
    (c : config) (files : list pending) (arc pre post : bytes),
  built34_at L md5 c files arc pre post -> entry_count c files <= 4 ->
  no_collision (special_listfile :: map pf_name files) ->
  hashes_apart special_attributes (special_listfile :: map pf_name files) ->
  hashes_apart (lit "(signature)") (special_listfile :: map pf_name files) ->
  exists a i, open_archive L (pre ++ arc ++ post) = Ok a /\ get_info L md5 sha1 rd a = Ok i /\
    i_version i = c_version c /\ i_sector_size i = (512 * 2 ^ c_block_size c) mod 2 ^ 64 /\
    i_file_count i = entry_count c files /\ i_max_count i = entry_count c files /\
    (i_encrypted i = true <-> exists f, In f files /\ pf_encrypt f = true) /\
    (i_has_listfile i = true <->
       c_listfile c <> LNone \/ exists f, In f files /\ name_equiv special_listfile (pf_name f)) /\
    i_has_signature i = false /\ i_signature i = SigNone /\ i_has_attributes i = false /\
    i_md5 i = match c_version c with V4 => Some (mkMS true true true true true true) | _ => None end.
Proof. exact few34_info. Qed.
Print Assumptions C49_v3_v4_few_entries_partial.

(** Two files packed in version 4. *)
Example C37_v4_example :
  exists a l, open_archive toy walk4_arc = Ok a /\ list_files toy a = Ok l /\
    map fe_name l = [lit "readme.txt"; lit "sub/deep/x.bin"; lit "(listfile)"].
Proof.
  destruct (C37_v3_v4_few_entries_partial toy no_md5 cfg4 (create_files cfg4 walk_demo) walk4_arc [] []
    toy_lossless walk4_built) as (a & l & Ho & Hl & Hn & _).
  - vm_compute. discriminate.
  - reflexivity.
  - exact walk_no_collision.
  - apply walk_apart. left. reflexivity.
  - exact walk_names.
  - apply walk4_reads. left. reflexivity.
  - rewrite app_nil_r in Ho. exists a, l. split; [exact Ho|]. split; [exact Hl|]. exact Hn.
Qed.
Example C41_v4_example : forall sha1 rd cc, verify toy no_md5 sha1 rd walk4_arc cc = Ok tt.
Proof.
  intros sha1 rd cc.
  replace walk4_arc with ([] ++ walk4_arc ++ []) by (cbn [app]; apply app_nil_r).
  apply (C41_v3_v4_few_entries_partial toy no_md5 sha1 rd cfg4 (create_files cfg4 walk_demo)
    walk4_arc [] [] cc toy_lossless walk4_built).
  - vm_compute. discriminate.
  - reflexivity.
  - exact walk_no_collision.
  - apply walk_apart. left. reflexivity.
  - apply walk_apart. right. reflexivity.
  - exact walk_names.
  - apply walk4_reads. left. reflexivity.
  - intros f Hf. apply in_map_iff in Hf as (x & <- & Hx). apply walk4_reads. right. exact (in_map f_data _ _ Hx).
Qed.
Example C42_v4_example :
  exists acts ws p d, extract toy (walk4_arc ++ []) None (Some (lit "out/")) true = (acts, Ok tt) /\
    writes_of acts = ws ++ [(p, d)] /\
    Forall2 (fun f w => leads [lit "home"] (fst w) ([lit "home"; lit "out"] ++ f_parts f) /\ snd w = f_data f)
      walk_demo ws /\
    leads [lit "home"] p ([lit "home"; lit "out"] ++ [special_listfile]).
Proof.
  apply (C42_v3_v4_few_files_partial toy no_md5 cfg4 walk_demo walk4_arc [] [] [lit "home"] (lit "out/")
    [lit "home"; lit "out"] toy_lossless walk4_built).
  - vm_compute. discriminate.
  - reflexivity.
  - exact walk_no_collision.
  - apply walk_apart. left. reflexivity.
  - exact walk_names.
  - apply walk4_reads. left. reflexivity.
  - intros f Hf. split; [|split].
    + repeat (destruct Hf as [<-|Hf]; [discriminate|]). destruct Hf.
    + repeat (destruct Hf as [<-|Hf]; [repeat constructor; apply componentb; vm_compute; reflexivity|]). destruct Hf.
    + apply walk4_reads. right. exact (in_map f_data _ _ Hf).
  - now apply leads_loc.
Qed.
Example C49_v4_example :
  exists a i, open_archive toy walk4_arc = Ok a /\ get_info toy no_md5 no_md5 all_read a = Ok i /\
    i_version i = V4 /\ i_sector_size i = 4096 /\ i_file_count i = 3 /\ i_has_listfile i = true.
Proof.
  destruct (C49_v3_v4_few_entries_partial toy no_md5 no_md5 all_read cfg4 (create_files cfg4 walk_demo) walk4_arc [] []
    walk4_built) as (a & i & Ho & Hi & H1 & H2 & H3 & _ & _ & H4 & _).
  - vm_compute. discriminate.
  - exact walk_no_collision.
  - apply walk_apart. left. reflexivity.
  - apply walk_apart. right. reflexivity.
  - rewrite app_nil_r in Ho. exists a, i. split; [exact Ho|]. split; [exact Hi|]. split; [exact H1|].
    split; [rewrite H2; reflexivity|]. split; [exact H3|]. apply H4. left. discriminate.
Qed.
