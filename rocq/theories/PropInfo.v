(** * C49, C25: inspecting an archive. *)
From Verif Require Import Bytes Crypto SpecNames NameFacts HashTable BlockTable Header Compress SpecTables SpecCompress
  ToyCodec Listfile SpecListfile Builder Archive SpecArchive DemoArchive Demo34 Signature Info InfoLoad InfoBuilt
  Cli SpecCli DemoCli.
Open Scope N_scope.

(** C49: what inspection reports about an archive built in version 1 or 2.  The
    number of files is that of the files with at least one byte. *)
Theorem C49_info_partial :
  forall (L : codecs) (md5 sha1 : bytes -> bytes) (rd : N -> N -> N)
    (c : config) (files : list pending) (arc pre post : bytes),
  built_at L md5 c files arc pre post ->
  no_collision (special_listfile :: map pf_name files) ->
  hashes_apart special_attributes (special_listfile :: map pf_name files) ->
  hashes_apart (lit "(signature)") (special_listfile :: map pf_name files) ->
  exists a i, open_archive L (pre ++ arc ++ post) = Ok a /\ get_info L md5 sha1 rd a = Ok i /\
    i_version i = c_version c /\ i_sector_size i = (512 * 2 ^ c_block_size c) mod 2 ^ 64 /\
    (exists k, i_max_count i = 2 ^ k /\ lenN files < 2 ^ k) /\
    (i_encrypted i = true <-> exists f, In f files /\ pf_encrypt f = true) /\
    (i_has_listfile i = true <->
       c_listfile c <> LNone \/ exists f, In f files /\ name_equiv special_listfile (pf_name f)) /\
    i_has_signature i = false /\ i_signature i = SigNone /\ i_has_attributes i = false /\ i_md5 i = None /\
    ((forall f, In f files -> lenN (pf_data f) < 2 ^ 32) ->
     match c_listfile c with
     | LGenerate => lenN (listfile_content (map pf_name files)) < 2 ^ 32
     | LExternal d => lenN d < 2 ^ 32
     | LNone => True
     end ->
     i_file_count i = lenN (filter (fun f => negb (lenN (pf_data f) =? 0)) files) +
       match c_listfile c with LNone | LExternal [] => 0 | _ => 1 end).
Proof. exact built_info. Qed.
Print Assumptions C49_info_partial.

(** The reported number of files is not the number of files: an empty one is not
    counted though it is there and can be read. *)
Theorem C49_count_refuted :
  exists (files : list pending) (arc : bytes) (a : archive) (i : info),
    c_listfile cli_cfg = LGenerate /\ lenN files = 2 /\
    build toy no_md5 cli_cfg files = Ok arc /\ open_archive toy arc = Ok a /\
    (forall f, In f files -> read_file toy a (pf_name f) = Ok (pf_data f)) /\
    get_info toy no_md5 no_md5 all_read a = Ok i /\ i_file_count i = 2.
Proof. exact count_refuted. Qed.
Print Assumptions C49_count_refuted.

Example C49_example :
  exists a i, open_archive toy walk_arc = Ok a /\ get_info toy no_md5 no_md5 all_read a = Ok i /\
    i_version i = V1 /\ i_sector_size i = 4096 /\ i_encrypted i = false /\ i_has_listfile i = true /\ i_file_count i = 3.
Proof.
  destruct (C49_info_partial toy no_md5 no_md5 all_read cli_cfg (create_files cli_cfg walk_demo) walk_arc [] []
    walk_built walk_no_collision (walk_apart _ (or_introl eq_refl)) (walk_apart _ (or_intror eq_refl)))
    as (a & i & Ho & Hi & H1 & H2 & _ & H3 & H4 & _ & _ & _ & _ & H5).
  rewrite app_nil_r in Ho. exists a, i. split; [exact Ho|]. split; [exact Hi|]. split; [exact H1|].
  split; [rewrite H2; reflexivity|]. split.
  - destruct (i_encrypted i); [|reflexivity]. destruct (proj1 H3 eq_refl) as (f & Hf & E).
    destruct Hf as [<-|[<-|[]]]; discriminate E.
  - split; [apply H4; left; discriminate|]. rewrite H5.
    + vm_compute. reflexivity.
    + intros f [<-|[<-|[]]]; vm_compute; reflexivity.
    + vm_compute. reflexivity.
Qed.

(** C25: inspection is the one request that does load the tables on demand: its
    answer is that of the archive opened with its tables. *)
Theorem C25_inspection_loads :
  forall (L : codecs) (md5 sha1 : bytes -> bytes) (rd : N -> N -> N) (file : bytes) (a : archive),
  open_with_options L file false = Ok a ->
  get_info L md5 sha1 rd a = (b <- open_archive L file ;; get_info L md5 sha1 rd b).
Proof. exact deferred_info. Qed.
Print Assumptions C25_inspection_loads.

Example C25_inspection_example :
  match open_with_options toy demo_file false with
  | Ok a => exists i, get_info toy no_md5 no_md5 (fun _ n => n) a = Ok i /\ i_has_listfile i = true
  | _ => False
  end.
Proof. eexists. split; [vm_compute; reflexivity|reflexivity]. Qed.
