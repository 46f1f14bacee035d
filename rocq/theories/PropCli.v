(** * Properties C34, C39, C41, C42, C43: the command line tool. *)
From Verif Require Import Bytes Crypto SpecNames Compress SpecTables SpecCompress ToyCodec Header Listfile Builder
  Attributes Archive SpecArchive SpecListfile Signature Info SpecDigest Cli SpecCli CliFacts CliBuilt
  DemoArchive Demo34 DemoCli.
Open Scope N_scope.

(** ** C34: extraction and the output directory *)

(** Without [--preserve-path] extraction writes only files directly in the
    output directory and creates no directory but it, whatever the archive. *)
Theorem C34_flat_inside :
  forall (L : codecs) (cwd : place) (file dir : bytes) (acts : list action) (r : res unit) (dl : place),
  extract L file None (Some dir) false = (acts, r) -> leads cwd dir dl ->
  forall x l, In x acts -> touches cwd x l ->
  (exists p d, x = AWrite p d /\ exists f, l = dl ++ [f]) \/ (exists b c, x = AMkdirs b c /\ l = dl).
Proof. exact flat_inside. Qed.
Print Assumptions C34_flat_inside.

(** A single file without a target goes directly into the current directory. *)
Theorem C34_single_inside :
  forall (L : codecs) (cwd : place) (file n : bytes) (acts : list action) (r : res unit),
  extract L file (Some n) None false = (acts, r) ->
  forall x l, In x acts -> touches cwd x l -> l = cwd \/ exists f, l = cwd ++ [f].
Proof. exact single_inside. Qed.
Print Assumptions C34_single_inside.

(** With a target it goes there, and only the directory around is created. *)
Theorem C34_single_output :
  forall (L : codecs) (cwd : place) (file n o : bytes) (pres : bool) (acts : list action) (r : res unit) (ol : place),
  extract L file (Some n) (Some o) pres = (acts, r) -> leads cwd o ol ->
  forall x l, In x acts -> touches cwd x l ->
  (exists p d, x = AWrite p d /\ l = ol) \/ (exists b c s, x = AMkdirs b c /\ ol = enter l s).
Proof. exact single_output. Qed.
Print Assumptions C34_single_output.

(** With [--preserve-path] everything stays below the output directory if no
    listed name goes up or starts at the root.  What is missing: the tool does
    not ask for that, see below. *)
Theorem C34_tame_names_inside_partial :
  forall (L : codecs) (cwd : place) (file dir : bytes) (acts : list action) (r : res unit) (dl : place),
  extract L file None (Some dir) true = (acts, r) -> leads cwd dir dl ->
  (forall a l e, open_archive L file = Ok a -> list_files L a = Ok l -> In e l -> never_up (fe_name e)) ->
  forall x l, In x acts -> touches cwd x l -> below dl l.
Proof. exact tame_inside. Qed.
Print Assumptions C34_tame_names_inside_partial.

(** The claim is false with [--preserve-path]: a name can go up, or be absolute. *)
Theorem C34_preserve_path_refuted :
  exists file acts p d l, extract toy file None (Some (lit "out")) true = (acts, Ok tt) /\
    leads [lit "home"] (lit "out") [lit "home"; lit "out"] /\
    In (AWrite p d) acts /\ touches [lit "home"] (AWrite p d) l /\ ~ below [lit "home"; lit "out"] l.
Proof. exact (ex_intro _ evil_arc evil_escapes). Qed.
Print Assumptions C34_preserve_path_refuted.
Theorem C34_absolute_name_refuted : escapes abs_arc.
Proof. exact abs_escapes. Qed.
Print Assumptions C34_absolute_name_refuted.

(** Without it a name that ends with [..] stops the tool with a panic. *)
Theorem C34_dotdot_name_crashes :
  exists file, extract toy file None (Some (lit "out")) false = ([], Panic).
Proof. exact (ex_intro _ up_arc up_crashes). Qed.
Print Assumptions C34_dotdot_name_crashes.

Example C34_example :
  exists acts, extract toy evil_arc None (Some (lit "out")) false = (acts, Ok tt) /\
    In (AWrite (lit "out/evil.txt") (lit "evil")) acts /\
    forall x l, In x acts -> touches [lit "home"] x l ->
      (exists p d, x = AWrite p d /\ exists f, l = [lit "home"; lit "out"] ++ [f]) \/
      (exists b c, x = AMkdirs b c /\ l = [lit "home"; lit "out"]).
Proof.
  destruct (extract toy evil_arc None (Some (lit "out")) false) as [acts r] eqn:E.
  pose proof E as E'. vm_compute in E'. injection E' as <- <-.
  eexists. split; [reflexivity|]. split; [do 3 right; left; reflexivity|].
  apply (C34_flat_inside toy [lit "home"] evil_arc (lit "out") _ _ _ E). now apply leads_loc.
Qed.

(** ** C39: what a successful verification says *)

(** Exactly this: the archive can be opened, inspected and listed, every listed
    entry is found, and with [--check-contents] every one of them can be read. *)
Theorem C39_success_means :
  forall (L : codecs) (md5 sha1 : bytes -> bytes) (rd : N -> N -> N) (file : bytes) (cc : bool),
  verify L md5 sha1 rd file cc = Ok tt <->
  exists a i l, open_archive L file = Ok a /\ get_info L md5 sha1 rd a = Ok i /\ list_files L a = Ok l /\
    forall e, In e l -> (exists fi, find_file a (fe_name e) = Ok (Some fi)) /\
                        (cc = true -> exists d, read_file L a (fe_name e) = Ok d).
Proof. exact verify_ok. Qed.
Print Assumptions C39_success_means.

(** Every name of the archive's list can be read or is not in the archive at
    all.  What is missing: the second case ought to be an error, and the size
    is not compared; see below. *)
Theorem C39_listed_readable_partial :
  forall (L : codecs) (md5 sha1 : bytes -> bytes) (rd : N -> N -> N) (file : bytes),
  verify L md5 sha1 rd file true = Ok tt ->
  forall a fi d, open_archive L file = Ok a ->
    find_file a special_listfile = Ok (Some fi) -> read_file L a special_listfile = Ok d ->
  forall n, In n (parse_listfile d) -> find_file a n = Ok None \/ exists x, read_file L a n = Ok x.
Proof. exact verify_listed. Qed.
Print Assumptions C39_listed_readable_partial.

(** The claim is false: a listed name without file goes unnoticed, *)
Theorem C39_absent_name_refuted :
  exists file, verify toy no_md5 no_md5 all_read file true = Ok tt /\
  exists a d, open_archive toy file = Ok a /\ read_file toy a special_listfile = Ok d /\
    In (lit "gone.txt") (parse_listfile d) /\ find_file a (lit "gone.txt") = Ok None /\
    read_file toy a (lit "gone.txt") = Err EFileNotFound.
Proof. exact (ex_intro _ ghost_arc ghost_verified). Qed.
Print Assumptions C39_absent_name_refuted.
(** and so does a file whose content has another than the recorded size. *)
Theorem C39_size_refuted :
  exists file, verify toy no_md5 no_md5 all_read file true = Ok tt /\
  exists a l e d, open_archive toy file = Ok a /\ list_files toy a = Ok l /\ In e l /\
    read_file toy a (fe_name e) = Ok d /\ lenN d <> fe_size e.
Proof. exact (ex_intro _ raw_arc raw_verified). Qed.
Print Assumptions C39_size_refuted.

(** ** C41: a freshly built archive is verified *)
Theorem C41_built_archive_verifies_partial :
  forall (L : codecs) (md5 sha1 : bytes -> bytes) (rd : N -> N -> N)
    (c : config) (files : list pending) (arc pre post : bytes) (cc : bool),
  lossless L -> built_at L md5 c files arc pre post -> c_listfile c = LGenerate ->
  no_collision (special_listfile :: map pf_name files) ->
  hashes_apart special_attributes (special_listfile :: map pf_name files) ->
  hashes_apart (lit "(signature)") (special_listfile :: map pf_name files) ->
  (forall f, In f files ->
     is_text (pf_name f) /\ listable (pf_name f) /\ ~ name_equiv special_listfile (pf_name f)) ->
  reads_back L c (c_default c) (listfile_content (map pf_name files)) ->
  (forall f, In f files -> reads_back L c (pf_comp f) (pf_data f)) ->
  verify L md5 sha1 rd (pre ++ arc ++ post) cc = Ok tt.
Proof. exact built_verify. Qed.
Print Assumptions C41_built_archive_verifies_partial.

(** Not so for an archive built without a list: the names made up for its files
    are looked up in vain. *)
Theorem C41_without_list_refuted :
  exists c f arc, built_at toy no_md5 c [f] arc [] [] /\
    verify toy no_md5 no_md5 all_read arc false = Err EInvalidFormat.
Proof. exact (ex_intro _ bare_cfg (ex_intro _ bare_file (ex_intro _ bare_arc (conj bare_built bare_fails)))). Qed.
Print Assumptions C41_without_list_refuted.

Example C41_example : forall sha1 rd cc, verify toy no_md5 sha1 rd walk_arc cc = Ok tt.
Proof.
  intros sha1 rd cc.
  replace walk_arc with ([] ++ walk_arc ++ []) by (cbn [app]; apply app_nil_r).
  apply (C41_built_archive_verifies_partial toy no_md5 sha1 rd cli_cfg (create_files cli_cfg walk_demo)
    walk_arc [] [] cc toy_lossless walk_built eq_refl walk_no_collision).
  - apply walk_apart. left. reflexivity.
  - apply walk_apart. right. reflexivity.
  - exact walk_names.
  - apply walk_reads. left. reflexivity.
  - intros f Hf. apply in_map_iff in Hf as (x & <- & Hx). apply walk_reads. right. exact (in_map f_data _ _ Hx).
Qed.

(** ** C42: packing a directory and unpacking it *)
Theorem C42_pack_unpack_partial :
  forall (L : codecs) (md5 : bytes -> bytes) (c : config) (walk : list found) (arc pre post : bytes)
    (cwd : place) (dir : bytes) (dl : place),
  lossless L -> built_at L md5 c (create_files c walk) arc pre post -> c_listfile c = LGenerate ->
  no_collision (special_listfile :: map pf_name (create_files c walk)) ->
  hashes_apart special_attributes (special_listfile :: map pf_name (create_files c walk)) ->
  (forall f, In f (create_files c walk) ->
     is_text (pf_name f) /\ listable (pf_name f) /\ ~ name_equiv special_listfile (pf_name f)) ->
  reads_back L c (c_default c) (listfile_content (map pf_name (create_files c walk))) ->
  (forall f, In f walk ->
     f_parts f <> [] /\ Forall component (f_parts f) /\ reads_back L c (c_default c) (f_data f)) ->
  leads cwd dir dl ->
  exists acts ws p d, extract L (pre ++ arc ++ post) None (Some dir) true = (acts, Ok tt) /\
    writes_of acts = ws ++ [(p, d)] /\
    Forall2 (fun f w => leads cwd (fst w) (dl ++ f_parts f) /\ snd w = f_data f) walk ws /\
    leads cwd p (dl ++ [special_listfile]).
Proof. exact (fun L md5 => pack_unpack L md5 md5 N.min). Qed.
Print Assumptions C42_pack_unpack_partial.

(** A backslash in the name of a packed file, an ordinary character on Unix,
    becomes a directory. *)
Theorem C42_backslash_refuted :
  exists arc, built_at toy no_md5 cli_cfg (create_files cli_cfg [mkFound [lit "a\b.txt"] (lit "text")]) arc [] [] /\
  exists acts p,
  extract toy arc None (Some (lit "out")) true = (acts, Ok tt) /\
  In (AWrite p (lit "text")) acts /\ leads [lit "home"] p [lit "home"; lit "out"; lit "a"; lit "b.txt"] /\
  forall w, In w (writes_of acts) -> ~ leads [lit "home"] (fst w) [lit "home"; lit "out"; lit "a\b.txt"].
Proof. exact (ex_intro _ back_arc (conj back_built back_moves)). Qed.
Print Assumptions C42_backslash_refuted.

Example C42_example :
  exists acts ws p d, extract toy (walk_arc ++ []) None (Some (lit "out/")) true = (acts, Ok tt) /\
    writes_of acts = ws ++ [(p, d)] /\
    Forall2 (fun f w => leads [lit "home"] (fst w) ([lit "home"; lit "out"] ++ f_parts f) /\ snd w = f_data f)
      walk_demo ws /\
    leads [lit "home"] p ([lit "home"; lit "out"] ++ [special_listfile]).
Proof.
  apply (C42_pack_unpack_partial toy no_md5 cli_cfg walk_demo walk_arc [] [] [lit "home"] (lit "out/")
    [lit "home"; lit "out"] toy_lossless walk_built eq_refl walk_no_collision).
  - apply walk_apart. left. reflexivity.
  - exact walk_names.
  - apply walk_reads. left. reflexivity.
  - intros f Hf. split; [|split].
    + repeat (destruct Hf as [<-|Hf]; [discriminate|]). destruct Hf.
    + repeat (destruct Hf as [<-|Hf]; [repeat constructor; apply componentb; vm_compute; reflexivity|]). destruct Hf.
    + apply walk_reads. right. exact (in_map f_data _ _ Hf).
  - now apply leads_loc.
Qed.

(** ** C43: verification and the checks it prints *)

(** The claim is false: the digests of version 4 and the signature are only
    printed, an archive on which they fail is verified all the same. *)
Theorem C43_bad_digest_refuted :
  exists file, verify toy toy_md5 toy_md5 all_read file true = Ok tt /\
  exists a i s, open_archive toy file = Ok a /\ get_info toy toy_md5 toy_md5 all_read a = Ok i /\
    i_md5 i = Some s /\ flag s DHeader = false.
Proof. exact (ex_intro _ four_soft four_soft_verified). Qed.
Print Assumptions C43_bad_digest_refuted.
Theorem C43_bad_signature_refuted :
  exists file, verify toy no_md5 no_md5 all_read file true = Ok tt /\
  exists a i, open_archive toy file = Ok a /\ get_info toy no_md5 no_md5 all_read a = Ok i /\
    i_has_signature i = true /\ i_signature i = WeakInvalid.
Proof. exact (ex_intro _ unsigned_arc unsigned_verified). Qed.
Print Assumptions C43_bad_signature_refuted.
