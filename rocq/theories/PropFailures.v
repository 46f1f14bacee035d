(** * Property C74: why building failed. *)
From Verif Require Import Bytes SpecNames Compress SpecTables ToyCodec Header Builder SpecArchive FileSystem BuildIo SpecBuild SpecBuilding
  SpecFailures FailureFacts DemoArchive DemoSuccess DemoFailures.
Open Scope N_scope.

(** ** C74: a build in which no call of the system fails without cause succeeds, or its error tells
    what is wrong with which file.

    Versions 1 and 2: the files are looked at in their order, the list last; the first that cannot be
    read (EIo), packed (ECompression) or entered under its name (EInvalidFormat) ends the build. *)
Theorem C74_v1_v2 :
  forall (L : codecs) (md5 : bytes -> bytes) (c : config) (lo : slist) (srcs : list spending) (dest : path) (w0 : world),
  calm_encoders L -> plain_encoders L -> c_version c = V1 \/ c_version c = V2 ->
  c_block_size c < 55 -> lenN srcs < 2 ^ 30 - 2 -> (forall s, In s srcs -> short_enough w0 s) ->
  no_collision (special_listfile :: map sp_name srcs) -> sources_ok w0 lo srcs -> w_fault w0 = false ->
  forall r w, steps (io_build L md5 c lo srcs dest, w0) (Ret r, w) -> w_fault w = false ->
  (exists p, lo = SExternal p /\ w_files w0 p = None /\ r = Err EIo) \/
  exists o, list_wanted w0 lo o /\
    (r = Ok tt /\ Forall (usable L w0 c) (in_order c o srcs) /\ all_distinct (map source_key (in_order c o srcs)) \/
     exists l1 s l2 e, in_order c o srcs = l1 ++ s :: l2 /\ Forall (usable L w0 c) l1 /\ all_distinct (map source_key l1) /\
       r = Err e /\ (flaw L w0 c s e \/ usable L w0 c s /\ name_taken l1 s /\ e = EInvalidFormat)).
Proof. exact why12. Qed.
Print Assumptions C74_v1_v2.

(** Versions 3 and 4: the names are looked at when all files have been written and the table of blocks
    has been put together, for which the builder panics if their places and sizes are too wide. *)
Theorem C74_v3_v4 :
  forall (L : codecs) (md5 : bytes -> bytes) (c : config) (lo : slist) (srcs : list spending) (dest : path) (w0 : world),
  calm_encoders L -> plain_encoders L -> c_version c = V3 \/ c_version c = V4 ->
  c_block_size c < 55 -> lenN srcs < 2 ^ 17 -> (forall s, In s srcs -> short_enough w0 s) ->
  (c_ctables c = true -> forall d, exists x, compress L d (c_tmethod c) = Ok x) ->
  no_collision (special_listfile :: map sp_name srcs) -> sources_ok w0 lo srcs -> w_fault w0 = false ->
  forall r w, steps (io_build L md5 c lo srcs dest, w0) (Ret r, w) -> w_fault w = false ->
  (exists p, lo = SExternal p /\ w_files w0 p = None /\ r = Err EIo) \/
  exists o, list_wanted w0 lo o /\ let all := in_order c o srcs in
    ((r = Ok tt /\ Forall (usable L w0 c) all /\ ~ too_wide L w0 c all /\ all_distinct (map source_key all)) \/
     (exists l1 s l2 e, all = l1 ++ s :: l2 /\ Forall (usable L w0 c) l1 /\ r = Err e /\ flaw L w0 c s e) \/
     (r = Panic /\ Forall (usable L w0 c) all /\ too_wide L w0 c all) \/
     (r = Err EInvalidFormat /\ Forall (usable L w0 c) all /\ ~ too_wide L w0 c all /\ ~ all_distinct (map source_key all))).
Proof. exact why34. Qed.
Print Assumptions C74_v3_v4.

(** Files that need little room, as that of C48, are not too wide. *)
Theorem C74_narrow :
  forall (L : codecs) (w : world) (c : config) (srcs : list spending) (fs : list pending),
  c_block_size c < 55 -> contents w srcs fs -> narrow (map pf_data fs) -> ~ too_wide L w c srcs.
Proof. exact narrow_not_wide. Qed.
Print Assumptions C74_narrow.

(** There is such a run of every build. *)
Theorem C74_runs :
  forall (L : codecs) (md5 : bytes -> bytes) (c : config) (lo : slist) (srcs : list spending) (dest : path) (w0 : world),
  ~ temp_name (p_name dest) -> sources_ok w0 lo srcs -> w_fault w0 = false ->
  (exists n, temp_name n /\ w_files w0 (mkPath (p_dir dest) n) = None) ->
  exists r w, steps (io_build L md5 c lo srcs dest, w0) (Ret r, w) /\ w_fault w = false.
Proof. exact quiet_run. Qed.
Print Assumptions C74_runs.

(** The outcomes for a file that is there, with one that is not, one that its method refuses and one with
    the name of the first.  When the second has the name of the first and the third is refused, the
    version decides which of the two is told. *)
Example C74_example :
  calm_encoders toy /\ plain_encoders toy /\ sources_ok disk SGenerate [s_good; s_gone; s_odd; s_again] /\
  (forall s, In s [s_good; s_gone; s_odd; s_again] -> short_enough disk s) /\
  no_collision (special_listfile :: map sp_name [s_good; s_gone; s_odd; s_again]) /\
  (exists fs, contents disk [s_good; s_again; s_odd] fs /\ narrow (map pf_data fs)) /\
  forall v, v = V1 \/ v = V4 ->
  ends_with v SGenerate [s_good] (Ok tt) /\
  ends_with v SGenerate [s_good; s_gone; s_odd; s_again] (Err EIo) /\
  ends_with v SGenerate [s_good; s_odd; s_gone; s_again] (Err ECompression) /\
  ends_with v SGenerate [s_good; s_again] (Err EInvalidFormat) /\
  ends_with v (SExternal gone) [s_good] (Err EIo) /\
  ends_with v SGenerate [s_good; s_again; s_odd] (Err match v with V1 => EInvalidFormat | _ => ECompression end).
Proof.
  split; [exact toy_calm|]. split; [exact toy_plain_enc|]. split; [apply disk_ok; [now left|apply incl_refl]|].
  split; [exact disk_short|]. split; [exact failures_distinct|]. split; [exact failures_small|exact failures].
Qed.
