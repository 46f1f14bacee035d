(** * Properties C50, C51, C52: when building succeeds, and what is read from the
    archive that comes out. *)
From Verif Require Import Bytes Crypto SpecNames NameFacts Compress SpecTables SpecCompress ToyCodec Header Listfile Builder
  Attributes Archive SpecArchive SpecArchive34 SpecBuilding BuildCalm BuildOk BuildWide Create EndToEnd DemoArchive DemoSuccess.
Open Scope N_scope.

(** ** C50: building succeeds exactly when it should *)
(** Versions 1 and 2. *)
Theorem C50_v1_v2 :
  forall (L : codecs) (md5 : bytes -> bytes) (c : config) (files : list pending),
  calm_encoders L -> c_version c = V1 \/ c_version c = V2 ->
  c_block_size c < 55 -> lenN files < 2 ^ 30 - 2 ->
  (forall f, In f files -> pf_encrypt f = true -> lenN (pf_data f) <= 4000000000) ->
  no_collision (special_listfile :: map pf_name files) ->
  ((exists arc, build L md5 c files = Ok arc) <->
   Forall (packable L c) (all_stored c files) /\ all_distinct (all_names c files)).
Proof. exact (fun L md5 c files HC => build_fine12 L HC md5 c files). Qed.
Print Assumptions C50_v1_v2.

(** Versions 3 and 4; positions and sizes have to be narrow enough for the table
    of blocks, and tables that are to be compressed have to be accepted. *)
Theorem C50_v3_v4_partial :
  forall (L : codecs) (md5 : bytes -> bytes) (c : config) (files : list pending),
  calm_encoders L -> c_version c = V3 \/ c_version c = V4 ->
  c_block_size c < 55 -> narrow (all_contents c files) ->
  (c_ctables c = true -> forall d, exists r, compress L d (c_tmethod c) = Ok r) ->
  no_collision (special_listfile :: map pf_name files) ->
  ((exists arc, build L md5 c files = Ok arc) <->
   Forall (packable L c) (all_stored c files) /\ all_distinct (all_names c files)).
Proof. exact (fun L md5 c files HC => build_fine34 L HC md5 c files). Qed.
Print Assumptions C50_v3_v4_partial.

(** Versions 3 and 4, exactly: in addition the places and sizes of the files have
    to fit the table of blocks (see C48). *)
Theorem C50_v3_v4_iff :
  forall (L : codecs) (md5 : bytes -> bytes) (c : config) (files : list pending),
  calm_encoders L -> c_version c = V3 \/ c_version c = V4 ->
  c_block_size c < 55 -> lenN files < 2 ^ 17 ->
  (forall f, In f files -> pf_encrypt f = true -> lenN (pf_data f) <= 4000000000) ->
  (c_ctables c = true -> forall d, exists r, compress L d (c_tmethod c) = Ok r) ->
  no_collision (special_listfile :: map pf_name files) ->
  ((exists arc, build L md5 c files = Ok arc) <->
   Forall (packable L c) (all_stored c files) /\ all_distinct (all_names c files) /\
   forall l, placed L c (header_room (c_version c)) (prepare_listfile c files) l -> held 63 l).
Proof. exact (fun L md5 c files HC => build_iff34 L HC md5 c files). Qed.
Print Assumptions C50_v3_v4_iff.

(** The methods: six accept whatever the encoders accept, two accept nothing,
    ADPCM asks for whole samples. *)
Theorem C50_open_methods :
  forall (L : codecs) (m : N) (d : bytes), willing_encoders L -> In m open_methods ->
  exists r, compress L d m = Ok r.
Proof. exact open_methods_fine. Qed.
Print Assumptions C50_open_methods.
Theorem C50_closed_methods :
  forall (L : codecs) (m : N) (d : bytes), In m closed_methods -> d <> [] -> exists e, compress L d m = Err e.
Proof. exact closed_methods_err. Qed.
Print Assumptions C50_closed_methods.
Theorem C50_adpcm_mono :
  forall (L : codecs) (d : bytes), (exists r, compress L d ADPCM_MONO = Ok r) <-> lenN d mod 2 = 0.
Proof. exact adpcm_mono_fine. Qed.
Print Assumptions C50_adpcm_mono.
Theorem C50_adpcm_stereo :
  forall (L : codecs) (d : bytes), (exists r, compress L d ADPCM_STEREO = Ok r) <-> lenN d mod 4 = 0.
Proof. exact adpcm_stereo_fine. Qed.
Print Assumptions C50_adpcm_stereo.

Example C50_example :
  (exists arc, build toy no_md5 (mkCfg V2 0 LGenerate ZLIB true false 0) two_files = Ok arc) /\
  (exists arc, build toy no_md5 (mkCfg V4 0 LGenerate ZLIB true false 0) two_files = Ok arc) /\
  ~ (exists arc, build toy no_md5 (mkCfg V1 0 LNone ZLIB false false 0)
       [mkPF [] (lit "dir/a") 0 false false 0; mkPF [] (lit "DIR\A") 0 false false 0] = Ok arc).
Proof.
  split; [|split].
  - apply C50_v1_v2.
    + exact toy_calm.
    + right. reflexivity.
    + reflexivity.
    + reflexivity.
    + intros f [<-|[<-|[]]] _; vm_compute; discriminate.
    + apply no_collisionb_sound. vm_compute. reflexivity.
    + split; [now apply two_packable|now apply two_distinct].
  - apply C50_v3_v4_partial.
    + exact toy_calm.
    + right. reflexivity.
    + reflexivity.
    + apply narrow_small. vm_compute. discriminate.
    + discriminate.
    + apply no_collisionb_sound. vm_compute. reflexivity.
    + split; [now apply two_packable|now apply two_distinct].
  - intros H. apply C50_v1_v2 in H.
    + destruct H as [_ H]. apply (H [] (lit "dir/a", 0) [] (lit "DIR\A", 0) []); [reflexivity|].
      split; [apply name_equivb_sound; vm_compute; reflexivity|reflexivity].
    + exact toy_calm.
    + left. reflexivity.
    + reflexivity.
    + reflexivity.
    + intros f [<-|[<-|[]]] E; discriminate E.
    + apply no_collisionb_sound. vm_compute. reflexivity.
Qed.

(** The list is compressed with the default method as well: with ADPCM a single
    file of whole samples cannot be archived because its list has an odd
    length; without the list it can. *)
Theorem C50_adpcm_list_refuted :
  forall (L : codecs) (md5 : bytes -> bytes) (v : version),
  build L md5 (mkCfg v 3 LGenerate ADPCM_MONO false false 0)
    [mkPF (lit "abcd") (lit "a.wav") ADPCM_MONO false false 0] = Err ECompression /\
  exists arc, build L md5 (mkCfg v 3 LNone ADPCM_MONO false false 0)
    [mkPF (lit "abcd") (lit "a.wav") ADPCM_MONO false false 0] = Ok arc.
Proof. exact (fun L md5 v => conj (adpcm_list_refuted L md5 v) (adpcm_no_list L md5 v)). Qed.
Print Assumptions C50_adpcm_list_refuted.

(** ** C51: from the files handed in to the files read back *)
(** Nothing is asked of the archive, only of what goes in.  What is missing:
    contents of more than four thousand million bytes and archives whose positions need
    more bits than their version has. *)
Theorem C51_v1_v2_partial :
  forall (L : codecs) (md5 : bytes -> bytes) (c : config) (files : list pending),
  lossless L -> calm_encoders L -> c_version c = V1 \/ c_version c = V2 -> well_typed c files ->
  c_block_size c < 55 -> within_limits c files ->
  Forall (packable L c) (all_stored c files) -> all_distinct (all_names c files) ->
  no_collision (special_listfile :: map pf_name files) ->
  hashes_apart special_attributes (special_listfile :: map pf_name files) ->
  exists arc a, build L md5 c files = Ok arc /\ open_archive L arc = Ok a /\
    (forall name f, means files name f -> reads_back L c (pf_comp f) (pf_data f) ->
       read_file L a name = Ok (pf_data f)) /\
    (forall name, hashes_apart name (special_listfile :: map pf_name files) ->
       find_file a name = Ok None /\ read_file L a name = Err EFileNotFound).
Proof. exact end_to_end12. Qed.
Print Assumptions C51_v1_v2_partial.

(** Versions 3 and 4 with at most four entries; what is missing: more entries,
    for which see C18. *)
Theorem C51_v3_v4_partial :
  forall (L : codecs) (md5 : bytes -> bytes) (c : config) (files : list pending),
  lossless L -> calm_encoders L -> c_version c = V3 \/ c_version c = V4 -> c_ctables c = false ->
  (forall x, lenN (md5 x) = 16) -> well_typed c files ->
  c_block_size c < 55 -> narrow (all_contents c files) -> entry_count c files <= 4 ->
  Forall (packable L c) (all_stored c files) -> all_distinct (all_names c files) ->
  no_collision (special_listfile :: map pf_name files) ->
  hashes_apart special_attributes (special_listfile :: map pf_name files) ->
  exists arc a, build L md5 c files = Ok arc /\ open_archive L arc = Ok a /\
    (forall name f, means files name f -> reads_back L c (pf_comp f) (pf_data f) ->
       read_file L a name = Ok (pf_data f)) /\
    (forall name, hashes_apart name (special_listfile :: map pf_name files) ->
       find_file a name = Ok None /\ read_file L a name = Err EFileNotFound).
Proof. exact end_to_end34. Qed.
Print Assumptions C51_v3_v4_partial.

Example C51_example :
  forall v, exists arc a, build toy no_md5 (mkCfg v 3 LGenerate ZLIB true false 0) two_files = Ok arc /\
    open_archive toy arc = Ok a /\ read_file toy a (lit "A.TXT") = Ok (repeat x41 600) /\
    find_file a (lit "c.txt") = Ok None.
Proof.
  intros v. set (c := mkCfg v 3 LGenerate ZLIB true false 0).
  assert (Ht : well_typed c two_files).
  { split; [reflexivity|]. split; [reflexivity|]. intros f [<-|[<-|[]]]; split; reflexivity. }
  assert (Hcol : no_collision (special_listfile :: map pf_name two_files))
    by (apply no_collisionb_sound; vm_compute; reflexivity).
  assert (Ha : hashes_apart special_attributes (special_listfile :: map pf_name two_files))
    by (apply hashes_apartb_sound; vm_compute; reflexivity).
  assert (Hc : hashes_apart (lit "c.txt") (special_listfile :: map pf_name two_files))
    by (apply hashes_apartb_sound; vm_compute; reflexivity).
  assert (Hm : means two_files (lit "A.TXT") (mkPF (repeat x41 600) (lit "a.txt") ZLIB true true 0)).
  { exists [], [mkPF (lit "hello") (lit "b.txt") BZIP2 false false 0]. split; [reflexivity|].
    split; [apply name_equivb_sound; vm_compute; reflexivity|intros g []]. }
  assert (Hr : reads_back toy c ZLIB (repeat x41 600)).
  { left. split; [vm_compute; discriminate|]. split; [reflexivity|]. right. left. left. reflexivity. }
  assert (Hp := two_packable c eq_refl eq_refl). assert (Hd := two_distinct c eq_refl).
  assert (Hmd : forall x, lenN (no_md5 x) = 16) by reflexivity.
  destruct (version_ge v V3) eqn:Hv3.
  - assert (Hv : v = V3 \/ v = V4) by (destruct v; try discriminate Hv3; auto).
    destruct (C51_v3_v4_partial toy no_md5 c two_files toy_lossless toy_calm Hv eq_refl Hmd Ht eq_refl
      ltac:(apply narrow_small; vm_compute; discriminate) ltac:(vm_compute; discriminate) Hp Hd Hcol Ha) as (arc & a & E & O & R & A).
    exists arc, a. split; [exact E|]. split; [exact O|]. split; [exact (R _ _ Hm Hr)|exact (proj1 (A _ Hc))].
  - assert (Hv : v = V1 \/ v = V2) by (destruct v; try discriminate Hv3; auto).
    destruct (C51_v1_v2_partial toy no_md5 c two_files toy_lossless toy_calm Hv Ht eq_refl
      (small_within c two_files Hv ltac:(vm_compute; discriminate)) Hp Hd Hcol Ha) as (arc & a & E & O & R & A).
    exists arc, a. split; [exact E|]. split; [exact O|]. split; [exact (R _ _ Hm Hr)|exact (proj1 (A _ Hc))].
Qed.

(** ** C52: a new archive *)
(** In every version it can be opened, it lists nothing but its list, holds
    nothing else and is of the version asked for, which is the first if none is. *)
Theorem C52_new_archive :
  forall (L : codecs) (md5 : bytes -> bytes) (v : option version),
  lossless L -> calm_encoders L -> (forall x, lenN (md5 x) = 16) ->
  (exists z, zlib_enc L (listfile_content []) = Ok z) ->
  exists a l, create L md5 v true = Ok a /\ list_files L a = Ok l /\ map fe_name l = [special_listfile] /\
    read_file L a special_listfile = Ok (lit "(listfile)" ++ [x0d; x0a]) /\
    (forall name, hashes_apart name [special_listfile] ->
       find_file a name = Ok None /\ read_file L a name = Err EFileNotFound) /\
    h_version (a_header a) = match v with Some v => v | None => V1 end.
Proof. exact fresh. Qed.
Print Assumptions C52_new_archive.

(** When its tables are to be loaded on demand it is of no use (see C25). *)
Theorem C52_deferred_refuted :
  forall (L : codecs) (md5 : bytes -> bytes) (v : option version) (a : archive) (name : bytes),
  create L md5 v false = Ok a ->
  find_file a name = Err EInvalidFormat /\ read_file L a name = Err EInvalidFormat /\
  list_files L a = Err EInvalidFormat /\ list_all a = Err EInvalidFormat.
Proof. exact fresh_deferred. Qed.
Print Assumptions C52_deferred_refuted.

Example C52_example :
  forall v, exists a, create toy no_md5 v true = Ok a /\ find_file a (lit "a.txt") = Ok None /\
  exists b, create toy no_md5 v false = Ok b.
Proof.
  intros v.
  destruct (C52_new_archive toy no_md5 v toy_lossless toy_calm ltac:(reflexivity)
    ltac:(eexists; vm_compute; reflexivity)) as (a & l & E & _ & _ & _ & A & _).
  exists a. split; [exact E|]. split.
  - apply A. apply hashes_apartb_sound. vm_compute. reflexivity.
  - destruct v as [[]|]; eexists; vm_compute; reflexivity.
Qed.
