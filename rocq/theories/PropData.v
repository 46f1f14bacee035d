(** * Property C84: generated test data. *)
From Coq Require Import Lia.
From Verif Require Import Bytes Cli SpecCli CliFacts TestData SpecData DataFacts DataRuns AgainFacts.
Open Scope N_scope.

(** What is below the output directory in the end: every configured file with the
    content of its kind and size (of two with the same place, the later one), every
    configured directory, and nothing that is not on the way to them, whatever was there
    before. *)
Theorem C84_generated : forall (random : N -> bytes) (fault : bool) (cwd : place) (base : bytes) (c : dconfig)
    (d d' : disk) (r : bytes * list bytes) (o : place),
  orderly d -> out_at cwd base c o -> generate_test_data random fault cwd base c d d' (Ok r) ->
  r = (path_join base (dc_name c), map df_path (dc_files c)) /\
  (forall pre f post l, dc_files c = pre ++ f :: post -> file_at cwd base c f l ->
     (forall g, In g post -> ~ file_at cwd base c g l) ->
     exists b, d' l = Some (IFile b) /\ content_of random f b) /\
  (forall s l, In s (dc_dirs c) -> dir_at cwd base c s l -> d' l = Some IDir) /\ d' o = Some IDir /\
  (forall l b, below o l -> d' l = Some (IFile b) ->
     exists f, In f (dc_files c) /\ file_at cwd base c f l /\ content_of random f b) /\
  (forall l, below o l -> d' l = Some IDir -> exists t, named_at cwd base c t /\ below l t).
Proof. exact generated. Qed.
Print Assumptions C84_generated.

(** What leads to a configured file or directory is a directory, and only directories
    hold something. *)
Theorem C84_ways : forall (random : N -> bytes) (fault : bool) (cwd : place) (base : bytes) (c : dconfig)
    (d d' : disk) (r : bytes * list bytes) (t l : place),
  orderly d -> generate_test_data random fault cwd base c d d' (Ok r) -> named_at cwd base c t -> below l t -> l <> t ->
  d' l = Some IDir.
Proof. exact ways. Qed.
Print Assumptions C84_ways.

Theorem C84_orderly : forall (random : N -> bytes) (fault : bool) (cwd : place) (base : bytes) (c : dconfig)
    (d d' : disk) (r : bytes * list bytes),
  orderly d -> generate_test_data random fault cwd base c d d' (Ok r) -> orderly d'.
Proof. exact run_orderly. Qed.
Print Assumptions C84_orderly.

(** If all that is configured lies below the output directory, nothing outside it is
    changed, except that directories that lead to it may be made, also if a call fails. *)
Theorem C84_elsewhere_partial : forall (random : N -> bytes) (fault : bool) (cwd : place) (base : bytes) (c : dconfig)
    (d d' : disk) (r : res (bytes * list bytes)) (o l : place),
  out_at cwd base c o -> (forall t, named_at cwd base c t -> below o t) ->
  generate_test_data random fault cwd base c d d' r -> ~ below o l ->
  d' l = d l \/ (d l = None /\ d' l = Some IDir /\ below l o).
Proof. exact elsewhere. Qed.
Print Assumptions C84_elsewhere_partial.

(** Without that condition it is false: files outside are overwritten. *)
Theorem C84_elsewhere_refuted : exists (c : dconfig) (cwd : place) (base : bytes) (d : disk) (o l : place),
  component (dc_name c) /\ orderly d /\ out_at cwd base c o /\ ~ below o l /\ d l = Some (IFile (lit "precious")) /\
  forall random, exists d' r, generate_test_data random false cwd base c d d' (Ok r) /\ d' l = Some (IFile []).
Proof. exact elsewhere_refuted. Qed.
Print Assumptions C84_elsewhere_refuted.

(** A configuration without a name is put into the base directory, of which all else is
    removed. *)
Theorem C84_base_kept_refuted : exists (c : dconfig) (cwd : place) (base : bytes) (d : disk) (o l : place),
  dc_name c = [] /\ Forall (fun f => never_up (df_path f)) (dc_files c) /\ orderly d /\ leads cwd base o /\ below o l /\
  d l = Some (IFile (lit "precious")) /\ (forall f, In f (dc_files c) -> ~ file_at cwd base c f l) /\
  forall random, exists d' r, generate_test_data random false cwd base c d d' (Ok r) /\ d' l = None.
Proof. exact base_kept_refuted. Qed.
Print Assumptions C84_base_kept_refuted.

(** It succeeds unless a call fails without cause, whatever is in the output directory, if
    there is no file in place of it or above it and no configured file is on the way to
    another or to a directory. *)
Theorem C84_succeeds_partial : forall (random : N -> bytes) (cwd : place) (base : bytes) (c : dconfig) (d : disk) (o : place),
  orderly d -> out_at cwd base c o -> component (dc_name c) ->
  (forall l b, below l o -> d l <> Some (IFile b)) ->
  Forall never_up (dc_dirs c) -> Forall (fun f => never_up (df_path f)) (dc_files c) ->
  (forall f l, In f (dc_files c) -> file_at cwd base c f l ->
     (forall s t, In s (dc_dirs c) -> dir_at cwd base c s t -> ~ below l t) /\
     (forall g t, In g (dc_files c) -> file_at cwd base c g t -> below l t -> t = l)) ->
  Forall (fun f => df_kb f * 1024 < 2 ^ 63) (dc_files c) ->
  (exists d', generate_test_data random false cwd base c d d' (Ok (path_join base (dc_name c), map df_path (dc_files c)))) /\
  forall d' r, generate_test_data random false cwd base c d d' r ->
    r = Ok (path_join base (dc_name c), map df_path (dc_files c)).
Proof. exact succeeds. Qed.
Print Assumptions C84_succeeds_partial.

(** A configuration with a file below a file never succeeds. *)
Theorem C84_succeeds_refuted : exists c : dconfig,
  component (dc_name c) /\ Forall (fun f => never_up (df_path f)) (dc_files c) /\
  forall random fault cwd base d d' r, orderly d -> ~ generate_test_data random fault cwd base c d d' (Ok r).
Proof. exact succeeds_refuted. Qed.
Print Assumptions C84_succeeds_refuted.

(** The predefined configurations are generated wherever the way is free. *)
Theorem C84_predefined : forall (random : N -> bytes) (cwd : place) (base : bytes) (c : dconfig) (d : disk) (o : place),
  In c all_data -> orderly d -> out_at cwd base c o -> (forall l b, below l o -> d l <> Some (IFile b)) ->
  (exists d', generate_test_data random false cwd base c d d' (Ok (path_join base (dc_name c), map df_path (dc_files c)))) /\
  forall d' r, generate_test_data random false cwd base c d d' r ->
    r = Ok (path_join base (dc_name c), map df_path (dc_files c)).
Proof. exact (fun random cwd base c d o H => neat_succeeds random cwd base c d o (all_neat c H)). Qed.
Print Assumptions C84_predefined.

(** The predefined ones: how many directories and files, and kilobytes in all of text,
    and of binary data *)
Theorem C84_predefined_sizes :
  map (fun c => (dc_name c, lenN (dc_dirs c), lenN (dc_files c), total_kb FText c, total_kb FBinary c)) all_data =
  [(lit "simple", 0, 3, 8, 0); (lit "game_assets", 4, 8, 15, 2016); (lit "nested", 0, 4, 4, 10);
   (lit "mixed_sizes", 0, 5, 5, 1125); (lit "special_names", 0, 4, 4, 5)].
Proof. exact predefined_sizes. Qed.
Print Assumptions C84_predefined_sizes.

(** The predefined configurations have directories of their own, and distinct files. *)
Theorem C84_predefined_distinct :
  NoDup (map dc_name all_data) /\ Forall (fun c => NoDup (map df_path (dc_files c))) all_data.
Proof. exact predefined_distinct. Qed.
Print Assumptions C84_predefined_distinct.

(** Whatever was on the disk before, two runs leave the same below the output directory. *)
Theorem C84_same : forall (random : N -> bytes) (cwd : place) (base : bytes) (c : dconfig) (o : place) (f1 f2 : bool)
    (d1 d1' : disk) (r1 : bytes * list bytes) (d2 d2' : disk) (r2 : bytes * list bytes),
  orderly d1 -> orderly d2 -> out_at cwd base c o ->
  generate_test_data random f1 cwd base c d1 d1' (Ok r1) -> generate_test_data random f2 cwd base c d2 d2' (Ok r2) ->
  r1 = r2 /\ forall l, below o l -> d1' l = d2' l.
Proof. exact again. Qed.
Print Assumptions C84_same.

(** The predefined ones can be generated again, and nothing below changes. *)
Theorem C84_again : forall (random : N -> bytes) (cwd : place) (base : bytes) (c : dconfig) (o : place) (fault : bool)
    (d d' : disk) (r : bytes * list bytes),
  In c all_data -> orderly d -> out_at cwd base c o -> generate_test_data random fault cwd base c d d' (Ok r) ->
  exists d'', generate_test_data random false cwd base c d' d'' (Ok r) /\ forall l, below o l -> d'' l = d' l.
Proof. exact (fun random cwd base c o fault d d' r H => again_neat random cwd base c o fault d d' r (all_neat c H)). Qed.
Print Assumptions C84_again.

(** Generating one of them, also if it fails, does not disturb another in the same
    directory. *)
Theorem C84_side_by_side : forall (random : N -> bytes) (cwd : place) (base : bytes) (c1 c2 : dconfig) (o : place) (fault : bool)
    (d d' : disk) (r : res (bytes * list bytes)) (l : place),
  In c1 all_data -> In c2 all_data -> dc_name c1 <> dc_name c2 -> out_at cwd base c1 o -> below o l ->
  generate_test_data random fault cwd base c2 d d' r -> d' l = d l.
Proof. exact side_by_side. Qed.
Print Assumptions C84_side_by_side.

(** These hold for the run of the example below. *)
Example C84_again_example : In dc_simple all_data /\ orderly shelf /\ out_at [] (lit "/data") dc_simple [lit "data"; lit "simple"].
Proof.
  split; [now left|]. split; [exact shelf_orderly|]. apply leads_loc. vm_compute. reflexivity.
Qed.

(** The hypotheses are met: the simple configuration on a disk with an old file. *)
Example C84_example : forall random, exists d' r,
  generate_test_data random false [] (lit "/data") dc_simple shelf d' (Ok r) /\
  file_at [] (lit "/data") dc_simple (mkDF (lit "config.ini") FText 1) [lit "data"; lit "simple"; lit "config.ini"] /\
  (exists b, d' [lit "data"; lit "simple"; lit "config.ini"] = Some (IFile b) /\ lenN b = 1024 /\
     firstn 9 b = lit "The quick" /\ firstn 9 (skipn 45 b) = lit "The quick") /\
  d' [lit "data"; lit "keep.txt"] = Some (IFile (lit "precious")).
Proof. exact simple_run. Qed.
