(** * Property C82: what the calls of the builder's interface amount to. *)
From Verif Require Import Bytes Header Compress ToyCodec Builder FileSystem BuildIo SpecBuild SpecArchive BuilderApi SpecApi ApiFacts DemoArchive PropBuild.
Open Scope N_scope.

(** Every option is what the last call that sets it has set, whatever else was called
    before or after it; without such a call it is the documented default. *)
Theorem C82_options : forall (ms : list method),
  let b := builder_of ms in
  last_set version_set V1 ms (b_version b) /\ last_set block_set 3 ms (b_block b) /\
  last_set list_set SGenerate ms (b_list b) /\ last_set default_set 2 ms (b_default b) /\
  last_set crcs_set false ms (b_crcs b) /\ last_set tables_set false ms (b_ctables b) /\
  last_set tmethod_set 2 ms (b_tmethod b).
Proof. exact options_last. Qed.
Print Assumptions C82_options.

(** There is only one such value. *)
Theorem C82_one_value : forall (A : Type) (pick : method -> option A) (d : A) (ms : list method) (v w : A),
  last_set pick d ms v -> last_set pick d ms w -> v = w.
Proof. exact (fun A => @last_set_one A). Qed.
Print Assumptions C82_one_value.

(** Every adding call adds one file, in the order of the calls: with its own method
    of compression or with the default that was set before it; nothing else adds any. *)
Theorem C82_files : forall (l1 : list method) (m : method) (l2 : list method), adding m = true ->
  exists d f, last_set default_set 2 l1 d /\ file_added m d = Some f /\
    nth_error (b_pending (builder_of (l1 ++ m :: l2))) (adds l1) = Some f.
Proof. exact file_in_order. Qed.
Print Assumptions C82_files.
Theorem C82_files_only : forall (ms : list method), length (b_pending (builder_of ms)) = adds ms.
Proof. exact pending_count. Qed.
Print Assumptions C82_files_only.

(** Only the default method matters for when it is set: any other setting can as well
    come after a file is added. *)
Theorem C82_order : forall (l1 : list method) (a b : method) (l2 : list method),
  adding a = false -> default_set a = None -> adding b = true ->
  builder_of (l1 ++ a :: b :: l2) = builder_of (l1 ++ b :: a :: l2).
Proof. exact swap_option. Qed.
Print Assumptions C82_order.

(** No file gets a position-dependent key without being encrypted. *)
Theorem C82_fix_key : forall (ms : list method) (f : spending),
  In f (b_pending (builder_of ms)) -> sp_fix f = true -> sp_encrypt f = true.
Proof. exact fix_needs_encryption. Qed.
Print Assumptions C82_fix_key.

(** If building succeeds, the destination holds the archive of exactly these options
    and files, with their contents at the time of building. *)
Theorem C82_built : forall (L : codecs) (md5 : bytes -> bytes) (ms : list method) (dest : path) (w0 w : world),
  let b := builder_of ms in
  ~ temp_name (p_name dest) -> sources_ok w0 (b_list b) (b_pending b) -> Forall method_typed ms ->
  steps (builder_build L md5 b dest, w0) (Ret (Ok tt), w) ->
  exists o fs arc, list_wanted w0 (b_list b) o /\ contents w0 (b_pending b) fs /\
    let c := mkCfg (b_version b) (b_block b) o (b_default b) (b_crcs b) (b_ctables b) (b_tmethod b) in
    well_typed c fs /\ build L md5 c fs = Ok arc /\ w_files w dest = Some arc.
Proof. exact builder_writes. Qed.
Print Assumptions C82_built.

(** "The file will use the builder's default compression method": not the one the
    builder has in the end. *)
Theorem C82_default_refuted : exists ms f, In f (b_pending (builder_of ms)) /\
  In (MAdd (sp_source f) (sp_name f)) ms /\ sp_comp f <> b_default (builder_of ms).
Proof. exact late_default_missed. Qed.
Print Assumptions C82_default_refuted.

(** Settings before, between and after three files *)
Definition api_calls : list method :=
  [MVersion V2; MAdd (SData (lit "one")) (lit "a"); MDefault 16; MBlock 7; MAdd (SPath (mkPath (lit "in") (lit "b"))) (lit "b");
   MAddEncryption (SData (lit "three")) (lit "c") 0 true 0x409; MVersion V3; MDefault 0].
Example C82_example :
  b_version (builder_of api_calls) = V3 /\ b_block (builder_of api_calls) = 7 /\ b_list (builder_of api_calls) = SGenerate /\
  map sp_comp (b_pending (builder_of api_calls)) = [2; 16; 0] /\ b_default (builder_of api_calls) = 0 /\
  map sp_encrypt (b_pending (builder_of api_calls)) = [false; false; true].
Proof. repeat split; vm_compute; reflexivity. Qed.
Example C82_files_example : exists d f,
  last_set default_set 2 (firstn 4 api_calls) d /\ d = 16 /\ file_added (MAdd (SPath (mkPath (lit "in") (lit "b"))) (lit "b")) d = Some f /\
  nth_error (b_pending (builder_of api_calls)) 1 = Some f.
Proof.
  destruct (C82_files (firstn 4 api_calls) (MAdd (SPath (mkPath (lit "in") (lit "b"))) (lit "b")) (skipn 5 api_calls) eq_refl)
    as (d & f & H1 & H2 & H3).
  exists d, f. split; [exact H1|]. split; [|split; [exact H2|exact H3]].
  apply (C82_one_value N default_set 2 (firstn 4 api_calls)); [exact H1|]. left. exists (firstn 2 api_calls), (MDefault 16), [MBlock 7].
  split; [reflexivity|]. split; [reflexivity|]. intros x [<-|[]]. reflexivity.
Qed.
Example C82_order_example : builder_of (MVersion V4 :: MAdd (SData []) (lit "x") :: api_calls) =
                            builder_of (MAdd (SData []) (lit "x") :: MVersion V4 :: api_calls).
Proof. exact (C82_order [] (MVersion V4) (MAdd (SData []) (lit "x")) api_calls eq_refl eq_refl eq_refl). Qed.
(** A file by its path, one by its contents: building can succeed. *)
Definition two_calls : list method :=
  [MAddOptions (SPath build_src) (lit "a.txt") 2 true 0; MAddOptions (SData (lit "b")) (lit "b.txt") 0 false 0].
Example C82_built_example : exists w o fs arc,
  steps (builder_build toy no_md5 (builder_of two_calls) build_dest, build_world) (Ret (Ok tt), w) /\
  contents build_world (b_pending (builder_of two_calls)) fs /\ build toy no_md5 (mkCfg V1 3 o 2 false false 2) fs = Ok arc /\
  w_files w build_dest = Some arc.
Proof.
  destruct C24_example as ((n & D & S & _) & (arc & _ & _ & w & R & _) & _). exists w.
  assert (R' : steps (builder_build toy no_md5 (builder_of two_calls) build_dest, build_world) (Ret (Ok tt), w)).
  { change (builder_build toy no_md5 (builder_of two_calls) build_dest)
      with (io_build toy no_md5 default_config SGenerate build_srcs build_dest). exact R. }
  destruct (C82_built toy no_md5 two_calls build_dest build_world w D S) as (o & fs & arc' & _ & H1 & H2).
  - repeat constructor.
  - exact R'.
  - exists o, fs, arc'. split; [exact R'|]. split; [exact H1|]. exact (proj2 H2).
Qed.
