(** * Property C24: building an archive is all or nothing. *)
From Verif Require Import Bytes Compress ToyCodec Builder FileSystem BuildIo SpecBuild BuildIoFacts DemoArchive.
Open Scope N_scope.

(** C24: at every moment of a build - hence also wherever it is killed - the
    destination holds either what it held before or the complete archive; when
    the build has succeeded it holds the archive, when it has failed or panicked
    what it held before. *)
Theorem C24_all_or_nothing :
  forall (L : codecs) (md5 : bytes -> bytes) (c : config) (lo : slist) (srcs : list spending)
         (dest : path) (w0 : world),
  ~ temp_name (p_name dest) -> sources_ok w0 lo srcs ->
  forall (m : io unit) (w : world),
  steps (io_build L md5 c lo srcs dest, w0) (m, w) ->
  (w_files w dest = w_files w0 dest \/
   exists arc, archive_of L md5 w0 c lo srcs arc /\ w_files w dest = Some arc) /\
  (m = Ret (Ok tt) -> exists arc, archive_of L md5 w0 c lo srcs arc /\ w_files w dest = Some arc) /\
  (forall r, m = Ret r -> r <> Ok tt -> w_files w dest = w_files w0 dest).
Proof. exact all_or_nothing. Qed.
Print Assumptions C24_all_or_nothing.

(** C24: no other file changes, except that a new temporary file appears beside
    the destination; it is gone in the end unless a call has failed. *)
Theorem C24_nothing_else_changes :
  forall (L : codecs) (md5 : bytes -> bytes) (c : config) (lo : slist) (srcs : list spending)
         (dest : path) (w0 : world),
  ~ temp_name (p_name dest) -> sources_ok w0 lo srcs ->
  forall (m : io unit) (w : world),
  steps (io_build L md5 c lo srcs dest, w0) (m, w) ->
  (forall p, p <> dest ->
     ~ (p_dir p = p_dir dest /\ temp_name (p_name p) /\ w_files w0 p = None) ->
     w_files w p = w_files w0 p) /\
  (forall r, m = Ret r -> w_fault w = false -> forall p, p <> dest -> w_files w p = w_files w0 p).
Proof. exact nothing_else. Qed.
Print Assumptions C24_nothing_else_changes.

(** C24: if there is an archive to build and no call fails without cause, the
    build succeeds, and it can go that way. *)
Theorem C24_succeeds :
  forall (L : codecs) (md5 : bytes -> bytes) (c : config) (lo : slist) (srcs : list spending)
         (dest : path) (w0 : world),
  ~ temp_name (p_name dest) -> sources_ok w0 lo srcs ->
  forall arc, archive_of L md5 w0 c lo srcs arc -> w_fault w0 = false ->
  (exists n, temp_name n /\ w_files w0 (mkPath (p_dir dest) n) = None) ->
  (exists w, steps (io_build L md5 c lo srcs dest, w0) (Ret (Ok tt), w) /\ w_fault w = false) /\
  forall r w, steps (io_build L md5 c lo srcs dest, w0) (Ret r, w) -> w_fault w = false -> r = Ok tt.
Proof. exact succeeds. Qed.
Print Assumptions C24_succeeds.

(** C24: no build goes on forever. *)
Theorem C24_ends :
  forall (L : codecs) (md5 : bytes -> bytes) (c : config) (lo : slist) (srcs : list spending)
         (dest : path) (w : world),
  Acc (fun s' s => step s s') (io_build L md5 c lo srcs dest, w).
Proof. intros. apply runs_end. Qed.
Print Assumptions C24_ends.

(** A destination that holds something, a file given by its path, one given by
    its contents: both outcomes occur. *)
Definition build_dest : path := mkPath (lit "out") (lit "new.mpq").
Definition build_src : path := mkPath (lit "in") (lit "a.txt").
Definition build_world : world :=
  mkW (fun p => if path_eqb p build_dest then Some (lit "old")
                else if path_eqb p build_src then Some (lit "contents of a") else None) 0 false.
Definition build_srcs : list spending :=
  [mkSP (SPath build_src) (lit "a.txt") 2 true false 0; mkSP (SData (lit "b")) (lit "b.txt") 0 false false 0].

Example C24_example :
  (exists n, ~ temp_name (p_name build_dest) /\ sources_ok build_world SGenerate build_srcs /\
     temp_name n /\ w_files build_world (mkPath (p_dir build_dest) n) = None) /\
  (exists arc, archive_of toy no_md5 build_world default_config SGenerate build_srcs arc /\
     arc <> lit "old" /\
     exists w, steps (io_build toy no_md5 default_config SGenerate build_srcs build_dest, build_world)
                     (Ret (Ok tt), w) /\ w_files w build_dest = Some arc) /\
  exists w, steps (io_build toy no_md5 default_config SGenerate build_srcs build_dest, build_world)
                  (Ret (Err EIo), w) /\ w_files w build_dest = Some (lit "old").
Proof.
  assert (D : ~ temp_name (p_name build_dest)).
  { intros (r & E & _). vm_compute in E. discriminate E. }
  assert (S : sources_ok build_world SGenerate build_srcs).
  { split; [|discriminate]. intros s p Hin E. left. destruct Hin as [<-|[<-|[]]]; [|discriminate E].
    injection E as <-. vm_compute. discriminate. }
  assert (T : temp_name (lit ".tmpabcdef")).
  { exists (lit "abcdef"). split; [reflexivity|]. split; [reflexivity|].
    cbn [lit String.list_byte_of_string].
    repeat (apply Forall_cons; [right; right; vm_compute; split; discriminate|]). apply Forall_nil. }
  assert (F : w_files build_world (mkPath (p_dir build_dest) (lit ".tmpabcdef")) = None) by reflexivity.
  split; [exists (lit ".tmpabcdef"); auto|]. split.
  - pose (fs := [mkPF (lit "contents of a") (lit "a.txt") 2 true false 0; mkPF (lit "b") (lit "b.txt") 0 false false 0]).
    assert (C : contents build_world build_srcs fs).
    { repeat (constructor; [vm_compute; reflexivity|]). constructor. }
    destruct (build toy no_md5 default_config fs) as [arc|e|] eqn:E;
      [|vm_compute in E; discriminate E|vm_compute in E; discriminate E].
    assert (A : archive_of toy no_md5 build_world default_config SGenerate build_srcs arc)
      by (exists LGenerate, fs; split; [constructor|split; [exact C|exact E]]).
    exists arc. split; [exact A|]. split.
    { intros Ho. rewrite Ho in E. vm_compute in E. discriminate E. }
    destruct (proj1 (C24_succeeds toy no_md5 default_config SGenerate build_srcs build_dest build_world
                       D S arc A eq_refl (ex_intro _ _ (conj T F)))) as (w & St & _).
    exists w. split; [exact St|].
    destruct (proj1 (proj2 (C24_all_or_nothing _ _ _ _ _ _ _ D S _ _ St)) eq_refl) as (arc' & (o & fs' & Ho & C' & E') & Hw).
    inversion Ho; subst. rewrite (contents_fun _ _ _ _ C' C) in E'.
    assert (Q : Ok arc' = Ok arc) by (rewrite <- E; exact (eq_sym E')). injection Q as ->. exact Hw.
  - eexists. split; [|shelve]. eapply steps_next; [constructor; apply SFault|]. constructor.
    Unshelve. reflexivity.
Qed.
