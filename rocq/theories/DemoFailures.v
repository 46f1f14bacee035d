(** * Concrete builds that fail. *)
From Verif Require Import Bytes SpecNames NameFacts Compress SpecTables ToyCodec Header Listfile Builder SpecArchive FileSystem BuildIo SpecBuild BuildIoFacts
  SpecBuilding BuildCalm SpecFailures FailureFacts DemoArchive DemoSuccess.
Open Scope N_scope.

Lemma toy_plain_enc : plain_encoders toy.
Proof.
  assert (E : forall d e, toy_enc d <> Err e) by (intros [|b t] e; cbn [toy_enc]; [|destruct (_ && _)]; discriminate).
  intros d e [H|[H|[H|H]]]; exfalso; exact (E _ _ H).
Qed.

Definition there : path := mkPath (lit "in") (lit "a.txt").
Definition gone : path := mkPath (lit "in") (lit "b.txt").
Definition target : path := mkPath (lit "out") (lit "new.mpq").
Definition disk : world := mkW (fun p => if path_eqb p there then Some (lit "contents of a") else None) 0 false.
(** A file that is there; one that is not; one that audio compression refuses; two with the name of the first *)
Definition s_good : spending := mkSP (SPath there) (lit "dir/a.txt") 2 true false 0.
Definition s_gone : spending := mkSP (SPath gone) (lit "b.txt") 2 false false 0.
Definition s_odd : spending := mkSP (SData (lit "abc")) (lit "c.wav") 64 false false 0.
Definition s_again : spending := mkSP (SData (lit "x")) (lit "DIR\A.TXT") 0 false false 0.
Definition plan (v : version) : config := mkCfg v 3 LNone 2 false false 0.

Lemma disk_ok lo srcs : (lo = SGenerate \/ lo = SExternal gone) -> incl srcs [s_good; s_gone; s_odd; s_again] -> sources_ok disk lo srcs.
Proof.
  intros Hlo Hi. assert (N : not_temp disk gone) by (right; intros (r & E & _); vm_compute in E; discriminate E). split.
  - intros s p Hin E. apply Hi in Hin. destruct Hin as [<-|[<-|[<-|[<-|[]]]]]; try discriminate E; injection E as <-.
    + left. vm_compute. discriminate.
    + exact N.
  - intros p E. destruct Hlo as [-> | ->]; [discriminate E|]. injection E as <-. exact N.
Qed.
Lemma disk_short s : In s [s_good; s_gone; s_odd; s_again] -> short_enough disk s.
Proof.
  intros [<-|[<-|[<-|[<-|[]]]]] d E He; try discriminate He. vm_compute in E. injection E as <-. vm_compute. discriminate.
Qed.
Lemma disk_runs v lo srcs : (lo = SGenerate \/ lo = SExternal gone) -> incl srcs [s_good; s_gone; s_odd; s_again] ->
  exists w, steps (io_build toy no_md5 (plan v) lo srcs target, disk) (Ret (whole toy disk no_md5 (plan v) lo srcs), w) /\ w_fault w = false.
Proof.
  intros Hlo Hi. pose proof (disk_ok lo srcs Hlo Hi) as Ho.
  destruct (quiet_run toy no_md5 (plan v) lo srcs target disk) as (r & w & S & F).
  - intros (r & E & _). vm_compute in E. discriminate E.
  - exact Ho.
  - reflexivity.
  - exists (lit ".tmpabcdef"). split; [|reflexivity].
    exists (lit "abcdef"). split; [reflexivity|]. split; [reflexivity|].
    cbn [lit String.list_byte_of_string].
    repeat (apply Forall_cons; [right; right; vm_compute; split; discriminate|]). apply Forall_nil.
  - exists w. split; [|exact F]. rewrite <- (order_build toy disk no_md5 (plan v) lo srcs target Ho eq_refl r w S F). exact S.
Qed.

Definition ends_with (v : version) (lo : slist) (srcs : list spending) (r : res unit) : Prop :=
  exists w, steps (io_build toy no_md5 (plan v) lo srcs target, disk) (Ret r, w) /\ w_fault w = false.
Lemma ends_by v lo srcs r : (lo = SGenerate \/ lo = SExternal gone) -> incl srcs [s_good; s_gone; s_odd; s_again] ->
  whole toy disk no_md5 (plan v) lo srcs = r -> ends_with v lo srcs r.
Proof. intros H1 H2 <-. exact (disk_runs v lo srcs H1 H2). Qed.

Ltac among := intros x Hx; cbn [In] in *; intuition congruence.
Ltac ends_so := apply ends_by; [auto|among|vm_compute; reflexivity].
Lemma failures v : v = V1 \/ v = V4 ->
  ends_with v SGenerate [s_good] (Ok tt) /\
  ends_with v SGenerate [s_good; s_gone; s_odd; s_again] (Err EIo) /\
  ends_with v SGenerate [s_good; s_odd; s_gone; s_again] (Err ECompression) /\
  ends_with v SGenerate [s_good; s_again] (Err EInvalidFormat) /\
  ends_with v (SExternal gone) [s_good] (Err EIo) /\
  ends_with v SGenerate [s_good; s_again; s_odd] (Err match v with V1 => EInvalidFormat | _ => ECompression end).
Proof.
  intros [-> | ->].
  - split; [ends_so|]. split; [ends_so|]. split; [ends_so|]. split; [ends_so|]. split; ends_so.
  - split; [ends_so|]. split; [ends_so|]. split; [ends_so|]. split; [ends_so|]. split; ends_so.
Qed.
Lemma failures_distinct : no_collision (lit "(listfile)" :: map sp_name [s_good; s_gone; s_odd; s_again]).
Proof. apply no_collisionb_sound. vm_compute. reflexivity. Qed.

(** What is asked of the files in versions 3 and 4 *)
Lemma failures_small : exists fs, contents disk [s_good; s_again; s_odd] fs /\ narrow (map pf_data fs).
Proof.
  exists [loaded s_good (lit "contents of a"); loaded s_again (lit "x"); loaded s_odd (lit "abc")]. split.
  - apply contents_cons; [reflexivity|]. apply contents_cons; [reflexivity|]. apply contents_cons; [reflexivity|]. apply contents_nil.
  - apply narrow_small. vm_compute. discriminate.
Qed.
