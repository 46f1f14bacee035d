(** * The files used in the examples about successful building. *)
From Verif Require Import Bytes Crypto SpecNames NameFacts Compress SpecCompress ToyCodec Header Listfile Builder
  SpecArchive SpecBuilding BuildOk.
Open Scope N_scope.

Definition two_files : list pending :=
  [mkPF (repeat x41 600) (lit "a.txt") ZLIB true true 0; mkPF (lit "hello") (lit "b.txt") BZIP2 false false 0].
Lemma toy_calm : calm_encoders toy.
Proof.
  assert (E : forall d, toy_enc d <> Panic) by (intros [|b t]; cbn [toy_enc]; [|destruct (_ && _)]; discriminate).
  unfold calm_encoders; auto.
Qed.
Lemma toy_willing : willing_encoders toy.
Proof.
  assert (E : forall d, exists r, toy_enc d = Ok r)
    by (intros [|b t]; cbn [toy_enc]; [|destruct (_ && _)]; eexists; reflexivity).
  unfold willing_encoders; auto.
Qed.
Lemma two_packable c : c_listfile c = LGenerate -> c_default c = ZLIB ->
  Forall (packable toy c) (all_stored c two_files).
Proof.
  intros Hl Hd. unfold all_stored. rewrite Hl, Hd.
  apply Forall_forall. intros x [<-|[<-|[<-|[]]]]; apply packable_open; try exact toy_willing; cbn; auto.
Qed.
Lemma two_distinct c : c_listfile c = LGenerate -> all_distinct (all_names c two_files).
Proof.
  intros Hl. unfold all_names. rewrite Hl. intros l1 x l2 y l3 E [H _].
  apply (name_equiv_hash _ _ HT_NAME_A) in H. revert H.
  destruct l1 as [|a [|b [|d l1]]]; cbn in E.
  - injection E as <- E. destruct l2 as [|a [|b l2]]; cbn in E.
    + injection E as <- _. vm_compute. discriminate.
    + injection E as _ <- _. vm_compute. discriminate.
    + exfalso. injection E as _ _ E. destruct l2; discriminate E.
  - injection E as _ <- E. destruct l2 as [|b l2]; cbn in E.
    + injection E as <- _. vm_compute. discriminate.
    + exfalso. injection E as _ E. destruct l2; discriminate E.
  - exfalso. injection E as _ _ _ E. destruct l2; discriminate E.
  - exfalso. injection E as _ _ _ E. destruct l1; discriminate E.
Qed.
