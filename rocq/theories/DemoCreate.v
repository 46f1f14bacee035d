(** * A directory packed and unpacked *)
From Verif Require Import Bytes Crypto SpecNames NameFacts HashTable BlockTable Header SpecHeader Compress SpecTables
  SpecCompress ToyCodec CompressFacts Listfile SpecListfile ListfileFacts TextFacts Builder SpecBuilding BuildOk Attributes Archive SpecArchive
  DemoArchive DemoSuccess DemoCli Cli SpecCli CliFacts CliBuilt CliCreate SpecCreate CreateFacts.
Open Scope N_scope.

(** a.txt, notes.tmp, the directory sub with b.txt, and a link to another directory *)
Definition demo_tree : tree :=
  TCons (lit "a.txt") (NFile (Some (lit "hello")))
  (TCons (lit "notes.tmp") (NFile (Some (lit "junk")))
  (TCons (lit "sub") (NDir false true (TCons (lit "b.txt") (NFile (Some (repeat x41 600))) TNil))
  (TCons (lit "other") (NDir true true (TCons (lit "c.txt") (NFile None) TNil)) TNil))).
Definition demo_walk : list found := [mkFound [lit "a.txt"] (lit "hello"); mkFound [lit "sub"; lit "b.txt"] (repeat x41 600)].

Lemma ordinaryb s : negb (bytes_eqb s []) && forallb (fun b => negb (beqb b "/"%byte)) s = true -> ordinary s.
Proof.
  intros H. apply andb_true_iff in H. destruct H as [H1 H2]. split.
  - intros ->. discriminate H1.
  - intros X. rewrite forallb_forall in H2. specialize (H2 _ X). discriminate H2.
Qed.
Lemma demo_proper : proper demo_tree.
Proof.
  unfold demo_tree.
  repeat (first [apply proper_nil | apply proper_file | apply proper_dir]; try (apply ordinaryb; reflexivity)); intros n X;
  repeat match goal with H : has _ _ _ |- _ => inversion H; subst; clear H end.
Qed.
Lemma demo_added : added (lit "src") false true [lit ".tmp"] true demo_tree = Ok (map as_entry demo_walk).
Proof. vm_compute. reflexivity. Qed.
Lemma src_text : is_text (lit "src").
Proof. apply text_ascii. repeat constructor. Qed.

Definition demo_cfg (v : version) : config := mkCfg v 3 LGenerate ZLIB false false ZLIB.
Lemma demo_fine v p d : file_at false demo_tree p (Some d) -> wanted (lit "src") true [lit ".tmp"] p ->
  Forall component p /\ listable (with_slashes p) /\ ~ name_equiv (lit "(listfile)") (with_slashes p) /\
  reads_back toy (demo_cfg v) (c_default (demo_cfg v)) d.
Proof.
  intros Hf Hw. assert (Hi : In (mkFound p d) demo_walk) by (apply (in_walk _ _ _ _ _ _ demo_proper demo_added); auto).
  clear Hf Hw. split; [|split; [|split]].
  - destruct Hi as [[= <- <-]|[[= <- <-]|[]]]; repeat constructor; apply componentb; vm_compute; reflexivity.
  - apply (parsed_listable (listfile_content (map pf_name (create_files (demo_cfg v) demo_walk)))).
    destruct Hi as [[= <- <-]|[[= <- <-]|[]]]; vm_compute; auto 6.
  - intros H. apply name_equivb_complete in H. destruct Hi as [[= <- <-]|[[= <- <-]|[]]]; vm_compute in H; discriminate.
  - left. destruct Hi as [[= <- <-]|[[= <- <-]|[]]]; (split; [vm_compute; discriminate|]; split; [vm_compute; reflexivity|];
    right; left; vm_compute; auto).
Qed.
Lemma demo_packable v : Forall (packable toy (demo_cfg v)) (all_stored (demo_cfg v) (create_files (demo_cfg v) demo_walk)).
Proof. apply Forall_forall. intros x [<-|[<-|[<-|[]]]]; apply packable_open; try exact toy_willing; cbn; auto. Qed.
Lemma demo_distinct v : all_distinct (all_names (demo_cfg v) (create_files (demo_cfg v) demo_walk)).
Proof.
  intros l1 x l2 y l3 E [H _]. apply (name_equiv_hash _ _ HT_NAME_A) in H. revert H.
  destruct l1 as [|a [|b [|d l1]]]; cbn in E.
  - injection E as <- E. destruct l2 as [|a [|b l2]]; cbn in E.
    + injection E as <- _. vm_compute. discriminate.
    + injection E as _ <- _. vm_compute. discriminate.
    + exfalso. injection E as _ _ E. destruct l2; discriminate E.
  - injection E as _ <- E. destruct l2 as [|b l2]; cbn in E.
    + injection E as <- _. vm_compute. discriminate.
    + exfalso. injection E as _ E. destruct l2; discriminate E.
  - exfalso. injection E as _ _ _ E. destruct l2; discriminate E.
  - exfalso. injection E as _ _ _ E. destruct l1; discriminate E.
Qed.
Lemma demo_list v : reads_back toy (demo_cfg v) (c_default (demo_cfg v)) (listfile_content (map pf_name (create_files (demo_cfg v) demo_walk))).
Proof. left. split; [vm_compute; discriminate|]. split; [vm_compute; reflexivity|]. right; left; vm_compute; auto. Qed.
Lemma demo_no_collision v : no_collision (LISTFILE :: map pf_name (create_files (demo_cfg v) demo_walk)).
Proof. apply no_collisionb_sound. vm_compute. reflexivity. Qed.
Lemma demo_apart v : hashes_apart ATTRIBUTES (LISTFILE :: map pf_name (create_files (demo_cfg v) demo_walk)).
Proof. apply hashes_apartb_sound. vm_compute. reflexivity. Qed.

(** The documented way of leaving files out *)
Definition star_tree : tree := TCons (lit "notes.tmp") (NFile (Some (lit "junk"))) TNil.
Definition star_arc : bytes :=
  Eval vm_compute in match create_archive toy no_md5 cli_cfg (lit "src/") false true [lit "*.tmp"; lit "*.log"] (SDir true star_tree) with
                     | Ok a => a | _ => [] end.
Lemma star_packs : create_archive toy no_md5 cli_cfg (lit "src/") false true [lit "*.tmp"; lit "*.log"] (SDir true star_tree) = Ok star_arc /\
  exists a, open_archive toy star_arc = Ok a /\ read_file toy a (lit "notes.tmp") = Ok (lit "junk").
Proof.
  split; [vm_compute; reflexivity|].
  destruct (open_archive toy star_arc) as [a| |] eqn:E; vm_compute in E; try discriminate E.
  exists a. split; [reflexivity|]. apply Ok_inj in E. subst a. vm_compute. reflexivity.
Qed.
Lemma star_proper : proper star_tree.
Proof. apply proper_file; [apply ordinaryb; reflexivity| |apply proper_nil]. intros n X. inversion X. Qed.
