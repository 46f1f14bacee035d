(** * When the generation of test data succeeds, and runs of it (C84). *)
From Coq Require Import Lia.
From Verif Require Import Bytes Cli SpecCli CliFacts TestArchives TestData SpecData DataFacts.
Open Scope N_scope.

Section Random.
Variable random : N -> bytes.

(** what leads to something named is a directory *)
Lemma ways fault cwd base c d d' r t l :
  orderly d -> generate_test_data random fault cwd base c d d' (Ok r) -> named_at cwd base c t -> below l t -> l <> t ->
  d' l = Some IDir.
Proof.
  intros O (x & R & E) T B Ne. destruct x as [u| |]; try discriminate.
  assert (U := druns_value _ _ _ _ _ R). cbn in U. subst u. apply druns_chain in R. rewrite data_calls_eq in R.
  set (out := path_join base (dc_name c)) in *.
  inversion R as [|? ? ? d1 ? P C E1 E2 E3]. subst. clear R E.
  assert (A := later_adds random cwd out c).
  destruct T as [T|[(s & S & T)|(f & F & T)]]; apply leads_resolve in T; fold out in T; subst t.
  - apply (dir_made _ _ _ _ _ A C (or_introl eq_refl) B).
  - apply (dir_made _ _ _ (resolve cwd (path_join out s)) _ A C); [|exact B].
    right. apply in_or_app. left. apply in_map_iff. exists s. auto.
  - destruct (file_made _ _ _ _ _ A C (write_in_later random cwd out c f F)) as (b & X).
    destruct (mkdirs_above cwd (path_join out (df_path f))) as [|o os] eqn:M.
    + (* a path of no component *)
      exfalso. unfold mkdirs_above in M. destruct (parts (path_join out (df_path f))) eqn:Q; [|discriminate].
      assert (E : resolve cwd (path_join out (df_path f)) = [] \/ resolve cwd (path_join out (df_path f)) = resolve cwd out).
      { destruct (rooted (df_path f)) eqn:Rt.
        - left. unfold resolve, path_join in *. rewrite Rt in *. rewrite Q, Rt. reflexivity.
        - right. unfold resolve. rewrite Q, rooted_join by exact Rt. rewrite parts_join in Q by exact Rt.
          apply app_eq_nil in Q as (Q & _). rewrite Q. reflexivity. }
      destruct E as [E|E].
      * rewrite E in B. destruct B as (k & K). symmetry in K. apply app_eq_nil in K as (-> & _). congruence.
      * rewrite E in X. rewrite (dir_made _ _ _ _ _ A C (or_introl eq_refl) (below_refl _)) in X. discriminate.
    + assert (Io : In o (mkdirs_above cwd (path_join out (df_path f)))) by (rewrite M; left; reflexivity).
      assert (Il := above_in_later random cwd out c f o F Io).
      apply above_cases in Io as (m & -> & [Q|(z & Q)]).
      * exfalso. rewrite (dir_made _ _ _ _ _ A C Il) in X; [discriminate|]. rewrite Q. apply below_removelast.
      * rewrite Q in B, Ne. apply below_snoc in B as [B|B]; [contradiction|]. exact (dir_made _ _ _ _ _ A C Il B).
Qed.

Lemma perform_orderly o d d' : orderly d -> perform o d = Ok d' -> orderly d'.
Proof.
  intros O P l x K. destruct o as [p may|p|p c].
  - destruct (clear_does _ _ _ _ O P) as (N & S).
    destruct (on_way p (l ++ [x])) eqn:W; [apply on_way_below in W; rewrite N in K by exact W; congruence|].
    assert (W1 : ~ below p (l ++ [x])) by (intros Y; apply on_way_below in Y; congruence).
    rewrite S in K by exact W1. rewrite S; [exact (O _ _ K)|].
    intros Y. apply W1. eapply below_trans; [exact Y|]. exists [x]. reflexivity.
  - destruct (mkdirs_does _ _ _ P) as (_ & N & S).
    destruct (on_way l p) eqn:W; [apply on_way_below in W; exact (N _ W)|].
    assert (W1 : ~ below l p) by (intros Y; apply on_way_below in Y; congruence).
    rewrite S by exact W1. rewrite S in K; [exact (O _ _ K)|].
    intros Y. apply W1. eapply below_trans; [|exact Y]. exists [x]. reflexivity.
  - destruct (write_does _ _ _ _ P) as (b & _ & _ & R & D & _ & S).
    assert (L : d l = Some IDir).
    { destruct (same_place (l ++ [x]) p) eqn:W.
      - apply same_place_iff in W. subst p. rewrite removelast_last in R. exact R.
      - rewrite S in K; [exact (O _ _ K)|]. intros E. rewrite E, (proj2 (same_place_iff p p) eq_refl) in W. discriminate. }
    rewrite S; [exact L|]. intros ->. contradiction.
Qed.
Lemma chain_orderly ops d d' : chain ops d d' -> orderly d -> orderly d'.
Proof. intros C. induction C; intros O; [exact O|]. apply IHC. eapply perform_orderly; eassumption. Qed.
Lemma run_orderly fault cwd base c d d' r :
  orderly d -> generate_test_data random fault cwd base c d d' (Ok r) -> orderly d'.
Proof.
  intros O (x & R & E). destruct x as [u| |]; try discriminate.
  assert (U := druns_value _ _ _ _ _ R). cbn in U. subst u. apply druns_chain in R. exact (chain_orderly _ _ _ R O).
Qed.

Lemma contents_ok f : df_kb f * 1024 < 2 ^ 63 -> exists b, file_content random f = Ok b.
Proof.
  intros H. unfold file_content, generate_text_content, generate_binary_content, kilobytes.
  destruct (N.ltb_spec (df_kb f * 1024) (2 ^ 63)); [|lia]. destruct (df_type f); eexists; reflexivity.
Qed.

Lemma component_facts n : component n -> n <> [] /\ ~ In SLASH n /\ is_dot n = false /\ is_dotdot n = false.
Proof.
  intros (A & B & C & D & _). split; [exact A|]. split; [exact D|]. unfold is_dot, is_dotdot. split.
  - destruct (bytes_eqb n (lit ".")) eqn:E; [apply bytes_eqb_eq' in E; contradiction|reflexivity].
  - destruct (bytes_eqb n (lit "..")) eqn:E; [apply bytes_eqb_eq' in E; contradiction|reflexivity].
Qed.

Lemma succeeds cwd base c d o :
  orderly d -> out_at cwd base c o -> component (dc_name c) ->
  (forall l b, below l o -> d l <> Some (IFile b)) ->
  Forall never_up (dc_dirs c) -> Forall (fun f => never_up (df_path f)) (dc_files c) ->
  (forall f l, In f (dc_files c) -> file_at cwd base c f l ->
     (forall s t, In s (dc_dirs c) -> dir_at cwd base c s t -> ~ below l t) /\
     (forall g t, In g (dc_files c) -> file_at cwd base c g t -> below l t -> t = l)) ->
  Forall (fun f => df_kb f * 1024 < 2 ^ 63) (dc_files c) ->
  (exists d', generate_test_data random false cwd base c d d' (Ok (path_join base (dc_name c), map df_path (dc_files c)))) /\
  forall d' r, generate_test_data random false cwd base c d d' r -> r = Ok (path_join base (dc_name c), map df_path (dc_files c)).
Proof.
  intros O Ho N Free TD TF T K. apply leads_resolve in Ho. destruct (component_facts _ N) as (N1 & N2 & N3 & N4).
  destruct (split_removable base _ N1 N2 N3 N4) as (RM & _ & _).
  assert (TD' : Forall tame (dc_dirs c)) by (eapply Forall_impl; [|exact TD]; intros s; apply never_up_facts).
  assert (TF' : Forall (fun f => tame (df_path f)) (dc_files c))
    by (eapply Forall_impl; [|exact TF]; intros s; apply never_up_facts).
  apply (succeeds_lists random cwd base c d o); try assumption.
  - rewrite Forall_forall in TD', TF'. intros m w M W B. apply in_map_iff in W as (f & <- & F).
    assert (Tf := TF' f F). set (out := path_join base (dc_name c)) in *.
    assert (Lf : file_at cwd base c f (o ++ parts (df_path f))).
    { apply leads_resolve. fold out. rewrite tame_resolve, <- Ho by exact Tf. reflexivity. }
    assert (Z : (0 < length (parts (df_path f)))%nat) by (destruct Tf as (_ & Z & _); destruct (parts (df_path f)); [contradiction|cbn; lia]).
    destruct (T f _ F Lf) as (T1 & T2). destruct M as [<-|M].
    + apply below_length in B. rewrite app_length in B. lia.
    + apply in_app_or in M as [M|M]; apply in_map_iff in M as (y & <- & Y).
      * apply (T1 y (o ++ parts y) Y); [|exact B]. apply leads_resolve. fold out. rewrite tame_resolve, <- Ho by auto. reflexivity.
      * assert (Ty := TF' y Y). assert (E : o ++ parts (df_path y) = o ++ parts (df_path f)).
        { apply (T2 y _ Y).
          - apply leads_resolve. fold out. rewrite tame_resolve, <- Ho by exact Ty. reflexivity.
          - eapply below_trans; [exact B|]. destruct (below_removelast (parts (df_path y))) as (r & R).
            exists r. rewrite R at 1. rewrite app_assoc. reflexivity. }
        apply app_inv_head in E. rewrite E in B. apply below_length in B. rewrite !app_length in B.
        assert (L := app_removelast_last (l := parts (df_path f)) [] (proj1 (proj2 Tf))).
        apply (f_equal (@length bytes)) in L. rewrite app_length in L. cbn [length] in L. lia.
  - eapply Forall_impl; [|exact K]. intros f. apply contents_ok.
Qed.

(** ** The predefined configurations *)
Definition tame_b (p : bytes) : bool :=
  negb (rooted p) && match parts p with [] => false | _ => true end && forallb (fun x => negb (is_dotdot x)) (parts p).
Definition neat (c : dconfig) : bool :=
  forallb tame_b (dc_dirs c) && forallb (fun f => tame_b (df_path f)) (dc_files c) &&
  forallb (fun f => df_kb f * 1024 <? 2 ^ 63) (dc_files c) &&
  forallb (fun f => forallb (fun s => negb (on_way (parts (df_path f)) (parts s))) (dc_dirs c) &&
                    forallb (fun g => negb (on_way (parts (df_path f)) (removelast (parts (df_path g))))) (dc_files c)) (dc_files c) &&
  negb (bytes_eqb (dc_name c) []) && forallb (fun b => negb (beqb b SLASH)) (dc_name c) &&
  negb (is_dot (dc_name c)) && negb (is_dotdot (dc_name c)).
Lemma tame_b_ok p : tame_b p = true -> tame p.
Proof.
  unfold tame_b, tame. rewrite !Bool.andb_true_iff. intros ((A & B) & C). split; [destruct (rooted p); [discriminate|reflexivity]|].
  split; [destruct (parts p); discriminate|]. intros K. rewrite forallb_forall in C. apply C in K. discriminate.
Qed.
Lemma below_inv o a b : below (o ++ a) (o ++ b) -> below a b.
Proof. intros (r & E). rewrite <- app_assoc in E. apply app_inv_head in E. exists r. exact E. Qed.
Lemma neat_succeeds cwd base c d o :
  neat c = true -> orderly d -> out_at cwd base c o -> (forall l b, below l o -> d l <> Some (IFile b)) ->
  (exists d', generate_test_data random false cwd base c d d' (Ok (path_join base (dc_name c), map df_path (dc_files c)))) /\
  forall d' r, generate_test_data random false cwd base c d d' r -> r = Ok (path_join base (dc_name c), map df_path (dc_files c)).
Proof.
  unfold neat. rewrite !Bool.andb_true_iff, !forallb_forall. intros (((((((A & B) & K) & T) & N1) & N2) & N3) & N4) O Ho Free.
  apply leads_resolve in Ho.
  destruct (split_removable base (dc_name c)) as (RM & _ & _).
  { intros E. rewrite E in N1. discriminate. }
  { intros E. specialize (N2 _ E). unfold SLASH in N2. discriminate. }
  { destruct (is_dot _); [discriminate|reflexivity]. }
  { destruct (is_dotdot _); [discriminate|reflexivity]. }
  apply (succeeds_lists random cwd base c d o); try assumption.
  - apply Forall_forall. intros s S. apply tame_b_ok. auto.
  - apply Forall_forall. intros s S. apply tame_b_ok. apply B. exact S.
  - intros m w M W X. apply in_map_iff in W as (f & <- & F). specialize (T f F).
    rewrite Bool.andb_true_iff, !forallb_forall in T. destruct T as (T1 & T2). destruct M as [<-|M].
    + destruct (tame_b_ok _ (B f F)) as (_ & Z & _). apply below_length in X. rewrite app_length in X.
      destruct (parts (df_path f)); [contradiction|cbn in X; lia].
    + apply in_app_or in M as [M|M]; apply in_map_iff in M as (y & <- & Y); apply below_inv in X; apply on_way_below in X.
      * specialize (T1 y Y). rewrite X in T1. discriminate.
      * specialize (T2 y Y). rewrite X in T2. discriminate.
  - apply Forall_forall. intros f F. apply contents_ok. specialize (K f F). lia.
Qed.
Lemma all_neat c : In c all_data -> neat c = true.
Proof. intros H. repeat (destruct H as [<-|H]; [vm_compute; reflexivity|]). contradiction. Qed.
End Random.

(** ** Runs *)
(** a disk with a list of items *)
Definition with_items (items : list (place * item)) : disk := fun l =>
  match find (fun x => same_place (fst x) l) items with Some x => Some (snd x) | None => None end.

(** the name of a configuration is empty *)
Definition unnamed : dconfig := mkDC [] [] [mkDF (lit "a.txt") FEmpty 0].
Definition shelf : disk := with_items [([], IDir); ([lit "data"], IDir); ([lit "data"; lit "keep.txt"], IFile (lit "precious"))].
(** a file beside the directory *)
Definition climber : dconfig := mkDC (lit "set") [] [mkDF (lit "../keep.txt") FEmpty 0].
(** a file below a file *)
Definition clash : dconfig := mkDC (lit "set") [] [mkDF (lit "a") FEmpty 0; mkDF (lit "a/b") FEmpty 0].

Lemma shelf_orderly : orderly shelf.
Proof.
  intros l x. unfold shelf, with_items. cbn [find fst snd].
  destruct (same_place [] (l ++ [x])) eqn:A; [apply same_place_iff in A; destruct l; discriminate|].
  destruct (same_place [lit "data"] (l ++ [x])) eqn:B.
  { apply same_place_iff in B. change [lit "data"] with ([] ++ [lit "data"]) in B. apply app_inj_tail in B as (<- & _).
    intros _. vm_compute. reflexivity. }
  destruct (same_place [lit "data"; lit "keep.txt"] (l ++ [x])) eqn:C; [|congruence].
  apply same_place_iff in C. change [lit "data"; lit "keep.txt"] with ([lit "data"] ++ [lit "keep.txt"]) in C.
  apply app_inj_tail in C as (<- & _). intros _. vm_compute. reflexivity.
Qed.

Fixpoint perform_all (ops : list dcall) (d : disk) : res disk :=
  match ops with [] => Ok d | o :: r => d1 <- perform o d ;; perform_all r d1 end.
Lemma perform_all_runs f ops : forall d d', perform_all ops d = Ok d' -> druns f ops d d' (Ok tt).
Proof.
  induction ops as [|o r IH]; intros d d' H; cbn [perform_all] in H; [injection H as <-; constructor|].
  destruct (perform o d) as [d1| |] eqn:P; try discriminate. econstructor; [exact P|apply IH; exact H].
Qed.
Lemma run_at random cwd base c d l v :
  match perform_all (data_calls random cwd base c) d with Ok d' => Some (d' l) | _ => None end = Some v ->
  exists d' r, generate_test_data random false cwd base c d d' (Ok r) /\ d' l = v.
Proof.
  destruct (perform_all (data_calls random cwd base c) d) as [d'| |] eqn:P; try discriminate.
  intros E. injection E as E. exists d'. eexists. split; [|exact E].
  exists (Ok tt). split; [apply perform_all_runs; exact P|reflexivity].
Qed.
Lemma unnamed_run random : exists d' r,
  generate_test_data random false [] (lit "/data") unnamed shelf d' (Ok r) /\ d' [lit "data"; lit "keep.txt"] = None.
Proof. apply run_at. vm_compute. reflexivity. Qed.
Lemma climber_run random : exists d' r,
  generate_test_data random false [] (lit "/data") climber shelf d' (Ok r) /\ d' [lit "data"; lit "keep.txt"] = Some (IFile []).
Proof. apply run_at. vm_compute. reflexivity. Qed.
Lemma clash_fails random fault cwd base d d' r :
  orderly d -> ~ generate_test_data random fault cwd base clash d d' (Ok r).
Proof.
  intros O G. set (o := resolve cwd (path_join base (dc_name clash))).
  assert (Ho : out_at cwd base clash o) by (apply leads_resolve; reflexivity).
  assert (Ta : tame (lit "a")) by (apply tame_b_ok; reflexivity).
  assert (Tb : tame (lit "a/b")) by (apply tame_b_ok; reflexivity).
  assert (A : file_at cwd base clash (mkDF (lit "a") FEmpty 0) (o ++ [lit "a"])).
  { apply leads_resolve. cbn [df_path]. rewrite tame_resolve by exact Ta. reflexivity. }
  assert (B : file_at cwd base clash (mkDF (lit "a/b") FEmpty 0) (o ++ [lit "a"; lit "b"])).
  { apply leads_resolve. cbn [df_path]. rewrite tame_resolve by exact Tb. reflexivity. }
  assert (X : d' (o ++ [lit "a"]) = Some IDir).
  { apply (ways random fault cwd base clash d d' r (o ++ [lit "a"; lit "b"])); try assumption.
    - right. right. exists (mkDF (lit "a/b") FEmpty 0). split; [right; left; reflexivity|exact B].
    - exists [lit "b"]. rewrite <- app_assoc. reflexivity.
    - intros E. apply app_inv_head in E. discriminate. }
  destruct (generated random fault cwd base clash d d' r o O Ho G) as (_ & F & _).
  destruct (F [] _ [mkDF (lit "a/b") FEmpty 0] _ eq_refl A) as (b & Y & _); [|congruence].
  intros g [<-|[]] K. apply leads_resolve in K. apply leads_resolve in B. rewrite <- B in K.
  apply app_inv_head in K. discriminate.
Qed.

Lemma tame_never_up p : tame p -> never_up p.
Proof.
  intros (R & E & D). split; [|split].
  - intros K. apply rooted_iff in K. congruence.
  - intros K. apply follows_parts in K. rewrite <- walk_fold in K by (intros c Hc; apply (parts_last p c Hc)).
    rewrite walk_down in K by exact D. apply E. symmetry. exact K.
  - intros a b Ha Hb K. apply D. subst p.
    assert (X : In (lit "..") (parts (lit ".." ++ b))).
    { destruct Hb as [-> |(r & ->)]; [rewrite app_nil_r; left; reflexivity|].
      change ("/"%byte :: r) with (SLASH :: r). rewrite parts_app. left. reflexivity. }
    destruct Ha as [-> |(r & ->)]; [exact X|]. rewrite <- app_assoc. cbn [app].
    change ("/"%byte :: ?z) with (SLASH :: z). rewrite parts_app. apply in_or_app. right. exact X.
Qed.
Lemma unnamed_never_up : never_up (lit "a.txt").
Proof. apply tame_never_up, tame_b_ok. reflexivity. Qed.
Lemma clash_never_up : Forall (fun f => never_up (df_path f)) (dc_files clash).
Proof. repeat constructor; apply tame_never_up, tame_b_ok; reflexivity. Qed.

Fixpoint distinct_b (l : list bytes) : bool :=
  match l with [] => true | x :: r => negb (existsb (bytes_eqb x) r) && distinct_b r end.
Lemma distinct_b_ok l : distinct_b l = true -> NoDup l.
Proof.
  induction l as [|x r IH]; [constructor|]. cbn [distinct_b]. rewrite Bool.andb_true_iff. intros (A & B).
  constructor; [|auto]. intros K. assert (E : existsb (bytes_eqb x) r = true).
  { apply existsb_exists. exists x. split; [exact K|]. apply bytes_eqb_eq'. reflexivity. }
  rewrite E in A. discriminate.
Qed.
Lemma predefined_distinct : NoDup (map dc_name all_data) /\ Forall (fun c => NoDup (map df_path (dc_files c))) all_data.
Proof.
  split; [apply distinct_b_ok; vm_compute; reflexivity|].
  repeat (apply Forall_cons; [apply distinct_b_ok; vm_compute; reflexivity|]). apply Forall_nil.
Qed.

Lemma run_check random cwd base c d (chk : disk -> bool) :
  match perform_all (data_calls random cwd base c) d with Ok d' => chk d' | _ => false end = true ->
  exists d' r, generate_test_data random false cwd base c d d' (Ok r) /\ chk d' = true.
Proof.
  destruct (perform_all (data_calls random cwd base c) d) as [d'| |] eqn:P; try discriminate.
  intros E. exists d'. eexists. split; [|exact E].
  exists (Ok tt). split; [apply perform_all_runs; exact P|reflexivity].
Qed.
Definition simple_check (d' : disk) : bool :=
  match d' [lit "data"; lit "simple"; lit "config.ini"], d' [lit "data"; lit "keep.txt"] with
  | Some (IFile b), Some (IFile k) => (lenN b =? 1024) && bytes_eqb (firstn 9 b) (lit "The quick") &&
      bytes_eqb (firstn 9 (skipn 45 b)) (lit "The quick") && bytes_eqb k (lit "precious")
  | _, _ => false
  end.
Lemma simple_run : forall random, exists d' r,
  generate_test_data random false [] (lit "/data") dc_simple shelf d' (Ok r) /\
  file_at [] (lit "/data") dc_simple (mkDF (lit "config.ini") FText 1) [lit "data"; lit "simple"; lit "config.ini"] /\
  (exists b, d' [lit "data"; lit "simple"; lit "config.ini"] = Some (IFile b) /\ lenN b = 1024 /\
     firstn 9 b = lit "The quick" /\ firstn 9 (skipn 45 b) = lit "The quick") /\
  d' [lit "data"; lit "keep.txt"] = Some (IFile (lit "precious")).
Proof.
  intros random. destruct (run_check random [] (lit "/data") dc_simple shelf simple_check) as (d' & r & G & C);
    [vm_compute; reflexivity|].
  exists d', r. split; [exact G|]. split; [apply leads_loc; vm_compute; reflexivity|]. unfold simple_check in C.
  destruct (d' [lit "data"; lit "simple"; lit "config.ini"]) as [[|b]|]; try discriminate.
  destruct (d' [lit "data"; lit "keep.txt"]) as [[|k]|]; try discriminate.
  rewrite !Bool.andb_true_iff, !bytes_eqb_eq', N.eqb_eq in C. destruct C as (((C1 & C2) & C3) & ->).
  split; [|reflexivity]. exists b. auto.
Qed.

Lemma elsewhere_refuted : exists (c : dconfig) (cwd : place) (base : bytes) (d : disk) (o l : place),
  component (dc_name c) /\ orderly d /\ out_at cwd base c o /\ ~ below o l /\ d l = Some (IFile (lit "precious")) /\
  forall random, exists d' r, generate_test_data random false cwd base c d d' (Ok r) /\ d' l = Some (IFile []).
Proof.
  exists climber, [], (lit "/data"), shelf, [lit "data"; lit "set"], [lit "data"; lit "keep.txt"].
  split; [repeat split; try discriminate; intros K; cbn in K; intuition discriminate|].
  split; [exact shelf_orderly|]. split; [apply leads_loc; vm_compute; reflexivity|].
  split; [intros (r & E); discriminate|]. split; [vm_compute; reflexivity|exact climber_run].
Qed.

Lemma base_kept_refuted : exists (c : dconfig) (cwd : place) (base : bytes) (d : disk) (o l : place),
  dc_name c = [] /\ Forall (fun f => never_up (df_path f)) (dc_files c) /\ orderly d /\ leads cwd base o /\ below o l /\
  d l = Some (IFile (lit "precious")) /\ (forall f, In f (dc_files c) -> ~ file_at cwd base c f l) /\
  forall random, exists d' r, generate_test_data random false cwd base c d d' (Ok r) /\ d' l = None.
Proof.
  exists unnamed, [], (lit "/data"), shelf, [lit "data"], [lit "data"; lit "keep.txt"].
  split; [reflexivity|]. split; [constructor; [exact unnamed_never_up|constructor]|].
  split; [exact shelf_orderly|]. split; [apply leads_loc; vm_compute; reflexivity|].
  split; [exists [lit "keep.txt"]; reflexivity|]. split; [vm_compute; reflexivity|]. split; [|exact unnamed_run].
  intros f [<-|[]] K. apply leads_loc in K. vm_compute in K. discriminate.
Qed.

Lemma succeeds_refuted : exists c : dconfig,
  component (dc_name c) /\ Forall (fun f => never_up (df_path f)) (dc_files c) /\
  forall random fault cwd base d d' r, orderly d -> ~ generate_test_data random fault cwd base c d d' (Ok r).
Proof.
  exists clash. split; [repeat split; try discriminate; intros K; cbn in K; intuition discriminate|].
  split; [exact clash_never_up|exact clash_fails].
Qed.

Lemma predefined_sizes :
  map (fun c => (dc_name c, lenN (dc_dirs c), lenN (dc_files c), total_kb FText c, total_kb FBinary c)) all_data =
  [(lit "simple", 0, 3, 8, 0); (lit "game_assets", 4, 8, 15, 2016); (lit "nested", 0, 4, 4, 10);
   (lit "mixed_sizes", 0, 5, 5, 1125); (lit "special_names", 0, 4, 4, 5)].
Proof. vm_compute. reflexivity. Qed.
