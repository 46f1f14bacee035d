(** * Proofs about generated test data (C84). *)
From Coq Require Import Lia.
From Verif Require Import Bytes Cli SpecCli CliFacts TestArchives TestFacts TestData SpecData.
Open Scope N_scope.

Lemma on_way_iff a : forall b, on_way a b = true <-> exists r, b = a ++ r.
Proof.
  induction a as [|x a IH]; intros [|y b]; cbn [on_way app].
  - split; [intros _; exists []; reflexivity|reflexivity].
  - split; [intros _; exists (y :: b); reflexivity|reflexivity].
  - split; [discriminate|intros (r & E); discriminate].
  - rewrite Bool.andb_true_iff, bytes_eqb_eq', IH. split.
    + intros (-> & r & ->). exists r. reflexivity.
    + intros (r & E). injection E as -> ->. split; [reflexivity|exists r; reflexivity].
Qed.
Lemma on_way_below a b : on_way a b = true <-> below a b.
Proof. apply on_way_iff. Qed.
Lemma below_refl a : below a a.
Proof. exists []. rewrite app_nil_r. reflexivity. Qed.
Lemma below_trans a b c : below a b -> below b c -> below a c.
Proof. intros (r & ->) (s & ->). exists (r ++ s). rewrite app_assoc. reflexivity. Qed.
Lemma below_length a b : below a b -> (length a <= length b)%nat.
Proof. intros (r & ->). rewrite app_length. lia. Qed.
Lemma below_anti a b : below a b -> below b a -> a = b.
Proof.
  intros (r & ->) H. apply below_length in H. rewrite app_length in H. destruct r; [|cbn in H; lia].
  rewrite app_nil_r. reflexivity.
Qed.
Lemma same_place_iff a b : same_place a b = true <-> a = b.
Proof.
  unfold same_place. rewrite Bool.andb_true_iff, !on_way_below. split.
  - intros (H & K). apply below_anti; assumption.
  - intros ->. split; apply below_refl.
Qed.
(** two places on the way to a third *)
Lemma below_total a b c : below a c -> below b c -> below a b \/ below b a.
Proof.
  revert b c. induction a as [|x a IH]; intros b c H K.
  - left. exists b. reflexivity.
  - destruct b as [|y b]; [right; exists (x :: a); reflexivity|].
    destruct H as (r & ->). destruct K as (s & E). cbn [app] in E. injection E as -> E.
    destruct (IH b (a ++ r)) as [(t & ->)|(t & ->)]; [exists r; reflexivity|exists s; exact E| |].
    + left. exists t. reflexivity.
    + right. exists t. reflexivity.
Qed.
Lemma below_snoc a p x : below a (p ++ [x]) -> a = p ++ [x] \/ below a p.
Proof.
  intros (r & E). destruct (rev r) as [|y t] eqn:R.
  - assert (r = []) as -> by (rewrite <- (rev_involutive r), R; reflexivity). left. rewrite app_nil_r in E. congruence.
  - assert (Hr : r = rev t ++ [y]) by (rewrite <- (rev_involutive r), R; reflexivity). subst r.
    rewrite app_assoc in E. apply app_inj_tail in E as (E & _). right. exists (rev t). exact E.
Qed.
Lemma below_removelast p : below (removelast p) p.
Proof.
  destruct p as [|x p]; [exists []; reflexivity|].
  exists [last (x :: p) []]. apply app_removelast_last. discriminate.
Qed.

Lemma walk_fold cs : forall l, (forall c, In c cs -> is_dot c = false) -> walk l cs = fold_left enter cs l.
Proof.
  induction cs as [|c cs IH]; intros l H; [reflexivity|]. cbn [walk fold_left].
  rewrite IH by (intros x Hx; apply H; right; exact Hx). f_equal. unfold enter.
  assert (E := H c (or_introl eq_refl)). unfold is_dot in E. rewrite E. reflexivity.
Qed.
Lemma resolve_loc cwd p : resolve cwd p = loc cwd p.
Proof.
  unfold resolve, loc. apply walk_fold. intros c Hc. apply (parts_last p c Hc).
Qed.
Lemma leads_resolve cwd p l : leads cwd p l <-> l = resolve cwd p.
Proof. rewrite resolve_loc. apply leads_loc. Qed.
Lemma walk_app a : forall l b, walk l (a ++ b) = walk (walk l a) b.
Proof. induction a as [|c a IH]; intros l b; [reflexivity|]. cbn [app walk]. apply IH. Qed.

(** the place of a path and that of its parent *)
Lemma above_cases cwd p o : In o (mkdirs_above cwd p) ->
  exists m, o = DMkdirs m /\ (resolve cwd p = removelast m \/ exists x, resolve cwd p = m ++ [x]).
Proof.
  unfold mkdirs_above, resolve. destruct (parts p) as [|c cs] eqn:E; [intros []|].
  intros [<-|[]]. eexists. split; [reflexivity|].
  assert (R := app_removelast_last (l := c :: cs) [] ltac:(discriminate)).
  set (i := removelast (c :: cs)) in *. rewrite R, walk_app. cbn [walk].
  destruct (is_dotdot _); [left; reflexivity|right; eexists; reflexivity].
Qed.

Lemma blocked_iff d p : forall done, blocked d done p = false <->
  forall r s, p = r ++ s -> forall b, d (done ++ r) <> Some (IFile b).
Proof.
  induction p as [|x p IH]; intros done; cbn [blocked].
  - split.
    + intros H r s E b. symmetry in E. apply app_eq_nil in E as (-> & ->). rewrite app_nil_r.
      intros K. rewrite K in H. discriminate.
    + intros H. specialize (H [] [] eq_refl). rewrite app_nil_r in H. destruct (d done) as [[|b]|]; try reflexivity.
      exfalso. exact (H b eq_refl).
  - split.
    + intros H r s E b. destruct (d done) as [[|b']|] eqn:D; try discriminate;
        (destruct r as [|y r]; [rewrite app_nil_r, D; discriminate|];
         cbn [app] in E; injection E as <- E; rewrite IH in H;
         specialize (H r s E b); rewrite <- app_assoc in H; exact H).
    + intros H. assert (K : forall b, d done <> Some (IFile b)).
      { intros b. specialize (H [] (x :: p) eq_refl b). rewrite app_nil_r in H. exact H. }
      assert (B : blocked d (done ++ [x]) p = false).
      { apply IH. intros r s E b. rewrite <- app_assoc. apply (H (x :: r) s). cbn [app]. congruence. }
      destruct (d done) as [[|b]|]; [exact B|exfalso; exact (K b eq_refl)|exact B].
Qed.
Lemma blocked_no d p : blocked d [] p = false <-> forall l b, below l p -> d l <> Some (IFile b).
Proof.
  rewrite blocked_iff. split.
  - intros H l b (r & ->). exact (H l r eq_refl b).
  - intros H r s -> b. apply H. exists s. reflexivity.
Qed.

(** what each call does *)
Lemma mkdirs_does p d d' : perform (DMkdirs p) d = Ok d' ->
  (forall l b, below l p -> d l <> Some (IFile b)) /\
  (forall l, below l p -> d' l = Some IDir) /\ (forall l, ~ below l p -> d' l = d l).
Proof.
  cbn [perform]. destruct (blocked d [] p) eqn:B; [discriminate|]. intros E. injection E as <-.
  split; [apply blocked_no; exact B|]. split; intros l H.
  - apply on_way_below in H. rewrite H. reflexivity.
  - destruct (on_way l p) eqn:W; [apply on_way_below in W; contradiction|reflexivity].
Qed.
Lemma write_does p c d d' : perform (DWrite p c) d = Ok d' ->
  exists b, c = Ok b /\ p <> [] /\ d (removelast p) = Some IDir /\ d p <> Some IDir /\
  d' p = Some (IFile b) /\ (forall l, l <> p -> d' l = d l).
Proof.
  cbn [perform]. destruct c as [b| |]; try discriminate. intros H. exists b. split; [reflexivity|].
  destruct p as [|x p]; [discriminate|].
  destruct (d (removelast (x :: p))) as [[|b1]|] eqn:R; try discriminate.
  destruct (d (x :: p)) as [[|b2]|] eqn:D; try discriminate; injection H as <-;
    (split; [discriminate|]; split; [reflexivity|]; split; [discriminate|]; split;
      [assert (S := proj2 (same_place_iff (x :: p) (x :: p)) eq_refl); rewrite S; reflexivity|];
      intros l Hl; destruct (same_place l (x :: p)) eqn:S; [apply same_place_iff in S; contradiction|reflexivity]).
Qed.
Lemma clear_does p may d d' : orderly d -> perform (DClear p may) d = Ok d' ->
  (forall l, below p l -> d' l = None) /\ (forall l, ~ below p l -> d' l = d l).
Proof.
  intros O. cbn [perform]. destruct (d p) as [[|b]|] eqn:D; try discriminate.
  - destruct may; [|discriminate]. intros E. injection E as <-. split; intros l H.
    + apply on_way_below in H. rewrite H. reflexivity.
    + destruct (on_way p l) eqn:W; [apply on_way_below in W; contradiction|reflexivity].
  - intros E. injection E as <-. split; [|reflexivity]. intros l (r & ->).
    induction r as [|x r IH] using rev_ind; [rewrite app_nil_r; exact D|].
    rewrite app_assoc. destruct (d ((p ++ r) ++ [x])) eqn:K; [|reflexivity].
    rewrite (O (p ++ r) x) in IH; [discriminate|congruence].
Qed.

(** ** Successful runs of calls that remove nothing *)
Definition adds (o : dcall) : Prop := match o with DClear _ _ => False | _ => True end.
Definition writes_at (l : place) (o : dcall) : Prop := match o with DWrite p _ => p = l | _ => False end.

Inductive chain : list dcall -> disk -> disk -> Prop :=
| chain_end d : chain [] d d
| chain_next o r d d1 d2 : perform o d = Ok d1 -> chain r d1 d2 -> chain (o :: r) d d2.
Lemma druns_chain f ops d d' : druns f ops d d' (Ok tt) -> chain ops d d'.
Proof.
  intros H. remember (Ok tt) as x eqn:E. induction H; try discriminate; [constructor|].
  econstructor; [eassumption|apply IHdruns; exact E].
Qed.
Lemma chain_app a : forall b d d', chain (a ++ b) d d' -> exists m, chain a d m /\ chain b m d'.
Proof.
  induction a as [|o a IH]; intros b d d' H; cbn [app] in H.
  - exists d. split; [constructor|exact H].
  - inversion H; subst. destruct (IH _ _ _ H5) as (m & A & B). exists m. split; [econstructor; eassumption|exact B].
Qed.

(** a file stays unless it is written again, a directory stays *)
Lemma file_stays ops : forall d d' l b, Forall adds ops -> chain ops d d' -> d l = Some (IFile b) ->
  Forall (fun o => ~ writes_at l o) ops -> d' l = Some (IFile b).
Proof.
  induction ops as [|o ops IH]; intros d d' l b A C D W; inversion C as [|? ? ? d1 ? P R]; subst; [exact D|].
  inversion A as [|? ? A1 A2]; subst. inversion W as [|? ? W1 W2]; subst. apply (IH d1 d' l b); try assumption.
  destruct o as [p may|p|p c]; [contradiction| |].
  - destruct (mkdirs_does _ _ _ P) as (N & _ & S). rewrite S; [exact D|]. intros K. exact (N _ _ K D).
  - destruct (write_does _ _ _ _ P) as (b' & _ & _ & _ & _ & _ & S). rewrite S; [exact D|].
    intros ->. apply W1. reflexivity.
Qed.
Lemma dir_stays ops : forall d d' l, Forall adds ops -> chain ops d d' -> d l = Some IDir -> d' l = Some IDir.
Proof.
  induction ops as [|o ops IH]; intros d d' l A C D; inversion C as [|? ? ? d1 ? P R]; subst; [exact D|].
  inversion A as [|? ? A1 A2]; subst. apply (IH d1 d' l); try assumption.
  destruct o as [p may|p|p c]; [contradiction| |].
  - destruct (mkdirs_does _ _ _ P) as (_ & N & S).
    destruct (on_way l p) eqn:W; [apply N; apply on_way_below; exact W|].
    rewrite S; [exact D|]. intros K. apply on_way_below in K. congruence.
  - destruct (write_does _ _ _ _ P) as (b' & _ & _ & _ & X & _ & S). rewrite S; [exact D|].
    intros ->. contradiction.
Qed.
(** where the files and directories come from *)
Lemma file_from ops : forall d d' l b, Forall adds ops -> chain ops d d' -> d' l = Some (IFile b) ->
  d l = Some (IFile b) \/ In (DWrite l (Ok b)) ops.
Proof.
  induction ops as [|o ops IH]; intros d d' l b A C D; inversion C as [|? ? ? d1 ? P R]; subst; [left; exact D|].
  inversion A as [|? ? A1 A2]; subst. destruct (IH _ _ _ _ A2 R D) as [K|K]; [|right; right; exact K].
  destruct o as [p may|p|p c]; [contradiction| |].
  - destruct (mkdirs_does _ _ _ P) as (_ & N & S).
    destruct (on_way l p) eqn:W; [apply on_way_below in W; rewrite (N _ W) in K; discriminate|].
    rewrite S in K; [left; exact K|]. intros X. apply on_way_below in X. congruence.
  - destruct (write_does _ _ _ _ P) as (b' & -> & _ & _ & X & Y & S).
    destruct (same_place l p) eqn:W.
    + apply same_place_iff in W. subst p. rewrite Y in K. injection K as ->. right. left. reflexivity.
    + rewrite S in K; [left; exact K|]. intros ->. rewrite (proj2 (same_place_iff p p) eq_refl) in W. discriminate.
Qed.
Lemma dir_from ops : forall d d' l, Forall adds ops -> chain ops d d' -> d' l = Some IDir ->
  d l = Some IDir \/ exists p, In (DMkdirs p) ops /\ below l p.
Proof.
  induction ops as [|o ops IH]; intros d d' l A C D; inversion C as [|? ? ? d1 ? P R]; subst; [left; exact D|].
  inversion A as [|? ? A1 A2]; subst. destruct (IH _ _ _ A2 R D) as [K|(p & K & B)]; [|right; exists p; split; [right; exact K|exact B]].
  destruct o as [p may|p|p c]; [contradiction| |].
  - destruct (mkdirs_does _ _ _ P) as (_ & N & S).
    destruct (on_way l p) eqn:W.
    + apply on_way_below in W. right. exists p. split; [left; reflexivity|exact W].
    + rewrite S in K; [left; exact K|]. intros X. apply on_way_below in X. congruence.
  - destruct (write_does _ _ _ _ P) as (b' & -> & _ & _ & X & Y & S).
    destruct (same_place l p) eqn:W.
    + apply same_place_iff in W. subst p. rewrite Y in K. discriminate.
    + rewrite S in K; [left; exact K|]. intros ->. rewrite (proj2 (same_place_iff p p) eq_refl) in W. discriminate.
Qed.
(** what is made is there *)
Lemma dir_made ops : forall d d' p l, Forall adds ops -> chain ops d d' -> In (DMkdirs p) ops -> below l p ->
  d' l = Some IDir.
Proof.
  induction ops as [|o ops IH]; intros d d' p l A C I B; [contradiction|].
  inversion C as [|? ? ? d1 ? P R]; subst; inversion A as [|? ? A1 A2]; subst.
  destruct I as [->|I].
  - destruct (mkdirs_does _ _ _ P) as (_ & N & _). apply (dir_stays ops d1); auto.
  - eapply IH; eassumption.
Qed.
Lemma file_kind ops : forall d d' l b, Forall adds ops -> chain ops d d' -> d l = Some (IFile b) ->
  exists b', d' l = Some (IFile b').
Proof.
  induction ops as [|o ops IH]; intros d d' l b A C D; inversion C as [|? ? ? d1 ? P R]; subst; [exists b; exact D|].
  inversion A as [|? ? A1 A2]; subst.
  assert (K : exists b', d1 l = Some (IFile b')).
  { destruct o as [p may|p|p c]; [contradiction| |].
    - destruct (mkdirs_does _ _ _ P) as (N & _ & S). exists b. rewrite S; [exact D|]. intros K. exact (N _ _ K D).
    - destruct (write_does _ _ _ _ P) as (b' & -> & _ & _ & X & Y & S). destruct (same_place l p) eqn:W.
      + apply same_place_iff in W. subst p. exists b'. exact Y.
      + exists b. rewrite S; [exact D|]. intros ->. rewrite (proj2 (same_place_iff p p) eq_refl) in W. discriminate. }
  destruct K as (b' & K). eapply IH; eassumption.
Qed.
Lemma file_made ops : forall d d' p c, Forall adds ops -> chain ops d d' -> In (DWrite p c) ops ->
  exists b, d' p = Some (IFile b).
Proof.
  induction ops as [|o ops IH]; intros d d' p c A C I; [contradiction|].
  inversion C as [|? ? ? d1 ? P R]; subst; inversion A as [|? ? A1 A2]; subst.
  destruct I as [->|I]; [|eapply IH; eassumption].
  destruct (write_does _ _ _ _ P) as (b & _ & _ & _ & _ & Y & _). eapply file_kind; eassumption.
Qed.

(** ** The calls of the generator *)
Section Random.
Variable random : N -> bytes.

Definition file_calls (cwd : list bytes) (out : bytes) (f : dfile) : list dcall :=
  mkdirs_above cwd (path_join out (df_path f)) ++ [DWrite (resolve cwd (path_join out (df_path f))) (file_content random f)].
Definition later_calls (cwd : list bytes) (out : bytes) (c : dconfig) : list dcall :=
  DMkdirs (resolve cwd out) ::
  map (fun s => DMkdirs (resolve cwd (path_join out s))) (dc_dirs c) ++ flat_map (file_calls cwd out) (dc_files c).
Lemma data_calls_eq cwd base c : let out := path_join base (dc_name c) in
  data_calls random cwd base c = DClear (resolve cwd out) (removable out) :: later_calls cwd out c.
Proof. reflexivity. Qed.

Lemma above_adds cwd p : Forall adds (mkdirs_above cwd p).
Proof. unfold mkdirs_above. destruct (parts p); repeat constructor. Qed.
Lemma files_add cwd out fs : Forall adds (flat_map (file_calls cwd out) fs).
Proof.
  induction fs as [|f fs IH]; [constructor|]. cbn [flat_map]. apply Forall_app. split; [|exact IH].
  apply Forall_app. split; [apply above_adds|repeat constructor].
Qed.
Lemma later_adds cwd out c : Forall adds (later_calls cwd out c).
Proof.
  constructor; [exact I|]. apply Forall_app. split; [|apply files_add].
  apply Forall_map. apply Forall_forall. intros s _. exact I.
Qed.

Lemma in_files cwd out fs o : In o (flat_map (file_calls cwd out) fs) ->
  exists f, In f fs /\ (In o (mkdirs_above cwd (path_join out (df_path f))) \/
    o = DWrite (resolve cwd (path_join out (df_path f))) (file_content random f)).
Proof.
  intros H. apply in_flat_map in H as (f & F & H). exists f. split; [exact F|].
  apply in_app_or in H as [H|[<-|[]]]; auto.
Qed.
Lemma in_later cwd out c o : In o (later_calls cwd out c) ->
  o = DMkdirs (resolve cwd out) \/
  (exists s, In s (dc_dirs c) /\ o = DMkdirs (resolve cwd (path_join out s))) \/
  (exists f, In f (dc_files c) /\ (In o (mkdirs_above cwd (path_join out (df_path f))) \/
    o = DWrite (resolve cwd (path_join out (df_path f))) (file_content random f))).
Proof.
  intros [<-|H]; [left; reflexivity|]. right. apply in_app_or in H as [H|H].
  - left. apply in_map_iff in H as (s & <- & S). exists s. auto.
  - right. apply in_files in H. exact H.
Qed.
Lemma write_in_later cwd out c f : In f (dc_files c) ->
  In (DWrite (resolve cwd (path_join out (df_path f))) (file_content random f)) (later_calls cwd out c).
Proof.
  intros F. right. apply in_or_app. right. apply in_flat_map. exists f. split; [exact F|].
  apply in_or_app. right. left. reflexivity.
Qed.
Lemma above_in_later cwd out c f o : In f (dc_files c) -> In o (mkdirs_above cwd (path_join out (df_path f))) ->
  In o (later_calls cwd out c).
Proof.
  intros F O. right. apply in_or_app. right. apply in_flat_map. exists f. split; [exact F|].
  apply in_or_app. left. exact O.
Qed.

Lemma kilobytes_ok n v : kilobytes n = Ok v -> v = 1024 * n.
Proof. unfold kilobytes. destruct (_ <? _); [|discriminate]. intros E. injection E as <-. lia. Qed.
Lemma content_ok f b : file_content random f = Ok b -> content_of random f b.
Proof.
  unfold file_content, content_of. destruct (df_type f).
  - unfold generate_text_content. destruct (kilobytes (df_kb f)) as [n| |] eqn:K; try discriminate. cbn.
    intros E. injection E as <-. apply kilobytes_ok in K. rewrite <- K.
    change 45 with (lenN FOX). apply fill_ok; [reflexivity|]. lia.
  - unfold generate_binary_content. destruct (kilobytes (df_kb f)) as [n| |] eqn:K; try discriminate. cbn.
    intros E. injection E as <-. apply kilobytes_ok in K. rewrite <- K. reflexivity.
  - intros E. injection E as <-. reflexivity.
Qed.

Lemma druns_value f ops d d' x : druns f ops d d' x -> match x with Ok u => u = tt | _ => True end.
Proof. intros H. induction H; auto. Qed.

Lemma generated fault cwd base c d d' r o :
  orderly d -> out_at cwd base c o -> generate_test_data random fault cwd base c d d' (Ok r) ->
  r = (path_join base (dc_name c), map df_path (dc_files c)) /\
  (forall pre f post l, dc_files c = pre ++ f :: post -> file_at cwd base c f l ->
     (forall g, In g post -> ~ file_at cwd base c g l) ->
     exists b, d' l = Some (IFile b) /\ content_of random f b) /\
  (forall s l, In s (dc_dirs c) -> dir_at cwd base c s l -> d' l = Some IDir) /\ d' o = Some IDir /\
  (forall l b, below o l -> d' l = Some (IFile b) ->
     exists f, In f (dc_files c) /\ file_at cwd base c f l /\ content_of random f b) /\
  (forall l, below o l -> d' l = Some IDir -> exists t, named_at cwd base c t /\ below l t).
Proof.
  intros O Ho (x & R & E). destruct x as [u| |]; try discriminate. injection E as ->.
  assert (U := druns_value _ _ _ _ _ R). cbn in U. subst u. apply druns_chain in R.
  rewrite data_calls_eq in R. apply leads_resolve in Ho. rewrite <- Ho in R.
  inversion R as [|? ? ? d1 ? P C E1 E2 E3]. subst. clear R.
  destruct (clear_does _ _ _ _ O P) as (N & _). clear P.
  set (out := path_join base (dc_name c)) in *.
  assert (A := later_adds cwd out c).
  split; [reflexivity|]. split; [|split; [|split; [|split]]].
  - intros pre f post l F L G. apply leads_resolve in L.
    unfold later_calls in C. rewrite F, flat_map_app in C. cbn [flat_map] in C.
    change (?a :: ?b ++ ?x ++ ?y ++ ?z) with ((a :: b) ++ x ++ y ++ z) in C.
    apply chain_app in C as (m1 & _ & C). apply chain_app in C as (m2 & _ & C). apply chain_app in C as (m3 & C & Z).
    unfold file_calls in C at 1. apply chain_app in C as (m4 & _ & C).
    inversion C as [|? ? ? m5 ? P C']; subst. inversion C'; subst.
    destruct (write_does _ _ _ _ P) as (b & B & _ & _ & _ & Y & _).
    exists b. split; [|apply content_ok; exact B].
    apply (file_stays _ _ _ _ b (files_add cwd out post) Z Y).
    apply Forall_forall. intros w W K. apply in_files in W as (g & Gg & [W| ->]).
    + apply above_cases in W as (m & -> & _). exact K.
    + apply (G g Gg). apply leads_resolve. cbn [writes_at] in K. symmetry. exact K.
  - intros s l S L. apply leads_resolve in L. subst l.
    apply (dir_made _ _ _ (resolve cwd (path_join out s)) _ A C); [|apply below_refl].
    right. apply in_or_app. left. apply in_map_iff. exists s. auto.
  - apply (dir_made _ _ _ (resolve cwd out) _ A C); [left; reflexivity|apply below_refl].
  - intros l b B L. destruct (file_from _ _ _ _ _ A C L) as [K|K]; [rewrite N in K by exact B; discriminate|].
    apply in_later in K as [K|[(s & _ & K)|(f & F & [K|K])]]; try discriminate.
    + apply above_cases in K as (m & K & _). discriminate.
    + injection K as -> K. exists f. split; [exact F|]. split; [apply leads_resolve; reflexivity|apply content_ok; auto].
  - intros l B L. destruct (dir_from _ _ _ _ A C L) as [K|(p & K & W)]; [rewrite N in K by exact B; discriminate|].
    assert (K0 := K). apply in_later in K as [K|[(s & S & K)|(f & F & [K|K])]]; try discriminate.
    + injection K as ->. exists (resolve cwd out). split; [left; apply leads_resolve; reflexivity|exact W].
    + injection K as ->. eexists. split; [right; left; exists s; split; [exact S|apply leads_resolve; reflexivity]|exact W].
    + apply above_cases in K as (m & E & Q). injection E as <-.
      exists (resolve cwd (path_join out (df_path f))).
      split; [right; right; exists f; split; [exact F|apply leads_resolve; reflexivity]|].
      destruct Q as [Q|(x & Q)].
      * exfalso. destruct (file_made _ _ _ _ _ A C (write_in_later cwd out c f F)) as (b & X).
        rewrite (dir_made _ _ _ _ _ A C K0) in X; [discriminate|]. rewrite Q. apply below_removelast.
      * rewrite Q. eapply below_trans; [exact W|]. exists [x]. reflexivity.
Qed.

(** ** What else changes *)
Definition within (o : place) (x : dcall) : Prop :=
  match x with DClear p _ => p = o | DMkdirs p => below o p \/ below p o | DWrite p _ => below o p end.
Definition kept (o : place) (d d' : disk) (l : place) : Prop :=
  d' l = d l \/ (d l = None /\ d' l = Some IDir /\ below l o).

Lemma kept_trans o d d1 d2 l : kept o d d1 l -> kept o d1 d2 l -> kept o d d2 l.
Proof.
  unfold kept. intros [A|(A & B & C)] [D|(D & E & F)].
  - left. congruence.
  - right. rewrite <- A. auto.
  - right. rewrite D. auto.
  - congruence.
Qed.
Lemma mkdirs_kept o p l : below o p \/ below p o -> ~ below o l -> below l p -> below l o.
Proof.
  intros [K|K] N B; [|eapply below_trans; eassumption].
  destruct (below_total _ _ _ B K) as [X|X]; [exact X|contradiction].
Qed.
Lemma perform_kept o x d d' l : within o x -> perform x d = Ok d' -> ~ below o l -> kept o d d' l.
Proof.
  intros W P N. destruct x as [p may|p|p c]; cbn [within] in W.
  - subst p. cbn [perform] in P. left. destruct (d o) as [[|b]|]; try discriminate.
    + destruct may; [|discriminate]. injection P as <-. destruct (on_way o l) eqn:Q; [apply on_way_below in Q; contradiction|reflexivity].
    + injection P as <-. reflexivity.
  - destruct (mkdirs_does _ _ _ P) as (B & M & S). destruct (on_way l p) eqn:Q.
    + apply on_way_below in Q. specialize (M l Q). destruct (d l) as [[|b]|] eqn:D.
      * left. congruence.
      * exfalso. exact (B l b Q D).
      * right. split; [exact D|]. split; [exact M|]. eapply mkdirs_kept; eassumption.
    + left. apply S. intros K. apply on_way_below in K. congruence.
  - destruct (write_does _ _ _ _ P) as (b & _ & _ & _ & _ & _ & S). left. apply S. intros ->. contradiction.
Qed.
Lemma spoils_kept o x d d' l : within o x -> spoils x d d' -> ~ below o l -> kept o d d' l.
Proof.
  intros W P N. destruct (P l) as [E|K]; [left; exact E|]. destruct x as [p may|p|p c]; cbn [within] in W.
  - subst p. destruct K as (K & _). apply on_way_below in K. contradiction.
  - destruct K as (K & A & B). apply on_way_below in K. right. split; [exact A|]. split; [exact B|].
    eapply mkdirs_kept; eassumption.
  - destruct K as (-> & _). contradiction.
Qed.
Lemma druns_kept f o ops d d' x l : Forall (within o) ops -> druns f ops d d' x -> ~ below o l -> kept o d d' l.
Proof.
  intros W R N. induction R as [d|a r d d1 d2 x P R IH|a r d d' e P S|a r d d' F P S|a r d P].
  - left. reflexivity.
  - inversion W; subst. eapply kept_trans; [eapply perform_kept; eassumption|apply IH; assumption].
  - inversion W; subst. eapply spoils_kept; eassumption.
  - inversion W; subst. eapply spoils_kept; eassumption.
  - left. reflexivity.
Qed.
Lemma elsewhere fault cwd base c d d' r o l :
  out_at cwd base c o -> (forall t, named_at cwd base c t -> below o t) ->
  generate_test_data random fault cwd base c d d' r -> ~ below o l ->
  d' l = d l \/ (d l = None /\ d' l = Some IDir /\ below l o).
Proof.
  intros Ho T (x & R & _) N. rewrite data_calls_eq in R. set (out := path_join base (dc_name c)) in *.
  assert (Eo := Ho). apply leads_resolve in Eo. fold out in Eo. rewrite <- Eo in R.
  apply (druns_kept fault o _ _ _ x l) in R; [exact R| |exact N].
  constructor; [reflexivity|]. apply Forall_forall. intros y Y.
  apply in_later in Y as [->|[(s & S & ->)|(f & F & Y)]]; cbn [within].
  - left. rewrite Eo. apply below_refl.
  - left. apply T. right. left. exists s. split; [exact S|apply leads_resolve; reflexivity].
  - assert (B : below o (resolve cwd (path_join out (df_path f)))).
    { apply T. right. right. exists f. split; [exact F|apply leads_resolve; reflexivity]. }
    destruct Y as [Y| ->]; [|exact B]. apply above_cases in Y as (m & -> & [Q|(z & Q)]); rewrite Q in B; cbn [within].
    + left. eapply below_trans; [exact B|apply below_removelast].
    + apply below_snoc in B as [->|B]; [right; exists [z]; reflexivity|left; exact B].
Qed.

(** ** Success *)
Lemma chain_total f ops : forall d d1, chain ops d d1 -> (forall d' x, druns f ops d d' x -> f = false -> x = Ok tt) /\ druns f ops d d1 (Ok tt).
Proof.
  intros d d1 C. induction C as [d|o r d m d2 P C (IH1 & IH2)].
  - split; [intros d' x H; inversion H; reflexivity|constructor].
  - split; [|econstructor; eassumption]. intros d' x H Ff.
    inversion H as [|? ? ? k ? ? P' R'|? ? ? ? ? P' S'|? ? ? ? F' P' S'|? ? ? P']; subst; try congruence.
    assert (k = m) as -> by congruence. eapply IH1; [eassumption|reflexivity].
Qed.

Definition open_ (MK : list place) (d : disk) : Prop := forall m l b, In m MK -> below l m -> d l <> Some (IFile b).
Definition vacant (WR : list place) (d : disk) : Prop := forall w, In w WR -> d w <> Some IDir.
Definition tidy_lists (MK WR : list place) : Prop := forall m w, In m MK -> In w WR -> ~ below w m.

Lemma step_mkdirs MK WR m d : tidy_lists MK WR -> In m MK -> open_ MK d -> vacant WR d ->
  exists d', perform (DMkdirs m) d = Ok d' /\ open_ MK d' /\ vacant WR d' /\ d' m = Some IDir.
Proof.
  intros T M O V. assert (B : blocked d [] m = false) by (apply blocked_no; intros l b; apply O; exact M).
  destruct (perform (DMkdirs m) d) as [d'| |] eqn:P; cbn [perform] in P; rewrite B in P; try discriminate.
  exists d'. split; [reflexivity|].
  assert (P' : perform (DMkdirs m) d = Ok d') by (cbn [perform]; rewrite B; exact P).
  destruct (mkdirs_does _ _ _ P') as (_ & D & S). split; [|split; [|apply D, below_refl]].
  - intros m' l b M' L K. destruct (on_way l m) eqn:W.
    + apply on_way_below in W. rewrite D in K by exact W. discriminate.
    + rewrite S in K; [exact (O _ _ _ M' L K)|]. intros X. apply on_way_below in X. congruence.
  - intros w Ww K. destruct (on_way w m) eqn:W.
    + apply on_way_below in W. exact (T _ _ M Ww W).
    + rewrite S in K; [exact (V _ Ww K)|]. intros X. apply on_way_below in X. congruence.
Qed.
Lemma step_write MK WR q x b d : tidy_lists MK WR -> In (q ++ [x]) WR -> open_ MK d -> vacant WR d -> d q = Some IDir ->
  exists d', perform (DWrite (q ++ [x]) (Ok b)) d = Ok d' /\ open_ MK d' /\ vacant WR d'.
Proof.
  intros T M O V Q. assert (X := V _ M).
  assert (E : exists d', perform (DWrite (q ++ [x]) (Ok b)) d = Ok d').
  { assert (Rl := removelast_last q x). cbn [perform].
    destruct (q ++ [x]) as [|y z] eqn:Z; [destruct q; discriminate|]. rewrite Rl, Q.
    destruct (d (y :: z)) as [[|b']|]; [contradiction| |]; eexists; reflexivity. }
  destruct E as (d' & E). exists d'. split; [exact E|].
  destruct (write_does _ _ _ _ E) as (b' & _ & _ & _ & _ & Y & S). split.
  - intros m l b2 Mm L K. destruct (same_place l (q ++ [x])) eqn:W.
    + apply same_place_iff in W. subst l. exact (T _ _ Mm M L).
    + rewrite S in K; [exact (O _ _ _ Mm L K)|]. intros ->. rewrite (proj2 (same_place_iff _ _) eq_refl) in W. discriminate.
  - intros w Ww K. destruct (same_place w (q ++ [x])) eqn:W.
    + apply same_place_iff in W. subst w. rewrite Y in K. discriminate.
    + rewrite S in K; [exact (V _ Ww K)|]. intros ->. rewrite (proj2 (same_place_iff _ _) eq_refl) in W. discriminate.
Qed.

(** a relative path of ordinary names *)
Definition tame (p : bytes) : Prop := rooted p = false /\ parts p <> [] /\ ~ In (lit "..") (parts p).
Lemma walk_down cs : ~ In (lit "..") cs -> forall l, walk l cs = l ++ cs.
Proof.
  induction cs as [|c cs IH]; intros H l; cbn [walk]; [rewrite app_nil_r; reflexivity|].
  destruct (is_dotdot c) eqn:D.
  - exfalso. apply H. left. apply bytes_eqb_eq'. exact D.
  - rewrite IH by (intros K; apply H; right; exact K). rewrite <- app_assoc. reflexivity.
Qed.
Lemma tame_resolve cwd out p : tame p -> resolve cwd (path_join out p) = resolve cwd out ++ parts p.
Proof.
  intros (R & _ & D). unfold resolve. rewrite rooted_join, parts_join, walk_app by exact R. apply walk_down. exact D.
Qed.
Lemma tame_above cwd out p : tame p ->
  mkdirs_above cwd (path_join out p) = [DMkdirs (resolve cwd out ++ removelast (parts p))].
Proof.
  intros (R & E & D). unfold mkdirs_above, resolve. rewrite rooted_join, parts_join by exact R.
  assert (Q := removelast_app (parts out) E).
  assert (W : ~ In (lit "..") (removelast (parts p))).
  { intros K. apply D. rewrite (app_removelast_last (l := parts p) [] E). apply in_or_app. left. exact K. }
  destruct (parts out ++ parts p) eqn:X; [apply app_eq_nil in X as (_ & X); contradiction|].
  rewrite Q, walk_app, (walk_down _ W). reflexivity.
Qed.

Definition mk_places (o : place) (c : dconfig) : list place :=
  o :: map (fun s => o ++ parts s) (dc_dirs c) ++ map (fun f => o ++ removelast (parts (df_path f))) (dc_files c).
Definition wr_places (o : place) (c : dconfig) : list place := map (fun f => o ++ parts (df_path f)) (dc_files c).

Lemma dirs_chain cwd out MK WR ds : tidy_lists MK WR -> Forall (fun s => In (resolve cwd (path_join out s)) MK) ds ->
  forall d, open_ MK d -> vacant WR d ->
  exists d', chain (map (fun s => DMkdirs (resolve cwd (path_join out s))) ds) d d' /\ open_ MK d' /\ vacant WR d'.
Proof.
  intros T F. induction F as [|s ds S F IH]; intros d O V; [exists d; split; [constructor|auto]|].
  destruct (step_mkdirs _ _ _ _ T S O V) as (m & P & O' & V' & _).
  destruct (IH m O' V') as (d' & C & H). exists d'. split; [|exact H]. cbn [map]. econstructor; eassumption.
Qed.
Lemma files_chain cwd out o MK WR fs : o = resolve cwd out -> tidy_lists MK WR ->
  Forall (fun f => tame (df_path f) /\ In (o ++ removelast (parts (df_path f))) MK /\ In (o ++ parts (df_path f)) WR /\
                   exists b, file_content random f = Ok b) fs ->
  forall d, open_ MK d -> vacant WR d ->
  exists d', chain (flat_map (file_calls cwd out) fs) d d'.
Proof.
  intros Ho T F. induction F as [|f fs (S & M & W & b & B) F IH]; intros d O V; [exists d; constructor|].
  destruct (step_mkdirs _ _ _ _ T M O V) as (m & P & O' & V' & D).
  assert (L : parts (df_path f) = removelast (parts (df_path f)) ++ [last (parts (df_path f)) []])
    by (apply app_removelast_last; apply S).
  assert (W' := W). rewrite L, app_assoc in W'.
  destruct (step_write _ _ _ _ b _ T W' O' V' D) as (m2 & P2 & O2 & V2).
  rewrite <- app_assoc, <- L in P2.
  destruct (IH m2 O2 V2) as (d' & C). exists d'. cbn [flat_map]. unfold file_calls at 1.
  rewrite tame_above, tame_resolve, B, <- Ho by exact S. cbn [app]. econstructor; [exact P|]. econstructor; [exact P2|exact C].
Qed.

Lemma split_removable base n : n <> [] -> ~ In SLASH n -> is_dot n = false -> is_dotdot n = false ->
  removable (path_join base n) = true /\ rooted n = false /\ parts n = [n].
Proof.
  intros Z S D DD. assert (R : rooted n = false).
  { destruct (rooted n) eqn:R; [|reflexivity]. apply rooted_iff in R as (r & ->). exfalso. apply S. left. reflexivity. }
  assert (K : forall x, removable (x ++ SLASH :: n) = true).
  { intros x. unfold removable. rewrite split_app, filter_app, rev_app_distr, (split_seg n S []). cbn [rev app filter].
    destruct (bytes_eqb n []) eqn:E; [apply bytes_eqb_eq' in E; contradiction|]. cbn [negb rev app]. rewrite D, DD. reflexivity. }
  split; [|split; [exact R|]].
  - unfold path_join. rewrite R. destruct (rev base) as [|c r] eqn:E.
    + unfold removable. rewrite (split_seg n S []). cbn [rev app filter].
      destruct (bytes_eqb n []) eqn:E'; [apply bytes_eqb_eq' in E'; contradiction|]. cbn [negb rev app]. rewrite D, DD. reflexivity.
    + destruct (beqb c SLASH) eqn:B; [|apply K]. apply beqb_iff in B. subst c.
      assert (base = rev r ++ [SLASH]) as -> by (rewrite <- (rev_involutive base), E; reflexivity).
      rewrite <- app_assoc. apply K.
  - unfold parts. rewrite (split_seg n S []). cbn [rev app filter].
    destruct (bytes_eqb n []) eqn:E'; [apply bytes_eqb_eq' in E'; contradiction|]. rewrite D. reflexivity.
Qed.

Lemma succeeds_lists cwd base c d o :
  orderly d -> o = resolve cwd (path_join base (dc_name c)) -> removable (path_join base (dc_name c)) = true ->
  (forall l b, below l o -> d l <> Some (IFile b)) ->
  Forall tame (dc_dirs c) -> Forall (fun f => tame (df_path f)) (dc_files c) ->
  tidy_lists (mk_places o c) (wr_places o c) ->
  Forall (fun f => exists b, file_content random f = Ok b) (dc_files c) ->
  (exists d', generate_test_data random false cwd base c d d' (Ok (path_join base (dc_name c), map df_path (dc_files c)))) /\
  forall d' r, generate_test_data random false cwd base c d d' r -> r = Ok (path_join base (dc_name c), map df_path (dc_files c)).
Proof.
  intros O Ho RM Free TD TF T G. set (out := path_join base (dc_name c)) in *.
  assert (X : exists d', chain (data_calls random cwd base c) d d').
  { rewrite data_calls_eq. fold out. rewrite <- Ho, RM.
    assert (P : exists d1, perform (DClear o true) d = Ok d1).
    { cbn [perform]. assert (K := fun b => Free o b (below_refl o)). destruct (d o) as [[|b]|]; [eexists; reflexivity| |eexists; reflexivity].
      exfalso. exact (K b eq_refl). }
    destruct P as (d1 & P). destruct (clear_does _ _ _ _ O P) as (N & S).
    assert (O1 : open_ (mk_places o c) d1).
    { intros m l b M L K. assert (B : below o m).
      { destruct M as [<-|M]; [apply below_refl|]. apply in_app_or in M as [M|M]; apply in_map_iff in M as (y & <- & _); eexists; reflexivity. }
      destruct (on_way o l) eqn:W; [apply on_way_below in W; rewrite N in K by exact W; discriminate|].
      assert (NB : ~ below o l) by (intros Y; apply on_way_below in Y; congruence).
      rewrite S in K by exact NB. destruct (below_total _ _ _ L B) as [Y|Y]; [exact (Free _ _ Y K)|contradiction]. }
    assert (V1 : vacant (wr_places o c) d1).
    { intros w Ww K. apply in_map_iff in Ww as (f & <- & _). rewrite N in K by (eexists; reflexivity). discriminate. }
    destruct (step_mkdirs _ _ o _ T (or_introl eq_refl) O1 V1) as (d2 & P2 & O2 & V2 & _).
    destruct (dirs_chain cwd out _ _ (dc_dirs c) T) with (d := d2) as (d3 & C3 & O3 & V3); try assumption.
    { apply Forall_forall. intros s Hs. rewrite tame_resolve by (rewrite Forall_forall in TD; auto). rewrite <- Ho.
      right. apply in_or_app. left. apply in_map_iff. exists s. auto. }
    destruct (files_chain cwd out o _ _ (dc_files c) Ho T) with (d := d3) as (d4 & C4); try assumption.
    { apply Forall_forall. intros f Hf. rewrite Forall_forall in TF, G. split; [auto|]. split; [|split; [|auto]].
      - right. apply in_or_app. right. apply in_map_iff. exists f. auto.
      - apply in_map_iff. exists f. auto. }
    exists d4. econstructor; [exact P|]. unfold later_calls. rewrite <- Ho. econstructor; [exact P2|].
    clear -C3 C4. induction C3; [exact C4|]. cbn [app]. econstructor; [eassumption|auto]. }
  destruct X as (d' & X). destruct (chain_total false _ _ _ X) as (U & V). split.
  - exists d', (Ok tt). split; [exact V|reflexivity].
  - intros d2 r (x & R & ->). rewrite (U _ _ R eq_refl). reflexivity.
Qed.
End Random.
