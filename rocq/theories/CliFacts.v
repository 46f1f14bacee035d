(** * Proofs about the command line tool. *)
From Verif Require Import Bytes Crypto NameFacts Header Compress Listfile Builder Attributes Archive Signature Info Cli SpecCli.
Open Scope N_scope.

Lemma beqb_iff a b : beqb a b = true <-> a = b.
Proof. unfold beqb. split; [apply Byte.byte_dec_bl|apply Byte.byte_dec_lb]. Qed.
Lemma beqb_no a b : a <> b -> beqb a b = false.
Proof. intros H. destruct (beqb a b) eqn:E; [apply beqb_iff in E; contradiction|reflexivity]. Qed.
Lemma bytes_eqb_eq' a : forall b, bytes_eqb a b = true <-> a = b.
Proof.
  induction a as [|x a IH]; intros [|y b]; cbn [bytes_eqb]; try (split; congruence).
  rewrite andb_true_iff, beqb_iff, IH. split; [intros [-> ->]; reflexivity|].
  intros H. injection H as -> ->. auto.
Qed.

Lemma split_app x : forall cur y, split_slash (x ++ SLASH :: y) cur = split_slash x cur ++ split_slash y [].
Proof.
  induction x as [|b x IH]; intros cur y; cbn [app split_slash].
  - change (beqb SLASH SLASH) with true. reflexivity.
  - destruct (beqb b SLASH); rewrite IH; reflexivity.
Qed.
Lemma split_seg seg : ~ In SLASH seg -> forall cur, split_slash seg cur = [rev cur ++ seg].
Proof.
  induction seg as [|b seg IH]; intros H cur; cbn [split_slash].
  - rewrite app_nil_r. reflexivity.
  - rewrite beqb_no by (intros ->; apply H; left; reflexivity).
    rewrite IH by (intros K; apply H; right; exact K). cbn [rev]. rewrite <- app_assoc. reflexivity.
Qed.

Lemma parts_app x y : parts (x ++ SLASH :: y) = parts x ++ parts y.
Proof. unfold parts. rewrite split_app, filter_app. reflexivity. Qed.
Lemma parts_slash p : parts (SLASH :: p) = parts p.
Proof. exact (parts_app [] p). Qed.
Lemma parts_seg seg : ~ In SLASH seg -> seg <> [] ->
  parts seg = if is_dot seg then [] else [seg].
Proof.
  intros H N. unfold parts. rewrite split_seg by exact H. cbn [rev app filter].
  destruct seg as [|b seg]; [contradiction|]. cbn [bytes_eqb negb andb].
  destruct (is_dot (b :: seg)); reflexivity.
Qed.

Lemma follows_parts l p l' : follows l p l' -> l' = fold_left enter (parts p) l.
Proof.
  induction 1 as [l|l p l' H IH|l seg p l' H1 H2 H3 H IH].
  - reflexivity.
  - change "/"%byte with SLASH. rewrite parts_slash. exact IH.
  - assert (E : parts (seg ++ p) = parts seg ++ parts p).
    { destruct H3 as [-> |(r & ->)].
      - rewrite app_nil_r. change (parts []) with (@nil bytes). rewrite app_nil_r. reflexivity.
      - change "/"%byte with SLASH. rewrite parts_app, parts_slash. reflexivity. }
    rewrite E, fold_left_app, (parts_seg seg H2 H1). subst l'.
    f_equal. unfold is_dot. destruct (bytes_eqb seg (lit ".")) eqn:D; cbn [fold_left].
    + unfold enter. rewrite D. reflexivity.
    + reflexivity.
Qed.

(** The first segment of a path. *)
Lemma first_seg p : exists seg r, p = seg ++ r /\ ~ In SLASH seg /\ (r = [] \/ exists q, r = SLASH :: q).
Proof.
  induction p as [|b p (seg & r & -> & H1 & H2)].
  - exists [], []. repeat split; auto.
  - destruct (beqb b SLASH) eqn:E.
    + apply beqb_iff in E. subst b. exists [], (SLASH :: seg ++ r). split; [reflexivity|]. split; [intros []|eauto].
    + exists (b :: seg), r. split; [reflexivity|]. split; [|exact H2].
      intros [K|K]; [|contradiction]. rewrite (proj2 (beqb_iff _ _) K) in E. discriminate.
Qed.

Lemma follows_fold n : forall p l, (length p <= n)%nat -> follows l p (fold_left enter (parts p) l).
Proof.
  induction n as [|n IH]; intros p l Hn.
  - destruct p; [constructor|cbn [length] in Hn; lia].
  - destruct (first_seg p) as (seg & r & -> & H1 & H2).
    destruct seg as [|b seg].
    + destruct H2 as [-> |(q & ->)]; [constructor|]. cbn [app] in *. rewrite parts_slash.
      apply follows_slash, IH. cbn [length] in Hn. lia.
    + assert (E : parts ((b :: seg) ++ r) = parts (b :: seg) ++ parts r).
      { destruct H2 as [-> |(q & ->)].
        - rewrite app_nil_r. change (parts []) with (@nil bytes). rewrite app_nil_r. reflexivity.
        - rewrite parts_app, parts_slash. reflexivity. }
      apply follows_seg; [discriminate|exact H1|exact H2|].
      rewrite E, fold_left_app.
      assert (F : fold_left enter (parts (b :: seg)) l = enter l (b :: seg)).
      { rewrite parts_seg by (try exact H1; discriminate). unfold is_dot.
        destruct (bytes_eqb (b :: seg) (lit ".")) eqn:D; cbn [fold_left]; [|reflexivity].
        unfold enter. rewrite D. reflexivity. }
      rewrite F. apply IH. rewrite app_length in Hn. cbn [length] in Hn. lia.
Qed.

(** Where a path leads, as a function. *)
Definition loc (cwd : place) (p : bytes) : place :=
  fold_left enter (parts p) (if rooted p then [] else cwd).

Lemma rooted_iff p : rooted p = true <-> exists r, p = "/"%byte :: r.
Proof.
  destruct p as [|b p]; cbn [rooted].
  - split; [discriminate|intros (r & E); discriminate].
  - rewrite beqb_iff. split; [intros ->; exists p; reflexivity|intros (r & E); injection E as -> _; reflexivity].
Qed.

Lemma leads_loc cwd p l : leads cwd p l <-> l = loc cwd p.
Proof.
  unfold leads, loc. destruct (rooted p) eqn:R.
  - apply rooted_iff in R. split.
    + intros [[_ H]|[H _]]; [exact (follows_parts _ _ _ H)|contradiction].
    + intros ->. left. split; [exact R|apply (follows_fold (length p)); lia].
  - assert (N : ~ exists r, p = "/"%byte :: r) by (intros K; apply rooted_iff in K; congruence). split.
    + intros [[H _]|[_ H]]; [contradiction|exact (follows_parts _ _ _ H)].
    + intros ->. right. split; [exact N|apply (follows_fold (length p)); lia].
Qed.

Lemma rooted_join d p : rooted p = false -> rooted (path_join d p) = rooted d.
Proof.
  intros H. unfold path_join. rewrite H. destruct d as [|b d]; [exact H|].
  destruct (rev (b :: d)) as [|c r] eqn:E.
  - apply (f_equal (@length byte)) in E. rewrite rev_length in E. discriminate.
  - destruct (beqb c SLASH); reflexivity.
Qed.

Lemma parts_join d p : rooted p = false -> parts (path_join d p) = parts d ++ parts p.
Proof.
  intros H. unfold path_join. rewrite H. destruct (rev d) as [|c r] eqn:E.
  - assert (d = []) as -> by (rewrite <- (rev_involutive d), E; reflexivity). reflexivity.
  - assert (Hd : d = rev r ++ [c]) by (rewrite <- (rev_involutive d), E; reflexivity).
    destruct (beqb c SLASH) eqn:B; [|apply parts_app].
    apply beqb_iff in B. subst c. rewrite Hd, <- app_assoc. cbn [app]. rewrite !parts_app.
    change (parts []) with (@nil bytes). rewrite app_nil_r. reflexivity.
Qed.

Lemma loc_join cwd d p : rooted p = false ->
  loc cwd (path_join d p) = fold_left enter (parts p) (loc cwd d).
Proof.
  intros H. unfold loc. rewrite rooted_join, parts_join, fold_left_app by exact H. reflexivity.
Qed.

Lemma parts_last p : forall c, In c (parts p) -> ~ In SLASH c /\ c <> [] /\ is_dot c = false.
Proof.
  intros c H. unfold parts in H. apply filter_In in H as [H1 H2].
  apply andb_prop in H2 as [H2 H3]. split; [|split].
  - revert H1. assert (G : forall p cur, ~ In SLASH cur -> forall c, In c (split_slash p cur) -> ~ In SLASH c).
    { clear. induction p as [|b p IH]; intros cur Hc c H; cbn [split_slash] in H.
      - destruct H as [<-|[]]. rewrite <- in_rev. exact Hc.
      - destruct (beqb b SLASH) eqn:E.
        + destruct H as [<-|H]; [rewrite <- in_rev; exact Hc|]. apply (IH [] (fun x => x) c H).
        + apply (IH (b :: cur)); [|exact H]. intros [K|K]; [|contradiction].
          rewrite (proj2 (beqb_iff _ _) K) in E. discriminate. }
    apply (G p []). intros [].
  - intros ->. discriminate H2.
  - destruct (is_dot c); [discriminate|reflexivity].
Qed.

Lemma file_name_facts n f : file_name n = Some f ->
  rooted f = false /\ parts f = [f] /\ forall l, enter l f = l ++ [f].
Proof.
  unfold file_name. destruct (rev (parts n)) as [|c r] eqn:E; [discriminate|].
  destruct (is_dotdot c) eqn:D; [discriminate|]. intros H. injection H as ->.
  assert (In f (parts n)) as Hin by (apply in_rev; rewrite E; left; reflexivity).
  destruct (parts_last n f Hin) as (H1 & H2 & H3).
  split; [|split].
  - destruct (rooted f) eqn:R; [|reflexivity]. apply rooted_iff in R as (q & ->). exfalso. apply H1. left. reflexivity.
  - rewrite parts_seg, H3 by assumption. reflexivity.
  - intros l. unfold enter. unfold is_dot in H3. unfold is_dotdot in D. rewrite H3, D. reflexivity.
Qed.

(** Names that never go up. *)
Lemma parts_in_dotdot p : In (lit "..") (parts p) ->
  exists a b, p = a ++ lit ".." ++ b /\ (a = [] \/ exists r, a = r ++ [SLASH]) /\ (b = [] \/ exists r, b = SLASH :: r).
Proof.
  remember (length p) as n eqn:En. assert (Hn : (length p <= n)%nat) by lia. clear En. revert p Hn.
  induction n as [|n IH]; intros p Hn H.
  - destruct p; [destruct H|cbn [length] in Hn; lia].
  - destruct (first_seg p) as (seg & r & -> & H1 & H2).
    destruct seg as [|b seg].
    + destruct H2 as [-> |(q & ->)]; [destruct H|]. cbn [app] in *. rewrite parts_slash in H.
      destruct (IH q ltac:(cbn [length] in Hn; lia) H) as (a & e & -> & Ha & He).
      exists (SLASH :: a), e. split; [reflexivity|]. split; [|exact He]. right.
      destruct Ha as [-> |(x & ->)]; [exists []; reflexivity|exists (SLASH :: x); reflexivity].
    + assert (E : parts ((b :: seg) ++ r) = parts (b :: seg) ++ parts r).
      { destruct H2 as [-> |(q & ->)].
        - rewrite app_nil_r. change (parts []) with (@nil bytes). rewrite app_nil_r. reflexivity.
        - rewrite parts_app, parts_slash. reflexivity. }
      rewrite E in H. apply in_app_or in H as [H|H].
      * rewrite parts_seg in H by (try exact H1; discriminate).
        destruct (is_dot (b :: seg)); [destruct H|]. destruct H as [H|[]].
        exists [], r. rewrite H. split; [reflexivity|]. split; [left; reflexivity|exact H2].
      * destruct H2 as [-> |(q & ->)]; [destruct H|].
        rewrite parts_slash in H.
        destruct (IH q ltac:(rewrite app_length in Hn; cbn [length] in Hn; lia) H) as (a & e & -> & Ha & He).
        exists ((b :: seg) ++ SLASH :: a), e. rewrite <- app_assoc. split; [reflexivity|]. split; [|exact He].
        right. destruct Ha as [-> |(x & ->)]; [exists (b :: seg); reflexivity|].
        exists ((b :: seg) ++ SLASH :: x). rewrite <- app_assoc. reflexivity.
Qed.

Lemma never_up_facts n : never_up n -> rooted n = false /\ parts n <> [] /\ ~ In (lit "..") (parts n).
Proof.
  intros (H1 & H0 & H2). split; [|split].
  - destruct (rooted n) eqn:R; [apply rooted_iff in R; contradiction|reflexivity].
  - intros E. apply H0. assert (F := follows_fold (length n) n [] (le_n _)). rewrite E in F. exact F.
  - intros H. destruct (parts_in_dotdot n H) as (a & b & E & Ha & Hb). exact (H2 a b Ha Hb E).
Qed.

Lemma enter_down cs : ~ In (lit "..") cs -> forall l, exists r, fold_left enter cs l = l ++ r.
Proof.
  induction cs as [|c cs IH]; intros H l; cbn [fold_left].
  - exists []. rewrite app_nil_r. reflexivity.
  - assert (E : exists r, enter l c = l ++ r).
    { unfold enter. destruct (bytes_eqb c (lit ".")); [exists []; rewrite app_nil_r; reflexivity|].
      destruct (bytes_eqb c (lit "..")) eqn:D.
      - apply bytes_eqb_eq' in D. exfalso. apply H. left. exact D.
      - exists [c]. reflexivity. }
    destruct E as [r1 E]. destruct (IH (fun K => H (or_intror K)) (enter l c)) as [r2 E2].
    exists (r1 ++ r2). rewrite E2, E, app_assoc. reflexivity.
Qed.

Section L.
Variable L : codecs.

(** Every recorded action belongs to a name whose target is computed thus. *)
Lemma extract_names_inv a dir pres names : forall acts r, extract_names L a dir pres names = (acts, r) ->
  forall x, In x acts -> exists n d p, In n names /\ read_file L a n = Ok d /\ In x (write_actions p d) /\
    (if pres then p = path_join dir n else exists f, file_name n = Some f /\ p = path_join dir f).
Proof.
  induction names as [|n t IH]; intros acts r H x Hx; cbn [extract_names] in H.
  - injection H as <- <-. destruct Hx.
  - destruct (read_file L a n) as [d|e|] eqn:R.
    + destruct pres.
      * destruct (extract_names L a dir true t) as [acts' r'] eqn:E. injection H as <- <-.
        apply in_app_or in Hx as [Hx|Hx].
        -- exists n, d, (path_join dir n). repeat split; auto. left; reflexivity.
        -- destruct (IH _ _ eq_refl x Hx) as (n' & d' & p & A & B). exists n', d', p. split; [right; exact A|exact B].
      * destruct (file_name n) as [f|] eqn:F.
        -- destruct (extract_names L a dir false t) as [acts' r'] eqn:E. injection H as <- <-.
           apply in_app_or in Hx as [Hx|Hx].
           ++ exists n, d, (path_join dir f). repeat split; eauto. left; reflexivity.
           ++ destruct (IH _ _ eq_refl x Hx) as (n' & d' & p & A & B). exists n', d', p. split; [right; exact A|exact B].
        -- injection H as <- <-. destruct Hx.
    + destruct (IH _ _ H x Hx) as (n' & d' & p & A & B). exists n', d', p. split; [right; exact A|exact B].
    + injection H as <- <-. destruct Hx.
Qed.

Lemma flat_actions cwd dir f d x l : rooted f = false -> parts f = [f] -> (forall l, enter l f = l ++ [f]) ->
  In x (write_actions (path_join dir f) d) -> touches cwd x l ->
  (exists p d, x = AWrite p d /\ l = loc cwd dir ++ [f]) \/ (exists r c, x = AMkdirs r c /\ l = loc cwd dir).
Proof.
  intros H1 H2 H3 Hx Ht. unfold write_actions in Hx. rewrite parts_join, H2, rooted_join in Hx by exact H1.
  destruct (parts dir ++ [f]) as [|z zs] eqn:E; [apply (f_equal (@length bytes)) in E; rewrite app_length in E; cbn [length] in E; lia|].
  rewrite <- E in Hx. clear z zs E. rewrite removelast_last in Hx. destruct Hx as [<-|[<-|[]]].
  - right. inversion Ht; subst. do 2 eexists. split; reflexivity.
  - left. inversion Ht; subst. do 2 eexists. split; [reflexivity|].
    match goal with [ K : leads _ _ _ |- _ ] => apply leads_loc in K; rewrite K end.
    rewrite loc_join, H2 by exact H1. cbn [fold_left]. apply H3.
Qed.

Lemma flat_inside cwd file dir acts r dl :
  extract L file None (Some dir) false = (acts, r) -> leads cwd dir dl ->
  forall x l, In x acts -> touches cwd x l ->
  (exists p d, x = AWrite p d /\ exists f, l = dl ++ [f]) \/ (exists b c, x = AMkdirs b c /\ l = dl).
Proof.
  intros H Hd x l Hx Ht. apply leads_loc in Hd. subst dl. unfold extract in H.
  destruct (open_archive L file) as [a|e|]; try (injection H as <- <-; destruct Hx).
  destruct (list_files L a) as [fs|e|]; try (injection H as <- <-; destruct Hx).
  destruct (extract_names_inv _ _ _ _ _ _ H x Hx) as (n & d & p & _ & _ & Hin & f & Hf & ->).
  destruct (file_name_facts n f Hf) as (H1 & H2 & H3).
  destruct (flat_actions cwd dir f d x l H1 H2 H3 Hin Ht) as [(p & d' & -> & ->)|K]; [left; eauto 6|right; exact K].
Qed.

Lemma tame_inside cwd file dir acts r dl :
  extract L file None (Some dir) true = (acts, r) -> leads cwd dir dl ->
  (forall a l e, open_archive L file = Ok a -> list_files L a = Ok l -> In e l -> never_up (fe_name e)) ->
  forall x l, In x acts -> touches cwd x l -> below dl l.
Proof.
  intros H Hd Hn x l Hx Ht. apply leads_loc in Hd. subst dl. unfold extract in H.
  destruct (open_archive L file) as [a|e|] eqn:Ho; try (injection H as <- <-; destruct Hx).
  destruct (list_files L a) as [fs|e|] eqn:Hl; try (injection H as <- <-; destruct Hx).
  destruct (extract_names_inv _ _ _ _ _ _ H x Hx) as (n & d & p & Hin & _ & Hp & ->).
  apply in_map_iff in Hin as (e & <- & He).
  destruct (never_up_facts _ (Hn a fs e eq_refl Hl He)) as (H1 & H0 & H2).
  unfold write_actions in Hp. rewrite parts_join, rooted_join in Hp by exact H1. set (m := fe_name e) in *.
  destruct (parts dir ++ parts m) as [|z zs] eqn:E.
  - destruct Hp as [<-|[]]. inversion Ht; subst.
    match goal with [ K : leads _ _ _ |- _ ] => apply leads_loc in K; rewrite K end.
    rewrite loc_join by exact H1. apply enter_down, H2.
  - rewrite <- E in Hp. clear z zs E. destruct Hp as [<-|[<-|[]]]; inversion Ht; subst.
    + destruct (parts m) as [|y ys] eqn:Em.
      * contradiction H0; reflexivity.
      * rewrite removelast_app by discriminate. rewrite fold_left_app. unfold loc.
        apply enter_down. intros K. apply H2. revert K. clear. revert y.
        induction ys as [|w ys IH]; intros y; cbn [removelast]; [intros []|].
        intros [<-|K]; [left; reflexivity|right; apply IH; exact K].
    + match goal with [ K : leads _ _ _ |- _ ] => apply leads_loc in K; rewrite K end.
      rewrite loc_join by exact H1. apply enter_down, H2.
Qed.

(** A single file goes where the command says, or under its own last name. *)
Lemma single_inside cwd file n acts r :
  extract L file (Some n) None false = (acts, r) ->
  forall x l, In x acts -> touches cwd x l -> l = cwd \/ exists f, l = cwd ++ [f].
Proof.
  intros H x l Hx Ht. unfold extract in H.
  destruct (open_archive L file) as [a|e|]; try (injection H as <- <-; destruct Hx).
  destruct (read_file L a n) as [d|e|]; try (injection H as <- <-; destruct Hx).
  destruct (file_name n) as [f|] eqn:Hf; injection H as <- <-; [|destruct Hx].
  destruct (file_name_facts n f Hf) as (H1 & H2 & H3).
  destruct (flat_actions cwd [] f d x l H1 H2 H3) as [(p & d' & -> & ->)|(b & c & -> & ->)].
  - unfold path_join. rewrite H1. exact Hx.
  - exact Ht.
  - right. exists f. reflexivity.
  - left. reflexivity.
Qed.
Lemma single_output cwd file n o pres acts r ol :
  extract L file (Some n) (Some o) pres = (acts, r) -> leads cwd o ol ->
  forall x l, In x acts -> touches cwd x l ->
  (exists p d, x = AWrite p d /\ l = ol) \/ (exists b c s, x = AMkdirs b c /\ (ol = enter l s)).
Proof.
  intros H Ho x l Hx Ht. apply leads_loc in Ho. subst ol. unfold extract in H.
  destruct (open_archive L file) as [a|e|]; try (injection H as <- <-; destruct Hx).
  destruct (read_file L a n) as [d|e|]; injection H as <- <-; try (destruct Hx; fail).
  unfold write_actions in Hx. unfold loc. destruct (parts o) as [|z zs] eqn:E.
  - destruct Hx as [<-|[]]. left. inversion Ht; subst. do 2 eexists. split; [reflexivity|].
    match goal with [ K : leads _ _ _ |- _ ] => apply leads_loc in K; rewrite K end. unfold loc. rewrite E. reflexivity.
  - destruct Hx as [<-|[<-|[]]]; inversion Ht; subst.
    + right. do 2 eexists. exists (last (z :: zs) []). split; [reflexivity|].
      rewrite (app_removelast_last [] (l := z :: zs)) at 1 by discriminate.
      rewrite fold_left_app. reflexivity.
    + left. do 2 eexists. split; [reflexivity|].
      match goal with [ K : leads _ _ _ |- _ ] => apply leads_loc in K; rewrite K end. unfold loc. rewrite E. reflexivity.
Qed.

End L.
