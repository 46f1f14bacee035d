(** * Facts about the statistics of [archive analyze] *)
From Verif Require Import Bytes Crypto SpecNames NameFacts Header Compress BlockTable SpecTables SpecCompress Builder Archive SpecArchive
  ArchiveFacts Listfile SpecListfile Cli CliList SpecCliList CliListFacts CliAnalyze SpecAnalyze ListingFacts SpecCli CliFacts.
From Coq Require Import ZifyBool ZifyN ZifyNat.
Open Scope N_scope.

(** ** Tallies *)
Lemma beqb_refl' k : bytes_eqb k k = true. Proof. now apply bytes_eqb_eq. Qed.
Lemma times_ex k l : exists n, times k l n.
Proof.
  induction l as [|x l [n IH]]; [eexists; constructor|]. destruct (bytes_eqb x k) eqn:E.
  - apply bytes_eqb_eq in E. subst x. exists (n + 1). now constructor.
  - exists n. constructor; [|exact IH]. intros ->. assert (X : bytes_eqb k k = true) by now apply bytes_eqb_eq. congruence.
Qed.
Lemma times_fun k l : forall n m, times k l n -> times k l m -> n = m.
Proof.
  induction l as [|x l IH]; intros n m H K.
  - inversion H; inversion K; reflexivity.
  - inversion H; inversion K; subst; try congruence; auto. f_equal. auto.
Qed.
Lemma times_snoc k l x n : times k l n -> times k (l ++ [x]) (if bytes_eqb k x then n + 1 else n).
Proof.
  induction 1 as [|l n H IH|y l n Hy H IH]; cbn [app].
  - destruct (bytes_eqb k x) eqn:E.
    + apply bytes_eqb_eq in E. subst. apply (times_this x []). constructor.
    + constructor; [|constructor]. intros ->. assert (X : bytes_eqb k k = true) by now apply bytes_eqb_eq. congruence.
  - destruct (bytes_eqb k x); now constructor.
  - now constructor.
Qed.
Lemma tally_nil : tally [] [].
Proof.
  split; [constructor|]. intros k n. split; [intros []|]. intros [H H0]. inversion H. congruence.
Qed.
Lemma bump_keys k t : forall x, In x (map fst (bump k t)) <-> x = k \/ In x (map fst t).
Proof.
  induction t as [|[k' n] t IH]; intros x; cbn [bump map fst In]; [intuition auto|].
  destruct (bytes_eqb k k') eqn:E; cbn [map fst In].
  - apply bytes_eqb_eq in E. subst k'. intuition auto.
  - rewrite IH. tauto.
Qed.
Lemma bump_nodup k t : NoDup (map fst t) -> NoDup (map fst (bump k t)).
Proof.
  induction t as [|[k' n] t IH]; cbn [bump map fst]; intros H.
  - constructor; [intros []|constructor].
  - inversion H as [|? ? Hx Hl]; subst. destruct (bytes_eqb k k') eqn:E; cbn [map fst]; [constructor; assumption|].
    constructor; [|auto]. rewrite bump_keys. intros [->|X]; [|contradiction].
    assert (Y : bytes_eqb k k = true) by now apply bytes_eqb_eq. congruence.
Qed.
Lemma bump_in k t : NoDup (map fst t) -> forall x n, In (x, n) (bump k t) <->
  (x <> k /\ In (x, n) t) \/ (x = k /\ ((exists m, In (k, m) t /\ n = m + 1) \/ (~ In k (map fst t) /\ n = 1))).
Proof.
  induction t as [|[k' c] t IH]; cbn [bump map fst]; intros H x n.
  - split; [intros [[= <- <-]|[]]; right; split; [reflexivity|right; split; [intros []|reflexivity]]|].
    intros [[_ []]|(-> & [(m & [] & _)|(_ & ->)])]. now left.
  - inversion H as [|? ? Hx Hl]; subst. destruct (bytes_eqb k k') eqn:E.
    + apply bytes_eqb_eq in E. subst k'. split.
      * intros [[= <- <-]|Hi]; [right; split; [reflexivity|]; left; exists c; split; [now left|reflexivity]|].
        destruct (bytes_eqb x k) eqn:Ex; [apply bytes_eqb_eq in Ex; subst; exfalso; apply Hx; exact (in_map fst _ _ Hi)|].
        left. split; [|now right]. intros ->. assert (Y : bytes_eqb k k = true) by now apply bytes_eqb_eq. congruence.
      * intros [[Hne [[= -> ->]|Hi]]|(-> & [(m & [[= ->]|Hi] & ->)|(Hno & _)])].
        -- congruence.
        -- now right.
        -- now left.
        -- exfalso. apply Hx. exact (in_map fst _ _ Hi).
        -- exfalso. apply Hno. now left.
    + assert (Hk : k' <> k) by (intros ->; rewrite beqb_refl' in E; discriminate).
      cbn [In]. rewrite (IH Hl x n). split.
      * intros [[= <- <-]|[[Hne Hi]|(-> & [(m & Hi & ->)|(Hno & ->)])]].
        -- left. auto.
        -- left. auto.
        -- right. split; [reflexivity|]. left. eauto.
        -- right. split; [reflexivity|]. right. split; [|reflexivity]. intros [X|X]; congruence.
      * intros [[Hne [X|Hi]]|(-> & [(m & [[= X Y]|Hi] & ->)|(Hno & ->)])].
        -- now left.
        -- right. left. auto.
        -- congruence.
        -- right. right. split; [reflexivity|]. left. eauto.
        -- right. right. split; [reflexivity|]. right. split; [|reflexivity]. intros X. apply Hno. now right.
Qed.
Lemma tally_key keys t k : tally keys t -> In k (map fst t) -> exists n, In (k, n) t /\ times k keys n /\ n <> 0.
Proof.
  intros [_ H] Hi. apply in_map_iff in Hi. destruct Hi as ([k' n] & <- & Hi). exists n. split; [exact Hi|]. now apply H.
Qed.
Lemma tally_snoc keys t k : tally keys t -> tally (keys ++ [k]) (bump k t).
Proof.
  intros HT. pose proof HT as [Hn H]. split; [now apply bump_nodup|]. intros x n. rewrite (bump_in k t Hn x n). split.
  - intros [[Hne Hi]|(-> & [(m & Hi & ->)|(Hno & ->)])].
    + apply H in Hi. destruct Hi as [Ht H0]. split; [|exact H0]. apply (times_snoc _ _ k) in Ht.
      destruct (bytes_eqb x k) eqn:E; [apply bytes_eqb_eq in E; congruence|exact Ht].
    + apply H in Hi. destruct Hi as [Ht H0]. split; [|lia]. apply (times_snoc _ _ k) in Ht.
      assert (E : bytes_eqb k k = true) by now apply bytes_eqb_eq. now rewrite E in Ht.
    + split; [|lia]. destruct (times_ex k keys) as [m Hm]. assert (m = 0).
      { destruct (N.eq_dec m 0) as [|Hm0]; [assumption|]. exfalso. apply Hno.
        exact (in_map fst _ _ (proj2 (H k m) (conj Hm Hm0))). }
      subst m. apply (times_snoc _ _ k) in Hm. assert (E : bytes_eqb k k = true) by now apply bytes_eqb_eq. now rewrite E in Hm.
  - intros [Ht H0]. destruct (times_ex x keys) as [m Hm]. pose proof (times_snoc _ _ k _ Hm) as Hs.
    destruct (bytes_eqb x k) eqn:E.
    + apply bytes_eqb_eq in E. subst x. rewrite (times_fun _ _ _ _ Ht Hs). right. split; [reflexivity|].
      destruct (N.eq_dec m 0) as [->|Hm0].
      * right. split; [|reflexivity]. intros X. destruct (tally_key _ _ _ HT X) as (m & _ & Hm' & H0').
        apply H0'. exact (times_fun _ _ _ _ Hm' Hm).
      * left. exists m. split; [now apply H|reflexivity].
    + left. split; [intros ->; rewrite beqb_refl' in E; discriminate|].
      rewrite (times_fun _ _ _ _ Ht Hs) in *. apply H. auto.
Qed.

Lemma bump2_keys e k t : forall x, In x (map fst (bump2 e k t)) <-> x = e \/ In x (map fst t).
Proof.
  induction t as [|[k' n] t IH]; intros x; cbn [bump2 map fst In]; [intuition auto|].
  destruct (bytes_eqb e k') eqn:E; cbn [map fst In].
  - apply bytes_eqb_eq in E. subst k'. intuition auto.
  - rewrite IH. tauto.
Qed.
Lemma tally2_snoc rows t e k : tally2 rows t -> tally2 (rows ++ [(e, k)]) (bump2 e k t).
Proof.
  intros (Hn & Hm & He).
  assert (Hkeys : forall x, In x (map fst (rows ++ [(e, k)])) <-> In x (map fst (bump2 e k t))).
  { intros x. rewrite map_app, in_app_iff, bump2_keys, He. cbn [map fst In]. intuition auto. }
  assert (Habs : ~ In e (map fst t) -> filter (fun r => bytes_eqb e (fst r)) rows = []).
  { intros Hno. rewrite <- He in Hno. clear -Hno. induction rows as [|[a b] rows IH]; [reflexivity|]. cbn [filter fst].
    destruct (bytes_eqb e a) eqn:E; [apply bytes_eqb_eq in E; exfalso; apply Hno; left; now symmetry|]. apply IH. intros X. apply Hno. now right. }
  split; [|split; [|exact Hkeys]].
  - clear -Hn. induction t as [|[e' m] t IH]; cbn [bump2 map fst]; [constructor; [intros []|constructor]|].
    inversion Hn as [|? ? Hx Hl]; subst. destruct (bytes_eqb e e') eqn:E; cbn [map fst]; [constructor; assumption|].
    constructor; [|auto]. rewrite bump2_keys. intros [->|X]; [rewrite beqb_refl' in E; discriminate|contradiction].
  - assert (Hother : forall x m, x <> e -> tally (map snd (filter (fun r => bytes_eqb x (fst r)) rows)) m ->
      tally (map snd (filter (fun r => bytes_eqb x (fst r)) (rows ++ [(e, k)]))) m).
    { intros x m Hx H. rewrite filter_app. cbn [filter fst]. destruct (bytes_eqb x e) eqn:E; [apply bytes_eqb_eq in E; congruence|].
      now rewrite app_nil_r. }
    assert (Hthis : forall m, tally (map snd (filter (fun r => bytes_eqb e (fst r)) rows)) m ->
      tally (map snd (filter (fun r => bytes_eqb e (fst r)) (rows ++ [(e, k)]))) (bump k m)).
    { intros m H. rewrite filter_app. cbn [filter fst]. rewrite beqb_refl', map_app. cbn [map snd]. now apply tally_snoc. }
    clear Hkeys He. induction t as [|[e' m'] t IH]; cbn [bump2].
    + intros x m [[= <- <-]|[]]. apply (Hthis []). rewrite (Habs ltac:(intros [])). apply tally_nil.
    + inversion Hn as [|? ? Hx Hl]; subst. destruct (bytes_eqb e e') eqn:E.
      * apply bytes_eqb_eq in E. subst e'. intros x m [[= <- <-]|Hi]; [apply Hthis, Hm; now left|].
        apply Hother; [|apply Hm; now right]. intros ->. apply Hx. exact (in_map fst _ _ Hi).
      * intros x m [[= <- <-]|Hi].
        -- apply Hother; [intros ->; rewrite beqb_refl' in E; discriminate|apply Hm; now left].
        -- apply IH; try assumption; [intros y q Hy; apply Hm; now right|].
           intros Hno. apply Habs. intros [X|X]; [cbn [fst] in X; subst e'; rewrite beqb_refl' in E; discriminate|contradiction].
Qed.

(** ** The loop *)
Section Loop.
Variable L : codecs.
Variable lower : bytes -> bytes.
Notation meth fi := (from_flags (fi_flags fi mod 256)).

Definition counts (by_ext : bool) (hs : list (bytes * finfo)) (r : report) : Prop :=
  tally (map (fun h => method_name (meth (snd h))) hs) (r_methods r) /\
  (if by_ext then tally2 (map (fun h => (file_extension lower (fst h), method_name (meth (snd h)))) hs) (r_extensions r)
   else r_extensions r = []) /\
  r_unsupported r = map (fun h => (fst h, method_name (meth (snd h))))
                        (filter (fun h => negb (supported (meth (snd h)))) hs) /\
  r_csize r = total (fun h => fi_csize (snd h)) hs /\ r_size r = total (fun h => fi_size (snd h)) hs.

Lemma total_snoc {A} (f : A -> N) l x : total f (l ++ [x]) = total f l + f x.
Proof.
  unfold total. induction l as [|y l IH]; cbn [app fold_right]; [lia|]. rewrite IH. lia.
Qed.
Lemma counts_snoc by_ext hs r n fi :
  counts by_ext hs r ->
  counts by_ext (hs ++ [(n, fi)])
    (mkReport (bump (method_name (meth fi)) (r_methods r))
       (if by_ext then bump2 (file_extension lower n) (method_name (meth fi)) (r_extensions r) else r_extensions r)
       (if supported (meth fi) then r_unsupported r else r_unsupported r ++ [(n, method_name (meth fi))])
       (r_csize r + fi_csize fi) (r_size r + fi_size fi) (r_files r)).
Proof.
  intros (H1 & H2 & H3 & H4 & H5). unfold counts. cbn [r_methods r_extensions r_unsupported r_csize r_size].
  rewrite !map_app. split; [now apply tally_snoc|]. split.
  { destruct by_ext; [|exact H2]. now apply tally2_snoc. }
  split.
  { rewrite filter_app, map_app. cbn [filter snd]. rewrite H3.
    destruct (supported (meth fi)); cbn [negb map fst snd]; [now rewrite app_nil_r|reflexivity]. }
  rewrite !total_snoc, H4, H5. split; reflexivity.
Qed.

Lemma loop_counts a by_ext es : forall pre r r', counts by_ext pre r -> analyze_loop lower a by_ext es r = Ok r' ->
  exists hs, found_in a es hs /\ counts by_ext (pre ++ hs) r' /\ r_files r' = r_files r.
Proof.
  induction es as [|e t IH]; intros pre r r' Hc H; cbn [analyze_loop] in H.
  - apply Ok_inj in H. subst r'. exists []. rewrite app_nil_r. split; [constructor|]. auto.
  - destruct (find_file a (fe_name e)) as [[fi|]| |] eqn:E; cbn [bind] in H; try discriminate.
    + unfold add64 in H. destruct (r_csize r + fi_csize fi <? M64); cbn [bind] in H; try discriminate.
      destruct (r_size r + fi_size fi <? M64); cbn [bind] in H; try discriminate.
      destruct (IH _ _ _ (counts_snoc by_ext pre r (fe_name e) fi Hc) H) as (hs & Hf & Hcs & Hr).
      exists ((fe_name e, fi) :: hs). rewrite <- app_assoc in Hcs. cbn [app] in Hcs.
      split; [now constructor|]. split; [exact Hcs|exact Hr].
    + destruct (IH _ _ _ Hc H) as (hs & Hf & Hcs & Hr). exists hs. split; [now constructor|]. auto.
Qed.
Lemma counts_nil by_ext n : counts by_ext [] (mkReport [] [] [] 0 0 n).
Proof.
  unfold counts. cbn. split; [apply tally_nil|]. split; [|auto]. destruct by_ext; [|reflexivity].
  split; [constructor|]. split; [intros ? ? []|]. intros e. reflexivity.
Qed.
Lemma report_counts file by_ext r : analyze_report L lower file by_ext = Ok r ->
  exists a es hs, open_archive L file = Ok a /\ list_with_hashes L a = Ok es /\ found_in a es hs /\
    counts by_ext hs r /\ r_files r = lenN es.
Proof.
  unfold analyze_report. intros H. destruct (open_archive L file) as [a| |]; cbn [bind] in H; try discriminate.
  destruct (list_with_hashes L a) as [es| |] eqn:El; cbn [bind] in H; try discriminate.
  destruct (loop_counts _ _ _ [] _ _ (counts_nil by_ext (lenN es)) H) as (hs & Hf & Hc & Hr).
  exists a, es, hs. auto.
Qed.
(** When it comes to an end. *)
Lemma loop_ends a by_ext es hs : found_in a es hs -> forall r,
  r_csize r + total (fun h => fi_csize (snd h)) hs < M64 -> r_size r + total (fun h => fi_size (snd h)) hs < M64 ->
  exists r', analyze_loop lower a by_ext es r = Ok r'.
Proof.
  induction 1 as [|e t fi hs E H IH|e t hs E H IH]; intros r Hc Hs; cbn [analyze_loop]; [eauto| |].
  - rewrite E. cbn [bind]. unfold total in Hc, Hs. cbn [fold_right snd] in Hc, Hs.
    fold (total (fun h : bytes * finfo => fi_csize (snd h)) hs) in Hc. fold (total (fun h : bytes * finfo => fi_size (snd h)) hs) in Hs.
    unfold add64. destruct (N.ltb_spec (r_csize r + fi_csize fi) M64) as [C|C]; [|lia]. cbn [bind].
    destruct (N.ltb_spec (r_size r + fi_size fi) M64) as [D|D]; [|lia]. cbn [bind]. apply IH; cbn [r_csize r_size]; lia.
  - rewrite E. cbn [bind]. now apply IH.
Qed.
Lemma loop_panics a by_ext es hs : found_in a es hs -> forall r, r_csize r < M64 -> r_size r < M64 ->
  M64 <= r_csize r + total (fun h => fi_csize (snd h)) hs \/ M64 <= r_size r + total (fun h => fi_size (snd h)) hs ->
  analyze_loop lower a by_ext es r = Panic.
Proof.
  induction 1 as [|e t fi hs E H IH|e t hs E H IH]; intros r Rc Rs Hbig; cbn [analyze_loop].
  - unfold total in Hbig. cbn [fold_right] in Hbig. lia.
  - rewrite E. cbn [bind]. unfold total in Hbig. cbn [fold_right snd] in Hbig.
    fold (total (fun h : bytes * finfo => fi_csize (snd h)) hs) in Hbig.
    fold (total (fun h : bytes * finfo => fi_size (snd h)) hs) in Hbig.
    unfold add64. destruct (N.ltb_spec (r_csize r + fi_csize fi) M64) as [C|C]; [|reflexivity]. cbn [bind].
    destruct (N.ltb_spec (r_size r + fi_size fi) M64) as [D|D]; [|reflexivity]. cbn [bind]. apply IH; cbn [r_csize r_size]; lia.
  - rewrite E. cbn [bind]. now apply IH.
Qed.
Lemma report_ends file a es hs by_ext :
  open_archive L file = Ok a -> list_with_hashes L a = Ok es -> found_in a es hs ->
  (exists r, analyze_report L lower file by_ext = Ok r) /\
    total (fun h => fi_csize (snd h)) hs < M64 /\ total (fun h => fi_size (snd h)) hs < M64 \/
  analyze_report L lower file by_ext = Panic /\
    (M64 <= total (fun h => fi_csize (snd h)) hs \/ M64 <= total (fun h => fi_size (snd h)) hs).
Proof.
  intros Ho Hl Hf. unfold analyze_report. rewrite Ho. cbn [bind]. rewrite Hl. cbn [bind].
  destruct (N.ltb_spec (total (fun h => fi_csize (snd h)) hs) M64) as [C|C].
  - destruct (N.ltb_spec (total (fun h => fi_size (snd h)) hs) M64) as [D|D].
    + left. split; [|auto]. apply (loop_ends a by_ext es hs Hf); cbn [r_csize r_size]; lia.
    + right. split; [|auto]. apply (loop_panics a by_ext es hs Hf); cbn [r_csize r_size]; [reflexivity|reflexivity|right; lia].
  - right. split; [|auto]. apply (loop_panics a by_ext es hs Hf); cbn [r_csize r_size]; [reflexivity|reflexivity|left; lia].
Qed.

(** With a list all of the entries are found. *)
Lemma hashes_names a es : list_with_hashes L a = Ok es -> exists l, list_files L a = Ok l /\ map fe_name es = map fe_name l.
Proof.
  unfold list_with_hashes. intros H. destruct (list_files L a) as [l| |]; cbn [bind] in H; try discriminate.
  apply Ok_inj in H. subst es. exists l. split; [reflexivity|]. rewrite map_map. reflexivity.
Qed.
Lemma found_all a es hs : (forall n, In n (map fe_name es) -> exists fi, find_file a n = Ok (Some fi)) ->
  found_in a es hs -> map fst hs = map fe_name es.
Proof.
  intros Hall H. induction H as [|e t fi hs E H IH|e t hs E H IH]; [reflexivity| |]; cbn [map fst] in *.
  - f_equal. apply IH. intros n Hn. apply Hall. now right.
  - exfalso. destruct (Hall (fe_name e)) as (fi & F); [now left|]. congruence.
Qed.
Lemma listed_found a fi es hs : find_file a LISTFILE = Ok (Some fi) -> list_with_hashes L a = Ok es -> found_in a es hs ->
  map fst hs = map fe_name es.
Proof.
  intros Hl He Hf. apply found_all with (a := a); [|exact Hf]. destruct (hashes_names a es He) as (l & El & ->).
  unfold list_files in El. rewrite Hl in El. cbn [bind] in El.
  destruct (read_file L a LISTFILE) as [d| |]; cbn [bind] in El; try discriminate.
  apply list_named_rows in El. destruct El as (rows & Hr & ->).
  intros n Hn. apply in_map_iff in Hn. destruct Hn as (e & <- & He'). destruct (rows_entry _ _ _ _ Hr He') as (fi' & E & _). eauto.
Qed.
End Loop.

(** ** The two tables of methods *)
Lemma names_agree m : supported_name (method_name m) = supported m.
Proof. destruct m; reflexivity. Qed.

Lemma names_apart : forall x y, x < 256 -> y < 256 ->
  method_name (from_flags x) = method_name (from_flags y) -> x = y.
Proof.
  assert (H : forallb (fun x => forallb (fun y => (x =? y) ||
                negb (bytes_eqb (method_name (from_flags x)) (method_name (from_flags y))))
                (map N.of_nat (seq 0 256))) (map N.of_nat (seq 0 256)) = true) by (vm_compute; reflexivity).
  intros x y Hx Hy E. rewrite forallb_forall in H.
  assert (Hin : forall z, z < 256 -> In z (map N.of_nat (seq 0 256))).
  { intros z Hz. apply in_map_iff. exists (N.to_nat z). split; [lia|]. apply in_seq. lia. }
  specialize (H x (Hin x Hx)). rewrite forallb_forall in H. specialize (H y (Hin y Hy)).
  rewrite E, beqb_refl', orb_false_r in H. lia.
Qed.

(** ** Extensions *)
Lemma after_dot_spec d : forall acc, match after_dot d acc with
  | Some (t, e) => exists p, d = p ++ "."%byte :: t /\ ~ In "."%byte p /\ e = rev p ++ acc
  | None => ~ In "."%byte d
  end.
Proof.
  induction d as [|b d IH]; intros acc; cbn [after_dot]; [intros []|].
  destruct (beqb b "."%byte) eqn:E.
  - apply beqb_eq in E. subst b. exists []. split; [reflexivity|]. split; [intros []|reflexivity].
  - assert (Hb : b <> "."%byte) by (intros ->; discriminate E). specialize (IH (b :: acc)).
    destruct (after_dot d (b :: acc)) as [[t e]|].
    + destruct IH as (p & -> & Hp & ->). exists (b :: p). split; [reflexivity|]. split; [intros [X|X]; auto|].
      cbn [rev]. now rewrite <- app_assoc.
    + intros [X|X]; auto.
Qed.
Lemma split_last b e b' e' : ~ In "."%byte e -> ~ In "."%byte e' ->
  b ++ "."%byte :: e = b' ++ "."%byte :: e' -> e = e'.
Proof.
  intros H H' E. apply (f_equal (@rev byte)) in E. rewrite !rev_app_distr in E. cbn [rev] in E. rewrite <- !app_assoc in E. cbn [app] in E.
  assert (G : rev e = rev e').
  { rewrite in_rev in H, H'. generalize dependent (rev e'). generalize dependent (rev e). clear.
    intros l; induction l as [|x l IH]; intros H [|y l'] H' E; cbn [app] in E; [reflexivity| | |].
    - exfalso. apply H'. left. congruence.
    - exfalso. apply H. left. congruence.
    - injection E as -> E. f_equal. apply IH; [intros X; apply H; now right|intros X; apply H'; now right|exact E]. }
  rewrite <- (rev_involutive e), G. apply rev_involutive.
Qed.
Lemma last_part d f : f <> [] -> f <> lit "." -> f <> lit ".." -> ~ In "/"%byte f ->
  file_name f = Some f /\ file_name (d ++ lit "/" ++ f) = Some f.
Proof.
  intros H1 H2 H3 H4.
  assert (Hp : parts f = [f]).
  { rewrite parts_seg by assumption. destruct (is_dot f) eqn:E; [|reflexivity].
    exfalso. apply H2. unfold is_dot in E. apply bytes_eqb_eq in E. exact E. }
  assert (Hd : is_dotdot f = false).
  { destruct (is_dotdot f) eqn:E; [|reflexivity]. exfalso. apply H3. unfold is_dotdot in E. apply bytes_eqb_eq in E. exact E. }
  unfold file_name. change (d ++ lit "/" ++ f) with (d ++ SLASH :: f). rewrite parts_app, Hp, rev_app_distr. cbn [rev app].
  rewrite Hd. auto.
Qed.
Lemma extension_found n f e : file_name n = Some f -> (path_extension n = Some e <-> extension f e).
Proof.
  intros H. unfold path_extension. rewrite H. pose proof (after_dot_spec (rev f) []) as S.
  destruct (after_dot (rev f) []) as [[t x]|].
  - destruct S as (p & Ep & Hp & ->). rewrite app_nil_r.
    assert (Ef : f = rev t ++ "."%byte :: rev p).
    { rewrite <- (rev_involutive f), Ep, rev_app_distr. cbn [rev]. now rewrite <- app_assoc. }
    split.
    + destruct t as [|y t]; [discriminate|]. intros [= <-]. exists (rev (y :: t)). split.
      * intros X. apply (f_equal (@length byte)) in X. rewrite rev_length in X. discriminate.
      * split; [exact Ef|]. now rewrite <- in_rev.
    + intros (b & Hb & Ef' & He). cbn [lit app] in Ef'.
      assert (Ee : rev p = e).
      { apply (split_last (rev t) (rev p) b e); [now rewrite <- in_rev|exact He|]. rewrite <- Ef. exact Ef'. }
      subst e. destruct t as [|y t]; [|reflexivity]. exfalso. rewrite Ef in Ef'. cbn [rev app] in Ef'.
      apply (f_equal (@length byte)) in Ef'. cbn in Ef'. rewrite app_length in Ef'. cbn in Ef'. destruct b; [congruence|cbn in Ef'; lia].
  - split; [discriminate|]. intros (b & _ & Ef & _). exfalso. apply S. rewrite <- in_rev. rewrite Ef. apply in_app_iff. right. now left.
Qed.

(** ** Built archives *)
Lemma times_const k n : times k (repeat k n) (N.of_nat n).
Proof.
  induction n as [|n IH]; [constructor|]. cbn [repeat]. replace (N.of_nat (S n)) with (N.of_nat n + 1) by lia. now constructor.
Qed.
Lemma times_absent k k' n : k <> k' -> times k (repeat k' n) 0.
Proof. intros H. induction n as [|n IH]; [constructor|]. cbn [repeat]. constructor; [congruence|exact IH]. Qed.
Lemma tally_const k n t : tally (repeat k (S n)) t -> t = [(k, N.of_nat (S n))].
Proof.
  intros [Hn H].
  assert (Hk : forall x m, In (x, m) t -> x = k /\ m = N.of_nat (S n)).
  { intros x m Hi. apply H in Hi. destruct Hi as [Ht H0]. destruct (bytes_eqb x k) eqn:E.
    - apply bytes_eqb_eq in E. subst x. split; [reflexivity|]. exact (times_fun _ _ _ _ Ht (times_const k (S n))).
    - exfalso. apply H0. apply (times_fun _ _ _ _ Ht). apply times_absent. intros ->. rewrite beqb_refl' in E. discriminate. }
  assert (Hin : In (k, N.of_nat (S n)) t) by (apply H; split; [apply times_const|lia]).
  destruct t as [|[x m] [|[y q] t]]; [destruct Hin| |].
  - destruct (Hk x m ltac:(now left)) as [-> ->]. reflexivity.
  - exfalso. destruct (Hk x m ltac:(now left)) as [-> _]. destruct (Hk y q ltac:(right; now left)) as [-> _].
    cbn [map fst] in Hn. inversion Hn as [|? ? Hx _]. apply Hx. now left.
Qed.

Section Built.
Variable L : codecs.
Variables md5 lower : bytes -> bytes.
Variables (c : config) (files : list pending) (arc pre post : bytes).
Hypothesis HL : lossless L.
Hypothesis Hb : built_at L md5 c files arc pre post.
Hypothesis Hg : c_listfile c = LGenerate.
Hypothesis Hcol : no_collision (LISTFILE :: map pf_name files).
Hypothesis Ha : hashes_apart ATTRIBUTES (LISTFILE :: map pf_name files).
Hypothesis Hn : forall f, In f files -> is_text (pf_name f) /\ listable (pf_name f) /\ ~ name_equiv LISTFILE (pf_name f).
Hypothesis Hrb : reads_back L c (c_default c) (listfile_content (map pf_name files)).
Let all := files ++ [mkPF (listfile_content (map pf_name files)) LISTFILE (c_default c) false false 0].

Lemma report_built by_ext : exists r, analyze_report L lower (pre ++ arc ++ post) by_ext = Ok r /\
  r_files r = lenN files + 1 /\ r_methods r = [(lit "None", lenN files + 1)] /\ r_unsupported r = [] /\
  ((forall f, In f files -> means files (pf_name f) f /\ lenN (pf_data f) < 2 ^ 32) ->
   lenN (listfile_content (map pf_name files)) < 2 ^ 32 ->
   r_size r = total (fun f => lenN (pf_data f)) files + lenN (listfile_content (map pf_name files))) /\
  (by_ext = true -> forall e, In e (map fst (r_extensions r)) <->
     e = file_extension lower LISTFILE \/ exists f, In f files /\ e = file_extension lower (pf_name f)).
Proof.
  destruct (built_listing L md5 c files arc pre post HL Hb Hg Hcol Ha Hn Hrb) as (a & l & Ho & Hl & Hnames & _).
  destruct (built_open L md5 c files arc pre post Hb Ha) as (a' & ss & Ho' & Hss & Hd & Hhet & _).
  rewrite Ho in Ho'. apply Ok_inj in Ho'. subst a'.
  pose proof (no_collision_incl _ _ (prepare_names c files) Hcol) as Hcol'.
  assert (Hp : prepare_listfile c files = all) by (unfold prepare_listfile; now rewrite Hg).
  assert (Hcnt : lenN files < 2 ^ 30 - 2) by (destruct Hb as (_ & _ & X & _); exact X).
  unfold analyze_report. rewrite Ho. cbn [bind]. unfold list_with_hashes. rewrite Hl. cbn [bind].
  match goal with |- context [analyze_loop _ _ _ ?E] => set (es := E) end.
  assert (Hes : map fe_name es = map pf_name all).
  { unfold es, all. rewrite map_map, map_app. cbn [fe_name map pf_name]. exact Hnames. }
  clearbody es.
  (* what is found *)
  assert (Hall : exists hs, found_in a es hs /\
    Forall2 (fun f h => fst h = pf_name f /\ fi_flags (snd h) mod 256 = 0 /\ fi_csize (snd h) < 2 ^ 32 /\ fi_size (snd h) < 2 ^ 32 /\
      (means all (pf_name f) f -> lenN (pf_data f) < 2 ^ 32 -> fi_size (snd h) = lenN (pf_data f))) all hs).
  { assert (Hone : forall f, In f all -> exists fi, find_file a (pf_name f) = Ok (Some fi) /\ fi_flags fi mod 256 = 0 /\
      fi_csize fi < 2 ^ 32 /\ fi_size fi < 2 ^ 32 /\
      (means all (pf_name f) f -> lenN (pf_data f) < 2 ^ 32 -> fi_size fi = lenN (pf_data f))).
    { intros f Hf. destruct (means_exists all (pf_name f)) as (g & Hm); [now apply in_map|]. rewrite <- Hp in Hm.
      destruct (built_find L md5 a c ss _ _ g Hd Hhet Hcol' Hm) as (i & p & out & cs & fl & s & _ & _ & G3 & _ & _ & _ & G).
      eexists. split; [exact G|]. cbn [fi_flags fi_csize fi_size].
      split; [exact (flags_low L c _ _ _ _ _ _ G3)|].
      split; [unfold w32; now apply N.mod_upper_bound|]. split; [unfold w32; now apply N.mod_upper_bound|].
      intros Hm' H32. rewrite <- Hp in Hm'.
      destruct (built_find L md5 a c ss _ _ f Hd Hhet Hcol' Hm') as (i' & p' & out' & cs' & fl' & s' & _ & _ & _ & _ & _ & _ & G').
      rewrite G in G'. apply Ok_inj in G'. injection G' as _ _ _ _ E _ _.
      rewrite E. unfold w32. now apply N.mod_small. }
    clear -Hes Hone. revert Hone. generalize (means all). intros M. revert es Hes. generalize all. intros fs.
    induction fs as [|f fs IH]; intros [|e es] Hes Hone; try discriminate.
    - exists []. split; constructor.
    - cbn [map] in Hes. injection Hes as He Hes. destruct (IH es Hes) as (hs & H1 & H2); [intros; apply Hone; now right|].
      destruct (Hone f) as (fi & E & X); [now left|]. exists ((fe_name e, fi) :: hs). split.
      + constructor; [now rewrite He|exact H1].
      + constructor; [|exact H2]. cbn [fst snd]. split; [exact He|exact X]. }
  destruct Hall as (hs & Hf & Hrows).
  assert (Hlen : length hs = length all) by (clear -Hrows; induction Hrows; cbn [length]; congruence).
  assert (Hla : length all = S (length files)) by (unfold all; rewrite app_length; cbn; lia).
  assert (Hbound : total (fun h => fi_csize (snd h)) hs <= 2 ^ 32 * lenN all /\ total (fun h => fi_size (snd h)) hs <= 2 ^ 32 * lenN all).
  { clear -Hrows. revert Hrows. generalize (means all). generalize all. intros fs0 M Hrows. induction Hrows as [|f h fs hs (_ & _ & H1 & H2 & _) H IH]; [split; unfold total; cbn [fold_right]; lia|].
    unfold total in *. cbn [fold_right]. rewrite lenN_cons. lia. }
  assert (H64 : 2 ^ 32 * lenN all < M64).
  { unfold lenN in *. rewrite Hla. unfold M64. change (2 ^ 64) with (2 ^ 32 * 2 ^ 32). apply N.mul_lt_mono_pos_l; [reflexivity|].
    change (2 ^ 30) with 1073741824 in Hcnt. change (2 ^ 32) with 4294967296. lia. }
  destruct (loop_ends lower a by_ext es hs Hf (mkReport [] [] [] 0 0 (lenN es))) as (r & Hr); cbn [r_csize r_size]; [lia|lia|].
  exists r. split; [exact Hr|].
  destruct (loop_counts lower a by_ext es [] _ r (counts_nil lower by_ext (lenN es)) Hr) as (hs' & Hf' & (C1 & C2 & C3 & C4 & C5) & Cf).
  assert (hs' = hs) as ->.
  { clear -Hf Hf'. revert hs' Hf'. induction Hf as [|e t fi hs E H IH|e t hs E H IH]; intros hs' Hf'; inversion Hf'; subst; try congruence.
    - f_equal; [congruence|auto].
    - auto. }
  cbn [app] in C1, C2, C3, C4, C5. cbn [r_files] in Cf.
  assert (Hzero : forall h, In h hs -> fi_flags (snd h) mod 256 = 0).
  { clear -Hrows. revert Hrows. generalize (means all). generalize all. intros fs0 M Hrows. induction Hrows as [|f h fs hs (_ & H1 & _) H IH]; [intros ? []|]. intros h' [<-|Hi]; auto. }
  split.
  { rewrite Cf. unfold lenN. rewrite <- (map_length fe_name es), Hes, map_length, Hla. lia. }
  split.
  { assert (E : map (fun h => method_name (from_flags (fi_flags (snd h) mod 256))) hs = repeat (lit "None") (S (length files))).
    { rewrite <- Hla, <- Hlen. clear -Hzero. induction hs as [|h hs IH]; [reflexivity|]. cbn [map repeat length].
      rewrite (Hzero h ltac:(now left)). f_equal. apply IH. intros; apply Hzero; now right. }
    rewrite E in C1. apply tally_const in C1. rewrite C1. unfold lenN. do 2 f_equal. lia. }
  split.
  { rewrite C3. clear -Hzero. induction hs as [|h hs IH]; [reflexivity|]. cbn [filter]. rewrite (Hzero h ltac:(now left)). cbn.
    apply IH. intros; apply Hzero; now right. }
  split.
  { intros Hm Hl32. rewrite C5.
    assert (Hma : forall f, In f all -> means all (pf_name f) f /\ lenN (pf_data f) < 2 ^ 32).
    { intros f Hi. unfold all in Hi. apply in_app_iff in Hi. destruct Hi as [Hi|[<-|[]]].
      - destruct (Hm f Hi) as ((l1 & l2 & E & H1 & H2) & H3). split; [|exact H3].
        exists l1, (l2 ++ [mkPF (listfile_content (map pf_name files)) LISTFILE (c_default c) false false 0]).
        split; [unfold all; rewrite E, <- app_assoc; reflexivity|]. auto.
      - split; [|exact Hl32]. exists files, []. split; [reflexivity|]. split; [apply name_equiv_refl|].
        cbn [pf_name]. intros g Hg'. apply Hn. exact Hg'. }
    assert (E : total (fun h => fi_size (snd h)) hs = total (fun f => lenN (pf_data f)) all).
    { assert (G : forall fs hs, (forall f, In f fs -> In f all) ->
        Forall2 (fun f h => fst h = pf_name f /\ fi_flags (snd h) mod 256 = 0 /\ fi_csize (snd h) < 2 ^ 32 /\ fi_size (snd h) < 2 ^ 32 /\
          (means all (pf_name f) f -> lenN (pf_data f) < 2 ^ 32 -> fi_size (snd h) = lenN (pf_data f))) fs hs ->
        total (fun h : bytes * finfo => fi_size (snd h)) hs = total (fun f => lenN (pf_data f)) fs).
      { clear -Hma. intros fs hs Hsub H. induction H as [|f h fs hs (_ & _ & _ & _ & H1) H IH]; [reflexivity|].
        unfold total in *. cbn [fold_right]. rewrite IH by (intros; apply Hsub; now right).
        destruct (Hma f (Hsub f ltac:(now left))) as [M1 M2]. rewrite (H1 M1 M2). reflexivity. }
      exact (G all hs (fun f H => H) Hrows). }
    rewrite E. unfold all. rewrite total_snoc. reflexivity. }
  intros ->. destruct C2 as (_ & _ & C2). intros e. rewrite <- C2, map_map. cbn [fst].
  assert (E : map (fun h : bytes * finfo => file_extension lower (fst h)) hs = map (fun f => file_extension lower (pf_name f)) all).
  { clear -Hrows. revert Hrows. generalize (means all). generalize all. intros fs M Hrows.
    induction Hrows as [|f h fs hs (H1 & _) H IH]; [reflexivity|]. cbn [map]. now rewrite H1, IH. }
  rewrite E. unfold all. rewrite map_app, in_app_iff, in_map_iff. cbn [map In pf_name]. split.
  - intros [(f & <- & Hi)|[<-|[]]]; [right; exists f; auto|now left].
  - intros [->|(f & Hi & ->)]; [right; now left|left; exists f; auto].
Qed.
End Built.

(** ** Extensions of names *)
Lemma extension_of lower d f : f <> [] -> f <> lit "." -> f <> lit ".." -> ~ In "/"%byte f ->
  (forall e, extension f e -> file_extension lower f = lower e /\ file_extension lower (d ++ lit "/" ++ f) = lower e) /\
  ((forall e, ~ extension f e) ->
   file_extension lower f = lit "(no extension)" /\ file_extension lower (d ++ lit "/" ++ f) = lit "(no extension)").
Proof.
  intros H1 H2 H3 H4. destruct (last_part d f H1 H2 H3 H4) as [E1 E2]. unfold file_extension. split.
  - intros e He. rewrite (proj2 (extension_found f f e E1) He), (proj2 (extension_found _ f e E2) He). auto.
  - intros Hno. destruct (path_extension f) as [x|] eqn:F1.
    { exfalso. apply (extension_found f f x E1) in F1. exact (Hno x F1). }
    destruct (path_extension (d ++ lit "/" ++ f)) as [x|] eqn:F2; [|auto].
    exfalso. apply (extension_found _ f x E2) in F2. exact (Hno x F2).
Qed.
Lemma backslash_extension lower b e f : b <> [] -> ~ In "/"%byte (b ++ e ++ f) -> ~ In "."%byte (e ++ f) ->
  file_extension lower (b ++ lit "." ++ e ++ lit "\" ++ f) = lower (e ++ lit "\" ++ f).
Proof.
  intros Hb Hs Hd.
  assert (Hlen : (3 <= length (b ++ lit "." ++ e ++ lit "\" ++ f))%nat).
  { rewrite !app_length. cbn [lit length]. change (length (lit ".")) with 1%nat. change (length (lit "\")) with 1%nat. destruct b; [congruence|]. cbn [length]. lia. }
  refine (proj1 (proj1 (extension_of lower [] (b ++ lit "." ++ e ++ lit "\" ++ f) _ _ _ _) (e ++ lit "\" ++ f) _)).
  - intros X. rewrite X in Hlen. cbn in Hlen. lia.
  - intros X. rewrite X in Hlen. cbn in Hlen. lia.
  - intros X. rewrite X in Hlen. cbn in Hlen. lia.
  - rewrite !in_app_iff in *. intros [X|[[X|[]]|[X|[[X|[]]|X]]]]; try discriminate X; tauto.
  - exists b. split; [exact Hb|]. split; [reflexivity|]. rewrite !in_app_iff in *. intros [X|[[X|[]]|X]]; try discriminate X; tauto.
Qed.
