(** * Facts about listing and printing. *)
From Coq Require Import Sorting.Sorted Sorting.Permutation.
From Verif Require Import Bytes Crypto SpecNames NameFacts HashTable BlockTable Header Compress SpecCompress SpecTables
  Listfile SpecListfile ListfileFacts Builder Archive SpecArchive OpenFacts ArchiveFacts ListingFacts CliList SpecCliList CliFacts.
Open Scope N_scope.

(** ** Order *)
Lemma text_leb a : forall b, bytes_leb a b = true <-> text_le a b.
Proof.
  induction a as [|x a IH]; intros [|y b]; cbn [bytes_leb].
  - split; [constructor|reflexivity].
  - split; [constructor|reflexivity].
  - split; [discriminate|]. intros H. inversion H.
  - destruct (beqb x y) eqn:E.
    + apply beqb_iff in E. subst y. rewrite IH. split; [apply le_later|].
      intros H. inversion H; subst; [lia|assumption].
    + split.
      * intros H. apply N.ltb_lt in H. now apply le_first.
      * intros H. inversion H; subst; [now apply N.ltb_lt|].
        rewrite (proj2 (beqb_iff _ _) eq_refl) in E. discriminate.
Qed.
Lemma bN_inj x y : bN x = bN y -> x = y.
Proof. intros H. unfold bN in H. rewrite <- (Nb_bN x), <- (Nb_bN y). now f_equal. Qed.
Lemma text_total a : forall b, text_le a b \/ text_le b a.
Proof.
  induction a as [|x a IH]; intros [|y b]; try (left; constructor; fail); try (right; constructor; fail).
  destruct (N.lt_trichotomy (bN x) (bN y)) as [H|[H|H]].
  - left. now apply le_first.
  - apply bN_inj in H. subst y. destruct (IH b); [left|right]; now apply le_later.
  - right. now apply le_first.
Qed.
Lemma text_trans a b c : text_le a b -> text_le b c -> text_le a c.
Proof.
  intros H. revert c. induction H as [d|x y a b H|x a b H IH]; intros c G.
  - constructor.
  - inversion G; subst; [apply le_first; lia|now apply le_first].
  - inversion G; subst; [now apply le_first|]. apply le_later. now apply IH.
Qed.
Lemma text_antisym a b : text_le a b -> text_le b a -> a = b.
Proof.
  induction 1 as [d|x y a b H|x a b H IH]; intros G; inversion G; subst; try lia; try reflexivity.
  f_equal. now apply IH.
Qed.

Lemma text_refl a : text_le a a.
Proof. now destruct (text_total a a). Qed.

(** ** Sorting *)
Lemma insert_in e l x : In x (insert_entry e l) <-> x = e \/ In x l.
Proof.
  induction l as [|f t IH]; cbn [insert_entry].
  - cbn. intuition.
  - destruct (bytes_leb (fe_name e) (fe_name f)); cbn [In]; [intuition|]. rewrite IH. intuition.
Qed.
Lemma insert_ordered e l : in_order fe_name l -> in_order fe_name (insert_entry e l).
Proof.
  unfold in_order. induction 1 as [|f t Ht IH Hf]; cbn [insert_entry].
  - apply SSorted_cons; constructor.
  - destruct (bytes_leb (fe_name e) (fe_name f)) eqn:E.
    + apply text_leb in E. apply SSorted_cons; [now apply SSorted_cons|].
      apply Forall_cons; [exact E|]. eapply Forall_impl; [|exact Hf].
      intros g Hg. eapply text_trans; eauto.
    + apply SSorted_cons; [exact IH|]. apply Forall_forall. intros g Hg.
      apply insert_in in Hg as [->|Hg].
      * destruct (text_total (fe_name f) (fe_name e)) as [H|H]; [exact H|].
        apply text_leb in H. rewrite H in E. discriminate.
      * rewrite Forall_forall in Hf. auto.
Qed.
Lemma insert_named e l n : named fe_name n (insert_entry e l) = named fe_name n (e :: l).
Proof.
  induction l as [|f t IH]; [reflexivity|]. cbn [insert_entry].
  destruct (bytes_leb (fe_name e) (fe_name f)) eqn:E; [reflexivity|].
  unfold named in *. cbn [filter] in *. rewrite IH.
  destruct (bytes_eqb (fe_name e) n) eqn:En, (bytes_eqb (fe_name f) n) eqn:Fn; try reflexivity.
  apply bytes_eqb_eq in En, Fn. rewrite En, Fn in E.
  destruct (text_total n n) as [H|H]; apply text_leb in H; rewrite H in E; discriminate.
Qed.
Lemma sort_ordered l : in_order fe_name (sort_entries l).
Proof. induction l as [|e t IH]; cbn; [constructor|]. now apply insert_ordered. Qed.
Lemma sort_named l n : named fe_name n (sort_entries l) = named fe_name n l.
Proof.
  induction l as [|e t IH]; [reflexivity|]. cbn [sort_entries fold_right]. rewrite insert_named.
  unfold named in *. cbn [filter]. fold (sort_entries t). now rewrite IH.
Qed.
Lemma named_in {A} (name : A -> bytes) l x : In x l <-> In x (named name (name x) l).
Proof.
  unfold named. rewrite filter_In. split; [intros H; split; [exact H|]|intros [H _]; exact H].
  now apply bytes_eqb_eq.
Qed.
Lemma order_unique {A} (name : A -> bytes) l1 : forall l2, in_order name l1 -> in_order name l2 ->
  (forall n, named name n l1 = named name n l2) -> l1 = l2.
Proof.
  induction l1 as [|x t IH]; intros [|y u] H1 H2 H.
  - reflexivity.
  - specialize (H (name y)). unfold named in H. cbn [filter] in H.
    rewrite (proj2 (bytes_eqb_eq _ _) eq_refl) in H. discriminate.
  - specialize (H (name x)). unfold named in H. cbn [filter] in H.
    rewrite (proj2 (bytes_eqb_eq _ _) eq_refl) in H. discriminate.
  - inversion H1 as [|? ? H1t H1x]; subst. inversion H2 as [|? ? H2t H2x]; subst.
    assert (E : name x = name y).
    { apply text_antisym.
      - assert (K : In y (x :: t)) by (apply (proj2 (named_in name _ _)); rewrite H; apply (proj1 (named_in name _ _)); left; reflexivity).
        destruct K as [->|K]; [apply text_refl|].
        rewrite Forall_forall in H1x. auto.
      - assert (K : In x (y :: u)) by (apply (proj2 (named_in name _ _)); rewrite <- H; apply (proj1 (named_in name _ _)); left; reflexivity).
        destruct K as [->|K]; [apply text_refl|].
        rewrite Forall_forall in H2x. auto. }
    assert (x = y).
    { specialize (H (name x)). unfold named in H. cbn [filter] in H. rewrite <- E in H.
      rewrite (proj2 (bytes_eqb_eq _ _) eq_refl) in H. now injection H. }
    subst y. f_equal. apply IH; [exact H1t|exact H2t|]. intros n. specialize (H n).
    unfold named in H |- *. cbn [filter] in H. destruct (bytes_eqb (name x) n); [now injection H|exact H].
Qed.
Lemma insert_perm e l : Permutation (e :: l) (insert_entry e l).
Proof.
  induction l as [|f t IH]; cbn [insert_entry]; [reflexivity|].
  destruct (bytes_leb _ _); [reflexivity|]. etransitivity; [apply perm_swap|]. now apply perm_skip.
Qed.
Lemma sort_perm l : Permutation l (sort_entries l).
Proof.
  induction l as [|e t IH]; cbn; [constructor|]. fold (sort_entries t).
  etransitivity; [apply perm_skip; exact IH|]. apply insert_perm.
Qed.
Lemma named_filter m n (l : list fentry) :
  named fe_name n (filter (fun e => m (fe_name e)) l) = if m n then named fe_name n l else [].
Proof.
  unfold named. induction l as [|e t IH]; cbn [filter]; [now destruct (m n)|].
  destruct (bytes_eqb (fe_name e) n) eqn:E.
  - apply bytes_eqb_eq in E. subst n. destruct (m (fe_name e)); cbn [filter].
    + rewrite (proj2 (bytes_eqb_eq _ _) eq_refl). now f_equal.
    + exact IH.
  - destruct (m (fe_name e)); cbn [filter]; [rewrite E|]; exact IH.
Qed.

Section L.
Variable L : codecs.
Variable md5 : bytes -> bytes.
Variable compile : bool -> bytes -> option (bytes -> bool).
Variable lower : bytes -> bytes.

Lemma list_cmd_spec file all pattern regex hashes out :
  list_cmd L compile file all pattern regex hashes = Ok out <->
  exists a es m, open_archive L file = Ok a /\
    (match all, hashes with
     | true, true => list_all_with_hashes a
     | true, false => list_all a
     | false, true => list_with_hashes L a
     | false, false => list_files L a
     end) = Ok es /\
    (match pattern with None => Some (fun _ => true) | Some p => compile regex p end) = Some m /\
    in_order fe_name out /\
    forall n, named fe_name n out = if m n then named fe_name n es else [].
Proof.
  assert (Hsrc : forall a, list_source L all hashes a =
    match all, hashes with
     | true, true => list_all_with_hashes a
     | true, false => list_all a
     | false, true => list_with_hashes L a
     | false, false => list_files L a
     end) by (intros a; unfold list_source; destruct all, hashes; reflexivity).
  unfold list_cmd. split.
  - intros H. destruct (open_archive L file) as [a| |]; try discriminate. cbn [bind] in H. rewrite Hsrc in H.
    destruct (match all, hashes with true, true => _ | _, _ => _ end) as [es| |] eqn:E; try discriminate.
    cbn [bind] in H. destruct pattern as [p|].
    + destruct (compile regex p) as [m|]; try discriminate. cbn [of_option bind] in H.
      apply Ok_inj in H. subst out. exists a, es, m. split; [reflexivity|]. split; [exact E|]. split; [reflexivity|].
      split; [apply sort_ordered|]. intros n. rewrite sort_named. apply named_filter.
    + cbn [bind] in H. apply Ok_inj in H. subst out. exists a, es, (fun _ => true).
      split; [reflexivity|]. split; [exact E|]. split; [reflexivity|].
      split; [apply sort_ordered|]. intros n. apply sort_named.
  - intros (a & es & m & -> & Es & Em & Ho & Hn). cbn [bind]. rewrite Hsrc, Es. cbn [bind].
    destruct pattern as [p|].
    + rewrite Em. cbn [of_option bind]. f_equal.
      apply (order_unique fe_name); [apply sort_ordered|exact Ho|].
      intros n. rewrite sort_named, Hn. apply named_filter.
    + injection Em as <-. cbn [bind]. f_equal. apply (order_unique fe_name); [apply sort_ordered|exact Ho|].
      intros n. now rewrite sort_named, Hn.
Qed.

Lemma map_filter_name m (l : list fentry) :
  map fe_name (filter (fun e => m (fe_name e)) l) = filter m (map fe_name l).
Proof. induction l as [|e t IH]; cbn; [reflexivity|]. destruct (m (fe_name e)); cbn; now rewrite IH. Qed.

Section Built.
Variables (c : config) (files : list pending) (arc pre post : bytes).
Hypothesis HL : lossless L.
Hypothesis Hb : built_at L md5 c files arc pre post.
Hypothesis Hg : c_listfile c = LGenerate.
Hypothesis Hcol : no_collision (LISTFILE :: map pf_name files).
Hypothesis Ha : hashes_apart ATTRIBUTES (LISTFILE :: map pf_name files).
Hypothesis Hn : forall f, In f files -> is_text (pf_name f) /\ listable (pf_name f) /\ ~ name_equiv LISTFILE (pf_name f).
Hypothesis Hrb : reads_back L c (c_default c) (listfile_content (map pf_name files)).

Lemma list_cmd_built pattern regex hashes m :
  (match pattern with None => Some (fun _ => true) | Some p => compile regex p end) = Some m ->
  exists out, list_cmd L compile (pre ++ arc ++ post) false pattern regex hashes = Ok out /\
    in_order fe_name out /\
    Permutation (map fe_name out) (filter m (map pf_name files ++ [LISTFILE])).
Proof.
  intros Em. destruct (built_listing L md5 c files arc pre post HL Hb Hg Hcol Ha Hn Hrb) as (a & l & Ho & Hl & Hnames & _).
  assert (exists es, list_source L false hashes a = Ok es /\ map fe_name es = map pf_name files ++ [LISTFILE])
    as (es & He & Hes).
  { unfold list_source. destruct hashes.
    - eexists. unfold list_with_hashes. rewrite Hl. cbn [bind]. split; [reflexivity|].
      rewrite map_map. cbn [fe_name]. rewrite <- Hnames. reflexivity.
    - exists l. auto. }
  exists (sort_entries (filter (fun e => m (fe_name e)) es)). split; [|split].
  - unfold list_cmd. rewrite Ho. cbn [bind]. rewrite He. cbn [bind]. destruct pattern as [p|].
    + rewrite Em. reflexivity.
    + injection Em as <-. cbn [bind]. do 2 f_equal. clear. induction es as [|e t IH]; cbn; [reflexivity|]. now f_equal.
  - apply sort_ordered.
  - rewrite <- Hes, <- map_filter_name. apply Permutation_map. symmetry. apply sort_perm.
Qed.

Lemma find_cmd_built pattern regex m :
  compile regex pattern = Some m ->
  find_cmd L compile lower (pre ++ arc ++ post) pattern regex false =
    Ok (filter m (map pf_name files ++ [LISTFILE])).
Proof.
  intros Em. destruct (built_listing L md5 c files arc pre post HL Hb Hg Hcol Ha Hn Hrb) as (a & l & Ho & Hl & Hnames & _).
  unfold find_cmd. rewrite Ho. cbn [bind]. rewrite Hl. cbn [bind]. rewrite Hnames.
  destruct regex; rewrite Em; reflexivity.
Qed.

(** The method [analyze] reports. *)
Lemma flags_low ss f p out cs fl : write_file L c ss f p = Ok (out, cs, fl) -> N.lor fl FLAG_EXISTS mod 256 = 0.
Proof.
  unfold write_file. intros H.
  assert (G : exists b1 b2 b3 b4 b5,
    fl = N.lor (N.lor (N.lor (N.lor (flag_if b5 FLAG_SINGLE_UNIT) (flag_if b1 FLAG_SECTOR_CRC)) (flag_if b2 FLAG_COMPRESS))
              (flag_if b3 FLAG_ENCRYPTED)) (flag_if b4 FLAG_FIX_KEY)).
  { destruct (lenN (pf_data f) <=? ss).
    - unfold write_single in H. destruct (store_form L (pf_data f) (pf_comp f)) as [(body, b)| |]; try discriminate.
      cbn [bind] in H. apply Ok_inj in H. injection H as _ _ <-.
      exists (c_crcs c), b, (pf_encrypt f), (pf_encrypt f && pf_fix f), true. reflexivity.
    - unfold write_multi in H. destruct (ss =? 0); try discriminate.
      destruct (store_sectors L _ _) as [(st, b)| |]; try discriminate. cbn [bind] in H.
      match type of H with bind ?x _ = _ => destruct x as [d'| |]; try discriminate end.
      cbn [bind] in H. apply Ok_inj in H. injection H as _ _ <-.
      exists (c_crcs c), b, (pf_encrypt f), (pf_encrypt f && pf_fix f), false. reflexivity. }
  destruct G as (b1 & b2 & b3 & b4 & b5 & ->). destruct b1, b2, b3, b4, b5; vm_compute; reflexivity.
Qed.
Lemma analyze_built :
  analyze L (pre ++ arc ++ post) = Ok (map (fun n => (n, MNone, true)) (map pf_name files ++ [LISTFILE])).
Proof.
  destruct (built_listing L md5 c files arc pre post HL Hb Hg Hcol Ha Hn Hrb) as (a & l & Ho & Hl & Hnames & _).
  destruct (built_open L md5 c files arc pre post Hb Ha) as (a' & ss & Ho' & Hss & Hd & Hhet & _).
  rewrite Ho in Ho'. apply Ok_inj in Ho'. subst a'.
  pose proof (no_collision_incl _ _ (prepare_names c files) Hcol) as Hcol'.
  unfold analyze. rewrite Ho. cbn [bind]. unfold list_with_hashes. rewrite Hl. cbn [bind].
  match goal with |- analyze_entries a ?E = _ => set (es := E) end.
  assert (Hes : map fe_name es = map pf_name files ++ [LISTFILE]).
  { unfold es. rewrite map_map. cbn [fe_name]. exact Hnames. }
  rewrite <- Hes.
  assert (Hall : forall e, In e es -> exists fi, find_file a (fe_name e) = Ok (Some fi) /\ fi_flags fi mod 256 = 0).
  { intros e He. destruct (means_exists (prepare_listfile c files) (fe_name e)) as (f & Hm).
    { unfold prepare_listfile. rewrite Hg, map_app. change (map pf_name [_]) with [LISTFILE].
      rewrite <- Hes. now apply in_map. }
    destruct (built_find L md5 a c ss _ _ f Hd Hhet Hcol' Hm) as (i & p & out & cs & fl & s & _ & _ & G3 & _ & _ & _ & G).
    eexists. split; [exact G|]. cbn [fi_flags]. exact (flags_low _ _ _ _ _ _ G3). }
  clearbody es. clear Hes. induction es as [|e t IH]; [reflexivity|]. cbn [analyze_entries map].
  destruct (Hall e) as (fi & -> & Ef); [now left|]. cbn [bind]. rewrite IH by (intros; apply Hall; now right).
  cbn [bind]. rewrite Ef. reflexivity.
Qed.
End Built.

(** Looking without regard to case. *)
Lemma find_cmd_case file p p' :
  lower p = lower p' -> find_cmd L compile lower file p false true = find_cmd L compile lower file p' false true.
Proof. intros H. unfold find_cmd. now rewrite H. Qed.
Lemma find_cmd_fold file p names l a n n' :
  find_cmd L compile lower file p false true = Ok names -> open_archive L file = Ok a -> list_files L a = Ok l ->
  In n (map fe_name l) -> In n' (map fe_name l) -> lower n = lower n' -> In n names -> In n' names.
Proof.
  intros H Ho Hl Hi Hi' E. unfold find_cmd in H. rewrite Ho in H. cbn [bind] in H. rewrite Hl in H. cbn [bind] in H.
  destruct (compile false (lower p)) as [m|]; try discriminate. cbn [of_option bind] in H. apply Ok_inj in H. subst names.
  rewrite !filter_In, E. tauto.
Qed.
End L.

(** ** The table *)
Lemma display_panic n : display_name n = Panic <-> 39 < lenN n /\ inside_char n 36.
Proof.
  unfold display_name, char_boundary, inside_char. destruct (N.ltb_spec 39 (lenN n)) as [C|C].
  - destruct (nth_error n 36) as [b|] eqn:E.
    + destruct (N.ltb_spec (bN b) 128), (N.leb_spec 192 (bN b)); cbn [orb]; split; try discriminate; try reflexivity;
        try (intros (_ & b' & Eb & Hb); injection Eb as <-; lia).
      intros _. split; [exact C|]. exists b. split; [reflexivity|lia].
    + apply nth_error_None in E. unfold lenN in C. lia.
  - split; [discriminate|]. lia.
Qed.
Lemma display_calm n e : display_name n <> Err e.
Proof. unfold display_name. destruct (39 <? lenN n); [destruct (char_boundary n 36)|]; discriminate. Qed.

Lemma verbose_panics es : forall s k, s < M64 -> k < M64 ->
  print_verbose es s k = Panic <->
  (exists e, In e es /\ 39 < lenN (fe_name e) /\ inside_char (fe_name e) 36) \/
  M64 <= s + total fe_size es \/ M64 <= k + total fe_csize es.
Proof.
  induction es as [|e t IH]; intros s k Hs Hk; cbn [print_verbose total fold_right].
  - split; [discriminate|]. intros [(e & [] & _)|[H|H]]; lia.
  - fold (total fe_size t) (total fe_csize t). destruct (display_name (fe_name e)) as [n|x|] eqn:En.
    + cbn [bind]. unfold add64. destruct (N.ltb_spec (s + fe_size e) M64) as [C|C]; cbn [bind].
      2:{ split; [intros _; right; left; lia|reflexivity]. }
      destruct (N.ltb_spec (k + fe_csize e) M64) as [D|D]; cbn [bind].
      2:{ split; [intros _; right; right; lia|reflexivity]. }
      specialize (IH _ _ C D). rewrite !N.add_assoc.
      assert (G : bind (print_verbose t (s + fe_size e) (k + fe_csize e)) (fun rest => Ok (n :: rest)) = Panic <->
                  print_verbose t (s + fe_size e) (k + fe_csize e) = Panic)
        by (destruct (print_verbose t _ _); cbn; split; congruence).
      rewrite G, IH. assert (Hne : ~ (39 < lenN (fe_name e) /\ inside_char (fe_name e) 36))
        by (rewrite <- display_panic; congruence).
      split; (intros [(x & Hx & Hp)|H]; [|right; exact H]); left.
      * exists x. split; [right; exact Hx|exact Hp].
      * destruct Hx as [<-|Hx]; [contradiction|]. exists x. auto.
    + exfalso. eapply display_calm; eauto.
    + cbn [bind]. apply display_panic in En. split; [|reflexivity]. intros _. left. exists e. split; [left; reflexivity|exact En].
Qed.
Lemma verbose_calm es : forall s k x, print_verbose es s k <> Err x.
Proof.
  induction es as [|e t IH]; intros s k x; cbn [print_verbose]; [discriminate|].
  destruct (display_name (fe_name e)) as [n|y|] eqn:En; cbn [bind]; [|exfalso; eapply display_calm; eauto|discriminate].
  unfold add64. destruct (s + fe_size e <? M64); cbn [bind]; [|discriminate].
  destruct (k + fe_csize e <? M64); cbn [bind]; [|discriminate].
  specialize (IH (s + fe_size e) (k + fe_csize e)). destruct (print_verbose t _ _) as [r|y|]; cbn [bind]; try discriminate.
  intros H. apply (IH y). reflexivity.
Qed.

(** What the column shows. *)
Lemma display_ok n d : display_name n = Ok d ->
  (lenN n <= 39 /\ d = n) \/ (39 < lenN n /\ d = firstn 36 n ++ lit "...").
Proof.
  unfold display_name. destruct (N.ltb_spec 39 (lenN n)) as [C|C].
  - destruct (char_boundary n 36); [|discriminate]. intros H. apply Ok_inj in H. subst. right. auto.
  - intros H. apply Ok_inj in H. subst. left. auto.
Qed.
Lemma verbose_rows es : forall s k rows, print_verbose es s k = Ok rows ->
  Forall2 (fun e d => (lenN (fe_name e) <= 39 /\ d = fe_name e) \/
                      (39 < lenN (fe_name e) /\ d = firstn 36 (fe_name e) ++ lit "...")) es rows.
Proof.
  induction es as [|e t IH]; intros s k rows; cbn [print_verbose].
  - intros H. apply Ok_inj in H. subst. constructor.
  - destruct (display_name (fe_name e)) as [n|x|] eqn:En; cbn [bind]; try discriminate.
    destruct (add64 s (fe_size e)) as [s'|x|]; cbn [bind]; try discriminate.
    destruct (add64 k (fe_csize e)) as [k'|x|]; cbn [bind]; try discriminate.
    destruct (print_verbose t s' k') as [r|x|] eqn:Er; cbn [bind]; try discriminate.
    intros H. apply Ok_inj in H. subst. constructor; [now apply display_ok|]. eapply IH; eauto.
Qed.

(** ** Comma separated values *)
Lemma double_quotes_length v : (length v <= length (double_quotes v))%nat.
Proof. induction v as [|b t IH]; cbn; [lia|]. destruct (beqb b _); cbn; lia. Qed.
Lemma field_length v t : csv_field v t -> (length v <= length t)%nat /\ (length t = length v -> csv_plain v /\ t = v).
Proof.
  intros [w Hw|w].
  - split; [lia|]. auto.
  - rewrite !app_length. cbn [length]. pose proof (double_quotes_length w). split; [lia|]. lia.
Qed.
Fixpoint record_size (vs : list bytes) : nat :=
  match vs with
  | [] => 0
  | [v] => length v
  | v :: r => length v + 1 + record_size r
  end.
Lemma record_length vs t : csv_record vs t ->
  (record_size vs <= length t)%nat /\ (length t = record_size vs -> Forall csv_plain vs).
Proof.
  induction 1 as [v t H|v t vs ts H Hr IH].
  - apply field_length in H as [H1 H2]. split; [exact H1|]. intros E. constructor; [|constructor]. now apply H2.
  - apply field_length in H as [H1 H2]. destruct IH as [I1 I2].
    assert (E : record_size (v :: vs) = (length v + 1 + record_size vs)%nat) by (destruct vs; [inversion Hr|reflexivity]).
    rewrite E, !app_length. cbn [length]. split; [lia|]. intros K. constructor; [apply H2|apply I2]; lia.
Qed.
Definition text_size (rs : list (list bytes)) : nat := fold_right (fun r s => record_size r + 1 + s)%nat 0%nat rs.
Lemma text_length rs t : csv_text rs t ->
  (text_size rs <= length t)%nat /\ (length t = text_size rs -> Forall (Forall csv_plain) rs).
Proof.
  induction 1 as [|r t rs ts Hr Hs IH|r t rs ts Hr Hs IH]; cbn [text_size fold_right].
  - split; [cbn; lia|]. constructor.
  - apply record_length in Hr as [H1 H2]. destruct IH as [I1 I2]. fold (text_size rs). rewrite !app_length. cbn [length].
    split; [lia|]. intros K. constructor; [apply H2|apply I2]; lia.
  - apply record_length in Hr as [H1 H2]. destruct IH as [I1 I2]. fold (text_size rs). rewrite !app_length. cbn [length].
    split; [lia|]. intros K. lia.
Qed.
Lemma csv_plainb v :
  forallb (fun b => negb (beqb b ","%byte) && negb (beqb b """"%byte) && negb (beqb b "010"%byte) && negb (beqb b "013"%byte)) v
    = true -> csv_plain v.
Proof.
  rewrite forallb_forall. intros H b Hb. specialize (H b Hb).
  apply andb_prop in H as [H H4]. apply andb_prop in H as [H H3]. apply andb_prop in H as [H1 H2].
  repeat split; intros ->; rewrite beqb_refl in *; discriminate.
Qed.
Lemma names_csv names : csv_text ([lit "filename"] :: map (fun n => [n]) names) (print_names_csv names) <->
  Forall csv_plain names.
Proof.
  split.
  - intros H. apply text_length in H as [_ H].
    assert (E : length (print_names_csv names) = text_size ([lit "filename"] :: map (fun n => [n]) names)).
    { unfold print_names_csv. cbn [text_size fold_right record_size]. rewrite app_length. unfold line at 1.
      rewrite app_length. change (length [LF]) with 1%nat. f_equal.
      clear. induction names as [|n t IH]; [reflexivity|]. cbn [map concat fold_right record_size].
      rewrite app_length, IH. unfold line. rewrite app_length. reflexivity. }
    specialize (H E). inversion H as [|? ? _ Hr]; subst. rewrite Forall_map in Hr.
    eapply Forall_impl; [|exact Hr]. intros n Hn. now inversion Hn.
  - intros H. unfold print_names_csv.
    unfold line at 1. rewrite <- app_assoc. apply text_lf.
    + apply record_last, field_plain, csv_plainb. reflexivity.
    + induction H as [|n t Hn Ht IH]; [constructor|]. cbn [map concat]. unfold line at 1. rewrite <- app_assoc.
      apply text_lf; [|exact IH]. now apply record_last, field_plain.
Qed.

(** Hexadecimal digits *)
Lemma hex_digit_value d : d < 16 -> hex_value (hex_digit d) = Some d.
Proof.
  intros H. assert (K : In d [0;1;2;3;4;5;6;7;8;9;10;11;12;13;14;15]).
  { cbn. lia. }
  repeat (destruct K as [<-|K]; [reflexivity|]). destruct K.
Qed.
Lemma hex_digit_plain d : d < 16 -> csv_plain [hex_digit d].
Proof.
  intros H. assert (K : In d [0;1;2;3;4;5;6;7;8;9;10;11;12;13;14;15]).
  { cbn. lia. }
  repeat (destruct K as [<-|K]; [apply csv_plainb; reflexivity|]). destruct K.
Qed.
Lemma hex_digits_value k : forall n acc,
  hex_number acc (hex_digits k n) = Some (acc * 16 ^ N.of_nat k + n mod 16 ^ N.of_nat k).
Proof.
  induction k as [|k IH]; intros n acc; cbn [hex_digits hex_number].
  - rewrite N.mod_1_r. f_equal. cbn. lia.
  - rewrite hex_digit_value by (apply N.mod_lt; discriminate). rewrite IH. f_equal.
    rewrite N.shiftr_div_pow2.
    replace (2 ^ (4 * N.of_nat k)) with (16 ^ N.of_nat k) by (change 16 with (2 ^ 4); rewrite <- N.pow_mul_r; reflexivity).
    replace (N.of_nat (S k)) with (N.of_nat k + 1) by lia. rewrite N.pow_add_r, N.pow_1_r.
    rewrite (N.mod_mul_r n (16 ^ N.of_nat k) 16) by (try apply N.pow_nonzero; discriminate). lia.
Qed.
Lemma hex8_value n : n < 2 ^ 32 -> length (hex8 n) = 8%nat /\ hex_number 0 (hex8 n) = Some n.
Proof.
  intros H. split; [reflexivity|]. unfold hex8. rewrite hex_digits_value. f_equal.
  change (16 ^ N.of_nat 8) with (2 ^ 32). rewrite N.mod_small by exact H. lia.
Qed.
Lemma hex_digits_plain k n : csv_plain (hex_digits k n).
Proof.
  induction k as [|k IH]; [intros b []|]. cbn [hex_digits]. intros b [<-|Hb].
  - apply (hex_digit_plain (N.shiftr n (4 * N.of_nat k) mod 16)); [apply N.mod_lt; discriminate|now left].
  - now apply IH.
Qed.

Definition row_of (e : fentry) : list bytes :=
  match fe_hashes e with
  | Some (a, b) => [fe_name e; hex8 a; hex8 b]
  | None => [fe_name e; lit "NA"; lit "NA"]
  end.
Lemma hashes_csv_length es : existsb (fun e => match fe_hashes e with Some _ => true | None => false end) es = true ->
  length (print_hashes_csv es) = text_size ([lit "filename"; lit "hash1"; lit "hash2"] :: map row_of es).
Proof.
  intros Hx. unfold print_hashes_csv. rewrite Hx. cbn [text_size fold_right]. rewrite app_length.
  change (length (line (lit "filename,hash1,hash2"))) with (record_size [lit "filename"; lit "hash1"; lit "hash2"] + 1)%nat.
  f_equal. clear. induction es as [|e t IH]; [reflexivity|]. cbn [map concat fold_right].
  rewrite app_length, IH. f_equal. unfold csv_row, row_of, line. destruct (fe_hashes e) as [(a, b)|].
  - cbn [record_size]. rewrite !app_length. change (length (hex8 a)) with 8%nat. change (length (hex8 b)) with 8%nat.
    change (length (lit ",")) with 1%nat. cbn [length]. lia.
  - cbn [record_size]. rewrite !app_length. change (length (lit ",NA,NA")) with 6%nat.
    change (length (lit "NA")) with 2%nat. cbn [length]. lia.
Qed.
Lemma hashes_csv es : existsb (fun e => match fe_hashes e with Some _ => true | None => false end) es = true ->
  csv_text ([lit "filename"; lit "hash1"; lit "hash2"] :: map row_of es) (print_hashes_csv es) <->
  Forall (fun e => csv_plain (fe_name e)) es.
Proof.
  intros Hx. split.
  - intros H. apply text_length in H as [_ H]. pose proof (hashes_csv_length es Hx) as E.
    specialize (H E). inversion H as [|? ? _ Hr]; subst. rewrite Forall_map in Hr.
    eapply Forall_impl; [|exact Hr]. intros e He. unfold row_of in He.
    destruct (fe_hashes e) as [(a, b)|]; now inversion He.
  - intros H. unfold print_hashes_csv. rewrite Hx. clear Hx.
    change (line (lit "filename,hash1,hash2") ++ concat (map csv_row es)) with
      ((lit "filename" ++ [","%byte] ++ lit "hash1" ++ [","%byte] ++ lit "hash2") ++ ["010"%byte] ++ concat (map csv_row es)).
    apply text_lf.
    + apply record_more; [apply field_plain, csv_plainb; reflexivity|].
      apply record_more; [apply field_plain, csv_plainb; reflexivity|].
      apply record_last, field_plain, csv_plainb; reflexivity.
    + induction H as [|e t He Ht IH]; [constructor|]. cbn [map concat]. unfold csv_row at 1, row_of at 1.
      assert (G : forall x y, csv_plain x -> csv_plain y ->
        csv_text ([fe_name e; x; y] :: map row_of t)
          (line (fe_name e ++ lit "," ++ x ++ lit "," ++ y) ++ concat (map csv_row t))).
      { intros x y Hx Hy. unfold line. rewrite <- app_assoc. apply text_lf; [|exact IH].
        apply record_more; [now apply field_plain|].
        apply record_more; [now apply field_plain|]. now apply record_last, field_plain. }
      destruct (fe_hashes e) as [(a, b)|].
      * apply G; apply hex_digits_plain.
      * apply (G (lit "NA") (lit "NA")); apply csv_plainb; reflexivity.
Qed.
Definition csv_hashes (e : fentry) (r : list bytes) : Prop :=
  match fe_hashes e with
  | Some (a, b) => exists x y, hex_of a x /\ hex_of b y /\ r = [fe_name e; x; y]
  | None => r = [fe_name e; lit "NA"; lit "NA"]
  end.
Lemma hashes_csv_size es rows : Forall2 csv_hashes es rows ->
  text_size rows = text_size (map row_of es) /\
  (Forall (Forall csv_plain) rows -> Forall (fun e => csv_plain (fe_name e)) es).
Proof.
  induction 1 as [|e r es rows H Hs [I1 I2]]; [split; [reflexivity|constructor]|].
  cbn [map text_size fold_right]. fold (text_size rows). fold (text_size (map row_of es)). rewrite I1.
  unfold csv_hashes, row_of in *. destruct (fe_hashes e) as [[a b]|].
  - destruct H as (x & y & [Lx _] & [Ly _] & ->). split.
    + cbn [record_size]. rewrite Lx, Ly. reflexivity.
    + intros F. inversion F as [|? ? F1 F2]; subst. constructor; [now inversion F1|now apply I2].
  - subst r. split; [reflexivity|]. intros F. inversion F as [|? ? F1 F2]; subst. constructor; [now inversion F1|now apply I2].
Qed.
Lemma hashes_csv_rows es : (exists e, In e es /\ fe_hashes e <> None) ->
  (forall e a b, In e es -> fe_hashes e = Some (a, b) -> a < 2 ^ 32 /\ b < 2 ^ 32) ->
  (exists rows, Forall2 csv_hashes es rows /\
     csv_text ([lit "filename"; lit "hash1"; lit "hash2"] :: rows) (print_hashes_csv es)) <->
  Forall (fun e => csv_plain (fe_name e)) es.
Proof.
  intros (e0 & He0 & Hn) H.
  assert (Hx : existsb (fun e => match fe_hashes e with Some _ => true | None => false end) es = true).
  { apply existsb_exists. exists e0. split; [exact He0|]. now destruct (fe_hashes e0). }
  split.
  - intros (rows & F & T). apply hashes_csv_size in F as [F1 F2]. apply text_length in T as [_ T].
    apply F2. assert (E : Forall (Forall csv_plain) ([lit "filename"; lit "hash1"; lit "hash2"] :: rows)).
    { apply T. rewrite hashes_csv_length by exact Hx. cbn [text_size fold_right]. fold (text_size rows).
      fold (text_size (map row_of es)). now rewrite F1. }
    now inversion E.
  - intros P. exists (map row_of es). split.
    + clear He0 Hx P. induction es as [|e t IH]; [constructor|]. cbn [map].
      constructor; [|apply IH; intros; eapply H; [right|]; eassumption].
      unfold csv_hashes, row_of. destruct (fe_hashes e) as [[a b]|] eqn:E; [|reflexivity].
      destruct (H e a b (or_introl eq_refl) E) as [Ha Hb].
      exists (hex8 a), (hex8 b). split; [now apply hex8_value|]. split; [now apply hex8_value|]. reflexivity.
    + now apply hashes_csv.
Qed.

Lemma find_ignores_case L compile lower file :
  (forall p p', lower p = lower p' ->
     find_cmd L compile lower file p false true = find_cmd L compile lower file p' false true) /\
  (forall p names l a n n',
     find_cmd L compile lower file p false true = Ok names -> open_archive L file = Ok a -> list_files L a = Ok l ->
     In n (map fe_name l) -> In n' (map fe_name l) -> lower n = lower n' -> In n names -> In n' names).
Proof.
  split; [exact (find_cmd_case L compile lower file)|].
  intros p names l a n n'. exact (find_cmd_fold L (fun d => d) compile lower file p names l a n n').
Qed.

Lemma find_regex_case L compile lower file (alike : bytes -> bytes -> Prop) :
  (forall p m n n', compile true (lit "(?i)" ++ p) = Some m -> alike n n' -> m n = m n') ->
  (forall p m, compile true p = Some m ->
     exists m', compile true (lit "(?i)" ++ p) = Some m' /\ forall n, m n = true -> m' n = true) ->
  (forall p names l a n n',
     find_cmd L compile lower file p true true = Ok names -> open_archive L file = Ok a -> list_files L a = Ok l ->
     In n (map fe_name l) -> In n' (map fe_name l) -> alike n n' -> In n names -> In n' names) /\
  (forall p names, find_cmd L compile lower file p true false = Ok names ->
     exists names', find_cmd L compile lower file p true true = Ok names' /\ incl names names').
Proof.
  intros H1 H2. unfold find_cmd. split.
  - intros p names l a n n' E Ea El I1 I2 K. rewrite Ea in E. cbn [bind] in E. rewrite El in E. cbn [bind] in E.
    destruct (compile true (lit "(?i)" ++ p)) as [m|] eqn:Em; cbn [of_option bind] in E; [|discriminate].
    apply Ok_inj in E. subst names. rewrite !filter_In. intros [_ M]. split; [exact I2|]. now rewrite <- (H1 p m n n' Em K).
  - intros p names E. destruct (open_archive L file) as [a| |]; cbn [bind] in E |- *; try discriminate.
    destruct (list_files L a) as [es| |]; cbn [bind] in E |- *; try discriminate.
    destruct (compile true p) as [m|] eqn:Em; cbn [of_option bind] in E; [|discriminate]. apply Ok_inj in E. subst names.
    destruct (H2 p m Em) as (m' & -> & Hm). cbn [of_option bind]. eexists. split; [reflexivity|].
    intros n. rewrite !filter_In. intros [K M]. auto.
Qed.

Lemma table_panics es :
  (print_verbose es 0 0 = Panic <->
   (exists e, In e es /\ 39 < lenN (fe_name e) /\ inside_char (fe_name e) 36) \/
   2 ^ 64 <= total fe_size es \/ 2 ^ 64 <= total fe_csize es) /\
  (forall x, print_verbose es 0 0 <> Err x) /\
  (forall rows, print_verbose es 0 0 = Ok rows ->
     Forall2 (fun e d => (lenN (fe_name e) <= 39 /\ d = fe_name e) \/
                         (39 < lenN (fe_name e) /\ d = firstn 36 (fe_name e) ++ lit "...")) es rows).
Proof.
  split; [exact (verbose_panics es 0 0 eq_refl eq_refl)|]. split; [apply verbose_calm|apply verbose_rows].
Qed.

Lemma list_find_built L md5 compile lower c files arc pre post :
  lossless L -> built_at L md5 c files arc pre post -> c_listfile c = LGenerate ->
  no_collision (LISTFILE :: map pf_name files) ->
  hashes_apart ATTRIBUTES (LISTFILE :: map pf_name files) ->
  (forall f, In f files -> is_text (pf_name f) /\ listable (pf_name f) /\ ~ name_equiv LISTFILE (pf_name f)) ->
  reads_back L c (c_default c) (listfile_content (map pf_name files)) ->
  forall pattern regex m, compile regex pattern = Some m ->
  find_cmd L compile lower (pre ++ arc ++ post) pattern regex false =
    Ok (filter m (map pf_name files ++ [LISTFILE])).
Proof. intros. eapply find_cmd_built; eassumption. Qed.
