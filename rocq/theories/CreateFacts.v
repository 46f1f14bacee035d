(** * Facts about [archive create] *)
From Verif Require Import Bytes SpecNames NameFacts SpecTables Attributes Header Compress SpecCompress Listfile SpecListfile ListfileFacts TextFacts Builder SpecBuilding Archive SpecArchive
  SpecArchive34 EndToEnd Cli SpecCli CliBuilt CliBuilt34 CliCreate SpecCreate SpecNameTable NameArchiveFacts.
From Coq Require Import ZifyBool ZifyN ZifyNat.
Open Scope N_scope.

Scheme node_ind2 := Induction for node Sort Prop with tree_ind2 := Induction for tree Sort Prop.
Combined Scheme dir_ind from node_ind2, tree_ind2.

(** ** The walk *)
Definition deeper (deep : bool) (p : list bytes) : Prop := deep = true \/ length p = 1%nat.

Lemma walk_files follow deep :
  (forall n pre e, In (Some e) (walk_node follow deep pre n) -> en_dir e = false ->
     (n = NFile (en_data e) /\ en_parts e = pre) \/
     exists link t p, n = NDir link true t /\ deep = true /\ (link = false \/ follow = true) /\
       en_parts e = pre ++ p /\ file_at follow t p (en_data e)) /\
  (forall t pre e, In (Some e) (walk_tree follow deep pre t) -> en_dir e = false ->
     exists p, en_parts e = pre ++ p /\ file_at follow t p (en_data e) /\ deeper deep p).
Proof.
  apply dir_ind.
  - intros d pre e [[= <-]|[]] _. left. split; reflexivity.
  - intros link ok t IH pre e H Hd. cbn [walk_node] in H. destruct H as [[= <-]|H]; [discriminate Hd|].
    destruct (deep && (follow || negb link)) eqn:E; [|destruct H].
    destruct ok; [|destruct H as [H|[]]; discriminate H].
    destruct (IH pre e H Hd) as (p & E1 & E2 & _). right. exists link, t, p.
    split; [reflexivity|]. apply andb_true_iff in E. destruct E as [-> E]. split; [reflexivity|].
    split; [destruct link, follow; auto; discriminate|]. auto.
  - intros pre e [].
  - intros name n IHn rest IHr pre e H Hd. cbn [walk_tree] in H. apply in_app_or in H. destruct H as [H|H].
    + destruct (IHn _ e H Hd) as [[-> E]|(link & t & p & -> & Hdeep & Hl & E & Hp)].
      * exists [name]. split; [exact E|]. split; [constructor; constructor|now right].
      * exists (name :: p). split; [rewrite E, <- app_assoc; reflexivity|].
        split; [|now left]. apply (at_below follow _ name link t); [constructor|exact Hl|exact Hp].
    + destruct (IHr pre e H Hd) as (p & E & Hp & Hdp). exists p. split; [exact E|]. split; [|exact Hdp].
      inversion Hp as [t' name' d Hh|t' name' link sub p' d Hh Hl Hs]; subst.
      * apply at_here. now apply has_later.
      * apply (at_below follow _ name' link sub); [now apply has_later|exact Hl|exact Hs].
Qed.

Lemma walk_has follow deep t name n : has t name n -> forall pre e,
  In e (walk_node follow deep (pre ++ [name]) n) -> In e (walk_tree follow deep pre t).
Proof.
  induction 1 as [name n rest|name n rest name' n' H IH]; intros pre e He; cbn [walk_tree]; apply in_or_app; [now left|right].
  now apply IH.
Qed.
Lemma walk_finds follow deep t p d : file_at follow t p d -> deeper deep p -> forall pre,
  In (Some (mkEntry (pre ++ p) false d)) (walk_tree follow deep pre t).
Proof.
  induction 1 as [t name d Hh|t name link sub p d Hh Hl Hs IH]; intros Hd pre.
  - apply (walk_has follow deep t name _ Hh). now left.
  - assert (deep = true) as ->.
    { destruct Hd as [Hd|Hd]; [exact Hd|]. cbn [length] in Hd. inversion Hs; subst; cbn [length] in Hd; lia. }
    apply (walk_has follow true t name _ Hh). cbn [walk_node]. right.
    replace (true && (follow || negb link)) with true by (destruct Hl as [-> | ->]; [now rewrite orb_true_r|reflexivity]).
    replace (pre ++ name :: p) with ((pre ++ [name]) ++ p) by (rewrite <- app_assoc; reflexivity). apply IH. now left.
Qed.

Lemma hidden_has follow name n rest : hidden follow rest -> hidden follow (TCons name n rest).
Proof.
  intros H. inversion H as [t' nm link sub Hh Hl|t' nm link sub Hh Hl Hs]; subst.
  - apply (hidden_here follow _ nm link sub); [now apply has_later|exact Hl].
  - apply (hidden_below follow _ nm link sub); [now apply has_later|exact Hl|exact Hs].
Qed.
Lemma walk_errors follow deep :
  (forall n pre, In None (walk_node follow deep pre n) ->
     exists link ok t, n = NDir link ok t /\ deep = true /\ (link = false \/ follow = true) /\ (ok = false \/ hidden follow t)) /\
  (forall t pre, In None (walk_tree follow deep pre t) -> deep = true /\ hidden follow t).
Proof.
  apply dir_ind.
  - intros d pre [H|[]]; discriminate H.
  - intros link ok t IH pre H. cbn [walk_node] in H. destruct H as [H|H]; [discriminate H|].
    destruct (deep && (follow || negb link)) eqn:E; [|destruct H].
    apply andb_true_iff in E. destruct E as [E1 E2]. exists link, ok, t. split; [reflexivity|]. split; [exact E1|].
    split; [destruct link, follow; auto; discriminate|].
    destruct ok; [right; exact (proj2 (IH pre H))|now left].
  - intros pre [].
  - intros name n IHn rest IHr pre H. cbn [walk_tree] in H. apply in_app_or in H. destruct H as [H|H].
    + destruct (IHn _ H) as (link & ok & t & -> & Hd & Hl & Ho). split; [exact Hd|]. destruct ok.
      * destruct Ho as [Ho|Ho]; [discriminate|]. apply (hidden_below follow _ name link t); [constructor|exact Hl|exact Ho].
      * apply (hidden_here follow _ name link t); [constructor|exact Hl].
    + destruct (IHr pre H) as [Hd Hh]. split; [exact Hd|]. now apply hidden_has.
Qed.
Lemma walk_hidden follow t : hidden follow t -> forall pre, In None (walk_tree follow true pre t).
Proof.
  induction 1 as [t name link sub Hh Hl|t name link sub Hh Hl Hs IH]; intros pre; apply (walk_has follow true t name _ Hh); cbn [walk_node]; right;
    (replace (true && (follow || negb link)) with true by (destruct Hl as [-> | ->]; [now rewrite orb_true_r|reflexivity])).
  - now left.
  - apply IH.
Qed.

(** ** Patterns *)
Lemma starts_spec pat : forall s, starts pat s = true <-> exists b, s = pat ++ b.
Proof.
  induction pat as [|x pat IH]; intros s; cbn [starts app].
  - split; [intros _; now exists s|reflexivity].
  - destruct s as [|y s]; [split; [discriminate|intros (b & E); discriminate]|].
    rewrite andb_true_iff, beqb_eq, IH. split.
    + intros [-> (b & ->)]. now exists b.
    + intros (b & E). injection E as -> ->. eauto.
Qed.
Lemma occurs_spec pat : forall s, occurs pat s = true <-> appears pat s.
Proof.
  assert (G : forall s, occurs pat s = true <-> starts pat s = true \/ exists b t, s = b :: t /\ occurs pat t = true).
  { intros [|b t]; cbn [occurs]; rewrite orb_true_iff; split; intros [H|H]; auto.
    - discriminate H.
    - destruct H as (b & t & E & _). discriminate E.
    - right. eauto.
    - right. destruct H as (b' & t' & E & H). now injection E as -> ->. }
  induction s as [|b s IH]; rewrite G, starts_spec.
  - split.
    + intros [(r & E)|(? & ? & E & _)]; [|discriminate]. exists [], r. exact E.
    + intros (u & r & E). left. exists r. destruct u; [exact E|discriminate E].
  - split.
    + intros [(r & E)|(b' & t & E & H)]; [exists [], r; exact E|]. injection E as <- <-. apply IH in H.
      destruct H as (u & r & ->). exists (b :: u), r. reflexivity.
    + intros (u & r & E). destruct u as [|b' u]; [left; exists r; exact E|]. right. injection E as <- E.
      exists b, s. split; [reflexivity|]. apply IH. exists u, r. exact E.
Qed.

(** ** Paths *)
Lemma join_one d c : ordinary c -> d <> [] -> (forall x, d <> x ++ ["/"%byte]) -> path_join d c = d ++ "/"%byte :: c.
Proof.
  intros (Hc & Hs) Hd Hl. unfold path_join. destruct c as [|b c]; [congruence|]. cbn [rooted].
  destruct (beqb b SLASH) eqn:E; [apply beqb_eq in E; exfalso; apply Hs; left; exact E|].
  destruct (rev d) as [|y r] eqn:Er; [apply (f_equal (@rev byte)) in Er; rewrite rev_involutive in Er; cbn in Er; contradiction|].
  destruct (beqb y SLASH) eqn:Ey; [|reflexivity]. apply beqb_eq in Ey. subst y.
  apply (f_equal (@rev byte)) in Er. rewrite rev_involutive in Er. cbn [rev] in Er. exfalso. exact (Hl _ Er).
Qed.
Lemma ordinary_end d c : ordinary c -> forall x, d ++ c <> x ++ ["/"%byte].
Proof.
  intros (Hc & Hs) x E. destruct (exists_last Hc) as (c' & b & ->). rewrite app_assoc in E.
  apply app_inj_tail in E. destruct E as [_ ->]. apply Hs. apply in_or_app. right. now left.
Qed.
Lemma join_many p : Forall ordinary p -> p <> [] -> forall d, d <> [] -> (forall x, d <> x ++ ["/"%byte]) ->
  fold_left path_join p d = d ++ "/"%byte :: with_slashes p.
Proof.
  intros HF. induction HF as [|c p Hc HF IH]; [congruence|]. intros _ d Hd Hl. cbn [fold_left].
  rewrite join_one by assumption. destruct p as [|c' p]; [reflexivity|].
  rewrite IH.
  - cbn [with_slashes]. rewrite <- app_assoc. cbn [app]. reflexivity.
  - discriminate.
  - destruct d; discriminate.
  - intros x. replace (d ++ "/"%byte :: c) with ((d ++ lit "/") ++ c) by (rewrite <- app_assoc; reflexivity). now apply ordinary_end.
Qed.
Lemma entry_path_below dir p : Forall ordinary p -> p <> [] -> entry_path dir p = path_below dir p.
Proof.
  intros HF Hp. unfold entry_path, path_below. destruct p as [|c p]; [congruence|]. inversion HF as [|? ? Hc HF']; subst.
  destruct (rev dir) as [|b r] eqn:Er.
  - apply (f_equal (@rev byte)) in Er. rewrite rev_involutive in Er. cbn in Er. subst dir. cbn [fold_left].
    assert (E : path_join [] c = c). { unfold path_join. destruct (rooted c); reflexivity. } rewrite E.
    destruct p as [|c' p]; [reflexivity|].
    rewrite join_many; [reflexivity|exact HF'|discriminate|apply Hc|exact (ordinary_end [] c Hc)].
  - assert (Ed : dir = rev r ++ [b]). { apply (f_equal (@rev byte)) in Er. rewrite rev_involutive in Er. exact Er. }
    replace (bytes_eqb [b] (lit "/")) with (beqb b "/"%byte) by (symmetry; apply andb_true_r).
    destruct (beqb b "/"%byte) eqn:Eb.
    + cbn [app fold_left]. assert (E : path_join dir c = dir ++ c).
      { unfold path_join. destruct Hc as (Hc & Hs). destruct c as [|y c]; [congruence|]. cbn [rooted].
        destruct (beqb y SLASH) eqn:E; [apply beqb_eq in E; exfalso; apply Hs; left; exact E|]. rewrite Er.
        change SLASH with "/"%byte. now rewrite Eb. }
      rewrite E. destruct p as [|c' p]; [reflexivity|].
      rewrite join_many; [cbn [with_slashes]; now rewrite <- app_assoc|exact HF'|discriminate| |now apply ordinary_end].
      destruct dir; [discriminate Er|discriminate].
    + rewrite join_many; [reflexivity|exact HF|discriminate| |].
      * rewrite Ed. destruct (rev r); discriminate.
      * intros x E. rewrite Ed in E. apply app_inj_tail in E. destruct E as [_ ->]. rewrite beqb_refl in Eb. discriminate Eb.
Qed.

Lemma proper_has t name n : proper t -> has t name n -> ordinary name /\ forall link ok sub, n = NDir link ok sub -> proper sub.
Proof.
  intros HP H. revert HP. induction H as [name n rest|name n rest name' n' H IH]; intros HP.
  - inversion HP; subst; split; auto; intros link' ok' sub' E; [discriminate|]. now injection E as <- <- <-.
  - apply IH. now inversion HP.
Qed.
Lemma proper_parts follow t p d : file_at follow t p d -> proper t -> Forall ordinary p /\ p <> [].
Proof.
  induction 1 as [t name d Hh|t name link sub p d Hh Hl Hs IH]; intros HP; destruct (proper_has _ _ _ HP Hh) as [Ho Hsub].
  - split; [now constructor|discriminate].
  - destruct (IH (Hsub _ _ _ eq_refl)) as [HF _]. split; [now constructor|discriminate].
Qed.

Lemma ignored_wanted dir pats p : Forall ordinary p -> p <> [] ->
  ignored dir pats p = false <->
  forall pat, In pat pats -> ~ appears pat (utf8_lossy (path_below dir p)) /\ ~ appears pat (utf8_lossy (last p [])).
Proof.
  intros HF Hp. unfold ignored. rewrite (entry_path_below dir p HF Hp).
  assert (El : forall pat, (match rev p with [] => false | name :: _ => occurs pat (utf8_lossy name) end) =
    occurs pat (utf8_lossy (last p []))).
  { intros pat. destruct (exists_last Hp) as (q & c & ->). rewrite rev_app_distr, last_last. reflexivity. }
  rewrite <- not_true_iff_false, existsb_exists. split.
  - intros H pat Hi. split; intros Ha; apply H; exists pat; (split; [exact Hi|]); rewrite orb_true_iff, El, !occurs_spec; auto.
  - intros H (pat & Hi & E). rewrite orb_true_iff, El, !occurs_spec in E. destruct (H pat Hi) as [H1 H2]. tauto.
Qed.

(** ** The loop *)
Lemma add_ok dir pats l : forall fs, add_entries dir pats l = Ok fs ->
  ~ In None l /\
  fs = map (fun e => (en_parts e, en_data e))
         (filter (fun e => negb (en_dir e) && negb (ignored dir pats (en_parts e)))
            (flat_map (fun o => match o with Some e => [e] | None => [] end) l)) /\
  Forall (fun f => is_text (entry_path dir (fst f))) fs.
Proof.
  induction l as [|[e|] l IH]; intros fs H; cbn [add_entries] in H.
  - apply Ok_inj in H. subst. repeat split; [intros []|constructor].
  - cbn [flat_map app filter]. destruct (en_dir e) eqn:Ed; cbn [negb andb].
    { destruct (IH fs H) as (H1 & H2 & H3). repeat split; [intros [X|X]; [discriminate X|contradiction]|exact H2|exact H3]. }
    destruct (ignored dir pats (en_parts e)) eqn:Ei; cbn [negb].
    { destruct (IH fs H) as (H1 & H2 & H3). repeat split; [intros [X|X]; [discriminate X|contradiction]|exact H2|exact H3]. }
    destruct (bytes_eqb _ _) eqn:Et in H; [|discriminate]. destruct (add_entries dir pats l) as [r| |] eqn:Er; try discriminate.
    cbn in H. apply Ok_inj in H. subst fs. destruct (IH r eq_refl) as (H1 & H2 & H3).
    repeat split; [intros [X|X]; [discriminate X|contradiction]|cbn [map]; now rewrite <- H2|].
    constructor; [|exact H3]. cbn [fst]. apply lossy_same. now apply bytes_eqb_eq.
  - discriminate.
Qed.
Lemma add_fine dir pats l : ~ In None l ->
  (forall e, In (Some e) l -> en_dir e = false -> ignored dir pats (en_parts e) = false -> is_text (entry_path dir (en_parts e))) ->
  exists fs, add_entries dir pats l = Ok fs.
Proof.
  induction l as [|[e|] l IH]; intros Hn Ht; cbn [add_entries].
  - eauto.
  - destruct IH as (fs & E); [intros X; apply Hn; now right|intros x Hx; apply Ht; now right|].
    destruct (en_dir e) eqn:Ed; [eauto|]. destruct (ignored dir pats (en_parts e)) eqn:Ei; [eauto|].
    specialize (Ht e (or_introl eq_refl) Ed Ei). apply lossy_same in Ht. apply bytes_eqb_eq in Ht. rewrite Ht, E. cbn. eauto.
  - exfalso. apply Hn. now left.
Qed.
Lemma add_panic dir pats l : add_entries dir pats l = Panic ->
  exists e, In (Some e) l /\ en_dir e = false /\ ignored dir pats (en_parts e) = false /\ ~ is_text (entry_path dir (en_parts e)).
Proof.
  induction l as [|[e|] l IH]; intros H; cbn [add_entries] in H; try discriminate.
  assert (K : add_entries dir pats l = Panic -> exists e0, In (Some e0) (Some e :: l) /\ en_dir e0 = false /\
    ignored dir pats (en_parts e0) = false /\ ~ is_text (entry_path dir (en_parts e0))).
  { intros E. destruct (IH E) as (x & H1 & H2). exists x. split; [now right|exact H2]. }
  destruct (en_dir e) eqn:Ed; [auto|]. destruct (ignored dir pats (en_parts e)) eqn:Ei; [auto|].
  destruct (bytes_eqb _ _) eqn:Et in H.
  - destruct (add_entries dir pats l); try discriminate. auto.
  - exists e. repeat split; auto; [now left|]. intros X. apply lossy_same in X. apply bytes_eqb_eq in X. congruence.
Qed.
Lemma add_err dir pats l x : add_entries dir pats l = Err x -> In None l.
Proof.
  induction l as [|[e|] l IH]; intros H; cbn [add_entries] in H; try discriminate; [|now left].
  right. destruct (en_dir e); [auto|]. destruct (ignored dir pats (en_parts e)); [auto|].
  destruct (bytes_eqb _ _) in H; [|discriminate]. destruct (add_entries dir pats l) as [r|y|]; try discriminate. injection H as ->. auto.
Qed.

(** ** Text in front *)
Lemma step_pos d : d <> [] -> (0 < snd (utf8_step d))%nat.
Proof.
  intros H. destruct d as [|b d]; [congruence|]. unfold utf8_step.
  repeat match goal with |- context [match ?x with _ => _ end] => destruct x end; cbn; lia.
Qed.
Lemma lossy_fuel f : forall d, (length d <= f)%nat -> utf8_lossy_loop f d = utf8_lossy d.
Proof.
  unfold utf8_lossy.
  assert (G : forall f g d, (length d <= f)%nat -> (length d <= g)%nat -> utf8_lossy_loop f d = utf8_lossy_loop g d).
  { clear f. induction f as [|f IH]; intros g d Hf Hg.
    - destruct d; [|cbn [length] in Hf; lia]. destruct g; reflexivity.
    - destruct d as [|b d]; [destruct g; reflexivity|]. destruct g as [|g]; [cbn [length] in Hg; lia|].
      cbn [utf8_lossy_loop]. pose proof (step_pos (b :: d) ltac:(discriminate)) as Hp.
      assert (Hl : (length (skipn (snd (utf8_step (b :: d))) (b :: d)) <= length d)%nat).
      { rewrite skipn_length. cbn [length]. lia. }
      destruct (utf8_step (b :: d)) as [[] n]; cbn [snd] in Hl; cbn [length] in *; f_equal; apply IH; lia. }
  intros d Hd. apply G; lia.
Qed.
Lemma lossy_app a b : is_text a -> utf8_lossy (a ++ b) = a ++ utf8_lossy b.
Proof.
  intros (cs & Hs & ->). induction Hs as [|c cs Hc Hs IH]; [reflexivity|]. cbn [map concat]. rewrite <- !app_assoc, <- IH.
  unfold utf8_lossy at 1. pose proof (encode_nonempty c) as Hn.
  destruct (length (encode c ++ concat (map encode cs) ++ b)) as [|f] eqn:Ef; [rewrite app_length in Ef; lia|].
  cbn [utf8_lossy_loop]. destruct (encode c ++ concat (map encode cs) ++ b) as [|x d] eqn:Ed; [discriminate Ef|].
  rewrite <- Ed, (encode_step c _ Hc). rewrite firstn_app, firstn_all, Nat.sub_diag. cbn [firstn]. rewrite app_nil_r.
  f_equal. rewrite skipn_app, skipn_all, Nat.sub_diag. cbn [skipn app]. apply lossy_fuel.
  rewrite <- Ed in Ef. rewrite app_length in Ef. lia.
Qed.
Lemma text_tail a b : is_text a -> is_text (a ++ b) -> is_text b.
Proof.
  intros Ha Hab. apply lossy_same in Hab. rewrite (lossy_app a b Ha) in Hab. apply app_inv_head in Hab. now apply lossy_same.
Qed.

(** ** The theorems *)
Lemma entries_files follow deep t p d : In (Some (mkEntry p false d)) (walk_tree follow deep [] t) <->
  file_at follow t p d /\ deeper deep p.
Proof.
  split.
  - intros H. destruct (proj2 (walk_files follow deep) t [] _ H eq_refl) as (q & E & Hq & Hd). cbn [app en_parts en_data] in E, Hq.
    subst q. auto.
  - intros [H Hd]. exact (walk_finds follow deep t p d H Hd []).
Qed.

Theorem added_exact dir follow deep pats t fs : proper t -> added dir follow deep pats true t = Ok fs ->
  forall p d, In (p, d) fs <-> file_at follow t p d /\ wanted dir deep pats p.
Proof.
  intros HP H p d. unfold added in H. destruct (add_ok _ _ _ _ H) as (_ & -> & _).
  rewrite in_map_iff. split.
  - intros (e & E & He). apply filter_In in He. destruct He as [Hi Hb]. apply in_flat_map in Hi.
    destruct Hi as (o & Ho & Hoe). destruct o as [e'|]; [|destruct Hoe]. destruct Hoe as [->|[]].
    apply andb_true_iff in Hb. destruct Hb as [Hdir Hig]. destruct e as [ep ed edt]. cbn [en_dir en_parts en_data] in *.
    injection E as -> ->. destruct ed; [discriminate|]. apply entries_files in Ho. destruct Ho as [Hf Hd].
    split; [exact Hf|]. split; [exact Hd|]. destruct (proper_parts _ _ _ _ Hf HP) as [HF Hp].
    apply (ignored_wanted dir pats p HF Hp). now apply negb_true_iff.
  - intros (Hf & Hd & Hw). exists (mkEntry p false d). split; [reflexivity|]. apply filter_In.
    destruct (proper_parts _ _ _ _ Hf HP) as [HF Hp]. split.
    + apply in_flat_map. exists (Some (mkEntry p false d)). split; [apply entries_files; split; [exact Hf|exact Hd]|now left].
    + cbn [en_dir en_parts]. apply andb_true_iff. split; [reflexivity|]. apply negb_true_iff. now apply (ignored_wanted dir pats p HF Hp).
Qed.

(** Each file once *)
Lemma walk_prefix follow deep :
  (forall n pre e, In (Some e) (walk_node follow deep pre n) -> exists q, en_parts e = pre ++ q /\
     (q = [] -> walk_node follow deep pre n = [Some e] \/ exists l, walk_node follow deep pre n = Some e :: l)) /\
  (forall t pre e, In (Some e) (walk_tree follow deep pre t) -> exists name n q, has t name n /\ en_parts e = pre ++ name :: q).
Proof.
  apply dir_ind.
  - intros d pre e [[= <-]|[]]. exists []. split; [now rewrite app_nil_r|now left].
  - intros link ok t IH pre e H. cbn [walk_node] in H |- *. destruct H as [[= <-]|H].
    + exists []. split; [now rewrite app_nil_r|]. right. eauto.
    + destruct (deep && (follow || negb link)); [|destruct H].
      destruct ok; [|destruct H as [H|[]]; discriminate H].
      destruct (IH pre e H) as (name & n & q & _ & E). exists (name :: q). split; [exact E|discriminate].
  - intros pre e [].
  - intros name n IHn rest IHr pre e H. cbn [walk_tree] in H. apply in_app_or in H. destruct H as [H|H].
    + destruct (IHn _ e H) as (q & E & _). exists name, n, q. split; [constructor|]. rewrite E, <- app_assoc. reflexivity.
    + destruct (IHr pre e H) as (name' & n' & q & Hh & E). exists name', n', q. split; [now constructor|exact E].
Qed.
Definition paths (l : list (option entry)) : list (list bytes) :=
  flat_map (fun o => match o with Some e => [en_parts e] | None => [] end) l.
Lemma paths_app a b : paths (a ++ b) = paths a ++ paths b.
Proof. unfold paths. apply flat_map_app. Qed.
Lemma in_paths p l : In p (paths l) <-> exists e, In (Some e) l /\ en_parts e = p.
Proof.
  unfold paths. rewrite in_flat_map. split.
  - intros ([e|] & H & Hp); [|destruct Hp]. destruct Hp as [<-|[]]. eauto.
  - intros (e & H & <-). exists (Some e). split; [exact H|now left].
Qed.
Lemma nodup_app {A} (a b : list A) : NoDup a -> NoDup b -> (forall x, In x a -> ~ In x b) -> NoDup (a ++ b).
Proof.
  intros Ha Hb Hd. induction Ha as [|x a Hx Ha IH]; [exact Hb|]. cbn [app]. constructor.
  - intros X. apply in_app_or in X. destruct X as [X|X]; [contradiction|]. exact (Hd x (or_introl eq_refl) X).
  - apply IH. intros y Hy. apply Hd. now right.
Qed.
Lemma walk_nodup follow deep :
  (forall n pre, (forall link ok t, n = NDir link ok t -> proper t) -> NoDup (paths (walk_node follow deep pre n))) /\
  (forall t pre, proper t -> NoDup (paths (walk_tree follow deep pre t))).
Proof.
  apply dir_ind.
  - intros d pre _. cbn. constructor; [intros []|constructor].
  - intros link ok t IH pre HP. cbn [walk_node]. change (paths (Some (mkEntry pre true None) :: ?l)) with (pre :: paths l).
    specialize (IH pre (HP link ok t eq_refl)).
    destruct (deep && (follow || negb link)); [|constructor; [intros []|constructor]].
    destruct ok; [|constructor; [intros []|constructor]]. constructor; [|exact IH].
    intros X. apply in_paths in X. destruct X as (e & He & E).
    destruct (proj2 (walk_prefix follow deep) t pre e He) as (name & n & q & _ & E'). rewrite E in E'.
    apply (f_equal (@length _)) in E'. rewrite app_length in E'. cbn [length] in E'. lia.
  - intros pre _. constructor.
  - intros name n IHn rest IHr pre HP. cbn [walk_tree]. rewrite paths_app. apply nodup_app.
    + apply IHn. intros link ok t ->. now inversion HP.
    + apply IHr. now inversion HP.
    + intros p Hp Hp'. apply in_paths in Hp. destruct Hp as (e & He & E). apply in_paths in Hp'. destruct Hp' as (e' & He' & E').
      destruct (proj1 (walk_prefix follow deep) n _ e He) as (q & Eq & _).
      destruct (proj2 (walk_prefix follow deep) rest pre e' He') as (name' & n' & q' & Hh & Eq').
      rewrite E, <- app_assoc in Eq. rewrite E', Eq in Eq'. apply app_inv_head in Eq'. cbn [app] in Eq'. injection Eq' as <- _.
      inversion HP as [|? ? ? _ Hno _|? ? ? ? ? _ Hno _ _]; subst; exact (Hno _ Hh).
Qed.
Lemma nodup_filtered {A B} (f : A -> B) (g : A -> bool) l : NoDup (map f l) -> NoDup (map f (filter g l)).
Proof.
  induction l as [|x l IH]; cbn [map filter]; intros H; [constructor|]. inversion H as [|? ? Hx Hl]; subst.
  destruct (g x); [|auto]. cbn [map]. constructor; [|auto]. intros X. apply Hx. apply in_map_iff in X.
  destruct X as (y & E & Hy). apply filter_In in Hy. apply in_map_iff. exists y. tauto.
Qed.
Theorem added_once dir follow deep pats t fs : proper t -> added dir follow deep pats true t = Ok fs -> NoDup (map fst fs).
Proof.
  intros HP H. unfold added in H. destruct (add_ok _ _ _ _ H) as (_ & -> & _). rewrite map_map. cbn [fst].
  apply nodup_filtered. pose proof (proj2 (walk_nodup follow deep) t [] HP) as HN. unfold paths in HN.
  clear -HN. revert HN. generalize (walk_tree follow deep [] t). intros l.
  assert (E : map en_parts (flat_map (fun o : option entry => match o with Some e => [e] | None => [] end) l) =
              flat_map (fun o => match o with Some e => [en_parts e] | None => [] end) l).
  { induction l as [|[e|] l IH]; cbn; [reflexivity|now f_equal|exact IH]. }
  now rewrite <- E.
Qed.

Theorem added_iff dir follow deep pats t : proper t ->
  (exists fs, added dir follow deep pats true t = Ok fs) <->
  (deep = true -> ~ hidden follow t) /\
  forall p d, file_at follow t p d -> wanted dir deep pats p -> is_text (path_below dir p).
Proof.
  intros HP. unfold added. split.
  - intros (fs & H). split.
    + intros -> Hh. destruct (add_ok _ _ _ _ H) as (Hn & _). apply Hn. now apply walk_hidden.
    + intros p d Hf Hw. destruct (add_ok _ _ _ _ H) as (_ & _ & Ht). rewrite Forall_forall in Ht.
      destruct (proper_parts _ _ _ _ Hf HP) as [HF Hp]. rewrite <- (entry_path_below dir p HF Hp).
      apply (Ht (p, d)). apply (added_exact dir follow deep pats t fs HP H). auto.
  - intros [Hh Ht]. apply add_fine.
    + intros X. destruct (proj2 (walk_errors follow deep) t [] X) as [Hd Hx]. exact (Hh Hd Hx).
    + intros [p b d] He Hd Hi. cbn [en_dir en_parts] in *. subst b. apply entries_files in He. destruct He as [Hf Hd].
      destruct (proper_parts _ _ _ _ Hf HP) as [HF Hp]. rewrite (entry_path_below dir p HF Hp). apply (Ht p d Hf).
      split; [exact Hd|]. now apply (ignored_wanted dir pats p HF Hp).
Qed.

Theorem added_panic dir follow deep pats t : proper t -> added dir follow deep pats true t = Panic ->
  exists p d, file_at follow t p d /\ wanted dir deep pats p /\ ~ is_text (path_below dir p).
Proof.
  intros HP H. destruct (add_panic _ _ _ H) as ([p b d] & He & Hd & Hi & Ht). cbn [en_dir en_parts] in *. subst b.
  apply entries_files in He. destruct He as [Hf Hd]. destruct (proper_parts _ _ _ _ Hf HP) as [HF Hp].
  rewrite (entry_path_below dir p HF Hp) in Ht. exists p, d. split; [exact Hf|]. split; [|exact Ht].
  split; [exact Hd|]. now apply (ignored_wanted dir pats p HF Hp).
Qed.

(** ** The names in the archive *)
Lemma join_slashes p : join_slash p = with_slashes p.
Proof. induction p as [|c [|c' p] IH]; [reflexivity..|]. cbn [join_slash with_slashes] in *. now rewrite IH. Qed.
Lemma below_text dir p : is_text dir -> is_text (path_below dir p) -> is_text (with_slashes p).
Proof.
  intros Hd. unfold path_below. destruct (rev dir) as [|b r] eqn:Er; [auto|]. intros H. apply (text_tail dir) in H; [|exact Hd].
  destruct (bytes_eqb _ _); [exact H|]. apply (text_tail (lit "/")); [|exact H]. apply text_ascii. repeat constructor.
Qed.
Lemma stored_name_is p : is_text (with_slashes p) -> stored_name p = to_slash (with_slashes p).
Proof. intros H. unfold stored_name. rewrite join_slashes. f_equal. now apply lossy_same. Qed.

(** ** From the tree to the files of the archive *)
Definition as_entry (f : found) : list bytes * option bytes := (f_parts f, Some (f_data f)).
Lemma read_all_found c (walk : list found) : (forall f, In f walk -> is_text (with_slashes (f_parts f))) ->
  read_all c (map (fun f => (stored_name (fst f), snd f)) (map as_entry walk)) = Ok (create_files c walk).
Proof.
  induction walk as [|[p d] walk IH]; intros H; [reflexivity|]. cbn [map as_entry fst snd f_parts f_data read_all].
  rewrite IH by (intros f Hf; apply H; now right). cbn [bind create_files map f_parts f_data].
  pose proof (stored_name_is p (H _ (or_introl eq_refl))) as E. rewrite <- (join_slashes p) in E. unfold stored. rewrite E. reflexivity.
Qed.
Lemma readable_found (fs : list (list bytes * option bytes)) :
  (forall p d, In (p, d) fs -> d <> None) -> exists walk, fs = map as_entry walk.
Proof.
  induction fs as [|[p [d|]] fs IH]; intros H.
  - now exists [].
  - destruct IH as (walk & ->); [intros q e He; apply (H q e); now right|]. now exists (mkFound p d :: walk).
  - exfalso. exact (H p None (or_introl eq_refl) eq_refl).
Qed.
Lemma walk_text src follow deep pats t walk : is_text src -> proper t ->
  added src follow deep pats true t = Ok (map as_entry walk) ->
  forall f, In f walk -> is_text (with_slashes (f_parts f)).
Proof.
  intros Hs HP H f Hf. destruct (proj1 (added_iff src follow deep pats t HP) (ex_intro _ _ H)) as [_ Ht].
  assert (Hin : In (as_entry f) (map as_entry walk)) by now apply in_map. destruct f as [p d]. cbn [as_entry f_parts f_data] in *.
  apply (added_exact _ _ _ _ _ _ HP H) in Hin. destruct Hin as [Hfa Hw]. exact (below_text src p Hs (Ht p _ Hfa Hw)).
Qed.
Lemma create_is_build L md5 c src follow deep pats t walk : is_text src -> proper t ->
  added src follow deep pats true t = Ok (map as_entry walk) ->
  create_archive L md5 c src follow deep pats (SDir true t) = build L md5 c (create_files c walk).
Proof.
  intros Hs HP H. unfold create_archive. rewrite H. cbn [bind]. rewrite (read_all_found c walk); [reflexivity|].
  exact (walk_text _ _ _ _ _ _ Hs HP H).
Qed.
Lemma in_walk src follow deep pats t walk : proper t -> added src follow deep pats true t = Ok (map as_entry walk) ->
  forall p d, In (mkFound p d) walk <-> file_at follow t p (Some d) /\ wanted src deep pats p.
Proof.
  intros HP H p d. destruct (added_exact _ _ _ _ _ _ HP H p (Some d)) as [A B]. split.
  - intros Hi. apply A. apply in_map_iff. exists (mkFound p d). auto.
  - intros Hi. apply B in Hi. apply in_map_iff in Hi. destruct Hi as ([p' d'] & [= -> ->] & Hi). exact Hi.
Qed.

Theorem created L md5 c src follow deep pats t : is_text src -> proper t -> (deep = true -> ~ hidden follow t) ->
  (forall p d, file_at follow t p d -> wanted src deep pats p -> is_text (path_below src p) /\ d <> None) ->
  exists walk,
    create_archive L md5 c src follow deep pats (SDir true t) = build L md5 c (create_files c walk) /\
    (forall p d, In (mkFound p d) walk <-> file_at follow t p (Some d) /\ wanted src deep pats p) /\
    NoDup (map f_parts walk).
Proof.
  intros Hs HP Hh Hw.
  destruct (proj2 (added_iff src follow deep pats t HP) (conj Hh (fun p d Hf Hx => proj1 (Hw p d Hf Hx)))) as (fs & E).
  destruct (readable_found fs) as (walk & ->).
  { intros p d Hi. apply (added_exact _ _ _ _ _ _ HP E) in Hi. destruct Hi as [Hf Hx]. exact (proj2 (Hw p d Hf Hx)). }
  exists walk. split; [exact (create_is_build L md5 c _ _ _ _ _ _ Hs HP E)|]. split; [exact (in_walk _ _ _ _ _ _ HP E)|].
  pose proof (added_once _ _ _ _ _ _ HP E) as HN. rewrite map_map in HN. exact HN.
Qed.

(** The command fails otherwise. *)
Lemma read_all_ok c l : forall files, read_all c l = Ok files -> forall x, In x l -> snd x <> None.
Proof.
  induction l as [|[n [d|]] l IH]; intros files H x Hx; cbn [read_all] in H.
  - destruct Hx.
  - destruct (read_all c l) as [r| |] eqn:E; try discriminate H. destruct Hx as [<-|Hx]; [discriminate|exact (IH r eq_refl x Hx)].
  - discriminate H.
Qed.
Theorem created_only L md5 c src follow deep pats ok t arc : proper t ->
  create_archive L md5 c src follow deep pats (SDir ok t) = Ok arc ->
  ok = true /\ (deep = true -> ~ hidden follow t) /\
  forall p d, file_at follow t p d -> wanted src deep pats p -> is_text (path_below src p) /\ d <> None.
Proof.
  intros HP H. destruct ok.
  2:{ unfold create_archive, added in H. cbn in H. discriminate H. }
  split; [reflexivity|]. unfold create_archive in H. destruct (added src follow deep pats true t) as [fs| |] eqn:E; try discriminate H.
  cbn [bind] in H. destruct (read_all c _) as [files| |] eqn:Er; try discriminate H.
  destruct (proj1 (added_iff src follow deep pats t HP) (ex_intro _ _ E)) as [Hh Ht]. split; [exact Hh|].
  intros p d Hf Hw. split; [exact (Ht p d Hf Hw)|].
  apply (read_all_ok _ _ _ Er (stored_name p, d)). apply in_map_iff. exists (p, d). split; [reflexivity|].
  apply (added_exact _ _ _ _ _ _ HP E). auto.
Qed.

(** ** There and back *)
Lemma slash_same p : Forall component p -> to_slash (with_slashes p) = with_slashes p.
Proof.
  assert (K : forall c, ~ In "\"%byte c -> to_slash c = c).
  { induction c as [|b c IH]; intros H; [reflexivity|]. unfold to_slash in *. cbn [map]. rewrite IH by (intros X; apply H; now right).
    destruct (beqb b "\"%byte) eqn:E; [|reflexivity]. apply beqb_eq in E. exfalso. apply H. now left. }
  intros HF. apply K. induction HF as [|c p Hc HF IH]; [intros []|]. destruct Hc as (_ & _ & _ & _ & Hb).
  destruct p as [|c' p]; [exact Hb|]. cbn [with_slashes] in *. intros X. apply in_app_or in X. destruct X as [X|[X|X]]; auto. discriminate X.
Qed.

Section Back.
Variable L : codecs.
Variable md5 : bytes -> bytes.
Variable c : config.
Variable src : bytes.
Variables follow deep : bool.
Variable pats : list bytes.
Variable t : tree.
Variable walk : list found.
Hypothesis Hsrc : is_text src.
Hypothesis HP : proper t.
Hypothesis HW : added src follow deep pats true t = Ok (map as_entry walk).
Hypothesis Hfine : forall p d, file_at follow t p (Some d) -> wanted src deep pats p ->
  Forall component p /\ listable (with_slashes p) /\ ~ name_equiv (lit "(listfile)") (with_slashes p) /\
  reads_back L c (c_default c) d.

Lemma walk_fine f : In f walk -> f_parts f <> [] /\ Forall component (f_parts f) /\ reads_back L c (c_default c) (f_data f).
Proof.
  destruct f as [p d]. intros Hf. apply (in_walk _ _ _ _ _ _ HP HW) in Hf. destruct Hf as [Hf Hw]. cbn [f_parts f_data].
  destruct (Hfine p d Hf Hw) as (H1 & _ & _ & H4). destruct (proper_parts _ _ _ _ Hf HP) as [_ Hp]. auto.
Qed.
Lemma files_fine f : In f (create_files c walk) ->
  is_text (pf_name f) /\ listable (pf_name f) /\ ~ name_equiv LISTFILE (pf_name f).
Proof.
  intros H. apply in_map_iff in H. destruct H as (x & <- & Hx). cbn [pf_name]. rewrite join_slashes.
  pose proof (walk_text _ _ _ _ _ _ Hsrc HP HW x Hx) as Ht. destruct x as [p d]. cbn [f_parts] in *.
  apply (in_walk _ _ _ _ _ _ HP HW) in Hx. destruct Hx as [Hf Hw].
  destruct (Hfine p d Hf Hw) as (H1 & H2 & H3 & _). rewrite (slash_same p H1). auto.
Qed.

Lemma restored_from cwd dl acts ws x y : writes_of acts = ws ++ [(x, y)] ->
  Forall2 (fun f w => leads cwd (fst w) (dl ++ f_parts f) /\ snd w = f_data f) walk ws ->
  leads cwd x (dl ++ [LISTFILE]) -> restored src follow deep pats t cwd dl acts.
Proof.
  intros E F Hl. exists ws, x, y. split; [exact E|]. split; [exact Hl|].
  assert (F1 : forall f, In f walk -> exists w, In w ws /\ leads cwd (fst w) (dl ++ f_parts f) /\ snd w = f_data f).
  { clear -F. induction F as [|f w l ws Hfw F IH]; intros g [].
    - subst g. exists w. split; [now left|exact Hfw].
    - destruct (IH g H) as (w' & Hi & R). exists w'. split; [now right|exact R]. }
  assert (F2 : forall w, In w ws -> exists f, In f walk /\ leads cwd (fst w) (dl ++ f_parts f) /\ snd w = f_data f).
  { clear -F. induction F as [|f w l ws Hfw F IH]; intros g [].
    - subst g. exists f. split; [now left|exact Hfw].
    - destruct (IH g H) as (w' & Hi & R). exists w'. split; [now right|exact R]. }
  split.
  - intros p d Hf Hw. exact (F1 (mkFound p d) (proj2 (in_walk _ _ _ _ _ _ HP HW p d) (conj Hf Hw))).
  - intros w Hw. destruct (F2 w Hw) as ([p d] & Hi & Hlw & Es). cbn [f_parts f_data] in *. rewrite Es.
    apply (in_walk _ _ _ _ _ _ HP HW) in Hi. exists p. tauto.
Qed.

Hypothesis HL : lossless L.
Hypothesis HC : calm_encoders L.
Hypothesis Hg : c_listfile c = LGenerate.
Hypothesis Hb : c_block_size c < 55.
Hypothesis Hd : c_default c < 256.
Hypothesis Hp : Forall (packable L c) (all_stored c (create_files c walk)).
Hypothesis Hdist : all_distinct (all_names c (create_files c walk)).
Hypothesis Hcol : no_collision (LISTFILE :: map pf_name (create_files c walk)).
Hypothesis Ha : hashes_apart ATTRIBUTES (LISTFILE :: map pf_name (create_files c walk)).
Hypothesis Hlist : reads_back L c (c_default c) (listfile_content (map pf_name (create_files c walk))).

Lemma walk_typed : well_typed c (create_files c walk).
Proof.
  split; [eapply N.lt_trans; [exact Hb|reflexivity]|]. split; [exact Hd|]. intros f Hf. apply in_map_iff in Hf.
  destruct Hf as (x & <- & _). cbn [pf_comp pf_locale]. split; [exact Hd|reflexivity].
Qed.

Theorem there_and_back12 cwd dir dl : c_version c = V1 \/ c_version c = V2 ->
  within_limits c (create_files c walk) -> leads cwd dir dl ->
  exists arc acts, create_archive L md5 c src follow deep pats (SDir true t) = Ok arc /\
    extract L arc None (Some dir) true = (acts, Ok tt) /\ restored src follow deep pats t cwd dl acts.
Proof.
  intros Hv Hr Hl. destruct (start_built L md5 c _ HC Hv walk_typed Hb Hr Hp Hdist Hcol) as (arc & E & B).
  exists arc.
  destruct (pack_unpack L md5 md5 N.min c walk arc [] [] cwd dir dl HL B Hg Hcol Ha files_fine Hlist walk_fine Hl)
    as (acts & ws & x & y & Ex & W & F & Lx).
  cbn [app] in Ex. rewrite app_nil_r in Ex. exists acts.
  split; [rewrite (create_is_build L md5 c _ _ _ _ _ _ Hsrc HP HW); exact E|]. split; [exact Ex|].
  exact (restored_from _ _ _ _ _ _ W F Lx).
Qed.
Theorem there_and_back34_sure cwd dir dl : c_version c = V3 \/ c_version c = V4 -> c_ctables c = false ->
  (forall x, lenN (md5 x) = 16) -> no_mistake c (create_files c walk) ->
  narrow (all_contents c (create_files c walk)) -> leads cwd dir dl ->
  exists arc acts, create_archive L md5 c src follow deep pats (SDir true t) = Ok arc /\
    extract L arc None (Some dir) true = (acts, Ok tt) /\ restored src follow deep pats t cwd dl acts.
Proof.
  intros Hv Hct Hmd H3 Hr Hl. destruct (start_built34 L md5 c _ HC Hv Hct Hmd walk_typed Hb Hr Hp Hdist Hcol) as (arc & E & B).
  exists arc.
  destruct (sure34_pack L md5 md5 N.min c walk arc [] [] cwd dir dl HL B H3 Hg Hcol Ha files_fine Hlist walk_fine Hl)
    as (acts & ws & x & y & Ex & W & F & Lx).
  cbn [app] in Ex. rewrite app_nil_r in Ex. exists acts.
  split; [rewrite (create_is_build L md5 c _ _ _ _ _ _ Hsrc HP HW); exact E|]. split; [exact Ex|].
  exact (restored_from _ _ _ _ _ _ W F Lx).
Qed.
Theorem there_and_back34 cwd dir dl : c_version c = V3 \/ c_version c = V4 -> c_ctables c = false ->
  (forall x, lenN (md5 x) = 16) -> lenN walk <= 3 ->
  narrow (all_contents c (create_files c walk)) -> leads cwd dir dl ->
  exists arc acts, create_archive L md5 c src follow deep pats (SDir true t) = Ok arc /\
    extract L arc None (Some dir) true = (acts, Ok tt) /\ restored src follow deep pats t cwd dl acts.
Proof.
  intros Hv Hct Hmd H3. apply there_and_back34_sure; auto. apply (few_no_mistake md5).
  unfold entry_count. rewrite Hg. unfold create_files, lenN in *. rewrite map_length. lia.
Qed.
End Back.

(** ** A single file *)
Theorem single L md5 c pre name follow deep pats d : ordinary name -> name <> lit "." -> name <> lit ".." -> is_text name ->
  pre = [] \/ (exists r, pre = r ++ lit "/") ->
  create_archive L md5 c (pre ++ name) follow deep pats (SFile (Some d)) = build L md5 c [mkPF d name (c_default c) false false 0].
Proof.
  intros (Hne & Hs) Hd Hdd Ht Hpre.
  assert (E : file_name (pre ++ name) = Some name).
  { unfold file_name.
    assert (Ep : parts name = [name]).
    { rewrite (CliFacts.parts_seg name Hs Hne). unfold is_dot. destruct (bytes_eqb name (lit ".")) eqn:E; [|reflexivity].
      apply bytes_eqb_eq in E. congruence. }
    assert (Er : exists l, parts (pre ++ name) = l ++ [name]).
    { destruct Hpre as [->|(r & ->)]; [exists []; exact Ep|]. exists (parts r). rewrite <- app_assoc.
      change (lit "/" ++ name) with (SLASH :: name). now rewrite CliFacts.parts_app, Ep. }
    destruct Er as (l & ->). rewrite rev_app_distr. cbn [rev app]. unfold is_dotdot.
    destruct (bytes_eqb name (lit "..")) eqn:E; [|reflexivity]. apply bytes_eqb_eq in E. congruence. }
  unfold create_archive. rewrite E. cbn [bind read_all]. apply lossy_same in Ht. now rewrite Ht.
Qed.

(** ** What the patterns do *)
Lemma own_path src deep pats pat p : is_text src -> In pat pats -> appears pat src -> ~ wanted src deep pats p.
Proof.
  intros Hs Hi (a & b & E) [_ Hw]. apply (proj1 (Hw pat Hi)). unfold path_below.
  destruct (rev src) as [|x r] eqn:Er.
  - apply (f_equal (@rev byte)) in Er. rewrite rev_involutive in Er. cbn in Er. rewrite Er in E. symmetry in E.
    apply app_eq_nil in E. destruct E as [_ E]. apply app_eq_nil in E. destruct E as [-> _]. exists [], (utf8_lossy (with_slashes p)). reflexivity.
  - rewrite (lossy_app src _ Hs). exists a. exists (b ++ utf8_lossy ((if bytes_eqb [x] (lit "/") then [] else lit "/") ++ with_slashes p)).
    rewrite E, <- !app_assoc. reflexivity.
Qed.
Theorem own_path_drops_all L md5 c src follow deep pats pat t : is_text src -> proper t -> (deep = true -> ~ hidden follow t) ->
  In pat pats -> appears pat src ->
  create_archive L md5 c src follow deep pats (SDir true t) = build L md5 c [].
Proof.
  intros Hs HP Hh Hi Ha.
  destruct (created L md5 c src follow deep pats t Hs HP Hh) as (walk & E & Hw & _).
  - intros p d _ Hx. destruct (own_path _ _ _ _ _ Hs Hi Ha Hx).
  - destruct walk as [|[p d] walk]; [exact E|]. destruct (proj1 (Hw p d) (or_introl eq_refl)) as [_ Hx].
    destruct (own_path _ _ _ _ _ Hs Hi Ha Hx).
Qed.
(** A pattern with a star drops nothing but files with a star in their path. *)
Lemma star_keeps src deep pats p : is_text (path_below src p) -> is_text (last p []) ->
  ~ In "*"%byte (path_below src p) -> ~ In "*"%byte (last p []) -> (forall pat, In pat pats -> In "*"%byte pat) ->
  deep = true \/ length p = 1%nat -> wanted src deep pats p.
Proof.
  intros Ht Hl Hn Hnl Hp Hd. split; [exact Hd|]. intros pat Hi. apply lossy_same in Ht, Hl. rewrite Ht, Hl.
  assert (K : forall s, ~ In "*"%byte s -> ~ appears pat s).
  { intros s Hs (a & b & ->). apply Hs. apply in_or_app. right. apply in_or_app. left. now apply Hp. }
  auto.
Qed.
