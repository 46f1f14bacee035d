(** * Which names are mistaken, decided; archives of version 3 and 4 with more than four entries. *)
From Coq Require Import Lia ZifyBool ZifyNat ZifyN.
From Verif Require Import Bytes Crypto SpecNames NameFacts SpecTables Compress SpecCompress ToyCodec Header Listfile Builder BuilderFacts
  SpecArchive SpecArchive34 SpecBuilding BuildCalm BuildOk SpecCipher CipherFacts SpecNameTable NameTableFacts NameArchiveFacts
  SpecListfile ListfileFacts Attributes Archive Signature Cli SpecCli CliFacts EndToEnd DemoArchive Demo34 DemoSuccess DemoCli DemoCli34 CliCreate SpecCreate CreateFacts DemoCreate.
Open Scope N_scope.

Definition memN (x : N) (l : list N) : bool := existsb (N.eqb x) l.
Lemma memN_iff x l : memN x l = true <-> In x l.
Proof.
  unfold memN. rewrite existsb_exists. split.
  - intros (y & H & E). apply N.eqb_eq in E. now subst.
  - intros H. exists x. split; [exact H|apply N.eqb_refl].
Qed.

(** The first [d] places from that of the hash on are taken, the next one is not. *)
Fixpoint first_free (fuel : nat) (m h d : N) (taken : list N) : N :=
  match fuel with
  | O => d
  | S k => if memN ((h + d) mod m) taken then first_free k m h (d + 1) taken else d
  end.
Lemma first_free_below fuel m h taken : forall d e, d <= e -> e < first_free fuel m h d taken -> In ((h + e) mod m) taken.
Proof.
  induction fuel as [|k IH]; cbn [first_free]; intros d e H1 H2; [lia|].
  destruct (memN _ _) eqn:E in H2; [|lia].
  destruct (N.eq_dec d e) as [<-|C]; [now apply memN_iff|]. apply (IH (d + 1)); [lia|exact H2].
Qed.
Fixpoint seats (m : N) (names : list bytes) (taken : list N) : option (list N) :=
  match names with
  | [] => Some taken
  | n :: r => let h := extended_hash n in let d := first_free 64 m h 0 taken in let s := (h + d) mod m in
              if (d <? m) && negb (memN s taken) then seats m r (taken ++ [s]) else None
  end.
Lemma nth_error_firstn (A : Type) (l r : list A) i : (i <= length l)%nat -> firstn i (l ++ r) = firstn i l.
Proof. intros H. rewrite firstn_app. replace (i - length l)%nat with O by lia. cbn [firstn]. apply app_nil_r. Qed.
Lemma seats_seated m : forall rest names taken places,
  seated m names taken -> seats m rest taken = Some places -> seated m (names ++ rest) places.
Proof.
  induction rest as [|n r IH]; intros names taken places HS E; cbn [seats] in E.
  - injection E as <-. now rewrite app_nil_r.
  - cbv zeta in E. set (d := first_free 64 m (extended_hash n) 0 taken) in *.
    destruct (_ && _) eqn:C in E; [|discriminate E]. apply andb_true_iff in C as [C1 C2].
    replace (names ++ n :: r) with ((names ++ [n]) ++ r) by (rewrite <- app_assoc; reflexivity).
    eapply IH; [|exact E]. destruct HS as [HL HS]. split; [rewrite !app_length, HL; reflexivity|].
    intros i x s Hx Hs. destruct (Nat.lt_ge_cases i (length names)) as [Hi|Hi].
    + rewrite nth_error_app1 in Hx by exact Hi. rewrite nth_error_app1 in Hs by lia.
      rewrite nth_error_firstn by lia. exact (HS i x s Hx Hs).
    + rewrite nth_error_app2 in Hx by exact Hi. rewrite nth_error_app2 in Hs by lia. rewrite HL in Hs.
      destruct (i - length names)%nat as [|j] eqn:Ei.
      2:{ cbn [nth_error] in Hx. destruct j; discriminate Hx. }
      cbn [nth_error] in Hx, Hs. injection Hx as <-. injection Hs as <-.
      assert (Eii : i = length taken) by lia. subst i. rewrite nth_error_firstn, firstn_all by lia.
      exists d. split; [lia|]. split; [reflexivity|]. split.
      * intros HI. apply memN_iff in HI. rewrite HI in C2. discriminate C2.
      * intros e He. apply (first_free_below 64 m (extended_hash n) taken 0 e); [lia|exact He].
Qed.

Fixpoint set_bitb (hb ib i : N) (names : list bytes) (places : list N) (p : N) : bool :=
  match names, places with
  | n :: ns, s :: ss =>
      (s * (hb + ib) <=? p) && (p <? s * (hb + ib) + (hb + ib)) &&
      N.testbit (extended_hash n mod 2 ^ hb + i * 2 ^ hb) (p - s * (hb + ib))
      || set_bitb hb ib (i + 1) ns ss p
  | _, _ => false
  end.
Lemma set_bitb_from hb ib p : forall names places i0, set_bitb hb ib i0 names places p = true <->
  exists i name s j, nth_error names i = Some name /\ nth_error places i = Some s /\
    j < hb + ib /\ p = s * (hb + ib) + j /\
    N.testbit (extended_hash name mod 2 ^ hb + (i0 + N.of_nat i) * 2 ^ hb) j = true.
Proof.
  induction names as [|n ns IH]; intros places i0.
  - cbn [set_bitb]. split; [discriminate|]. intros (i & ? & ? & ? & H & _). destruct i; discriminate H.
  - destruct places as [|s ss].
    + cbn [set_bitb]. split; [discriminate|]. intros (i & ? & ? & ? & _ & H & _). destruct i; discriminate H.
    + cbn [set_bitb]. rewrite orb_true_iff, IH. split.
      * intros [H|(i & x & t & j & H1 & H2 & H3 & H4 & H5)].
        -- apply andb_true_iff in H as [H H3]. apply andb_true_iff in H as [H1 H2].
           exists 0%nat, n, s, (p - s * (hb + ib)). cbn [nth_error N.of_nat]. rewrite N.add_0_r.
           split; [reflexivity|]. split; [reflexivity|]. split; [lia|]. split; [lia|exact H3].
        -- exists (S i), x, t, j. cbn [nth_error]. split; [exact H1|]. split; [exact H2|]. split; [exact H3|]. split; [exact H4|].
           replace (i0 + N.of_nat (S i)) with (i0 + 1 + N.of_nat i) by lia. exact H5.
      * intros ([|i] & x & t & j & H1 & H2 & H3 & H4 & H5); cbn [nth_error] in H1, H2.
        -- injection H1 as <-. injection H2 as <-. left. cbn [N.of_nat] in H5. rewrite N.add_0_r in H5.
           replace (p - s * (hb + ib)) with j by lia. rewrite H5, andb_true_r. apply andb_true_iff. lia.
        -- right. exists i, x, t, j. split; [exact H1|]. split; [exact H2|]. split; [exact H3|]. split; [exact H4|].
           replace (i0 + 1 + N.of_nat i) with (i0 + N.of_nat (S i)) by lia. exact H5.
Qed.
Lemma set_bitb_iff hb ib names places p : set_bitb hb ib 0 names places p = true <-> set_bit hb ib names places p.
Proof. rewrite set_bitb_from. reflexivity. Qed.

Definition confusedb (m hb ib : N) (names : list bytes) (places : list N) (name : bytes) : bool :=
  let h := extended_hash name in let q := h mod m in
  (8 * (q * hb / 8) + 64 <=? m * hb) &&
  forallb (fun j => Bool.eqb (N.testbit h j) (set_bitb hb ib 0 names places (q * hb + j))) (map N.of_nat (seq 0 (N.to_nat hb))).
Lemma confusedb_iff m hb ib names places name : widths (lenN names) m hb ib ->
  confusedb m hb ib names places name = true <-> confused names places name.
Proof.
  intros HW. unfold confusedb. cbv zeta. rewrite andb_true_iff, forallb_forall. split.
  - intros [H1 H2]. exists m, hb, ib. split; [exact HW|]. split; [lia|]. intros j Hj. rewrite <- set_bitb_iff.
    assert (E := H2 j). assert (HI : In j (map N.of_nat (seq 0 (N.to_nat hb)))).
    { apply in_map_iff. exists (N.to_nat j). split; [lia|]. apply in_seq. lia. }
    specialize (E HI). apply Bool.eqb_prop in E. rewrite E. reflexivity.
  - intros (m' & hb' & ib' & HW' & H). destruct (widths_one _ _ _ _ _ _ _ HW HW') as (<- & <- & <-).
    cbv zeta in H. destruct H as [H1 H2]. split; [lia|]. intros j Hj. apply in_map_iff in Hj as (x & <- & Hx). apply in_seq in Hx.
    specialize (H2 (N.of_nat x) ltac:(lia)). rewrite <- set_bitb_iff in H2. apply Bool.eqb_true_iff.
    apply Bool.eq_true_iff_eq. exact H2.
Qed.

(** All at once, for a table of [2 ^ k] places *)
Definition mistakenb (k hb ib : N) (c : config) (files : list pending) (name : bytes) : option bool :=
  let names := entry_names c files in let n := lenN names in let m := 2 ^ k in
  if (2 * n <=? m) && (m <? 4 * n) && (m <? 2 ^ hb) && (2 ^ hb <=? 2 * m) && (n <? 2 ^ ib) && (2 ^ ib <=? 2 * n) then
    match seats m names [] with Some places => Some (confusedb m hb ib names places name) | None => None end
  else None.
Lemma mistakenb_iff k hb ib c files name b : mistakenb k hb ib c files name = Some b ->
  (mistaken c files name <-> b = true).
Proof.
  unfold mistakenb. cbv zeta. destruct (_ && _) eqn:C; [|discriminate].
  destruct (seats _ _ _) as [places|] eqn:E; [|discriminate]. intros H. injection H as <-.
  assert (HW : widths (lenN (entry_names c files)) (2 ^ k) hb ib).
  { repeat (apply andb_true_iff in C as [C ?]). split; [exists k; reflexivity|]. lia. }
  apply (seats_seated (2 ^ k) _ [] []) in E; [|split; [reflexivity|intros i x s Hx; destruct i; discriminate Hx]].
  rewrite (mistaken_is c files _ _ _ _ name HW E), confusedb_iff by exact HW. reflexivity.
Qed.

(** A directory of eight files *)
Definition eight_cfg := mkCfg V4 3 LGenerate ZLIB true false 0.
Definition eight_walk : list found :=
  map (fun n => mkFound [n] (lit "content of " ++ n))
    [lit "a.txt"; lit "b.txt"; lit "d.txt"; lit "e.txt"; lit "f.txt"; lit "g.txt"; lit "h.txt"; lit "i.txt"].
Definition eight_files : list pending := create_files eight_cfg eight_walk.
Lemma eight_no_mistake : no_mistake eight_cfg eight_files.
Proof.
  intros n Hn HM.
  assert (H : forall x, In x (LISTFILE :: ATTRIBUTES :: SIGNATURE :: map pf_name eight_files) ->
            mistakenb 5 6 4 eight_cfg eight_files x = Some false).
  { intros x Hx. repeat (destruct Hx as [<-|Hx]; [vm_compute; reflexivity|]). destruct Hx. }
  specialize (H n Hn). apply (mistakenb_iff _ _ _ _ _ _ _ H) in HM. discriminate HM.
Qed.
Lemma eight_other : ~ mistaken eight_cfg eight_files (lit "z.txt").
Proof.
  intros HM. assert (H : mistakenb 5 6 4 eight_cfg eight_files (lit "z.txt") = Some false) by (vm_compute; reflexivity).
  apply (mistakenb_iff _ _ _ _ _ _ _ H) in HM. discriminate HM.
Qed.
Lemma eight_typed : well_typed eight_cfg eight_files.
Proof.
  split; [reflexivity|]. split; [reflexivity|]. intros f Hf.
  repeat (destruct Hf as [<-|Hf]; [split; reflexivity|]). destruct Hf.
Qed.
Lemma eight_packable : Forall (packable toy eight_cfg) (all_stored eight_cfg eight_files).
Proof.
  apply Forall_forall. intros x Hx. apply packable_open; [exact toy_willing|].
  assert (E : snd x = ZLIB) by (repeat (destruct Hx as [<-|Hx]; [reflexivity|]); destruct Hx).
  rewrite E. vm_compute. auto.
Qed.
(** Names with different hashes are different. *)
Fixpoint apartb (l : list N) : bool := match l with [] => true | x :: r => negb (memN x r) && apartb r end.
Lemma apartb_distinct l : apartb (map (fun x => hash_string (fst x) HT_NAME_A) l) = true -> all_distinct l.
Proof.
  intros H l1 x l2 y l3 -> [E _]. apply (name_equiv_hash _ _ HT_NAME_A) in E.
  induction l1 as [|z l1 IH]; cbn [map app apartb] in H.
  - apply andb_true_iff in H as [H _]. apply negb_true_iff in H. rewrite <- not_true_iff_false in H. apply H, memN_iff.
    rewrite E, map_app. apply in_or_app. right. left. reflexivity.
  - apply andb_true_iff in H as [_ H]. now apply IH.
Qed.
Lemma eight_distinct : all_distinct (all_names eight_cfg eight_files).
Proof. apply apartb_distinct. vm_compute. reflexivity. Qed.
Lemma eight_no_collision : no_collision (LISTFILE :: map pf_name eight_files).
Proof. apply no_collisionb_sound. vm_compute. reflexivity. Qed.
Lemma eight_apart n : In n [ATTRIBUTES; SIGNATURE; lit "z.txt"] -> hashes_apart n (LISTFILE :: map pf_name eight_files).
Proof. intros Hn. repeat (destruct Hn as [<-|Hn]; [apply hashes_apartb_sound; vm_compute; reflexivity|]). destruct Hn. Qed.
Lemma eight_names : forall f, In f eight_files ->
  is_text (pf_name f) /\ listable (pf_name f) /\ ~ name_equiv LISTFILE (pf_name f).
Proof.
  intros f Hf. split; [|split].
  - repeat (destruct Hf as [<-|Hf]; [apply text_ascii; vm_compute; repeat constructor|]). destruct Hf.
  - apply (parsed_listable (listfile_content (map pf_name eight_files))).
    repeat (destruct Hf as [<-|Hf]; [vm_compute; auto 12|]). destruct Hf.
  - intros H. apply name_equivb_complete in H.
    repeat (destruct Hf as [<-|Hf]; [vm_compute in H; discriminate|]). destruct Hf.
Qed.
Lemma eight_reads : forall d, In d (listfile_content (map pf_name eight_files) :: map f_data eight_walk) ->
  reads_back toy eight_cfg (c_default eight_cfg) d.
Proof.
  intros d Hd. left.
  repeat (destruct Hd as [<-|Hd]; [split; [vm_compute; discriminate|]; split; [vm_compute; reflexivity|];
    right; left; vm_compute; auto|]). destruct Hd.
Qed.
Lemma eight_arc : exists arc, build toy no_md5 eight_cfg eight_files = Ok arc /\
  built34_at toy no_md5 eight_cfg eight_files arc [] [].
Proof.
  apply start_built34; [exact toy_calm|right; reflexivity|reflexivity|reflexivity|exact eight_typed|reflexivity| |
    exact eight_packable|exact eight_distinct|exact eight_no_collision].
  apply narrow_small. vm_compute. discriminate.
Qed.

(** Of the five files of C18 the third is mistaken for the first, and so is a file that was never added. *)
Lemma five_mistaken : mistaken five_cfg five_files (lit "c.txt") /\ mistaken five_cfg five_files (lit "x.txt") /\
  ~ mistaken five_cfg five_files (lit "d.txt").
Proof.
  assert (H : forall x b, mistakenb 4 5 3 five_cfg five_files x = Some b -> (mistaken five_cfg five_files x <-> b = true))
    by (intros x b; apply mistakenb_iff).
  split; [|split].
  - apply (H _ true); [vm_compute|]; reflexivity.
  - apply (H _ true); [vm_compute|]; reflexivity.
  - rewrite (H _ false); [discriminate|vm_compute; reflexivity].
Qed.

(** The same eight files as a directory *)
Definition eight_tree : tree :=
  fold_right (fun f t => TCons (nth 0 (f_parts f) []) (NFile (Some (f_data f))) t) TNil eight_walk.
Lemma eight_proper : proper eight_tree.
Proof.
  unfold eight_tree, eight_walk. cbn [map fold_right f_parts f_data nth].
  repeat (first [apply proper_nil | apply proper_file | apply proper_dir]; try (apply ordinaryb; reflexivity)); intros n X;
  repeat match goal with H : has _ _ _ |- _ => inversion H; subst; clear H end.
Qed.
Lemma eight_added : added (lit "src") false true [] true eight_tree = Ok (map as_entry eight_walk).
Proof. vm_compute. reflexivity. Qed.
Lemma eight_fine p d : file_at false eight_tree p (Some d) -> wanted (lit "src") true [] p ->
  Forall component p /\ listable (with_slashes p) /\ ~ name_equiv (lit "(listfile)") (with_slashes p) /\
  reads_back toy eight_cfg (c_default eight_cfg) d.
Proof.
  intros Hf Hw. assert (Hi : In (mkFound p d) eight_walk) by (apply (in_walk _ _ _ _ _ _ eight_proper eight_added); auto).
  clear Hf Hw. split; [|split; [|split]].
  - repeat (destruct Hi as [[= <- <-]|Hi]; [repeat constructor; apply componentb; vm_compute; reflexivity|]). destruct Hi.
  - apply (parsed_listable (listfile_content (map pf_name eight_files))).
    repeat (destruct Hi as [[= <- <-]|Hi]; [vm_compute; auto 12|]). destruct Hi.
  - intros H. apply name_equivb_complete in H. repeat (destruct Hi as [[= <- <-]|Hi]; [vm_compute in H; discriminate|]). destruct Hi.
  - apply eight_reads. right. exact (in_map f_data _ _ Hi).
Qed.
