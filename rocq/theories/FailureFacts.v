(** * Why building an archive fails. *)
From Verif Require Import Bytes Crypto SpecNames NameFacts HashTable HashTableFacts BlockTable Header HeaderFacts Adpcm Huffman AdpcmFacts Compress SpecTables TableMap
  Listfile HetBet Builder BuilderFacts SpecArchive ArchiveFacts LayoutFacts FileSystem BuildIo SpecBuild BuildIoFacts SpecBuilding BuildCalm BuildOk BuildWide SpecFailures.
Open Scope N_scope.

(** ** The errors of a single step *)
Lemma bind_err {A B} (r : res A) (f : A -> res B) e : bind r f = Err e -> r = Err e \/ exists a, r = Ok a /\ f a = Err e.
Proof. destruct r as [a|e'|]; cbn [bind]; intros H; [right; eauto|left; congruence|discriminate]. Qed.

Lemma adpcm_err d cc e : (1 <= cc <= 2)%nat -> adpcm_compress d 5 cc = Err e -> e = ECompression.
Proof.
  intros Hcc. unfold adpcm_compress.
  destruct (N.eq_dec (lenN d mod (2 * N.of_nat cc)) 0) as [E|E].
  - destruct (adpcm_encode_total d 5 cc) as (o & p & ->); [lia|exact Hcc|exact E|]. discriminate.
  - unfold adpcm_encode. destruct ((cc =? 0) || (2 <? cc))%nat; [cbn [bind]; congruence|].
    destruct (negb (lenN d mod 2 =? 0)) eqn:E2; [cbn [bind]; congruence|].
    assert (H2 : lenN d mod 2 = 0) by (destruct (N.eqb_spec (lenN d mod 2) 0); [assumption|discriminate]).
    apply N.mod_divides in H2 as [k Hk]; [|lia].
    assert (Hn : (length d = 2 * N.to_nat k)%nat) by (unfold lenN in Hk; lia).
    destruct (samples_pairs _ _ Hn) as (F & Hl & _).
    destruct (samples_of d) as [|s t] eqn:Es; [discriminate|]. rewrite Hl.
    destruct (Nat.eqb_spec (N.to_nat k mod cc) 0) as [C|C]; [|cbn [bind negb]; congruence].
    exfalso. apply E. apply Nat.mod_divides in C as [q Hq]; [|lia].
    rewrite Hk. replace k with (N.of_nat cc * N.of_nat q) by lia.
    apply N.mod_divides; [lia|]. exists (N.of_nat q). lia.
Qed.

Lemma add_err t n i l e : add_to_hash_table t n i l = Err e -> e = EInvalidFormat.
Proof.
  unfold add_to_hash_table. cbv zeta. destruct (_ =? 0); [discriminate|].
  generalize (N.land (hash_string n HT_TABLE_OFFSET) (lenN t - 1)). generalize (length t).
  intros f. induction f as [|f IH]; intros idx; cbn [add_loop]; [discriminate|].
  destruct (nthN t idx) as [x|]; [|congruence]. destruct (is_empty x); [discriminate|].
  destruct (_ && _); [congruence|]. apply IH.
Qed.

Section Errors.
Variable L : codecs.
Hypothesis plain : plain_encoders L.

Lemma pk_err d e : pk_compress L d = Err e -> e = ECompression.
Proof. destruct d; [discriminate|]. intros H. apply (plain (b :: d)). auto. Qed.
Lemma huffman_err d e : huffman_compress d = Err e -> e = ECompression.
Proof. destruct d; cbn; congruence. Qed.
Lemma implode_err d e : implode_compress d = Err e -> e = ECompression.
Proof. destruct d; cbn; congruence. Qed.

Lemma multiple_err d f e : compress_multiple L d f = Err e -> e = ECompression.
Proof.
  unfold compress_multiple. intros H. apply bind_err in H as [H|(cur & _ & H)].
  - destruct (bit f ADPCM_MONO); [apply adpcm_err in H; [exact H|lia]|].
    destruct (bit f ADPCM_STEREO); [apply adpcm_err in H; [exact H|lia]|discriminate].
  - cbv zeta in H. destruct (_ =? 0); [discriminate|]. destruct (1 <? _); [congruence|].
    destruct (bit f HUFFMAN); [exact (huffman_err _ _ H)|].
    destruct (bit f ZLIB); [apply (plain cur); auto|].
    destruct (bit f BZIP2); [apply (plain cur); auto|].
    destruct (bit f SPARSE); [discriminate|].
    destruct (bit f PKWARE); [exact (pk_err _ _ H)|discriminate].
Qed.

Lemma compress_err d m e : compress L d m = Err e -> e = ECompression.
Proof.
  unfold compress. intros H. apply bind_err in H as [H|(c & _ & H)]; [|destruct (_ <=? _) in H; discriminate].
  unfold compress_internal in H. destruct (from_flags m); try discriminate.
  all: try (apply (plain d); auto; fail).
  all: first [exact (implode_err _ _ H)|exact (pk_err _ _ H)|exact (huffman_err _ _ H)|exact (multiple_err _ _ _ H)|
              apply adpcm_err in H; [exact H|lia]].
Qed.

Lemma store_form_err d m e : store_form L d m = Err e -> e = ECompression.
Proof.
  unfold store_form. destruct (_ || _); [discriminate|]. intros H.
  apply bind_err in H as [H|(c & _ & H)]; [exact (compress_err _ _ _ H)|destruct (bytes_eqb _ _) in H; discriminate].
Qed.
Lemma store_sectors_err l m e : store_sectors L l m = Err e -> e = ECompression.
Proof.
  induction l as [|s t IH]; cbn [store_sectors]; [discriminate|]. intros H.
  apply bind_err in H as [H|([b x] & _ & H)]; [exact (store_form_err _ _ _ H)|].
  apply bind_err in H as [H|([r y] & _ & H)]; [exact (IH H)|discriminate].
Qed.

Lemma write_file_err c ss f p e : write_file L c ss f p = Err e -> e = ECompression.
Proof.
  unfold write_file. destruct (_ <=? _).
  - unfold write_single. intros H. apply bind_err in H as [H|([b x] & _ & H)]; [exact (store_form_err _ _ _ H)|discriminate].
  - unfold write_multi. destruct (ss =? 0); [discriminate|]. cbv zeta. intros H.
    apply bind_err in H as [H|([b x] & _ & H)]; [exact (store_sectors_err _ _ _ H)|].
    apply bind_err in H as [H|(x1 & _ & H)]; [|discriminate].
    exfalso. destruct (pf_encrypt f); [|discriminate]. exact (enc_sectors_no_err _ _ _ _ _ _ H).
Qed.
End Errors.

(** ** The order of the steps, without the file system *)
Section Order.
Variable L : codecs.
Variable w0 : world.
Definition from_source {A} (s : source) (k : bytes -> res A) : res A :=
  match source_bytes w0 s with Some d => k d | None => Err EIo end.

Fixpoint order12 (c : config) (ss : N) (srcs : list spending) (i : N) (tb : list hentry) (pos : N) : res unit :=
  match srcs with
  | [] => Ok tt
  | s :: r =>
      from_source (sp_source s) (fun d =>
        ' (out, _, _) <- write_file L c ss (loaded s d) pos ;;
        tb' <- add_to_hash_table tb (sp_name s) (w32 i) (sp_locale s) ;;
        order12 c ss r (i + 1) tb' (pos + lenN out))
  end.
Fixpoint order34 (c : config) (ss : N) (srcs : list spending) (pos : N) : res unit :=
  match srcs with
  | [] => Ok tt
  | s :: r =>
      from_source (sp_source s) (fun d =>
        ' (out, _, _) <- write_file L c ss (loaded s d) pos ;;
        order34 c ss r (pos + lenN out))
  end.
Fixpoint loads_all (srcs : list spending) : option (list pending) :=
  match srcs with
  | [] => Some []
  | s :: r => match source_bytes w0 (sp_source s), loads_all r with
              | Some d, Some fs => Some (loaded s d :: fs)
              | _, _ => None
              end
  end.
Lemma loads_contents srcs fs : contents w0 srcs fs -> loads_all srcs = Some fs.
Proof. induction 1 as [|s r d fs Hs _ IH]; [reflexivity|]. cbn [loads_all]. now rewrite Hs, IH. Qed.

(** The outcome, unless a call has failed without cause *)
Definition agrees {A B} (p : res A) (r : res B) (w : world) : Prop :=
  match r with
  | Ok _ => exists x, p = Ok x
  | Err e => w_fault w = true \/ p = Err e
  | Panic => w_fault w = true \/ p = Panic
  end.

Section Run.
Variable t : path.
Hypothesis fresh : w_files w0 t = None.
Hypothesis t_name : temp_name (p_name t).
Let I1 := I1 w0 t.

Definition somewhere (fl : bool) (w : world) : Prop := exists d pos, at_ t w d pos fl.
Definition ends {A B} (fl : bool) (p : res A) (r : res B) (w : world) : Prop :=
  agrees p r w /\ match r with Ok _ => somewhere fl w | _ => True end.

Lemma ends_fault {A B} fl (p : res A) (r : res B) w : (forall x, r <> Ok x) -> w_fault w = true -> ends fl p r w.
Proof. intros H F. destruct r as [x|e|]; [now destruct (H x)|split; [now left|exact I]|split; [now left|exact I]]. Qed.


Lemma order_source s w d pos fl : (forall p, s = SPath p -> not_temp w0 p) -> I1 w -> at_ t w d pos fl ->
  wp I1 (io_source s)
     (fun r w' => match r with
                  | Ok b => source_bytes w0 s = Some b /\ at_ t w' d pos fl
                  | Err e => w_fault w' = true \/ source_bytes w0 s = None /\ e = EIo
                  | Panic => False end) w.
Proof.
  intros Hn HI H. destruct s as [b|p]; cbn [io_source wp source_bytes].
  - split; [exact HI|]. split; [reflexivity|exact H].
  - assert (Hp : p <> t).
    { intros ->. destruct (Hn _ eq_refl) as [N|N]; [contradiction|exact (N t_name)]. }
    split; [exact HI|]. split.
    { destruct (w_files w p) as [b|] eqn:E.
      - exists (RBytes b), w. split; [constructor; exact E|reflexivity].
      - exists RFail, w. split; [apply SAbsent; exact E|reflexivity]. }
    intros r w' Hs. rewrite <- (HI p Hp).
    inversion Hs; subst; cbn [wp].
    + split; [apply I1_failed, HI|]. left. reflexivity.
    + split; [exact HI|]. split; [assumption|exact H].
    + split; [exact HI|]. right. split; [assumption|reflexivity].
Qed.

Ltac faulty F := apply ends_fault; [discriminate|exact F].

Lemma order_files c ss srcs : forall i tb w d pos fl,
  sources_fine w0 srcs -> I1 w -> at_ t w d pos fl ->
  wp I1 (io_files L c ss t srcs i tb) (ends fl (order12 c ss srcs i tb pos)) w.
Proof.
  induction srcs as [|s r IH]; intros i tb w d pos fl Hf HI H.
  - cbn [io_files wp]. split; [exact HI|]. split; [eexists; reflexivity|exists d, pos; exact H].
  - cbn [io_files order12].
    apply wp_bind. eapply wp_post; [|apply (wp_tell w0 t w d pos fl HI H)].
    intros [n|e|] w1 I_1 H1; cbn [next]; [|faulty H1|faulty H1].
    destruct H1 as [-> H1].
    apply wp_bind. eapply wp_post; [|apply (order_source (sp_source s) w1 d pos fl (fun p => Hf s p (or_introl eq_refl)) I_1 H1)].
    unfold from_source.
    intros [dd|e|] w2 I_2 H2; cbn [next]; [|destruct H2 as [H2|[H2 ->]]; [faulty H2|]|contradiction].
    2:{ rewrite H2. split; [right; reflexivity|exact I]. }
    destruct H2 as [-> H2]. apply wp_bind. cbn [wp]. split; [exact I_2|].
    destruct (write_file L c ss (loaded s dd) pos) as [[[out cs] flg]|e|]; cbn [next bind];
      [|split; [right; reflexivity|exact I]|split; [right; reflexivity|exact I]].
    apply wp_bind. eapply wp_post; [|apply (wp_write w0 t out w2 d pos fl I_2 H2)].
    intros [[]|e|] w3 I_3 H3; cbn [next]; [|faulty H3|faulty H3].
    apply wp_bind. cbn [wp]. split; [exact I_3|].
    change (pf_name (loaded s dd)) with (sp_name s). change (pf_locale (loaded s dd)) with (sp_locale s).
    destruct (add_to_hash_table tb (sp_name s) (w32 i) (sp_locale s)) as [tb'|e|]; cbn [next bind];
      [|split; [right; reflexivity|exact I]|split; [right; reflexivity|exact I]].
    apply wp_bind. eapply wp_post; [|apply (IH (i + 1) tb' w3 (put d pos out) (pos + lenN out) fl)].
    + intros [[es tb'']|e|] w4 I_4 [H4 P4]; cbn [next]; [|split; [exact H4|exact I]|split; [exact H4|exact I]].
      cbn [wp]. split; [exact I_4|]. split; assumption.
    + intros s' p Hin. apply Hf. right. exact Hin.
    + exact I_3.
    + exact H3.
Qed.

Lemma order_load c ss srcs : forall p w d pos fl,
  sources_fine w0 srcs -> I1 w -> at_ t w d pos fl ->
  wp I1 (io_load L c ss srcs p)
     (fun r w' => agrees (order34 c ss srcs p) r w' /\
        match r with Ok fs => contents w0 srcs fs /\ at_ t w' d pos fl | _ => True end) w.
Proof.
  induction srcs as [|s r IH]; intros p w d pos fl Hf HI H.
  - cbn [io_load wp]. split; [exact HI|]. split; [eexists; reflexivity|]. split; [constructor|exact H].
  - cbn [io_load order34].
    apply wp_bind. eapply wp_post; [|apply (order_source (sp_source s) w d pos fl (fun p => Hf s p (or_introl eq_refl)) HI H)].
    unfold from_source.
    intros [dd|e|] w2 I_2 H2; cbn [next]; [|destruct H2 as [H2|[H2 ->]]|contradiction].
    2:{ split; [left; exact H2|exact I]. }
    2:{ rewrite H2. split; [right; reflexivity|exact I]. }
    destruct H2 as [Es H2]. rewrite Es. apply wp_bind. cbn [wp]. split; [exact I_2|].
    destruct (write_file L c ss (loaded s dd) p) as [[[out cs] flg]|e|]; cbn [next bind];
      [|split; [right; reflexivity|exact I]|split; [right; reflexivity|exact I]].
    apply wp_bind. eapply wp_post; [|apply (IH (p + lenN out) w2 d pos fl)].
    + intros [fs|e|] w4 I_4 [H4 P4]; cbn [next]; [|split; [exact H4|exact I]|split; [exact H4|exact I]].
      cbn [wp]. split; [exact I_4|]. split; [exact H4|]. split; [constructor; [exact Es|exact (proj1 P4)]|exact (proj2 P4)].
    + intros s' q Hin. apply Hf. right. exact Hin.
    + exact I_2.
    + exact H2.
Qed.

Definition all12 (c : config) (srcs : list spending) : res unit :=
  ss <- sector_size (c_block_size c) ;;
  t0 <- ht_new (calculate_hash_table_size (lenN srcs + match c_listfile c with LNone => 0 | _ => 1 end)) ;;
  order12 c ss srcs 0 t0 (header_size_of (c_version c)).

Lemma order_archive12 c srcs w d pos fl : c_version c = V1 \/ c_version c = V2 ->
  sources_fine w0 srcs -> I1 w -> at_ t w d pos fl ->
  wp I1 (io_archive12 L c t srcs) (ends fl (all12 c srcs)) w.
Proof.
  intros Hv Hf HI H. unfold io_archive12, all12.
  set (tc := lenN srcs + match c_listfile c with LNone => 0 | _ => 1 end).
  apply wp_bind. cbn [wp]. split; [exact HI|].
  destruct (sector_size (c_block_size c)) as [ss|e|]; cbn [next bind];
    [|split; [right; reflexivity|exact I]|split; [right; reflexivity|exact I]].
  apply wp_bind. eapply wp_post; [|apply (wp_seek w0 t (header_size_of (c_version c)) w d pos fl HI H)].
  intros [[]|e|] w1 I_1 H1; cbn [next]; [|faulty H1|faulty H1].
  apply wp_bind. cbn [wp]. split; [exact I_1|].
  destruct (ht_new (calculate_hash_table_size tc)) as [t0|e|]; cbn [next bind];
    [|split; [right; reflexivity|exact I]|split; [right; reflexivity|exact I]].
  apply wp_bind. eapply wp_post; [|apply (order_files c ss srcs 0 t0 w1 d _ fl Hf I_1 H1)].
  intros [[es tb]|e|] w2 I_2 [H2 P2]; cbn [next]; [|split; [exact H2|exact I]|split; [exact H2|exact I]].
  destruct P2 as (d2 & p2 & P2). destruct H2 as [x Ex]. rewrite Ex. clear Ex.
  apply wp_bind. eapply wp_post; [|apply (wp_tell w0 t w2 _ _ fl I_2 P2)].
  intros [n|e|] w3 I_3 H3; cbn [next]; [|faulty H3|faulty H3]. destruct H3 as [-> H3].
  apply wp_bind. eapply wp_post; [|apply (wp_write w0 t (write_hash_table tb) w3 _ _ fl I_3 H3)].
  intros [[]|e|] w4 I_4 H4; cbn [next]; [|faulty H4|faulty H4].
  apply wp_bind. eapply wp_post; [|apply (wp_tell w0 t w4 _ _ fl I_4 H4)].
  intros [n|e|] w5 I_5 H5; cbn [next]; [|faulty H5|faulty H5]. destruct H5 as [-> H5].
  apply wp_bind. eapply wp_post; [|apply (wp_write w0 t (write_block_table (map snd es)) w5 _ _ fl I_5 H5)].
  intros [[]|e|] w6 I_6 H6; cbn [next]; [|faulty H6|faulty H6].
  apply wp_bind.
  eapply wp_post with (Q := fun r w' => match r with Ok _ => somewhere fl w' | _ => w_fault w' = true end).
  2:{ destruct (hi_written _ _) as [y|].
    - apply wp_bind. eapply wp_post; [|apply (wp_tell w0 t w6 _ _ fl I_6 H6)].
      intros [n|e|] w7 I_7 H7; cbn [next]; [|exact H7|exact H7]. destruct H7 as [-> H7].
      apply wp_bind. eapply wp_post; [|apply (wp_write w0 t y w7 _ _ fl I_7 H7)].
      intros [[]|e|] w8 I_8 H8; cbn [next wp]; [|exact H8|exact H8]. split; [exact I_8|]. do 2 eexists. exact H8.
    - cbn [wp]. split; [exact I_6|]. do 2 eexists. exact H6. }
  intros [hp|e|] w7 I_7 H7; cbn [next]; [|faulty H7|faulty H7]. destruct H7 as (d7 & p7 & H7).
  apply wp_bind. eapply wp_post; [|apply (wp_tell w0 t w7 _ _ fl I_7 H7)].
  intros [n|e|] w8 I_8 H8; cbn [next]; [|faulty H8|faulty H8]. destruct H8 as [-> H8].
  apply wp_bind. eapply wp_post; [|apply (wp_seek w0 t 0 w8 _ _ fl I_8 H8)].
  intros [[]|e|] w9 I_9 H9; cbn [next]; [|faulty H9|faulty H9].
  apply wp_bind. cbn [wp]. split; [exact I_9|].
  match goal with |- next _ _ _ (write_header ?p) _ => destruct (write_header_fine p) as [h Eh] end.
  { cbn [p_version]. intros V. exfalso. destruct Hv; congruence. }
  rewrite Eh. cbn [next].
  eapply wp_post; [|apply (wp_write w0 t h w9 _ _ fl I_9 H9)].
  intros [[]|e|] w10 I_10 H10; cbn [next]; [|faulty H10|faulty H10].
  split; [eexists; reflexivity|do 2 eexists; exact H10].
Qed.

Variable md5 : bytes -> bytes.
Definition all34 (c : config) (srcs : list spending) : res bytes :=
  ss <- sector_size (c_block_size c) ;;
  _ <- order34 c ss srcs (header_size_of (c_version c)) ;;
  match loads_all srcs with Some fs => write_archive34 L md5 c fs | None => Err EIo end.

Lemma order_archive34 c srcs w pos fl d : 
  sources_fine w0 srcs -> I1 w -> at_ t w d pos fl ->
  wp I1 (io_archive34 L md5 c t srcs) (ends fl (all34 c srcs)) w.
Proof.
  intros Hf HI H. unfold io_archive34, all34.
  apply wp_bind. cbn [wp]. split; [exact HI|].
  destruct (sector_size (c_block_size c)) as [ss|e|]; cbn [next bind];
    [|split; [right; reflexivity|exact I]|split; [right; reflexivity|exact I]].
  apply wp_bind. eapply wp_post; [|apply (order_load c ss srcs (header_size_of (c_version c)) w d pos fl Hf HI H)].
  intros [fs|e|] w1 I_1 [H1 P1]; cbn [next].
  2:{ destruct H1 as [H1|H1]; [faulty H1|]. rewrite H1. split; [right; reflexivity|exact I]. }
  2:{ destruct H1 as [H1|H1]; [faulty H1|]. rewrite H1. split; [right; reflexivity|exact I]. }
  destruct H1 as [x ->]. destruct P1 as [C1 P1]. rewrite (loads_contents _ _ C1). cbn [bind].
  apply wp_bind. cbn [wp]. split; [exact I_1|].
  destruct (write_archive34 L md5 c fs) as [arc|e|]; cbn [next];
    [|split; [right; reflexivity|exact I]|split; [right; reflexivity|exact I]].
  eapply wp_post; [|apply (wp_write w0 t arc w1 _ _ fl I_1 P1)].
  intros [[]|e|] w2 I_2 H2; [|faulty H2|faulty H2]. split; [eexists; reflexivity|do 2 eexists; exact H2].
Qed.

(** The list is read first, if it is a file. *)
Definition wanted (lo : slist) : res listfile_option :=
  match lo with
  | SGenerate => Ok LGenerate
  | SExternal p => match w_files w0 p with Some d => Ok (LExternal d) | None => Err EIo end
  | SNone => Ok LNone
  end.
Definition whole (c : config) (lo : slist) (srcs : list spending) : res unit :=
  o <- wanted lo ;;
  let c' := set_listfile c o in
  if version_ge (c_version c) V3 then _ <- all34 c' (in_order c o srcs) ;; Ok tt
  else all12 c' (in_order c o srcs).

Lemma order_body c lo srcs w d pos fl : sources_ok w0 lo srcs -> I1 w -> at_ t w d pos fl ->
  wp I1 (io_body L md5 c lo srcs t) (ends fl (whole c lo srcs)) w.
Proof.
  intros [Hf Hl] HI H. unfold io_body, whole.
  assert (Hio : forall o, sources_fine w0 (in_order c o srcs)).
  { intros o s p Hin E. unfold in_order in Hin. apply in_app_or in Hin as [Hin|Hin]; [exact (Hf s p Hin E)|].
    destruct o; cbn [In] in Hin; destruct Hin as [<-|[]] || destruct Hin; discriminate E. }
  assert (K : forall o w d pos, I1 w -> at_ t w d pos fl ->
    wp I1 (_ <~ (if version_ge (c_version (set_listfile c o)) V3
           then io_archive34 L md5 (set_listfile c o) t (in_order c o srcs)
           else io_archive12 L (set_listfile c o) t (in_order c o srcs)) ;; io_flush)
      (ends fl (if version_ge (c_version c) V3 then _ <- all34 (set_listfile c o) (in_order c o srcs) ;; Ok tt
                else all12 (set_listfile c o) (in_order c o srcs))) w).
  { clear w d pos HI H. intros o w d pos HI H. change (c_version (set_listfile c o)) with (c_version c).
    apply wp_bind.
    apply wp_post with (Q := ends fl (if version_ge (c_version c) V3 then _ <- all34 (set_listfile c o) (in_order c o srcs) ;; Ok tt
                else all12 (set_listfile c o) (in_order c o srcs))).
    - intros [[]|e|] w1 I_1 [H1 P1]; cbn [next]; [|split; [exact H1|exact I]|split; [exact H1|exact I]].
      destruct P1 as (d1 & p1 & P1). eapply wp_post; [|apply (wp_flush w0 t w1 _ _ fl I_1 P1)].
      intros [[]|e|] w2 I_2 H2; [|faulty H2|faulty H2]. split; [exact H1|do 2 eexists; exact H2].
    - destruct (version_ge (c_version c) V3) eqn:Ev.
      + eapply wp_post; [|exact (order_archive34 (set_listfile c o) _ w pos fl d (Hio o) HI H)].
        intros [[]|e|] w1 I_1 [H1 P1].
        * destruct H1 as [x ->]. split; [eexists; reflexivity|exact P1].
        * destruct H1 as [H1|H1]; [faulty H1|rewrite H1; split; [right; reflexivity|exact I]].
        * destruct H1 as [H1|H1]; [faulty H1|rewrite H1; split; [right; reflexivity|exact I]].
      + apply (order_archive12 (set_listfile c o) _ w d pos fl); auto.
        cbn [set_listfile c_version]. destruct (c_version c); try discriminate Ev; auto. }
  apply wp_bind. unfold io_prepare. destruct lo as [|p|]; cbn [wanted].
  - cbn [wp next]. split; [exact HI|]. cbn [bind]. cbv zeta.
    specialize (K LGenerate w d pos HI H). exact K.
  - apply wp_bind. eapply wp_post; [|apply (order_source (SPath p) w d pos fl (fun q E => ltac:(injection E as <-; exact (Hl p eq_refl))) HI H)].
    cbn [source_bytes].
    intros [dd|e|] w1 I_1 H1; cbn [next]; [|destruct H1 as [H1|[H1 ->]]|contradiction].
    + destruct H1 as [-> H1]. cbn [wp next]. split; [exact I_1|]. cbn [bind]. cbv zeta.
      exact (K (LExternal dd) w1 d pos I_1 H1).
    + faulty H1.
    + rewrite H1. split; [right; reflexivity|exact I].
  - cbn [wp next]. split; [exact HI|]. cbn [bind]. cbv zeta.
    specialize (K LNone w d pos HI H). unfold in_order in *. rewrite app_nil_r in *. exact K.
Qed.
End Run.

(** The whole program *)
Lemma order_build md5 c lo srcs dest : sources_ok w0 lo srcs -> w_fault w0 = false ->
  forall r w, steps (io_build L md5 c lo srcs dest, w0) (Ret r, w) -> w_fault w = false ->
  r = whole md5 c lo srcs.
Proof.
  intros Hs Hw r w H Hff. destruct (steps_inv _ _ H) as [E|(s1 & H1 & H2)]; [discriminate E|].
  unfold io_build in H1. inversion H1; subst. clear H1. rename H2 into H1.
  match goal with [ K : sem _ _ _ _ |- _ ] => inversion K; subst end.
  { apply steps_ret in H1. injection H1 as -> ->. discriminate Hff. }
  set (t := mkPath (p_dir dest) n) in *.
  assert (J : I1 w0 t (with_file w0 t (Some []) 0)) by (intros p Hp; apply set_other, Hp).
  assert (A : at_ t (with_file w0 t (Some []) 0) [] 0 (w_fault w0)) by (repeat split; apply set_same).
  assert (W := order_body t ltac:(assumption) ltac:(assumption) md5 c lo srcs _ _ _ _ Hs J A).
  set (Q := fun (r : res unit) w => w_fault w = false -> r = whole md5 c lo srcs).
  assert (D : forall r w, (w_fault w = false -> r = whole md5 c lo srcs) -> wp (fun _ => True) (drop_temp t r) Q w).
  { intros r' w' Hr. cbn [drop_temp wp]. split; [exact I|]. split; [do 2 eexists; split; [apply SUnlink|reflexivity]|].
    intros x w1 Hx. split; [exact I|]. unfold Q. inversion Hx; subst; cbn [failed with_file w_fault]; [discriminate|exact Hr]. }
  assert (W2 : wp (fun _ => True) (after (io_body L md5 c lo srcs t) (fun r =>
          match r with
          | Ok _ => Do (ORename t dest) (fun r =>
              match r with RDone => Ret (Ok tt) | _ => drop_temp t (Err EIo) end)
          | e => drop_temp t e
          end)) Q (with_file w0 t (Some []) 0)).
  { apply wp_after. eapply wp_mono; [| |exact W]; [auto|].
    intros [[]|e|] w2 _ [G P].
    - destruct P as (d2 & p2 & P2 & _). cbn [wp]. split; [exact I|].
      split; [do 2 eexists; split; [apply (SRename t dest d2 w2 eq_refl P2)|reflexivity]|].
      intros x w3 Hx. inversion Hx; subst.
      + apply D. discriminate.
      + cbn [wp]. split; [exact I|]. intros _. destruct G as [[] ->]. reflexivity.
    - apply D. intros F. destruct G as [G|G]; congruence.
    - apply D. intros F. destruct G as [G|G]; congruence. }
  assert (W3 := wp_steps _ _ _ _ H1 W2). cbn [fst snd wp] in W3. exact (proj2 W3 Hff).
Qed.
End Order.

(** ** What the outcome says *)
Lemma all_distinct_snoc l x : all_distinct (l ++ [x]) <->
  all_distinct l /\ forall b, In b l -> ~ (name_equiv (fst b) (fst x) /\ snd b = snd x).
Proof.
  split.
  - intros H. split.
    + intros l1 a l2 b l3 ->. apply (H l1 a l2 b (l3 ++ [x])). now rewrite <- !app_assoc, <- !app_comm_cons, <- !app_assoc.
    + intros b Hb. apply in_split in Hb as (l1 & l2 & ->). apply (H l1 b l2 x []).
      now rewrite <- app_assoc.
  - intros [H1 H2] l1 a l2 b l3 E.
    destruct l3 as [|z l3].
    + assert (E' : l ++ [x] = (l1 ++ a :: l2) ++ [b]) by (rewrite E, <- app_assoc; reflexivity).
      apply app_inj_tail in E' as [-> ->]. apply H2. apply in_or_app. right. now left.
    + destruct (exists_last (l := z :: l3)) as (l3' & y & E3); [discriminate|]. rewrite E3 in E.
      assert (E' : l ++ [x] = (l1 ++ a :: l2 ++ b :: l3') ++ [y])
        by (rewrite E, <- !app_assoc; cbn [app]; now rewrite <- !app_assoc).
      apply app_inj_tail in E' as [-> ->]. apply (H1 l1 a l2 b l3'). reflexivity.
Qed.

Lemma add_files_snoc fs f : forall t i, add_files t (fs ++ [f]) i =
  (t' <- add_files t fs i ;; add_to_hash_table t' (pf_name f) (w32 (i + lenN fs)) (pf_locale f)).
Proof.
  induction fs as [|g fs IH]; intros t i; cbn [add_files app].
  - change (lenN (@nil pending)) with 0. rewrite N.add_0_r. cbn [bind].
    destruct (add_to_hash_table _ _ _ _); reflexivity.
  - destruct (add_to_hash_table _ _ _ _) as [t'| |]; cbn [bind]; [|reflexivity|reflexivity].
    rewrite IH, lenN_cons. now replace (i + 1 + lenN fs) with (i + (1 + lenN fs)) by lia.
Qed.

Section Says.
Variable L : codecs.
Hypothesis calm : calm_encoders L.
Hypothesis plain : plain_encoders L.
Variable w0 : world.
Variable c : config.
Variable ss : N.
Hypothesis Hss : sector_size (c_block_size c) = Ok ss.
Hypothesis Hz : ss <> 0.

Lemma file_step s d pos : source_bytes w0 (sp_source s) = Some d -> short_enough w0 s ->
  (exists x, write_file L c ss (loaded s d) pos = Ok x /\ usable L w0 c s) \/
  (write_file L c ss (loaded s d) pos = Err ECompression /\ flaw L w0 c s ECompression).
Proof.
  intros Es Hs. assert (Hf : fits (loaded s d)) by (intros E; exact (Hs d Es E)).
  pose proof (write_file_fine L calm c ss (loaded s d) pos Hss Hz Hf) as F.
  pose proof (write_file_calm L calm c ss (loaded s d) pos Hss Hz Hf) as G.
  destruct (write_file L c ss (loaded s d) pos) as [x|e|] eqn:E; [left|right|congruence].
  - exists x. split; [reflexivity|]. exists d. split; [exact Es|]. apply (proj1 F). now exists x.
  - pose proof (write_file_err L plain _ _ _ _ _ E). subst e. split; [reflexivity|].
    apply (unpackable L w0 c s d Es). intros K. apply (proj2 F) in K as [y K]. discriminate K.
Qed.

Lemma contents_keys srcs fs : contents w0 srcs fs -> map file_key fs = map source_key srcs.
Proof. induction 1; cbn [map]; [reflexivity|]. f_equal. assumption. Qed.
Lemma contents_snoc srcs fs s d : contents w0 srcs fs -> source_bytes w0 (sp_source s) = Some d ->
  contents w0 (srcs ++ [s]) (fs ++ [loaded s d]).
Proof. intros H E. induction H; cbn [app]; constructor; auto. constructor. Qed.

Lemma same_length srcs fs : contents w0 srcs fs -> lenN fs = lenN srcs.
Proof. induction 1; [reflexivity|]. rewrite !lenN_cons. lia. Qed.

Variable count : N.
Hypothesis Hcount : count < 2 ^ 30.
Variable t0 : list hentry.
Hypothesis Ht0 : ht_new (calculate_hash_table_size count) = Ok t0.

Lemma name_step dn fs s d tb : contents w0 dn fs -> source_bytes w0 (sp_source s) = Some d -> add_files t0 fs 0 = Ok tb ->
  all_distinct (map source_key dn) -> lenN (dn ++ [s]) <= count -> no_collision (map sp_name (dn ++ [s])) ->
  (exists tb', add_to_hash_table tb (sp_name s) (w32 (lenN dn)) (sp_locale s) = Ok tb' /\
     add_files t0 (fs ++ [loaded s d]) 0 = Ok tb' /\ all_distinct (map source_key (dn ++ [s]))) \/
  (add_to_hash_table tb (sp_name s) (w32 (lenN dn)) (sp_locale s) = Err EInvalidFormat /\ ~ all_distinct (map source_key (dn ++ [s]))).
Proof.
  intros Hc Es Ea Hd Hl Hcol.
  pose proof (contents_snoc _ _ _ _ Hc Es) as Hc2. pose proof (contents_keys _ _ Hc2) as Hk.
  destruct (builder_table_map count (map file_key (fs ++ [loaded s d]))) as (t1 & E1 & Hcase).
  { unfold lenN in *. rewrite Hk, map_length. exact Hl. }
  { exact Hcount. }
  { rewrite Hk, map_map. exact Hcol. }
  assert (t1 = t0) by congruence. subst t1. clear E1.
  assert (Hb : 0 + lenN (fs ++ [loaded s d]) <= M32).
  { rewrite (same_length _ _ Hc2). change M32 with 4294967296. change (2 ^ 30) with 1073741824 in Hcount. lia. }
  rewrite <- add_files_all in Hcase by exact Hb. rewrite add_files_snoc, Ea in Hcase. cbn [bind] in Hcase.
  rewrite N.add_0_l, (same_length _ _ Hc) in Hcase.
  change (pf_name (loaded s d)) with (sp_name s) in Hcase. change (pf_locale (loaded s d)) with (sp_locale s) in Hcase.
  rewrite Hk in Hcase. destruct Hcase as [(tb' & E & D & _)|[E D]].
  - left. exists tb'. split; [exact E|]. split; [|exact D].
    rewrite add_files_snoc, Ea. cbn [bind]. now rewrite N.add_0_l, (same_length _ _ Hc).
  - right. split; [exact E|exact D].
Qed.

Lemma order12_says srcs : forall dn fs tb pos, contents w0 dn fs -> add_files t0 fs 0 = Ok tb ->
  all_distinct (map source_key dn) -> lenN (dn ++ srcs) <= count -> no_collision (map sp_name (dn ++ srcs)) ->
  (forall s, In s srcs -> short_enough w0 s) ->
  (order12 L w0 c ss srcs (lenN dn) tb pos = Ok tt /\ Forall (usable L w0 c) srcs /\ all_distinct (map source_key (dn ++ srcs))) \/
  exists l1 s l2 e, srcs = l1 ++ s :: l2 /\ Forall (usable L w0 c) l1 /\ all_distinct (map source_key (dn ++ l1)) /\
    order12 L w0 c ss srcs (lenN dn) tb pos = Err e /\
    (flaw L w0 c s e \/ usable L w0 c s /\ ~ all_distinct (map source_key (dn ++ l1 ++ [s])) /\ e = EInvalidFormat).
Proof.
  induction srcs as [|s r IH]; intros dn fs tb pos Hc Ea Hd Hl Hcol Hs.
  - left. split; [reflexivity|]. split; [constructor|]. now rewrite app_nil_r.
  - cbn [order12]. unfold from_source. destruct (source_bytes w0 (sp_source s)) as [d|] eqn:Es.
    2:{ right. exists [], s, r, EIo. split; [reflexivity|]. split; [constructor|]. rewrite app_nil_r. split; [exact Hd|].
        split; [reflexivity|]. left. now apply unreadable. }
    destruct (file_step s d pos Es (Hs s (or_introl eq_refl))) as [([[out cs] fl] & -> & U)|[-> F]]; cbn [bind].
    2:{ right. exists [], s, r, ECompression. split; [reflexivity|]. split; [constructor|]. rewrite app_nil_r.
        split; [exact Hd|]. split; [reflexivity|]. now left. }
    assert (Hap : dn ++ s :: r = (dn ++ [s]) ++ r) by now rewrite <- app_assoc.
    destruct (name_step dn fs s d tb Hc Es Ea Hd) as [(tb' & -> & Ea' & Hd')|[-> Hd']]; cbn [bind].
    { rewrite Hap, lenN_app in Hl. lia. }
    { intros x y Hx Hy. apply Hcol; rewrite Hap, map_app; apply in_or_app; now left. }
    2:{ right. exists [], s, r, EInvalidFormat. split; [reflexivity|]. split; [constructor|]. rewrite app_nil_r.
        split; [exact Hd|]. split; [reflexivity|]. right. split; [exact U|]. split; [exact Hd'|reflexivity]. }
    assert (Hlen : lenN dn + 1 = lenN (dn ++ [s])) by (rewrite lenN_app; reflexivity).
    rewrite Hlen, Hap in *.
    destruct (IH (dn ++ [s]) (fs ++ [loaded s d]) tb' (pos + lenN out)) as [(E & U' & D)|(l1 & x & l2 & e & -> & U' & D & E & F)].
    + now apply contents_snoc.
    + exact Ea'.
    + exact Hd'.
    + exact Hl.
    + exact Hcol.
    + intros x Hx. apply Hs. now right.
    + left. split; [exact E|]. split; [now constructor|]. exact D.
    + right. exists (s :: l1), x, l2, e. split; [reflexivity|]. split; [now constructor|].
      rewrite <- app_assoc in D. split; [exact D|]. split; [exact E|]. rewrite <- app_assoc in F. exact F.
Qed.

Lemma order34_says srcs : forall pos, (forall s, In s srcs -> short_enough w0 s) ->
  (order34 L w0 c ss srcs pos = Ok tt /\ Forall (usable L w0 c) srcs) \/
  exists l1 s l2 e, srcs = l1 ++ s :: l2 /\ Forall (usable L w0 c) l1 /\ order34 L w0 c ss srcs pos = Err e /\ flaw L w0 c s e.
Proof.
  induction srcs as [|s r IH]; intros pos Hs.
  - left. split; [reflexivity|constructor].
  - cbn [order34]. unfold from_source. destruct (source_bytes w0 (sp_source s)) as [d|] eqn:Es.
    2:{ right. exists [], s, r, EIo. split; [reflexivity|]. split; [constructor|]. split; [reflexivity|]. now apply unreadable. }
    destruct (file_step s d pos Es (Hs s (or_introl eq_refl))) as [([[out cs] fl] & -> & U)|[-> F]]; cbn [bind].
    2:{ right. exists [], s, r, ECompression. split; [reflexivity|]. split; [constructor|]. split; [reflexivity|exact F]. }
    destruct (IH (pos + lenN out)) as [(E & U')|(l1 & x & l2 & e & -> & U' & E & F)].
    + intros x Hx. apply Hs. now right.
    + left. split; [exact E|now constructor].
    + right. exists (s :: l1), x, l2, e. split; [reflexivity|]. split; [now constructor|]. now split.
Qed.
End Says.

Lemma taken_or_not before s : name_taken before s \/ forall b, In b before -> ~ (name_equiv (sp_name b) (sp_name s) /\ sp_locale b = sp_locale s).
Proof.
  induction before as [|b t [(x & Hx & E)|IH]].
  - right. intros b [].
  - left. exists x. split; [now right|exact E].
  - destruct (name_equivb (sp_name b) (sp_name s)) eqn:Eb.
    + destruct (N.eq_dec (sp_locale b) (sp_locale s)) as [El|El].
      * left. exists b. split; [now left|]. split; [now apply name_equivb_sound|exact El].
      * right. intros x [->|Hx]; [tauto|now apply IH].
    + right. intros x [->|Hx]; [|now apply IH]. intros [H _]. apply name_equivb_complete in H. congruence.
Qed.
Lemma taken_by l s : all_distinct (map source_key l) -> ~ all_distinct (map source_key (l ++ [s])) -> name_taken l s.
Proof.
  intros H N. destruct (taken_or_not l s) as [T|T]; [exact T|]. exfalso. apply N.
  rewrite map_app. apply all_distinct_snoc. split; [exact H|]. intros b Hb. apply in_map_iff in Hb as (x & <- & Hx).
  exact (T x Hx).
Qed.

Lemma in_order_names c o srcs : incl (map sp_name (in_order c o srcs)) (lit "(listfile)" :: map sp_name srcs).
Proof.
  intros n Hn. unfold in_order in Hn. rewrite map_app in Hn. apply in_app_or in Hn as [Hn|Hn]; [now right|].
  destruct o; cbn [map In sp_name] in Hn; [destruct Hn as [<-|[]]; now left|destruct Hn as [<-|[]]; now left|destruct Hn].
Qed.
Lemma in_order_length c o srcs : lenN (in_order c o srcs) = lenN srcs + match o with LNone => 0 | _ => 1 end.
Proof. unfold in_order. rewrite lenN_app. destruct o; reflexivity. Qed.
Lemma in_order_short w c o srcs : (forall s, In s srcs -> short_enough w s) -> forall s, In s (in_order c o srcs) -> short_enough w s.
Proof.
  intros H s Hs. unfold in_order in Hs. apply in_app_or in Hs as [Hs|Hs]; [now apply H|].
  destruct o; cbn [In] in Hs; destruct Hs as [<-|[]] || destruct Hs; intros d _ E; discriminate E.
Qed.
Lemma in_order_contents w c o srcs fs : contents w srcs fs ->
  contents w (in_order c o srcs) (prepare_listfile (set_listfile c o) fs).
Proof.
  intros H. assert (Hn : map sp_name srcs = map pf_name fs).
  { clear -H. induction H; cbn [map]; [reflexivity|]. f_equal. assumption. }
  assert (K : forall d, contents w (srcs ++ [mkSP (SData d) (lit "(listfile)") (c_default c) false false 0])
                          (fs ++ [mkPF d LISTFILE (c_default c) false false 0])).
  { intros d. clear Hn. induction H; cbn [app]; constructor; auto; try constructor. }
  unfold in_order, prepare_listfile. cbn [set_listfile c_listfile c_default]. destruct o.
  - rewrite Hn. apply K.
  - apply K.
  - rewrite app_nil_r. exact H.
Qed.
Lemma contents_first w a b fs' : contents w (a ++ b) fs' -> exists fs, contents w a fs.
Proof.
  revert fs'. induction a as [|s r IH]; intros fs' H; cbn [app] in H; [exists []; constructor|].
  inversion H; subst. match goal with [ K : contents _ (_ ++ _) _ |- _ ] => destruct (IH _ K) as [fz Hz] end.
  eexists. constructor; eassumption.
Qed.
Lemma usable_contents L w c srcs : Forall (usable L w c) srcs -> exists fs, contents w srcs fs.
Proof.
  induction 1 as [|s r (d & E & _) _ (fs & IH)]; [exists []; constructor|].
  eexists. constructor; eassumption.
Qed.
Lemma usable_packable L w c srcs fs : contents w srcs fs -> Forall (usable L w c) srcs -> Forall (packable_file L c) fs.
Proof.
  induction 1 as [|s r d fs E Hc IH]; intros H; [constructor|]. inversion_clear H as [|? ? (d' & E' & P) H'].
  assert (d' = d) by congruence. subst d'. constructor; [exact P|now apply IH].
Qed.

Lemma why12 L md5 c lo srcs dest w0 : calm_encoders L -> plain_encoders L -> c_version c = V1 \/ c_version c = V2 ->
  c_block_size c < 55 -> lenN srcs < 2 ^ 30 - 2 -> (forall s, In s srcs -> short_enough w0 s) ->
  no_collision (lit "(listfile)" :: map sp_name srcs) -> sources_ok w0 lo srcs -> w_fault w0 = false ->
  forall r w, steps (io_build L md5 c lo srcs dest, w0) (Ret r, w) -> w_fault w = false ->
  (exists p, lo = SExternal p /\ w_files w0 p = None /\ r = Err EIo) \/
  exists o, list_wanted w0 lo o /\
    (r = Ok tt /\ Forall (usable L w0 c) (in_order c o srcs) /\ all_distinct (map source_key (in_order c o srcs)) \/
     exists l1 s l2 e, in_order c o srcs = l1 ++ s :: l2 /\ Forall (usable L w0 c) l1 /\ all_distinct (map source_key l1) /\
       r = Err e /\ (flaw L w0 c s e \/ usable L w0 c s /\ name_taken l1 s /\ e = EInvalidFormat)).
Proof.
  intros Hcalm Hplain Hv Hb Hn Hs Hcol Hok Hw r w Hsteps Hff.
  rewrite (order_build L w0 md5 c lo srcs dest Hok Hw r w Hsteps Hff). clear r w Hsteps Hff.
  unfold whole. replace (version_ge (c_version c) V3) with false by (destruct Hv as [-> | ->]; reflexivity).
  assert (K : forall o, 
    (all12 L w0 (set_listfile c o) (in_order c o srcs) = Ok tt /\ Forall (usable L w0 c) (in_order c o srcs) /\ all_distinct (map source_key (in_order c o srcs)) \/
     exists l1 s l2 e, in_order c o srcs = l1 ++ s :: l2 /\ Forall (usable L w0 c) l1 /\ all_distinct (map source_key l1) /\
       all12 L w0 (set_listfile c o) (in_order c o srcs) = Err e /\ (flaw L w0 c s e \/ usable L w0 c s /\ name_taken l1 s /\ e = EInvalidFormat))).
  { intros o. unfold all12. destruct (sector_size_small _ Hb) as (ss & Ess & Hz).
    change (c_block_size (set_listfile c o)) with (c_block_size c). rewrite Ess. cbn [bind].
    change (c_listfile (set_listfile c o)) with o. set (count := lenN (in_order c o srcs) + match o with LNone => 0 | _ => 1 end).
    assert (Hcount : count < 2 ^ 30).
    { unfold count. rewrite in_order_length. change (2 ^ 30 - 2) with 1073741822 in Hn. change (2 ^ 30) with 1073741824. destruct o; lia. }
    destruct (builder_table_map count []) as (t0 & Et & _); [apply N.le_0_l|exact Hcount|intros x y []|].
    rewrite Et. cbn [bind].
    destruct (order12_says L Hcalm Hplain w0 (set_listfile c o) ss Ess Hz count Hcount t0 Et (in_order c o srcs) [] [] t0
                (header_size_of (c_version (set_listfile c o))))
      as [(E & U & D)|(l1 & s & l2 & e & El & U & D & E & F)].
    - constructor.
    - reflexivity.
    - intros l1 x l2 y l3 E. destruct l1; discriminate E.
    - cbn [app]. unfold count. lia.
    - cbn [app]. eapply no_collision_incl; [apply in_order_names|exact Hcol].
    - now apply in_order_short.
    - left. split; [exact E|]. split; [exact U|exact D].
    - right. exists l1, s, l2, e. split; [exact El|]. split; [exact U|]. split; [exact D|]. split; [exact E|].
      destruct F as [F|(F1 & F2 & F3)]; [left; destruct F; [now apply unreadable|now apply (unpackable L w0 c s d)]|].
      right. split; [exact F1|]. split; [|exact F3]. apply taken_by; [exact D|exact F2]. }
  destruct lo as [|p|]; cbn [wanted].
  - right. exists LGenerate. split; [constructor|]. exact (K LGenerate).
  - destruct (w_files w0 p) as [d|] eqn:Ep; cbn [bind].
    + right. exists (LExternal d). split; [now constructor|]. exact (K (LExternal d)).
    + left. exists p. auto.
  - right. exists LNone. split; [constructor|]. exact (K LNone).
Qed.

Section Names34.
Variable L : codecs.
Variable md5 : bytes -> bytes.
Hypothesis Hcalm : calm_encoders L.

(** When every file could be written, only the names can be wrong. *)
Lemma write_archive34_err c fs e : c_version c = V3 \/ c_version c = V4 ->
  c_block_size c < 55 -> lenN fs <= 2 ^ 17 -> Forall fits fs ->
  (c_ctables c = true -> forall x, fine (compress L x (c_tmethod c))) ->
  Forall (packable_file L c) fs -> write_archive34 L md5 c fs = Err e -> e = EInvalidFormat.
Proof.
  intros Hv Hb Hn Hf Hm Hp H0. pose proof H0 as H. revert H. unfold write_archive34.
  destruct (sector_size_small _ Hb) as (ss & E & Hz). rewrite E. cbn [bind]. cbv zeta.
  destruct (proj2 (write_files_fine L Hcalm c ss fs E Hz Hf (header_size_of (c_version c))) Hp) as [[body es] W].
  rewrite W. cbn [bind].
  pose proof (write_files_count L c ss fs _ _ _ W) as Hl.
  assert (He : width3 (map snd es) < 64).
  { destruct (N.lt_ge_cases (width3 (map snd es)) 64) as [C|C]; [exact C|exfalso].
    assert (X : write_archive34 L md5 c fs = Panic); [|congruence].
    apply (write_archive34_panics L Hcalm md5 c fs Hv Hb Hn Hf Hm). exists (map triple (map snd es)). split.
    - replace (header_room (c_version c)) with (header_size_of (c_version c)) by (destruct (c_version c); reflexivity).
      apply (placed_written L c ss fs (sector_size_ok _ _ E Hz)). eauto.
    - rewrite held_width. lia. }
  assert (Hn17 : lenN (map pf_name fs) <= 2 ^ 17) by (unfold lenN in *; rewrite map_length; exact Hn).
  destruct (create_het_fine _ Hn17) as [het Eh]. rewrite Eh. cbn [bind].
  destruct (write_ext_fine L (c_ctables c) (c_tmethod c) het ht_key (create_het_length12 _ _ Eh) Hm) as [hetb Ehb].
  rewrite Ehb. cbn [bind].
  destruct (create_bet_fine (map pf_name fs) (map snd es)) as [bet Eb].
  { rewrite !map_length. congruence. }
  { exact Hn17. }
  { exact He. }
  rewrite Eb. cbn [bind].
  destruct (write_ext_fine L (c_ctables c) (c_tmethod c) bet bt_key (create_bet_length12 _ _ _ Eb) Hm) as [betb Ebb].
  rewrite Ebb. cbn [bind].
  destruct (names_calm c fs) as (t0 & -> & Ha).
  { unfold table_count. change (2 ^ 17) with 131072 in Hn. change (2 ^ 30) with 1073741824. destruct (c_listfile c); lia. }
  cbn [bind]. intros H. apply bind_err in H as [H|(t & _ & H)].
  - clear - H. revert H. generalize t0. generalize 0. induction fs as [|f r IH]; intros i t H; cbn [add_files] in H; [discriminate|].
    apply bind_err in H as [H|(t' & _ & H)]; [exact (add_err _ _ _ _ _ H)|exact (IH _ _ H)].
  - apply bind_err in H as [H|(h & _ & H)]; [|discriminate].
    match type of H with write_header ?p = _ => destruct (write_header_fine p) as [h Eh'] end; [|congruence].
    cbn [p_version p_v4]. intros V. rewrite V. discriminate.
Qed.
End Names34.

Lemma placed_set L c o p fs l : placed L (set_listfile c o) p fs l <-> placed L c p fs l.
Proof.
  split; (induction 1 as [|p f r out z fl l W _ IH]; [apply placed_nil|eapply placed_cons; [exact W|exact IH]]).
Qed.
Lemma contents_fits w srcs fs : (forall s, In s srcs -> short_enough w s) -> contents w srcs fs -> Forall fits fs.
Proof.
  intros H C. induction C as [|s r d fs Hd C IH]; constructor.
  - intros He. exact (H s (or_introl eq_refl) d Hd He).
  - apply IH. intros x Hx. apply H. now right.
Qed.
Lemma contents_count w srcs fs : contents w srcs fs -> length fs = length srcs.
Proof. intros C. induction C; cbn [length]; congruence. Qed.

(** Files that need little room are not too wide. *)
Lemma narrow_not_wide L w c srcs fs : c_block_size c < 55 -> contents w srcs fs -> narrow (map pf_data fs) ->
  ~ too_wide L w c srcs.
Proof.
  intros Hb C Hnar (fs2 & l & C2 & P & H). rewrite (contents_fun _ _ _ _ C2 C) in P. apply H.
  destruct (sector_size_small _ Hb) as (ss & E & Hz).
  replace (header_room (c_version c)) with (header_size_of (c_version c)) in P by (destruct (c_version c); reflexivity).
  apply (placed_written L c ss fs (sector_size_ok _ _ E Hz)) in P as (body & es & W & ->).
  apply held_width. exact (proj2 (write_files_room L c ss fs body es E Hz Hnar W)).
Qed.

Definition verdict34 L w0 c srcs (r : res unit) : Prop :=
  (r = Ok tt /\ Forall (usable L w0 c) srcs /\ ~ too_wide L w0 c srcs /\ all_distinct (map source_key srcs)) \/
  (exists l1 s l2 e, srcs = l1 ++ s :: l2 /\ Forall (usable L w0 c) l1 /\ r = Err e /\ flaw L w0 c s e) \/
  (r = Panic /\ Forall (usable L w0 c) srcs /\ too_wide L w0 c srcs) \/
  (r = Err EInvalidFormat /\ Forall (usable L w0 c) srcs /\ ~ too_wide L w0 c srcs /\ ~ all_distinct (map source_key srcs)).

Lemma why34 L md5 c lo srcs dest w0 : calm_encoders L -> plain_encoders L -> c_version c = V3 \/ c_version c = V4 ->
  c_block_size c < 55 -> lenN srcs < 2 ^ 17 -> (forall s, In s srcs -> short_enough w0 s) ->
  (c_ctables c = true -> forall d, exists x, compress L d (c_tmethod c) = Ok x) ->
  no_collision (lit "(listfile)" :: map sp_name srcs) -> sources_ok w0 lo srcs -> w_fault w0 = false ->
  forall r w, steps (io_build L md5 c lo srcs dest, w0) (Ret r, w) -> w_fault w = false ->
  (exists p, lo = SExternal p /\ w_files w0 p = None /\ r = Err EIo) \/
  exists o, list_wanted w0 lo o /\ verdict34 L w0 c (in_order c o srcs) r.
Proof.
  intros Hcalm Hplain Hv Hb Hcount Hs Hm Hcol Hok Hw r w Hsteps Hff.
  rewrite (order_build L w0 md5 c lo srcs dest Hok Hw r w Hsteps Hff). clear r w Hsteps Hff.
  unfold whole. replace (version_ge (c_version c) V3) with true by (destruct Hv as [-> | ->]; reflexivity).
  assert (K : forall o r, list_wanted w0 lo o -> r = (_ <- all34 L w0 md5 (set_listfile c o) (in_order c o srcs) ;; Ok tt) ->
    verdict34 L w0 c (in_order c o srcs) r).
  { intros o r Ho ->. unfold all34. destruct (sector_size_small _ Hb) as (ss & Ess & Hz).
    change (c_block_size (set_listfile c o)) with (c_block_size c). rewrite Ess. cbn [bind].
    destruct (order34_says L Hcalm Hplain w0 (set_listfile c o) ss Ess Hz (in_order c o srcs)
                (header_size_of (c_version (set_listfile c o))))
      as [(-> & U)|(l1 & s & l2 & e & El & U & -> & F)]; cbn [bind].
    - now apply in_order_short.
    - destruct (usable_contents _ _ _ _ U) as [fs' Hc'].
      assert (Hex : exists fs, contents w0 srcs fs).
      { unfold in_order in Hc'. exact (contents_first _ _ _ _ Hc'). }
      destruct Hex as [fs Hc]. pose proof (in_order_contents w0 c o srcs fs Hc) as Hc2.
      rewrite (loads_contents _ _ _ Hc2).
      set (all := prepare_listfile (set_listfile c o) fs) in *.
      assert (Hf : Forall fits all) by (eapply contents_fits; [|exact Hc2]; now apply in_order_short).
      assert (Hn : lenN all <= 2 ^ 17).
      { unfold lenN. rewrite (contents_count _ _ _ Hc2). unfold in_order. rewrite app_length. unfold lenN in Hcount.
        change (2 ^ 17) with 131072 in *. destruct o; cbn [length]; lia. }
      assert (Hp : Forall (packable_file L (set_listfile c o)) all)
        by exact (usable_packable L w0 (set_listfile c o) _ _ Hc2 U).
      assert (Hk : map file_key all = map source_key (in_order c o srcs))
        by exact (contents_keys w0 _ _ Hc2).
      assert (Hcol2 : no_collision (map pf_name all)).
      { replace (map pf_name all) with (map sp_name (in_order c o srcs)).
        - eapply no_collision_incl; [apply in_order_names|exact Hcol].
        - change pf_name with (fun f => fst (file_key f)). change sp_name with (fun s => fst (source_key s)).
          rewrite <- (map_map source_key fst), <- (map_map file_key fst). now rewrite Hk. }
      assert (T : too_wide L w0 c (in_order c o srcs) <->
        exists l, placed L (set_listfile c o) (header_room (c_version (set_listfile c o))) all l /\ ~ held 63 l).
      { split.
        - intros (fs2 & l & C & P & H). rewrite (contents_fun _ _ _ _ C Hc2) in P. exists l. split; [now apply placed_set|exact H].
        - intros (l & P & H). exists all, l. split; [exact Hc2|]. split; [now apply placed_set in P|exact H]. }
      pose proof (write_archive34_panics L Hcalm md5 (set_listfile c o) all Hv Hb Hn Hf Hm) as P. rewrite <- T in P.
      pose proof (write_archive34_iff L Hcalm md5 (set_listfile c o) all Hv Hb Hn Hf Hcol2 Hm) as F. rewrite Hk in F.
      pose proof (fun e => write_archive34_err L md5 Hcalm (set_listfile c o) all e Hv Hb Hn Hf Hm Hp) as X.
      unfold verdict34.
      destruct (write_archive34 L md5 (set_listfile c o) all) as [arc|e|]; cbn [bind].
      + left. split; [reflexivity|]. split; [exact U|]. split; [intros H; apply P in H; discriminate|].
        exact (proj1 (proj2 (proj1 F (ex_intro _ arc eq_refl)))).
      + right. right. right. split; [f_equal; exact (X e eq_refl)|]. split; [exact U|].
        assert (NW : ~ too_wide L w0 c (in_order c o srcs)) by (intros H; apply P in H; discriminate).
        split; [exact NW|]. intros D. destruct (proj2 F) as [y Hy]; [|discriminate Hy].
        split; [exact Hp|]. split; [exact D|]. intros l Hl.
        destruct (sector_size_small _ Hb) as (ss' & Es' & Hz'). pose proof Hl as Hl'.
        apply (placed_written L (set_listfile c o) ss' all (sector_size_ok _ _ Es' Hz')) in Hl' as (body & es & _ & ->).
        apply held_width. destruct (N.lt_ge_cases (width3 (map snd es)) 64) as [C|C]; [exact C|exfalso].
        apply NW, T. eexists. split; [exact Hl|]. rewrite held_width. lia.
      + right. right. left. split; [reflexivity|]. split; [exact U|]. now apply P.
    - right. left. exists l1, s, l2, e. split; [exact El|]. split; [exact U|]. split; [reflexivity|].
      destruct F; [now apply unreadable|now apply (unpackable L w0 c s d)]. }
  destruct lo as [|p|]; cbn [wanted].
  - right. exists LGenerate. split; [constructor|]. apply (K LGenerate); [constructor|reflexivity].
  - destruct (w_files w0 p) as [d|] eqn:Ep; cbn [bind].
    + right. exists (LExternal d). split; [now constructor|]. apply (K (LExternal d)); [now constructor|reflexivity].
    + left. exists p. auto.
  - right. exists LNone. split; [constructor|]. apply (K LNone); [constructor|reflexivity].
Qed.

(** Building ends, one way or another, without a failure that has no cause. *)
Lemma quiet_run L md5 c lo srcs dest w0 : ~ temp_name (p_name dest) -> sources_ok w0 lo srcs -> w_fault w0 = false ->
  (exists n, temp_name n /\ w_files w0 (mkPath (p_dir dest) n) = None) ->
  exists r w, steps (io_build L md5 c lo srcs dest, w0) (Ret r, w) /\ w_fault w = false.
Proof.
  intros Hd Hs Hw (n & Hn & Hfree).
  destruct (wp_run _ _ _ _ (wp_build L md5 c lo srcs dest w0 Hd Hs
      (ex_intro _ (mkPath (p_dir dest) n) (conj eq_refl (conj Hn Hfree))))) as (r & w & S & _ & F).
  exists r, w. split; [exact S|congruence].
Qed.
