(** * Proofs about writing an archive to a path. *)
From Verif Require Import Bytes Crypto HashTable BlockTable Header HeaderFacts Compress Listfile HetBet
  Builder BuilderFacts FileSystem BuildIo SpecBuild.
Open Scope N_scope.

(** ** Reasoning about programs: [I] holds at every state, [Q] at the end, and no
    call fails without cause unless it is made to. *)
Definition live (o : op) (w : world) : Prop := exists r w', sem o w r w' /\ w_fault w' = w_fault w.
Fixpoint wp {A} (I : world -> Prop) (m : io A) (Q : res A -> world -> Prop) (w : world) : Prop :=
  match m with
  | Ret r => I w /\ Q r w
  | Do o k => I w /\ live o w /\ forall r w', sem o w r w' -> wp I (k r) Q w'
  end.

Lemma wp_steps {A} I Q (s s' : io A * world) : steps s s' -> wp I (fst s) Q (snd s) ->
  wp I (fst s') Q (snd s').
Proof.
  induction 1 as [|s1 s2 s3 H1 H2 IH]; intros H; [exact H|].
  apply IH. destruct H1 as [o k w r w' Hs]. cbn [fst snd wp] in *. exact (proj2 (proj2 H) _ _ Hs).
Qed.

Lemma wp_now {A} I Q (m : io A) w : wp I m Q w -> I w.
Proof. destruct m; cbn [wp]; tauto. Qed.

Lemma wp_run {A} I Q (m : io A) : forall w, wp I m Q w ->
  exists r w', steps (m, w) (Ret r, w') /\ Q r w' /\ w_fault w' = w_fault w.
Proof.
  induction m as [r|o k IH]; intros w H; cbn [wp] in H.
  - exists r, w. split; [constructor|]. split; [exact (proj2 H)|reflexivity].
  - destruct H as (_ & (r & w1 & Hs & Hf) & H). destruct (IH r w1 (H r w1 Hs)) as (r' & w2 & S & HQ & F).
    exists r', w2. split; [eapply steps_next; [constructor; exact Hs|exact S]|]. split; [exact HQ|congruence].
Qed.

Lemma wp_mono {A} (I I' : world -> Prop) (Q Q' : res A -> world -> Prop) (m : io A) :
  (forall w, I w -> I' w) -> (forall r w, I w -> Q r w -> Q' r w) ->
  forall w, wp I m Q w -> wp I' m Q' w.
Proof.
  intros HI HQ. induction m as [r|o k IH]; intros w H; cbn [wp] in *.
  - destruct H. split; auto.
  - destruct H as (H1 & Hl & H2). split; [auto|]. split; [exact Hl|].
    intros r w' Hs. apply IH. exact (H2 _ _ Hs).
Qed.

Lemma wp_post {A} (I : world -> Prop) (Q Q' : res A -> world -> Prop) (m : io A) w :
  (forall r w, I w -> Q r w -> Q' r w) -> wp I m Q w -> wp I m Q' w.
Proof. intros H. apply wp_mono; auto. Qed.

Lemma wp_after {A B} I (m : io A) (f : res A -> io B) Q : forall w,
  wp I m (fun r w' => wp I (f r) Q w') w -> wp I (after m f) Q w.
Proof.
  induction m as [r|o k IH]; intros w H; cbn [wp after] in *.
  - exact (proj2 H).
  - destruct H as (H1 & Hl & H2). split; [exact H1|]. split; [exact Hl|].
    intros r w' Hs. apply IH. exact (H2 _ _ Hs).
Qed.

Definition next {A B} I (f : A -> io B) (Q : res B -> world -> Prop) (r : res A) (w : world) : Prop :=
  match r with Ok a => wp I (f a) Q w | Err e => Q (Err e) w | Panic => Q Panic w end.

Lemma wp_bind {A B} I (m : io A) (f : A -> io B) Q w :
  wp I m (next I f Q) w -> wp I (iobind m f) Q w.
Proof.
  intros H. apply wp_after. revert H. apply wp_mono; [auto|].
  intros [a|e|] w' Hi H; cbn [next wp] in *; auto.
Qed.

(** ** Paths and contents *)
Lemma beqb_eq' a b : beqb a b = true <-> a = b.
Proof. unfold beqb. split; [apply Byte.byte_dec_bl|apply Byte.byte_dec_lb]. Qed.

Lemma bytes_eqb_iff a : forall b, bytes_eqb a b = true <-> a = b.
Proof.
  induction a as [|x a IH]; intros [|y b]; cbn [bytes_eqb]; try (split; congruence).
  rewrite andb_true_iff, beqb_eq', IH. split; [intros [-> ->]; reflexivity|].
  intros H. injection H as -> ->. auto.
Qed.

Lemma path_eqb_iff a b : path_eqb a b = true <-> a = b.
Proof.
  unfold path_eqb. rewrite andb_true_iff, !bytes_eqb_iff. destruct a as [ad an], b as [bd bn]; cbn [p_dir p_name].
  split; [intros [-> ->]; reflexivity|]. intros H; injection H as -> ->; auto.
Qed.

Lemma set_same f p v : set_file f p v p = v.
Proof. unfold set_file. rewrite (proj2 (path_eqb_iff p p) eq_refl). reflexivity. Qed.
Lemma set_other f p v q : q <> p -> set_file f p v q = f q.
Proof.
  intros H. unfold set_file. destruct (path_eqb q p) eqn:E; [|reflexivity].
  apply path_eqb_iff in E. contradiction.
Qed.

Lemma put_app_eq d pos b1 b2 : put (put d pos b1) (pos + lenN b1) b2 = put d pos (b1 ++ b2).
Proof.
  destruct b1 as [|x b1]; [cbn [put app]; unfold lenN; cbn [length]; rewrite N.add_0_r; reflexivity|].
  destruct b2 as [|y b2]; [rewrite app_nil_r; reflexivity|].
  set (b := x :: b1). set (c := y :: b2).
  assert (P : forall d p, put d p b = firstn (N.to_nat p) (d ++ zeros (p - lenN d)) ++ b
                                     ++ skipn (N.to_nat (p + lenN b)) d) by reflexivity.
  assert (P2 : forall d p, put d p c = firstn (N.to_nat p) (d ++ zeros (p - lenN d)) ++ c
                                     ++ skipn (N.to_nat (p + lenN c)) d) by reflexivity.
  assert (P3 : forall d p, put d p (b ++ c) = firstn (N.to_nat p) (d ++ zeros (p - lenN d)) ++ (b ++ c)
                                     ++ skipn (N.to_nat (p + lenN (b ++ c))) d) by reflexivity.
  rewrite P2, P, P3. clear P P2 P3.
  set (h := firstn (N.to_nat pos) (d ++ zeros (pos - lenN d))).
  assert (Hh : length h = N.to_nat pos).
  { unfold h. rewrite firstn_length, app_length. unfold zeros. rewrite repeat_length. unfold lenN. lia. }
  set (tl := skipn (N.to_nat (pos + lenN b)) d).
  assert (Hz : zeros (pos + lenN b - lenN (h ++ b ++ tl)) = []).
  { replace (pos + lenN b - lenN (h ++ b ++ tl)) with 0; [reflexivity|].
    unfold lenN. rewrite !app_length, Hh. lia. }
  rewrite Hz, app_nil_r.
  assert (Hl : length (h ++ b) = N.to_nat (pos + lenN b)).
  { rewrite app_length, Hh. unfold lenN. lia. }
  rewrite (app_assoc h b tl), firstn_app, Hl, Nat.sub_diag. cbn [firstn].
  rewrite app_nil_r, <- Hl, firstn_all.
  rewrite skipn_app, skipn_all2 by (rewrite Hl; unfold lenN; lia). cbn [app].
  unfold tl. rewrite <- !app_assoc. do 3 f_equal.
  assert (S2 : forall (l : bytes) i j, skipn i (skipn j l) = skipn (j + i) l).
  { clear. intros l i j. revert l. induction j as [|j IH]; intros l; [reflexivity|].
    destruct l as [|a l]; [cbn [skipn Nat.add]; destruct i; reflexivity|]. cbn [skipn Nat.add]. apply IH. }
  rewrite S2. f_equal. rewrite Hl. unfold lenN. rewrite app_length. lia.
Qed.

(** ** The pieces of the program, while the temporary file [t] is written. *)
Section Body.
Variable w0 : world.
Variable t : path.
Hypothesis fresh : w_files w0 t = None.
Hypothesis t_name : temp_name (p_name t).

(** Only [t] differs from the start. *)
Definition I1 (w : world) : Prop := forall p, p <> t -> w_files w p = w_files w0 p.

Lemma I1_failed w : I1 w -> I1 (failed w).
Proof. intros H p Hp. exact (H p Hp). Qed.

(** The state at the end of a piece: contents and position of [t]. *)
Definition at_ (w : world) (d : bytes) (pos : N) (fault : bool) : Prop :=
  w_files w t = Some d /\ w_pos w = pos /\ w_fault w = fault.

Lemma wp_seek n w d pos fl : I1 w -> at_ w d pos fl ->
  wp I1 (io_seek n) (fun r w' => match r with Ok _ => at_ w' d n fl | _ => w_fault w' = true end) w.
Proof.
  intros HI (H1 & H2 & H3). cbn [io_seek done_or_fail wp]. split; [exact HI|].
  split; [do 2 eexists; split; [apply SSeek|reflexivity]|].
  intros r w' Hs. inversion Hs; subst; cbn [wp].
  - split; [apply I1_failed, HI|reflexivity].
  - split; [exact HI|repeat split; assumption].
Qed.

Lemma wp_flush w d pos fl : I1 w -> at_ w d pos fl ->
  wp I1 io_flush (fun r w' => match r with Ok _ => at_ w' d pos fl | _ => w_fault w' = true end) w.
Proof.
  intros HI H. cbn [io_flush done_or_fail wp]. split; [exact HI|].
  split; [do 2 eexists; split; [apply SFlush|reflexivity]|].
  intros r w' Hs. inversion Hs; subst; cbn [wp].
  - split; [apply I1_failed, HI|reflexivity].
  - split; [exact HI|assumption].
Qed.

Lemma wp_tell w d pos fl : I1 w -> at_ w d pos fl ->
  wp I1 io_tell (fun r w' => match r with Ok n => n = pos /\ at_ w' d pos fl | _ => w_fault w' = true end) w.
Proof.
  intros HI H. cbn [io_tell wp]. split; [exact HI|].
  split; [do 2 eexists; split; [apply STell|reflexivity]|].
  intros r w' Hs. inversion Hs; subst; cbn [wp].
  - split; [apply I1_failed, HI|reflexivity].
  - split; [exact HI|split; [exact (proj1 (proj2 H))|exact H]].
Qed.

(** Reading yields the bytes that were there at the start. *)
Lemma wp_source s w d pos fl : (forall p, s = SPath p -> not_temp w0 p) -> I1 w -> at_ w d pos fl ->
  wp I1 (io_source s)
     (fun r w' => match r with
                  | Ok b => source_bytes w0 s = Some b /\ at_ w' d pos fl
                  | _ => w_fault w' = true \/ source_bytes w0 s = None end) w.
Proof.
  intros Hn HI H. destruct s as [b|p]; cbn [io_source wp source_bytes].
  - split; [exact HI|]. split; [reflexivity|exact H].
  - assert (Hp : p <> t).
    { intros ->. destruct (Hn _ eq_refl) as [N|N]; [contradiction|exact (N t_name)]. }
    split; [exact HI|]. split.
    { destruct (w_files w p) as [b|] eqn:E.
      - exists (RBytes b), w. split; [constructor; exact E|reflexivity].
      - exists RFail, w. split; [apply SAbsent; exact E|reflexivity]. }
    intros r w' Hs. rewrite <- (HI p Hp).
    inversion Hs; subst; cbn [wp].
    + split; [apply I1_failed, HI|]. left. reflexivity.
    + split; [exact HI|]. split; [assumption|exact H].
    + split; [exact HI|]. right. assumption.
Qed.

Lemma wp_loop f : forall b w d pos fl, (length b <= f)%nat -> I1 w -> at_ w d pos fl ->
  wp I1 (write_loop f t b)
     (fun r w' => match r with Ok _ => at_ w' (put d pos b) (pos + lenN b) fl
                             | _ => w_fault w' = true end) w.
Proof.
  induction f as [|f IH]; intros b w d pos fl Hl HI H.
  - destruct b; [|cbn [length] in Hl; lia]. cbn [write_loop wp put]. split; [exact HI|].
    unfold lenN. cbn [length]. rewrite N.add_0_r. exact H.
  - destruct b as [|x b'].
    + cbn [write_loop wp put]. split; [exact HI|]. unfold lenN. cbn [length]. rewrite N.add_0_r. exact H.
    + remember (x :: b') as b eqn:Eb.
      assert (write_loop (S f) t b = Do (OWrite t b) (fun r =>
        match r with
        | RNum n => if n =? 0 then Ret (Err EIo) else write_loop f t (skipn (N.to_nat n) b)
        | _ => Ret (Err EIo)
        end)) as -> by (rewrite Eb; reflexivity).
      cbn [wp]. split; [exact HI|]. split.
      { do 2 eexists. split; [apply (SWrite t b b [] d w);
          [symmetry; apply app_nil_r|rewrite Eb; discriminate|exact (proj1 H)]|reflexivity]. }
      intros r w' Hs. inversion Hs; subst; cbn [wp].
      * split; [apply I1_failed, HI|reflexivity].
      * destruct H as (A1 & A2 & A3). subst pos fl.
        match goal with [ H : w_files w t = Some ?d' |- _ ] => assert (d' = d) by congruence; subst d' end.
        match goal with [ H : _ :: _ = ?a ++ ?c |- _ ] => rename a into b1, c into b2, H into Eq end.
        destruct (lenN b1 =? 0) eqn:Z.
        { apply N.eqb_eq in Z. destruct b1; [contradiction|]. unfold lenN in Z. cbn [length] in Z. lia. }
        rewrite Eq. unfold lenN at 1. rewrite Nat2N.id, skipn_app, skipn_all, Nat.sub_diag. cbn [skipn app].
        refine (wp_mono I1 I1 _ _ _ _ _ _ (IH b2 _ (put d (w_pos w) b1) (w_pos w + lenN b1) (w_fault w) _ _ _)).
        -- auto.
        -- intros [[]|e|] w' _ Q; [|exact Q|exact Q].
           rewrite put_app_eq in Q. rewrite lenN_app, N.add_assoc. exact Q.
        -- rewrite Eq, app_length in Hl.
           destruct b1; [contradiction|]. cbn [length] in Hl. lia.
        -- intros p Hp. cbn [with_file w_files]. rewrite set_other by exact Hp. apply HI, Hp.
        -- unfold at_. cbn [with_file w_files w_pos w_fault]. rewrite set_same. repeat split.
Qed.

Lemma wp_write b w d pos fl : I1 w -> at_ w d pos fl ->
  wp I1 (write_all t b)
     (fun r w' => match r with Ok _ => at_ w' (put d pos b) (pos + lenN b) fl
                             | _ => w_fault w' = true end) w.
Proof. apply wp_loop. reflexivity. Qed.

(** ** The archive of versions 1 and 2 *)
Variable L : codecs.
Variable md5 : bytes -> bytes.

(** The file holds [body] from [h0] on and zeros before, or nothing yet. *)
Definition filled (h0 : N) (body d : bytes) : Prop :=
  (body = [] /\ d = []) \/ d = zeros h0 ++ body.

Lemma put_filled h0 body d b : filled h0 body d ->
  filled h0 (body ++ b) (put d (h0 + lenN body) b).
Proof.
  intros H. destruct b as [|x b]; [cbn [put]; rewrite app_nil_r; exact H|].
  set (c := x :: b).
  assert (E : put d (h0 + lenN body) c = firstn (N.to_nat (h0 + lenN body)) (d ++ zeros (h0 + lenN body - lenN d))
              ++ c ++ skipn (N.to_nat (h0 + lenN body + lenN c)) d) by reflexivity.
  rewrite E. clear E. right. destruct H as [[-> ->] | ->].
  - cbn [app]. rewrite skipn_nil, app_nil_r. change (lenN (@nil byte)) with 0.
    rewrite N.add_0_r, N.sub_0_r, firstn_all2; [reflexivity|].
    unfold zeros. rewrite repeat_length. lia.
  - assert (lenN (zeros h0 ++ body) = h0 + lenN body) as -> by (rewrite lenN_app, zeros_length; reflexivity).
    rewrite N.sub_diag. change (zeros 0) with (@nil byte). rewrite app_nil_r.
    assert (Hl : length (zeros h0 ++ body) = N.to_nat (h0 + lenN body)).
    { rewrite app_length. unfold zeros. rewrite repeat_length. unfold lenN. lia. }
    rewrite <- Hl, firstn_all.
    rewrite skipn_all2 by (rewrite Hl; lia). rewrite app_nil_r, <- app_assoc. reflexivity.
Qed.

Lemma put_header h0 body d hdr : filled h0 body d -> lenN hdr = h0 -> h0 <> 0 ->
  put d 0 hdr = hdr ++ body.
Proof.
  intros H Hl Hz. destruct hdr as [|x b]; [unfold lenN in Hl; cbn [length] in Hl; lia|].
  set (c := x :: b) in *.
  assert (E : put d 0 c = firstn (N.to_nat 0) (d ++ zeros (0 - lenN d))
              ++ c ++ skipn (N.to_nat (0 + lenN c)) d) by reflexivity.
  rewrite E. clear E. change (N.to_nat 0) with O. cbn [firstn app]. f_equal.
  rewrite N.add_0_l, Hl. destruct H as [[-> ->] | ->]; [apply skipn_nil|].
  rewrite skipn_app. unfold zeros. rewrite skipn_all2 by (rewrite repeat_length; lia).
  rewrite repeat_length, Nat.sub_diag. reflexivity.
Qed.

Lemma contents_fun srcs : forall fs fs', contents w0 srcs fs -> contents w0 srcs fs' -> fs = fs'.
Proof.
  induction srcs as [|s r IH]; intros fs fs' H H'; inversion H; inversion H'; subst; [reflexivity|].
  f_equal; [congruence|auto].
Qed.

Definition sources_fine (srcs : list spending) : Prop :=
  forall s p, In s srcs -> sp_source s = SPath p -> not_temp w0 p.

Definition no_files (P : list pending -> Prop) (srcs : list spending) : Prop :=
  forall fs, contents w0 srcs fs -> ~ P fs.

Lemma wp_files c ss h0 srcs : forall i tb w d body fl,
  sources_fine srcs -> I1 w -> at_ w d (h0 + lenN body) fl -> filled h0 body d ->
  wp I1 (io_files L c ss t srcs i tb)
     (fun r w' => match r with
        | Ok (es, tb') => exists fs b' d', contents w0 srcs fs /\
            write_files L c ss fs (h0 + lenN body) = Ok (b', es) /\ add_files tb fs i = Ok tb' /\
            at_ w' d' (h0 + lenN (body ++ b')) fl /\ filled h0 (body ++ b') d'
        | _ => w_fault w' = true \/
            no_files (fun fs => (exists x, write_files L c ss fs (h0 + lenN body) = Ok x)
                                /\ exists x, add_files tb fs i = Ok x) srcs
        end) w.
Proof.
  induction srcs as [|s r IH]; intros i tb w d body fl Hf HI H Hd.
  - cbn [io_files wp]. split; [exact HI|]. exists [], [], d. rewrite app_nil_r.
    split; [constructor|]. split; [reflexivity|]. split; [reflexivity|]. split; assumption.
  - cbn [io_files]. set (pos := h0 + lenN body) in *.
    apply wp_bind. eapply wp_post; [|apply (wp_tell w d pos fl HI H)].
    intros [n|e|] w1 I_1 H1; cbn [next]; [|left; exact H1|left; exact H1].
    destruct H1 as [-> H1].
    apply wp_bind. eapply wp_post; [|apply (wp_source (sp_source s) w1 d pos fl (fun p => Hf s p (or_introl eq_refl)) I_1 H1)].
    assert (NoC : source_bytes w0 (sp_source s) = None -> forall P, no_files P (s :: r)).
    { intros N P fs' Hc _. inversion Hc; subst. congruence. }
    intros [dd|e|] w2 I_2 H2; cbn [next];
      [|destruct H2 as [H2|H2]; [left; exact H2|right; apply NoC, H2]
       |destruct H2 as [H2|H2]; [left; exact H2|right; apply NoC, H2]].
    destruct H2 as [Hsb H2]. clear NoC.
    assert (Inv : forall fs, contents w0 (s :: r) fs -> exists fs', fs = loaded s dd :: fs' /\ contents w0 r fs').
    { intros fs Hc. inversion Hc; subst. eexists. split; [|eassumption].
      match goal with [ A : source_bytes _ _ = Some ?a |- _ ] => assert (a = dd) by congruence; subst a end.
      reflexivity. }
    apply wp_bind. cbn [wp]. split; [exact I_2|].
    destruct (write_file L c ss (loaded s dd) pos) as [[[out cs] flg]|e|] eqn:Ew; cbn [next];
      [|right; intros fs Hc [[x Hx] _]; destruct (Inv fs Hc) as (fs' & -> & _);
        cbn [write_files] in Hx; rewrite Ew in Hx; discriminate
       |right; intros fs Hc [[x Hx] _]; destruct (Inv fs Hc) as (fs' & -> & _);
        cbn [write_files] in Hx; rewrite Ew in Hx; discriminate].
    apply wp_bind. eapply wp_post; [|apply (wp_write out w2 d pos fl I_2 H2)].
    intros [[]|e|] w3 I_3 H3; cbn [next]; [|left; exact H3|left; exact H3].
    apply wp_bind. cbn [wp]. split; [exact I_3|].
    destruct (add_to_hash_table tb (pf_name (loaded s dd)) (w32 i) (pf_locale (loaded s dd))) as [tb'|e|] eqn:Ea;
      cbn [next];
      [|right; intros fs Hc [_ [x Hx]]; destruct (Inv fs Hc) as (fs' & -> & _);
        cbn [add_files] in Hx; rewrite Ea in Hx; discriminate
       |right; intros fs Hc [_ [x Hx]]; destruct (Inv fs Hc) as (fs' & -> & _);
        cbn [add_files] in Hx; rewrite Ea in Hx; discriminate].
    assert (Epos : pos + lenN out = h0 + lenN (body ++ out)) by (unfold pos; rewrite lenN_app; lia).
    apply wp_bind. rewrite Epos in H3.
    eapply wp_post; [|apply (IH (i + 1) tb' w3 (put d pos out) (body ++ out) fl)].
    + intros [[es tb'']|e|] w4 I_4 H4; cbn [next].
      * destruct H4 as (fs & b' & d' & C1 & C2 & C3 & C4 & C5). cbn [wp]. split; [exact I_4|].
        exists (loaded s dd :: fs), (out ++ b'), d'. split; [constructor; assumption|].
        cbn [write_files add_files]. rewrite Ew, Ea. cbn [bind]. rewrite Epos, C2. cbn [bind].
        split; [reflexivity|]. split; [exact C3|]. rewrite app_assoc. split; assumption.
      * destruct H4 as [H4|H4]; [left; exact H4|right]. intros fs Hc [[x Hx] [y Hy]].
        destruct (Inv fs Hc) as (fs' & -> & Hc'). apply (H4 fs' Hc').
        cbn [write_files add_files] in Hx, Hy. rewrite Ew in Hx. rewrite Ea in Hy. cbn [bind] in Hx, Hy.
        rewrite Epos in Hx. destruct (write_files L c ss fs' (h0 + lenN (body ++ out))) as [z| |];
          [|discriminate|discriminate]. split; eauto.
      * destruct H4 as [H4|H4]; [left; exact H4|right]. intros fs Hc [[x Hx] [y Hy]].
        destruct (Inv fs Hc) as (fs' & -> & Hc'). apply (H4 fs' Hc').
        cbn [write_files add_files] in Hx, Hy. rewrite Ew in Hx. rewrite Ea in Hy. cbn [bind] in Hx, Hy.
        rewrite Epos in Hx. destruct (write_files L c ss fs' (h0 + lenN (body ++ out))) as [z| |];
          [|discriminate|discriminate]. split; eauto.
    + intros s' p Hin. apply Hf. right. exact Hin.
    + exact I_3.
    + exact H3.
    + apply put_filled, Hd.
Qed.

Lemma contents_len srcs fs : contents w0 srcs fs -> lenN fs = lenN srcs.
Proof. induction 1; [reflexivity|]. rewrite !lenN_cons. lia. Qed.

(** What must hold when the archive has been written, or could not be. *)
Definition written (P : list pending -> bytes -> Prop) (srcs : list spending) fl (r : res unit) (w : world) : Prop :=
  match r with
  | Ok _ => w_fault w = fl /\ exists fs arc, contents w0 srcs fs /\ P fs arc /\ w_files w t = Some arc
  | _ => w_fault w = true \/ no_files (fun fs => exists arc, P fs arc) srcs
  end.

Lemma wp_archive12 c srcs w fl : version_ge (c_version c) V3 = false ->
  sources_fine srcs -> I1 w -> at_ w [] 0 fl ->
  wp I1 (io_archive12 L c t srcs) (written (fun fs arc => write_archive12 L c fs = Ok arc) srcs fl) w.
Proof.
  intros Hv Hf HI H. unfold io_archive12.
  set (tc := lenN srcs + match c_listfile c with LNone => 0 | _ => 1 end).
  assert (Htc : forall fs, contents w0 srcs fs -> table_count c fs = tc).
  { intros fs Hc. unfold table_count. rewrite (contents_len _ _ Hc). reflexivity. }
  set (h0 := header_size_of (c_version c)) in *.
  apply wp_bind. cbn [wp]. split; [exact HI|].
  destruct (sector_size (c_block_size c)) as [ss|e|] eqn:Ess; cbn [next written];
    [|right; intros fs Hc [arc Ha]; unfold write_archive12 in Ha; rewrite Ess in Ha; discriminate
     |right; intros fs Hc [arc Ha]; unfold write_archive12 in Ha; rewrite Ess in Ha; discriminate].
  apply wp_bind. eapply wp_post; [|apply (wp_seek h0 w [] 0 fl HI H)].
  intros [[]|e|] w1 I_1 H1; cbn [next]; [|left; exact H1|left; exact H1].
  apply wp_bind. cbn [wp]. split; [exact I_1|].
  destruct (ht_new (calculate_hash_table_size tc)) as [t0|e|] eqn:Et; cbn [next written];
    [|right; intros fs Hc [arc Ha]; unfold write_archive12 in Ha; rewrite Ess, (Htc _ Hc), Et in Ha; discriminate
     |right; intros fs Hc [arc Ha]; unfold write_archive12 in Ha; rewrite Ess, (Htc _ Hc), Et in Ha; discriminate].
  apply wp_bind. eapply wp_post; [|apply (wp_files c ss h0 srcs 0 t0 w1 [] [] fl Hf I_1)].
  2:{ change (lenN (@nil byte)) with 0. rewrite N.add_0_r. exact H1. }
  2:{ left. split; reflexivity. }
  change (lenN (@nil byte)) with 0. rewrite N.add_0_r.
  assert (NF : no_files (fun fs => (exists x, write_files L c ss fs h0 = Ok x)
                         /\ exists x, add_files t0 fs 0 = Ok x) srcs ->
               no_files (fun fs => exists arc, write_archive12 L c fs = Ok arc) srcs).
  { intros N fs Hc [arc Ha]. apply (N fs Hc). unfold write_archive12 in Ha.
    rewrite Ess, (Htc _ Hc), Et in Ha. cbn [bind] in Ha. fold h0 in Ha.
    destruct (write_files L c ss fs h0) as [[b es]| |]; cbn [bind] in Ha; [|discriminate|discriminate].
    destruct (add_files t0 fs 0) as [x| |]; cbn [bind] in Ha; [|discriminate|discriminate]. split; eauto. }
  intros [[es tb]|e|] w2 I_2 H2; cbn [next];
    [|destruct H2 as [H2|H2]; [left; exact H2|right; exact (NF H2)]
     |destruct H2 as [H2|H2]; [left; exact H2|right; exact (NF H2)]].
  clear NF. destruct H2 as (fs & body & d & C1 & C2 & C3 & H2 & Hd). cbn [app] in H2, Hd.
  apply wp_bind. eapply wp_post; [|apply (wp_tell w2 _ _ fl I_2 H2)].
  intros [n|e|] w3 I_3 H3; cbn [next]; [|left; exact H3|left; exact H3]. destruct H3 as [-> H3].
  set (htab := write_hash_table tb).
  apply wp_bind. eapply wp_post; [|apply (wp_write htab w3 _ _ fl I_3 H3)].
  intros [[]|e|] w4 I_4 H4; cbn [next]; [|left; exact H4|left; exact H4].
  apply (put_filled _ _ _ htab) in Hd.
  apply wp_bind. eapply wp_post; [|apply (wp_tell w4 _ _ fl I_4 H4)].
  intros [n|e|] w5 I_5 H5; cbn [next]; [|left; exact H5|left; exact H5]. destruct H5 as [-> H5].
  set (btab := write_block_table (map snd es)).
  apply wp_bind. eapply wp_post; [|apply (wp_write btab w5 _ _ fl I_5 H5)].
  intros [[]|e|] w6 I_6 H6; cbn [next]; [|left; exact H6|left; exact H6].
  assert (Hd2 := put_filled _ _ _ btab Hd). rewrite lenN_app, N.add_assoc in Hd2.
  set (hi := hi_written (version_ge (c_version c) V2) (map fst es)).
  set (hib := match hi with Some x => x | None => [] end).
  set (p6 := h0 + lenN body + lenN htab + lenN btab) in *.
  set (d6 := put (put d (h0 + lenN body) htab) (h0 + lenN body + lenN htab) btab) in *.
  apply wp_bind.
  assert (W7 : wp I1 match hi with
                     | Some x => pos <~ io_tell ;; _ <~ write_all t x ;; Ret (Ok (Some pos))
                     | None => Ret (Ok None) end
     (fun r w' => match r with
        | Ok hp => hp = match hi with Some _ => Some p6 | None => None end /\
                   at_ w' (put d6 p6 hib) (p6 + lenN hib) fl
        | _ => w_fault w' = true end) w6).
  { unfold hib. destruct hi as [x|].
    - apply wp_bind. eapply wp_post; [|apply (wp_tell w6 _ _ fl I_6 H6)].
      intros [n|e|] w7 I_7 H7; cbn [next]; [|exact H7|exact H7]. destruct H7 as [-> H7].
      apply wp_bind. eapply wp_post; [|apply (wp_write x w7 _ _ fl I_7 H7)].
      intros [[]|e|] w8 I_8 H8; cbn [next wp]; [|exact H8|exact H8]. split; [exact I_8|]. split; [reflexivity|exact H8].
    - cbn [wp put]. split; [exact I_6|]. split; [reflexivity|].
      change (lenN (@nil byte)) with 0. rewrite N.add_0_r. exact H6. }
  eapply wp_post; [|exact W7]. clear W7.
  intros [hp|e|] w7 I_7 H7; cbn [next]; [|left; exact H7|left; exact H7]. destruct H7 as [-> H7].
  assert (Hd3 : filled h0 (((body ++ htab) ++ btab) ++ hib) (put d6 p6 hib)).
  { assert (E : p6 = h0 + lenN ((body ++ htab) ++ btab)) by (unfold p6; rewrite !lenN_app; lia).
    rewrite E. apply put_filled. exact Hd2. }
  apply wp_bind. eapply wp_post; [|apply (wp_tell w7 _ _ fl I_7 H7)].
  intros [n|e|] w8 I_8 H8; cbn [next]; [|left; exact H8|left; exact H8]. destruct H8 as [-> H8].
  apply wp_bind. eapply wp_post; [|apply (wp_seek 0 w8 _ _ fl I_8 H8)].
  intros [[]|e|] w9 I_9 H9; cbn [next]; [|left; exact H9|left; exact H9].
  apply wp_bind. cbn [wp]. split; [exact I_9|].
  set (hpar := mkHP (c_version c) (c_block_size c) (p6 + lenN hib) (h0 + lenN body)
                (h0 + lenN body + lenN htab) (calculate_hash_table_size tc) (w32 (lenN srcs))
                (match hi with Some _ => Some p6 | None => None end) None None None).
  assert (Eq : write_archive12 L c fs =
               (hdr <- write_header hpar ;; Ok (hdr ++ body ++ htab ++ btab ++ hib))).
  { unfold write_archive12. rewrite Ess, (Htc _ C1), Et. cbn [bind]. fold h0. rewrite C2. cbn [bind].
    rewrite C3. cbn [bind]. fold htab btab hi. unfold hpar, hib, p6. rewrite (contents_len _ _ C1).
    destruct hi; reflexivity. }
  destruct (write_header hpar) as [hdr|e|] eqn:Eh; cbn [next written];
    [|right; intros fs' Hc [arc Ha]; rewrite (contents_fun _ _ _ Hc C1), Eq in Ha; discriminate
     |right; intros fs' Hc [arc Ha]; rewrite (contents_fun _ _ _ Hc C1), Eq in Ha; discriminate].
  eapply wp_post; [|apply (wp_write hdr w9 _ _ fl I_9 H9)].
  intros [[]|e|] w10 I_10 H10; cbn [written]; [|left; exact H10|left; exact H10].
  destruct H10 as (K1 & K2 & K3). split; [exact K3|]. exists fs, (hdr ++ body ++ htab ++ btab ++ hib).
  split; [exact C1|]. split; [exact Eq|]. rewrite K1. f_equal.
  rewrite (put_header h0 _ _ hdr Hd3).
  - rewrite <- !app_assoc. reflexivity.
  - apply (write_header_length hpar); [exact I|exact Eh].
  - unfold h0. destruct (c_version c); discriminate.
Qed.

(** ** The archive of versions 3 and 4 *)
Lemma wp_load c ss srcs : forall p w d pos fl, sources_fine srcs -> I1 w -> at_ w d pos fl ->
  wp I1 (io_load L c ss srcs p)
     (fun r w' => match r with
        | Ok fs => contents w0 srcs fs /\ at_ w' d pos fl
        | _ => w_fault w' = true \/ no_files (fun fs => exists x, write_files L c ss fs p = Ok x) srcs end) w.
Proof.
  induction srcs as [|s r IH]; intros p w d pos fl Hf HI H; cbn [io_load].
  - cbn [wp]. split; [exact HI|]. split; [constructor|exact H].
  - apply wp_bind. eapply wp_post; [|apply (wp_source (sp_source s) w d pos fl (fun p => Hf s p (or_introl eq_refl)) HI H)].
    assert (NoC : source_bytes w0 (sp_source s) = None -> forall P, no_files P (s :: r)).
    { intros N P fs' Hc _. inversion Hc; subst. congruence. }
    intros [b|e|] w1 I_1 H1; cbn [next];
      [|destruct H1 as [H1|H1]; [left; exact H1|right; apply NoC, H1]
       |destruct H1 as [H1|H1]; [left; exact H1|right; apply NoC, H1]].
    destruct H1 as [Hb H1]. clear NoC.
    assert (Inv : forall fs, contents w0 (s :: r) fs -> exists fs', fs = loaded s b :: fs' /\ contents w0 r fs').
    { intros fs Hc. inversion Hc; subst. eexists. split; [|eassumption].
      match goal with [ A : source_bytes _ _ = Some ?a |- _ ] => assert (a = b) by congruence; subst a end.
      reflexivity. }
    apply wp_bind. cbn [wp]. split; [exact I_1|].
    destruct (write_file L c ss (loaded s b) p) as [[[out cs] flg]|e|] eqn:Ew; cbn [next];
      [|right; intros fs Hc [x Hx]; destruct (Inv fs Hc) as (fs' & -> & _);
        cbn [write_files] in Hx; rewrite Ew in Hx; discriminate
       |right; intros fs Hc [x Hx]; destruct (Inv fs Hc) as (fs' & -> & _);
        cbn [write_files] in Hx; rewrite Ew in Hx; discriminate].
    apply wp_bind.
    eapply wp_post; [|apply (IH (p + lenN out) w1 d pos fl)]; [|intros s' q Hin; apply Hf; right; exact Hin|exact I_1|exact H1].
    assert (NoR : no_files (fun fs => exists x, write_files L c ss fs (p + lenN out) = Ok x) r ->
                  no_files (fun fs => exists x, write_files L c ss fs p = Ok x) (s :: r)).
    { intros N fs Hc [x Hx]. destruct (Inv fs Hc) as (fs' & -> & Hc'). apply (N fs' Hc').
      cbn [write_files] in Hx. rewrite Ew in Hx. cbn [bind] in Hx.
      destruct (write_files L c ss fs' (p + lenN out)) as [z| |]; [|discriminate|discriminate]. eauto. }
    intros [fs|e|] w2 I_2 H2; cbn [next wp];
      [|destruct H2 as [H2|H2]; [left; exact H2|right; apply NoR, H2]
       |destruct H2 as [H2|H2]; [left; exact H2|right; apply NoR, H2]].
    split; [exact I_2|]. split; [constructor; [exact Hb|exact (proj1 H2)]|exact (proj2 H2)].
Qed.

Lemma put_start b : put [] 0 b = b.
Proof.
  destruct b as [|x b]; [reflexivity|]. unfold put. cbn [firstn app].
  change (N.to_nat 0) with O. cbn [firstn app]. rewrite skipn_nil, app_nil_r. reflexivity.
Qed.

Lemma wp_archive34 c srcs w fl : sources_fine srcs -> I1 w -> at_ w [] 0 fl ->
  wp I1 (io_archive34 L md5 c t srcs) (written (fun fs arc => write_archive34 L md5 c fs = Ok arc) srcs fl) w.
Proof.
  intros Hf HI H. unfold io_archive34. apply wp_bind. cbn [wp]. split; [exact HI|].
  destruct (sector_size (c_block_size c)) as [ss|e|] eqn:Ess; cbn [next written];
    [|right; intros fs Hc [arc Ha]; unfold write_archive34 in Ha; rewrite Ess in Ha; discriminate
     |right; intros fs Hc [arc Ha]; unfold write_archive34 in Ha; rewrite Ess in Ha; discriminate].
  apply wp_bind.
  eapply wp_post; [|apply (wp_load c ss srcs (header_size_of (c_version c)) w [] 0 fl Hf HI H)].
  assert (NF : no_files (fun fs => exists x, write_files L c ss fs (header_size_of (c_version c)) = Ok x) srcs ->
               no_files (fun fs => exists arc, write_archive34 L md5 c fs = Ok arc) srcs).
  { intros N fs Hc [arc Ha]. apply (N fs Hc). unfold write_archive34 in Ha. rewrite Ess in Ha. cbn [bind] in Ha.
    destruct (write_files L c ss fs (header_size_of (c_version c))) as [x| |]; [eauto|discriminate|discriminate]. }
  intros [fs|e|] w1 I_1 H1; cbn [next written];
    [|destruct H1 as [H1|H1]; [left; exact H1|right; exact (NF H1)]
     |destruct H1 as [H1|H1]; [left; exact H1|right; exact (NF H1)]].
  clear NF.
  destruct H1 as [C1 H1]. apply wp_bind. cbn [wp]. split; [exact I_1|].
  destruct (write_archive34 L md5 c fs) as [arc|e|] eqn:Ea; cbn [next written];
    [|right; intros fs' Hc [arc Ha]; rewrite (contents_fun _ _ _ Hc C1), Ea in Ha; discriminate
     |right; intros fs' Hc [arc Ha]; rewrite (contents_fun _ _ _ Hc C1), Ea in Ha; discriminate].
  eapply wp_post; [|apply (wp_write arc w1 _ _ fl I_1 H1)].
  intros [[]|e|] w2 I_2 H2; cbn [written]; [|left; exact H2|left; exact H2].
  destruct H2 as (K1 & K2 & K3). split; [exact K3|]. exists fs, arc.
  split; [exact C1|]. split; [exact Ea|]. rewrite K1, put_start. reflexivity.
Qed.

(** ** Everything before the rename *)
Lemma contents_names srcs fs : contents w0 srcs fs -> map pf_name fs = map sp_name srcs.
Proof. induction 1; cbn [map]; [reflexivity|]. f_equal. assumption. Qed.

Lemma wp_archive c srcs w fl : sources_fine srcs -> I1 w -> at_ w [] 0 fl ->
  wp I1 (if version_ge (c_version c) V3 then io_archive34 L md5 c t srcs else io_archive12 L c t srcs)
     (written (fun fs arc => (if version_ge (c_version c) V3 then write_archive34 L md5 c fs
                              else write_archive12 L c fs) = Ok arc) srcs fl) w.
Proof.
  intros. destruct (version_ge (c_version c) V3) eqn:Ev; [apply wp_archive34|apply wp_archive12]; assumption.
Qed.

Definition body_post c lo srcs fl (r : res unit) (w : world) : Prop :=
  match r with
  | Ok _ => w_fault w = fl /\ exists arc, archive_of L md5 w0 c lo srcs arc /\ w_files w t = Some arc
  | _ => w_fault w = true \/ ~ exists arc, archive_of L md5 w0 c lo srcs arc
  end.

Lemma wp_rest c lo o srcs add w fl : sources_fine srcs -> I1 w -> at_ w [] 0 fl ->
  list_wanted w0 lo o ->
  (forall o', list_wanted w0 lo o' -> o' = o) ->
  (forall fs, contents w0 srcs fs -> prepare_listfile (set_listfile c o) fs = fs ++
     map (fun d => mkPF d LISTFILE (c_default c) false false 0) add) ->
  wp I1 (_ <~ (if version_ge (c_version (set_listfile c o)) V3
               then io_archive34 L md5 (set_listfile c o) t (srcs ++ map (fun d => mkSP (SData d) LISTFILE (c_default c) false false 0) add)
               else io_archive12 L (set_listfile c o) t (srcs ++ map (fun d => mkSP (SData d) LISTFILE (c_default c) false false 0) add)) ;; io_flush)
     (body_post c lo srcs fl) w.
Proof.
  intros Hf HI H Ho Hu Hp.
  set (srcs' := srcs ++ map (fun d => mkSP (SData d) LISTFILE (c_default c) false false 0) add).
  assert (Hc : forall fs, contents w0 srcs fs ->
             contents w0 srcs' (fs ++ map (fun d => mkPF d LISTFILE (c_default c) false false 0) add)).
  { intros fs Hc. unfold srcs'. clear -Hc. induction Hc; cbn [app]; [|constructor; assumption].
    induction add as [|d add IH]; cbn [map]; constructor; [reflexivity|exact IH]. }
  assert (Hf' : sources_fine srcs').
  { intros s p Hin E. unfold srcs' in Hin. apply in_app_or in Hin. destruct Hin as [Hin|Hin]; [exact (Hf s p Hin E)|].
    apply in_map_iff in Hin. destruct Hin as (d & <- & _). discriminate E. }
  assert (Hinv : forall fs', contents w0 srcs' fs' -> exists fs, contents w0 srcs fs).
  { unfold srcs'. clear. revert srcs. induction srcs as [|s r IH]; intros fs' H; cbn [app] in H.
    - exists []. constructor.
    - inversion H; subst. match goal with [ K : contents _ (_ ++ _) _ |- _ ] => destruct (IH _ K) as [fz Hfz] end.
      eexists. constructor; eassumption. }
  apply wp_bind. eapply wp_post; [|apply (wp_archive (set_listfile c o) srcs' w fl Hf' HI H)].
  assert (No : no_files (fun fs => exists arc, (if version_ge (c_version (set_listfile c o)) V3
                then write_archive34 L md5 (set_listfile c o) fs else write_archive12 L (set_listfile c o) fs) = Ok arc) srcs' ->
               ~ exists arc, archive_of L md5 w0 c lo srcs arc).
  { intros N (arc & o' & fs & Ho' & Hcf & Hb). rewrite (Hu _ Ho') in Hb. apply (N _ (Hc fs Hcf)).
    exists arc. rewrite <- (Hp fs Hcf). exact Hb. }
  intros [[]|e|] w1 I_1 H1; cbn [next];
    [|destruct H1 as [H1|H1]; [left; exact H1|right; exact (No H1)]
     |destruct H1 as [H1|H1]; [left; exact H1|right; exact (No H1)]].
  destruct H1 as [Hfl (fs' & arc & C1 & C2 & C3)]. destruct (Hinv _ C1) as [fs Hcf].
  assert (Ha : archive_of L md5 w0 c lo srcs arc).
  { exists o, fs. split; [exact Ho|]. split; [exact Hcf|]. unfold build.
    change (mkCfg (c_version c) (c_block_size c) o (c_default c) (c_crcs c) (c_ctables c) (c_tmethod c))
      with (set_listfile c o). rewrite (Hp fs Hcf), (contents_fun _ _ _ (Hc fs Hcf) C1). exact C2. }
  eapply wp_post; [|apply (wp_flush w1 arc (w_pos w1) fl I_1)]; [|repeat split; assumption].
  intros [[]|e|] w2 I_2 H2; cbn [body_post]; [|left; exact H2|left; exact H2].
  destruct H2 as (K1 & K2 & K3). split; [exact K3|]. exists arc. split; assumption.
Qed.

Lemma wp_body c lo srcs w fl : sources_ok w0 lo srcs -> I1 w -> at_ w [] 0 fl ->
  wp I1 (io_body L md5 c lo srcs t) (body_post c lo srcs fl) w.
Proof.
  intros [Hf Hl] HI H. unfold io_body. apply wp_bind. unfold io_prepare.
  destruct lo as [|p|].
  - cbn [wp next]. split; [exact HI|].
    apply (wp_rest c SGenerate LGenerate srcs [listfile_content (map sp_name srcs)]); auto.
    + constructor.
    + intros o' Ho; inversion Ho; reflexivity.
    + intros fs Hc. unfold prepare_listfile. cbn [c_listfile set_listfile c_default map].
      rewrite (contents_names _ _ Hc). reflexivity.
  - apply wp_bind. eapply wp_post; [|apply (wp_source (SPath p) w [] 0 fl (fun q E => ltac:(injection E as <-; exact (Hl p eq_refl))) HI H)].
    cbn [source_bytes].
    assert (No : w_files w0 p = None -> ~ exists arc, archive_of L md5 w0 c (SExternal p) srcs arc).
    { intros N (arc & o' & fs & Ho' & _). inversion Ho'; subst. congruence. }
    intros [d|e|] w1 I_1 H1; cbn [next];
      [|destruct H1 as [H1|H1]; [left; exact H1|right; exact (No H1)]
       |destruct H1 as [H1|H1]; [left; exact H1|right; exact (No H1)]].
    destruct H1 as [Hd H1]. cbn [wp next]. split; [exact I_1|].
    apply (wp_rest c (SExternal p) (LExternal d) srcs [d]); auto.
    + constructor. exact Hd.
    + intros o' Ho; inversion Ho; subst. congruence.
  - cbn [wp next]. split; [exact HI|].
    assert (R := wp_rest c SNone LNone srcs [] w fl Hf HI H (want_none w0)).
    cbn [map] in R. rewrite app_nil_r in R. apply R.
    + intros o' Ho; inversion Ho; reflexivity.
    + intros fs Hc. rewrite app_nil_r. reflexivity.
Qed.

End Body.

(** ** The whole program *)
Section Whole.
Variable L : codecs.
Variable md5 : bytes -> bytes.
Variables (c : config) (lo : slist) (srcs : list spending) (dest : path) (w0 : world).
Hypothesis dest_name : ~ temp_name (p_name dest).
Hypothesis srcs_ok : sources_ok w0 lo srcs.

Notation good := (archive_of L md5 w0 c lo srcs).

(** A file that may be used as the temporary one. *)
Definition temp_here (p : path) : Prop :=
  p_dir p = p_dir dest /\ temp_name (p_name p) /\ w_files w0 p = None.

Definition I2 (w : world) : Prop :=
  (w_files w dest = w_files w0 dest \/ exists arc, good arc /\ w_files w dest = Some arc) /\
  forall p, p <> dest -> ~ temp_here p -> w_files w p = w_files w0 p.

Definition Q2 (r : res unit) (w : world) : Prop :=
  match r with
  | Ok _ => exists arc, good arc /\ w_files w dest = Some arc
  | _ => w_files w dest = w_files w0 dest /\ (w_fault w = true \/ ~ exists arc, good arc)
  end /\
  (w_fault w = false -> forall p, p <> dest -> w_files w p = w_files w0 p).

Lemma I2_start : I2 w0.
Proof. split; [left; reflexivity|auto]. Qed.

Lemma wp_build : (exists p, temp_here p) -> wp I2 (io_build L md5 c lo srcs dest) Q2 w0.
Proof.
  intros (tp & T1 & T2 & T3). unfold io_build. cbn [wp]. split; [exact I2_start|]. split.
  { destruct tp as [td tn]; cbn [p_dir p_name] in *. subst td. do 2 eexists.
    split; [apply (STemp _ tn); assumption|reflexivity]. }
  intros r w1 Hs. inversion Hs; subst; cbn [wp].
  - split; [exact I2_start|]. split; [|discriminate]. split; [reflexivity|]. left; reflexivity.
  - rename n into tn. set (t := mkPath (p_dir dest) tn) in *.
    assert (Hfree : w_files w0 t = None) by assumption.
    assert (Htn : temp_name (p_name t)) by assumption.
    assert (Ht : temp_here t) by (split; [reflexivity|split; assumption]).
    assert (Hne : dest <> t) by (intros E; apply dest_name; rewrite E; exact Htn).
    assert (I12 : forall w, I1 w0 t w -> I2 w).
    { intros w H. split; [left; apply H, Hne|]. intros p _ Hp. apply H. intros ->. exact (Hp Ht). }
    set (w1 := with_file w0 t (Some []) 0).
    assert (J1 : I1 w0 t w1) by (intros p Hp; apply set_other, Hp).
    assert (A1 : at_ t w1 [] 0 (w_fault w0)) by (repeat split; apply set_same).
    assert (Drop : forall r w, I1 w0 t w -> (w_fault w = true \/ ~ exists arc, good arc) ->
                   (forall u, r <> Ok u) -> wp I2 (drop_temp t r) Q2 w).
    { intros r w HI HF Hr. cbn [drop_temp wp]. split; [exact (I12 _ HI)|].
      split; [do 2 eexists; split; [apply SUnlink|reflexivity]|].
      intros r' w' Hs'.
      assert (K : I1 w0 t w' /\ (w_fault w' = true \/ (w_fault w' = w_fault w /\ w_files w' t = None))).
      { inversion Hs'; subst.
        - split; [apply I1_failed, HI|left; reflexivity].
        - split; [|right; split; [reflexivity|apply set_same]].
          intros p Hp. cbn [with_file w_files]. rewrite set_other by exact Hp. apply HI, Hp. }
      destruct K as [K1 K2]. split; [exact (I12 _ K1)|]. split.
      - assert (E : w_files w' dest = w_files w0 dest) by apply K1, Hne.
        assert (F : w_fault w' = true \/ ~ exists arc, good arc).
        { destruct K2 as [K2|[K2 _]]; [left; exact K2|]. destruct HF as [HF|HF]; [left; congruence|right; exact HF]. }
        destruct r as [u|e|]; [exfalso; exact (Hr u eq_refl)|split; assumption|split; assumption].
      - intros Hff p Hp. destruct K2 as [K2|[_ K2]]; [congruence|].
        destruct (path_eqb p t) eqn:E.
        + apply path_eqb_iff in E. subst p. rewrite Hfree. exact K2.
        + apply K1. intros ->. rewrite (proj2 (path_eqb_iff t t) eq_refl) in E. discriminate. }
    apply wp_after.
    eapply wp_mono; [exact I12| |exact (wp_body w0 t Hfree Htn L md5 c lo srcs w1 _ srcs_ok J1 A1)].
    intros [[]|e|] w2 HI2 H2; [|apply Drop; [exact HI2|exact H2|discriminate]
                                |apply Drop; [exact HI2|exact H2|discriminate]].
    destruct H2 as [Hfl (arc & Ha & Hc)]. cbn [wp]. split; [exact (I12 _ HI2)|]. split.
    { do 2 eexists. split; [apply (SRename t dest arc w2 eq_refl Hc)|reflexivity]. }
    intros r w3 Hs3. inversion Hs3; subst.
    + apply Drop; [apply I1_failed, HI2|left; reflexivity|discriminate].
    + match goal with [ K : w_files w2 _ = Some ?x |- _ ] => assert (x = arc) by congruence; subst x end.
      cbn [wp].
      set (w3 := mkW (set_file (set_file (w_files w2) t None) dest (Some arc)) (w_pos w2) (w_fault w2)).
      assert (N1 : w_files w3 dest = Some arc) by apply set_same.
      assert (N2 : forall p, p <> dest -> w_files w3 p = w_files w0 p).
      { intros p Hp. unfold w3. cbn [w_files]. rewrite set_other by exact Hp.
        destruct (path_eqb p t) eqn:E.
        - apply path_eqb_iff in E. rewrite E, set_same. symmetry. exact Hfree.
        - rewrite set_other.
          + apply HI2. intros ->. rewrite (proj2 (path_eqb_iff t t) eq_refl) in E. discriminate.
          + intros ->. rewrite (proj2 (path_eqb_iff t t) eq_refl) in E. discriminate. }
      split; [split; [right; exists arc; split; assumption|intros p Hp _; exact (N2 p Hp)]|].
      split; [exists arc; split; assumption|intros _; exact N2].
Qed.

End Whole.

Lemma steps_inv {A} (s s' : io A * world) : steps s s' ->
  s' = s \/ exists s1, step s s1 /\ steps s1 s'.
Proof. intros H. destruct H; [left; reflexivity|right; eauto]. Qed.

Lemma steps_ret {A} (r : res A) w s' : steps (Ret r, w) s' -> s' = (Ret r, w).
Proof. intros H. destruct (steps_inv _ _ H) as [E|(s1 & H1 & _)]; [exact E|inversion H1]. Qed.

Section Reach.
Variable L : codecs.
Variable md5 : bytes -> bytes.
Variables (c : config) (lo : slist) (srcs : list spending) (dest : path) (w0 : world).
Hypothesis dest_name : ~ temp_name (p_name dest).
Hypothesis srcs_ok : sources_ok w0 lo srcs.

Lemma build_reach m w : steps (io_build L md5 c lo srcs dest, w0) (m, w) ->
  I2 L md5 c lo srcs dest w0 w /\ forall r, m = Ret r -> Q2 L md5 c lo srcs dest w0 r w.
Proof.
  intros H. destruct (steps_inv _ _ H) as [E|(s1 & H1 & H2)].
  - injection E as -> ->. split; [apply I2_start|discriminate].
  - assert (D : (exists p, temp_here dest w0 p) \/ s1 = (Ret (Err EIo), failed w0)).
    { unfold io_build in H1. inversion H1; subst.
      match goal with [ K : sem _ _ _ _ |- _ ] => inversion K; subst end; [right; reflexivity|].
      left. eexists (mkPath _ _). split; [reflexivity|]. split; eassumption. }
    destruct D as [D| ->].
    + assert (W := wp_build L md5 c lo srcs dest w0 dest_name srcs_ok D).
      assert (W' := wp_steps _ _ _ _ H W). cbn [fst snd] in W'. split; [exact (wp_now _ _ _ _ W')|].
      intros r ->. exact (proj2 W').
    + apply steps_ret in H2. injection H2 as -> ->. split.
      * split; [left; reflexivity|reflexivity].
      * intros r E. injection E as <-. split; [split; [reflexivity|left; reflexivity]|discriminate].
Qed.

Lemma all_or_nothing m w : steps (io_build L md5 c lo srcs dest, w0) (m, w) ->
  (w_files w dest = w_files w0 dest \/
   exists arc, archive_of L md5 w0 c lo srcs arc /\ w_files w dest = Some arc) /\
  (m = Ret (Ok tt) -> exists arc, archive_of L md5 w0 c lo srcs arc /\ w_files w dest = Some arc) /\
  (forall r, m = Ret r -> r <> Ok tt -> w_files w dest = w_files w0 dest).
Proof.
  intros H. destruct (build_reach m w H) as [[A _] B]. split; [exact A|]. split.
  - intros E. exact (proj1 (B _ E)).
  - intros r E Hr. destruct (B _ E) as [B1 _]. destruct r as [[]|e|]; [contradiction| |]; exact (proj1 B1).
Qed.

Lemma nothing_else m w : steps (io_build L md5 c lo srcs dest, w0) (m, w) ->
  (forall p, p <> dest ->
     ~ (p_dir p = p_dir dest /\ temp_name (p_name p) /\ w_files w0 p = None) ->
     w_files w p = w_files w0 p) /\
  (forall r, m = Ret r -> w_fault w = false -> forall p, p <> dest -> w_files w p = w_files w0 p).
Proof.
  intros H. destruct (build_reach m w H) as [[_ A] B]. split; [exact A|].
  intros r E. exact (proj2 (B _ E)).
Qed.

Lemma succeeds arc :
  archive_of L md5 w0 c lo srcs arc -> w_fault w0 = false ->
  (exists n, temp_name n /\ w_files w0 (mkPath (p_dir dest) n) = None) ->
  (exists w, steps (io_build L md5 c lo srcs dest, w0) (Ret (Ok tt), w) /\ w_fault w = false) /\
  forall r w, steps (io_build L md5 c lo srcs dest, w0) (Ret r, w) -> w_fault w = false -> r = Ok tt.
Proof.
  intros Ha Hf (n & Hn & Hfree). split.
  - destruct (wp_run _ _ _ _ (wp_build L md5 c lo srcs dest w0 dest_name srcs_ok
      (ex_intro _ (mkPath (p_dir dest) n) (conj eq_refl (conj Hn Hfree))))) as (r & w & S & [HQ _] & F).
    exists w. rewrite Hf in F. split; [|exact F].
    destruct r as [[]|e|]; [exact S| |]; destruct HQ as [_ [K|K]]; try congruence;
      exfalso; apply K; exists arc; exact Ha.
  - intros r w S F. destruct (build_reach _ _ S) as [_ B]. destruct (B _ eq_refl) as [HQ _].
    destruct r as [[]|e|]; [reflexivity| |]; destruct HQ as [_ [K|K]]; try congruence;
      exfalso; apply K; exists arc; exact Ha.
Qed.

End Reach.

(** Every execution ends. *)
Lemma runs_end {A} (m : io A) : forall w, Acc (fun s' s => step s s') (m, w).
Proof.
  induction m as [r|o k IH]; intros w; constructor; intros s' H; inversion H; subst. apply IH.
Qed.
