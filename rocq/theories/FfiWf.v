(** * What each API function does to the shared state, thread by thread: an
    automaton that every program of [Ffi] follows. *)
From Verif Require Import Bytes Header Compress Archive Attributes Listfile ListfileFacts SpecListfile Builder Signature Ffi SpecFfi SpecAnswers.
Open Scope N_scope.

(** ** Ghost state of a thread *)
(** What a call has observed or done so far, the latest first. *)
Inductive obs :=
| BNew (id : N)
| BArchIns (id : N) (h : ahandle)
| BArch (id : N) (o : option ahandle)
| BArchDel (id : N) (b : bool)
| BFileIns (id : N) (f : fhandle)
| BFile (id : N) (o : option (fhandle * fhandle))   (* before and after *)
| BFileDel (id : N) (b : bool)
| BRetain (a : N).

(** A call in progress. *)
Record frame := mkF {
  f_call : call; f_past : list event; f_err0 : N; f_loc0 : N; f_obs : list obs }.
(** The calls a thread is in (inner ones first), its cells, and what the cells
    were after the last finished call. *)
Record ghost := mkG { g_st : list frame; g_err : N; g_loc : N; g_merr : N; g_mloc : N }.

Definition see (b : obs) (g : ghost) : ghost :=
  mkG (match g_st g with
       | fr :: t => mkF (f_call fr) (f_past fr) (f_err0 fr) (f_loc0 fr) (b :: f_obs fr) :: t
       | [] => []
       end) (g_err g) (g_loc g) (g_merr g) (g_mloc g).

Definition inserted (id : N) (l : list obs) : Prop :=
  (exists h, In (BArchIns id h) l) \/ (exists f, In (BFileIns id f) l).
(** The call in progress has got the number and not used it. *)
Definition pend (g : ghost) (id : N) : Prop :=
  match g_st g with
  | fr :: _ => In (BNew id) (f_obs fr) /\ ~ inserted id (f_obs fr)
  | [] => False
  end.

Definition saw_file (l : list obs) (h : N) : Prop :=
  (exists x, In (BFile h (Some x)) l) \/ In (BFileDel h true) l.
Definition saw_arch (l : list obs) (h : N) : Prop :=
  (exists x, In (BArch h (Some x)) l) \/ In (BArchDel h true) l.

Section Wf.
Variable L : codecs.
Variable md5 sha1 : bytes -> bytes.
Variable crc32 : bytes -> N.
Variable rd : archive -> N -> N -> N.

(** The archive is one that was opened. *)
Definition named (name : bytes) : Prop := exists n, to_str n = Some name.
Definition genuine (h : ahandle) : Prop :=
  (exists file, open_archive L file = Ok (ah_archive h)) /\ named (ah_path h).

Definition same_file (f g : fhandle) : Prop :=
  fh_archive g = fh_archive f /\ fh_data g = fh_data f /\ fh_name g = fh_name f /\ fh_size g = fh_size f.
(** The file is one of the archive. *)
Definition drawn (f : fhandle) (a : archive) : Prop :=
  exists fi, find_file a (fh_name f) = Ok (Some fi) /\ read_file L a (fh_name f) = Ok (fh_data f) /\
    fh_size f = fi_size fi /\ fh_pos f = 0 /\ named (fh_name f).

(** ** What a finished call must have observed *)
Definition ok_handle (fr : frame) (r : ret) : Prop :=
  forall h, r = RHandle h ->
  match f_call fr with
  | COpenArchive n _ | CCreateArchive n _ _ _ =>
      exists x d, In (BArchIns h x) (f_obs fr) /\ n = Some d /\ to_str d = Some (ah_path x)
  | COpenFile a n _ =>
      exists f d, In (BFileIns h f) (f_obs fr) /\ fh_archive f = a /\ n = Some d /\ to_str d = Some (fh_name f)
  | _ => False
  end.
Definition ok_close (fr : frame) (r : ret) : Prop :=
  match f_call fr with
  | CCloseArchive h => r = RBool true -> In (BRetain h) (f_obs fr) /\ In (BArchDel h true) (f_obs fr)
  | CCloseFile h => r = RBool true -> In (BFileDel h true) (f_obs fr)
  | _ => True
  end.
Definition ok_refused (fr : frame) (r : ret) (err : N) : Prop :=
  let ref := failed r /\ (good_arguments (f_call fr) -> (forall a f, f_call fr <> CHasFile a f) -> err = 6) in
  forall h,
  (on_file (f_call fr) h -> ref \/ saw_file (f_obs fr) h) /\
  (on_archive (f_call fr) h -> ref \/ saw_arch (f_obs fr) h) /\
  (on_either (f_call fr) h -> ref \/ saw_file (f_obs fr) h \/ saw_arch (f_obs fr) h).
Definition ok_cells (fr : frame) (r : ret) (err loc mloc : N) : Prop :=
  match f_call fr with
  | CGetLastError => r = RNum (f_err0 fr) None /\ err = f_err0 fr /\ loc = mloc
  | CSetLastError e => err = e /\ loc = mloc
  | CSetLocale l => r = RNum (f_loc0 fr) None /\ err = f_err0 fr /\ loc = l
  | CGetLocale => r = RNum (f_loc0 fr) None /\ err = f_err0 fr /\ loc = mloc
  | CHasFile _ _ => err = f_err0 fr /\ loc = mloc
  | _ => (succeeded r -> err = 0) /\ (r = RBool false -> err <> 0) /\ loc = mloc
  end.
(** Reads move the position by what they give; seeks aside, nothing else moves
    it. *)
Definition moved (n : N) (f : fhandle) : fhandle := set_pos f (fh_pos f + bytes_to_read n f).
Definition given (n : N) (f : fhandle) : bytes :=
  firstn (N.to_nat (bytes_to_read n f)) (skipn (N.to_nat (fh_pos f)) (fh_data f)).
Definition is_file_op (b : obs) : Prop := match b with BFile _ (Some _) => True | _ => False end.
Definition ok_read (fr : frame) (r : ret) : Prop :=
  match f_call fr with
  | CReadFile h buffer n =>
      (exists f, f_obs fr = [BFile h (Some (f, moved n f))] /\ r = RData (given n f)) \/
      (Forall (fun b => ~ is_file_op b) (f_obs fr) /\ (forall x, r <> RData x) /\
       (buffer = true -> h <> 0 -> In (BFile h None) (f_obs fr)))
  | CSeek h pos high m =>
      (exists f, f_obs fr = [BFile h (Some (f, set_pos f (seek_pos f pos high m)))] /\
         match seek_target f pos high m with
         | None => r = RNum 0xFFFFFFFF None
         | Some (Ok _) => let p := seek_pos f pos high m in
                r = RNum (w32 p) (option_map (fun _ => Z.of_N (N.shiftr p 32)) high)
         | _ => False
         end) \/
      (Forall (fun b => ~ is_file_op b) (f_obs fr) /\ r = RNum 0xFFFFFFFF None)
  | _ => forall h f f', In (BFile h (Some (f, f'))) (f_obs fr) -> f' = f
  end.
Definition ok_answer (fr : frame) (r : ret) (err : N) : Prop :=
  let arch h := exists ah, In (BArch h (Some ah)) (f_obs fr) /\
    archive_answer L md5 sha1 crc32 rd (f_call fr) (ah_path ah) (ah_archive ah) r err in
  let file h := exists f f', In (BFile h (Some (f, f'))) (f_obs fr) /\
    file_answer (f_call fr) (fh_name f) (fh_size f) r err in
  forall h, h <> 0 -> good_ask (f_call fr) ->
  (asks_archive (f_call fr) h -> (In (BArch h None) (f_obs fr) /\ refused_handle (f_call fr) r err) \/ arch h) /\
  (asks_file (f_call fr) h -> (In (BFile h None) (f_obs fr) /\ refused_handle (f_call fr) r err) \/ file h) /\
  (on_either (f_call fr) h ->
     file h \/ (In (BFile h None) (f_obs fr) /\ ((In (BArch h None) (f_obs fr) /\ refused_handle (f_call fr) r err) \/ arch h))).
Definition allowed (fr : frame) (r : ret) (err loc mloc : N) : Prop :=
  ok_handle fr r /\ ok_close fr r /\ ok_refused fr r err /\ ok_cells fr r err loc mloc /\ ok_read fr r /\
  ok_answer fr r err.

(** A frame may only touch the handles its call names. *)
Definition touches (g : ghost) (h : N) : Prop :=
  match g_st g with
  | fr :: _ => on_file (f_call fr) h \/ on_either (f_call fr) h
  | [] => False
  end.
(** Reads and seeks change the position once. *)
Definition first_op (g : ghost) : Prop :=
  match g_st g with fr :: _ => Forall (fun b => ~ is_file_op b) (f_obs fr) | [] => True end.

(** ** The automaton *)
Definition pre {A} (a : act A) (g : ghost) : Prop :=
  match a with
  | ANewId => g_st g <> []
  | AArchDel id => match g_st g with fr :: _ => f_call fr = CCloseArchive id | [] => False end
  | AFileDel id => match g_st g with fr :: _ => f_call fr = CCloseFile id | [] => False end
  | ARetain a => match g_st g with fr :: _ => f_call fr = CCloseArchive a | [] => False end
  | AArchIns id h => pend g id /\ genuine h
  | AArchMod _ f => g_st g <> [] /\ forall h, genuine h -> f h = h
  | AFileIns id f => pend g id /\
      match g_st g with
      | fr :: _ => exists ah, In (BArch (fh_archive f) (Some ah)) (f_obs fr) /\ drawn f (ah_archive ah)
      | [] => False
      end
  | AFileMod id f => touches g id /\ first_op g /\ forall x, same_file x (f x)
  | ABegin _ => g_err g = g_merr g /\ g_loc g = g_mloc g /\ first_op g
  | AEnd c past r =>
      match g_st g with
      | fr :: _ => f_call fr = c /\ f_past fr = past /\ allowed fr r (g_err g) (g_loc g) (g_mloc g)
      | [] => False
      end
  | _ => True
  end.
Definition poss {A} (a : act A) : A -> ghost -> Prop :=
  match a in act A return A -> ghost -> Prop with
  | AGetErr => fun x g => x = g_err g
  | AGetLocale => fun x g => x = g_loc g
  | AArchMod _ _ => fun x _ => match x with Some h => genuine h | None => True end
  | AFileMod _ _ => fun x _ => match x with Some f => named (fh_name f) | None => True end
  | _ => fun _ _ => True
  end.
Definition gnext {A} (a : act A) : A -> ghost -> ghost :=
  match a in act A return A -> ghost -> ghost with
  | ANewId => fun x g => match x with Some id => see (BNew id) g | None => g end
  | AArchIns id h => fun _ g => see (BArchIns id h) g
  | AArchMod id _ => fun x g => see (BArch id x) g
  | AArchDel id => fun x g => see (BArchDel id x) g
  | AFileIns id f => fun _ g => see (BFileIns id f) g
  | AFileMod id f => fun x g => see (BFile id (option_map (fun y => (y, f y)) x)) g
  | AFileDel id => fun x g => see (BFileDel id x) g
  | ARetain a => fun _ g => see (BRetain a) g
  | ASetErr e => fun _ g => mkG (g_st g) e (g_loc g) (g_merr g) (g_mloc g)
  | ASetLocale l => fun _ g => mkG (g_st g) (g_err g) l (g_merr g) (g_mloc g)
  | ABegin c => fun past g =>
      mkG (mkF c past (g_err g) (g_loc g) [] :: g_st g) (g_err g) (g_loc g) (g_merr g) (g_mloc g)
  | AEnd _ _ _ => fun _ g => mkG (tl (g_st g)) (g_err g) (g_loc g) (g_err g) (g_loc g)
  | _ => fun _ g => g
  end.

Fixpoint wf {R} (Q : ghost -> R -> Prop) (g : ghost) (p : prog R) : Prop :=
  match p with
  | Ret r => Q g r
  | Abort => True
  | Act a k => pre a g /\ forall x, poss a x g -> wf Q (gnext a x g) (k x)
  end.

Lemma wf_mono {R} (Q Q' : ghost -> R -> Prop) : (forall g r, Q g r -> Q' g r) ->
  forall p g, wf Q g p -> wf Q' g p.
Proof.
  intros H p. induction p as [r| |A a k IH]; intros g; cbn [wf]; auto.
  intros [Hp Hk]. split; [exact Hp|]. intros x Hx. apply IH. auto.
Qed.

Lemma wf_pbind {R S} (Q : ghost -> S -> Prop) (f : R -> prog S) : forall p g,
  wf (fun g r => wf Q g (f r)) g p -> wf Q g (pbind p f).
Proof.
  intros p. induction p as [r| |A a k IH]; intros g; cbn [wf pbind]; auto.
  intros [Hp Hk]. split; [exact Hp|]. intros x Hx. apply IH. auto.
Qed.

(** ** The functions follow it *)
(** At the end of a call: [r] may be returned. *)
Definition post (c : call) (past : list event) (e0 l0 : N) (rest : list frame) (g : ghost) (r : ret) : Prop :=
  exists o e l me ml, g = mkG (mkF c past e0 l0 o :: rest) e l me ml /\
    allowed (mkF c past e0 l0 o) r e l ml.
Definition start (c : call) (past : list event) (e0 l0 : N) (rest : list frame) : ghost :=
  mkG (mkF c past e0 l0 [] :: rest) e0 l0 e0 l0.

(** Verifying a file changes nothing: the attributes were loaded when the archive
    was opened. *)
Lemma open_settled file a : open_archive L file = Ok a -> load_attributes L a = Ok a.
Proof.
  unfold open_archive, open_with_options. intros H. destruct (find_header file) as [[[off ud] h]| |]; cbn [bind] in H; try discriminate.
  unfold load_tables in H.
  do 3 match type of H with bind ?X _ = Ok _ => destruct X as [[? ?]| |] + destruct X as [?| |]; cbn [bind] in H; try discriminate end.
  unfold load_attributes in H |- *. cbn [a_attrs] in H.
  match type of H with match ?X with _ => _ end = _ => destruct X as [d|e|] eqn:Er; try discriminate end.
  - match type of H with bind ?X _ = Ok _ => destruct X as [n| |]; cbn [bind] in H; try discriminate end.
    destruct (attr_unwrap L d n) as [d'| |]; cbn [bind] in H; try discriminate.
    destruct (attr_parse d' n) as [x| |]; cbn [bind] in H; try discriminate.
    apply Ok_inj in H. subst a. reflexivity.
  - destruct e; try discriminate. apply Ok_inj in H. subst a. cbn [a_attrs]. now rewrite Er.
Qed.
Lemma with_attributes_same a : load_attributes L a = Ok a -> with_attributes L a = Ok a.
Proof. unfold with_attributes. intros ->. reflexivity. Qed.
Lemma verify_file_same a name fl e a' : load_attributes L a = Ok a ->
  verify_file L md5 crc32 a name fl = Ok (e, a') -> a' = a.
Proof.
  intros Hs. unfold verify_file. intros H.
  destruct (find_file a name) as [[fi|]| |]; try discriminate; try (injection H as _ <-; reflexivity).
  destruct (if _ && _ then _ else _) as [s| |]; try discriminate. cbn [bind] in H.
  destruct (negb s); [injection H as _ <-; reflexivity|].
  rewrite (with_attributes_same a Hs) in H. cbn [bind] in H.
  match type of H with bind ?x _ = _ => destruct x as [[b a1]| |] eqn:E1; try discriminate end. cbn [bind] in H.
  assert (S1 : a1 = a).
  { destruct (negb (_ =? 0)) in E1.
    - destruct (compare_attr _ _ _ _ _) as [b'| |]; try discriminate. injection E1 as _ <-. reflexivity.
    - injection E1 as _ <-. reflexivity. }
  subst a1. destruct (negb b); [injection H as _ <-; reflexivity|].
  rewrite (with_attributes_same a Hs) in H. cbn [bind] in H.
  match type of H with bind ?x _ = _ => destruct x as [[b' a2]| |] eqn:E2; try discriminate end. cbn [bind] in H.
  assert (S2 : a2 = a).
  { destruct (negb (_ =? 0)) in E2.
    - destruct (compare_attr _ _ _ _ _) as [b''| |]; try discriminate. injection E2 as _ <-. reflexivity.
    - injection E2 as _ <-. reflexivity. }
  subst a2. destruct (negb b'); injection H as _ <-; reflexivity.
Qed.

Lemma asked_iff flags bit : In bit [1; 2; 4] ->
  (negb (N.land (if flags =? 0 then VERIFY_ALL else flags) bit =? 0) = true <-> asked flags bit).
Proof.
  intros Hb. unfold asked. destruct (flags =? 0) eqn:E.
  - apply N.eqb_eq in E. subst flags. split; [now left|]. intros _. destruct Hb as [<-|[<-|[<-|[]]]]; reflexivity.
  - apply N.eqb_neq in E. rewrite Bool.negb_true_iff, N.eqb_neq. split; [now right|]. intros [?|?]; [contradiction|assumption].
Qed.
Lemma sector_crc_bit flags : has_sector_crc flags = N.testbit flags 26.
Proof.
  unfold has_sector_crc, BlockTable.has_flag, BlockTable.FLAG_SECTOR_CRC. change 67108864 with (2 ^ 26).
  destruct (N.testbit flags 26) eqn:E.
  - apply Bool.negb_true_iff, N.eqb_neq. intros H. apply (f_equal (fun x => N.testbit x 26)) in H.
    rewrite N.land_spec, E, N.pow2_bits_true, N.bits_0 in H. discriminate.
  - apply Bool.negb_false_iff, N.eqb_eq. apply N.bits_inj. intros i. rewrite N.land_spec, N.bits_0, N.pow2_bits_eqb.
    destruct (26 =? i) eqn:Ei; [apply N.eqb_eq in Ei; subst i; rewrite E|rewrite Bool.andb_false_r]; reflexivity.
Qed.
Lemma compare_means {T} a name (expected : option T) ok (P : T -> bytes -> Prop) b :
  (forall x d, ok x d = true <-> P x d) ->
  compare_attr L a name expected ok = Ok b ->
  (b = true <-> forall v, expected = Some v -> readable L a name (P v)).
Proof.
  intros Hp. unfold compare_attr, readable. destruct expected as [x|].
  - destruct (read_file L a name) as [d| |]; intros H; try discriminate; apply Ok_inj in H; subst b.
    + rewrite Hp. split.
      * intros H v E. injection E as <-. eauto.
      * intros H. destruct (H x eq_refl) as (d' & E & K). apply Ok_inj in E. now subst d'.
    + split; [discriminate|]. intros H. destruct (H x eq_refl) as (d' & E & _). discriminate.
  - intros H. apply Ok_inj in H. subst b. split; [intros _ v E; discriminate|reflexivity].
Qed.
Lemma recorded_of a fi x : recorded_for a fi x <-> attributes_of a (fi_block fi) = Some x.
Proof.
  unfold recorded_for, attributes_of. destruct (a_attrs a) as [t|].
  - split; [intros (t' & E & H); injection E as <-; exact H|intros H; exists t; auto].
  - split; [intros (t' & E & _); discriminate|discriminate].
Qed.
Lemma field_means {T} a name fi (get : fattr -> option T) (P : T -> bytes -> Prop) :
  (forall v, match attributes_of a (fi_block fi) with Some f => get f | None => None end = Some v -> readable L a name (P v)) <->
  (forall x v, recorded_for a fi x -> get x = Some v -> readable L a name (P v)).
Proof.
  split.
  - intros H x v Hx Hv. apply recorded_of in Hx. apply H. now rewrite Hx.
  - intros H v E. destruct (attributes_of a (fi_block fi)) as [x|] eqn:Ea; [|discriminate].
    apply (H x v); [now apply recorded_of|exact E].
Qed.
Lemma verify_file_means a name fl e a' : load_attributes L a = Ok a ->
  verify_file L md5 crc32 a name fl = Ok (e, a') -> (e = 0 <-> checks_out L md5 crc32 a name fl).
Proof.
  intros Hs. unfold verify_file. intros H. unfold checks_out.
  destruct (find_file a name) as [[fi|]| |]; try discriminate.
  2: { injection H as <- _. split; [discriminate|intros (fi & E & _); discriminate]. }
  2: { injection H as <- _. split; [discriminate|intros (fi & E & _); discriminate]. }
  set (vf := if fl =? 0 then VERIFY_ALL else fl) in H.
  match type of H with bind ?x _ = _ => destruct x as [s| |] eqn:E0; try discriminate end. cbn [bind] in H.
  assert (S0 : s = true <-> (asked fl 1 -> N.testbit (fi_flags fi) 26 = true -> readable L a name (fun _ => True))).
  { rewrite <- (asked_iff fl 1) by (cbn; auto). fold vf. change 1 with VERIFY_SECTOR_CRC. rewrite <- sector_crc_bit.
    destruct (negb (N.land vf VERIFY_SECTOR_CRC =? 0)); cbn [andb] in E0;
      [|apply Ok_inj in E0; subst s; split; [intros _ K; discriminate|reflexivity]].
    destruct (has_sector_crc (fi_flags fi)); [|apply Ok_inj in E0; subst s; split; [intros _ _ K; discriminate|reflexivity]].
    unfold readable. destruct (read_file L a name) as [d| |]; try discriminate; apply Ok_inj in E0; subst s.
    - split; [eauto|reflexivity].
    - split; [discriminate|]. intros K. destruct (K eq_refl eq_refl) as (d & E & _). discriminate. }
  destruct s; cbn [negb] in H.
  2: { injection H as <- _. split; [discriminate|]. intros (fi' & E & K & _). injection E as <-. apply S0 in K. discriminate. }
  rewrite (with_attributes_same a Hs) in H. cbn [bind] in H.
  match type of H with bind ?x _ = _ => destruct x as [[b a1]| |] eqn:E1; try discriminate end. cbn [bind] in H.
  assert (S1 : a1 = a /\ (b = true <-> (asked fl 2 -> forall x v, recorded_for a fi x -> fa_crc x = Some v -> readable L a name (fun d => crc32 d = v)))).
  { rewrite <- (asked_iff fl 2) by (cbn; auto). fold vf. change 2 with VERIFY_FILE_CRC.
    destruct (negb (N.land vf VERIFY_FILE_CRC =? 0)).
    - destruct (compare_attr _ _ _ _ _) as [b'| |] eqn:Ec; try discriminate. injection E1 as <- <-. split; [reflexivity|].
      apply compare_means with (P := fun v d => crc32 d = v) in Ec; [|intros; apply N.eqb_eq].
      rewrite Ec, (field_means a name fi fa_crc (fun v d => crc32 d = v)). split; [intros K _; exact K|intros K; exact (K eq_refl)].
    - injection E1 as <- <-. split; [reflexivity|]. split; [intros _ K; discriminate|reflexivity]. }
  destruct S1 as [-> S1]. destruct b; cbn [negb] in H.
  2: { injection H as <- _. split; [discriminate|]. intros (fi' & E & _ & K & _). injection E as <-. apply S1 in K. discriminate. }
  rewrite (with_attributes_same a Hs) in H. cbn [bind] in H.
  match type of H with bind ?x _ = _ => destruct x as [[b' a2]| |] eqn:E2; try discriminate end. cbn [bind] in H.
  assert (S2 : b' = true <-> (asked fl 4 -> forall x v, recorded_for a fi x -> fa_md5 x = Some v -> readable L a name (fun d => md5 d = v))).
  { rewrite <- (asked_iff fl 4) by (cbn; auto). fold vf. change 4 with VERIFY_FILE_MD5.
    destruct (negb (N.land vf VERIFY_FILE_MD5 =? 0)).
    - destruct (compare_attr _ _ _ _ _) as [b''| |] eqn:Ec; try discriminate. injection E2 as <- <-.
      apply compare_means with (P := fun v d => md5 d = v) in Ec; [|intros; apply bytes_eqb_eq].
      rewrite Ec, (field_means a name fi fa_md5 (fun v d => md5 d = v)). split; [intros K _; exact K|intros K; exact (K eq_refl)].
    - injection E2 as <- <-. split; [intros _ K; discriminate|reflexivity]. }
  destruct b'; cbn [negb] in H; injection H as <- _.
  - split; [|reflexivity]. intros _. exists fi. split; [reflexivity|]. split; [now apply S0|]. split; [now apply S1|now apply S2].
  - split; [discriminate|]. intros (fi' & E & _ & _ & K). injection E as <-. apply S2 in K. discriminate.
Qed.

(** Names that are text without a zero byte are taken over. *)
Lemma until_nul_id d : ~ In x00 d -> until_nul d = d.
Proof.
  induction d as [|b t IH]; [reflexivity|]. intros H. cbn [until_nul].
  destruct (beqb b x00) eqn:E; [apply beqb_eq in E; subst; exfalso; apply H; now left|].
  rewrite IH; [reflexivity|]. intros Hi. apply H. now right.
Qed.
Lemma to_str_good d : is_text d -> ~ In x00 d -> to_str d = Some d.
Proof.
  intros H1 H2. unfold to_str. rewrite (until_nul_id d H2), (utf8_lossy_valid d H1).
  assert (E : bytes_eqb d d = true) by now apply bytes_eqb_eq. now rewrite E.
Qed.
Lemma good_name_some d : to_str d = None -> good_name (Some d) -> False.
Proof. intros H (d' & E & H1 & H2). injection E as <-. rewrite (to_str_good d H1 H2) in H. discriminate. Qed.
Lemma good_name_null : good_name None -> False.
Proof. intros (d' & E & _). discriminate. Qed.
Lemma until_nul_holds d s : until_nul d = s <-> holds d s.
Proof.
  unfold holds. revert s. induction d as [|b t IH]; intros s; cbn [until_nul].
  - split.
    + intros <-. split; [intros []|now left].
    + intros [_ [E|[r E]]]; [exact E|destruct s; discriminate].
  - destruct (beqb b x00) eqn:E.
    + apply beqb_eq in E. subst b. split.
      * intros <-. split; [intros []|right; now exists t].
      * intros [H [K|[r K]]]; [subst s; exfalso; apply H; now left|].
        destruct s as [|c s]; [reflexivity|]. injection K as <- _. exfalso. apply H. now left.
    + split.
      * intros <-. destruct (proj1 (IH (until_nul t)) eq_refl) as [H K]. split.
        -- intros [->|Hi]; [rewrite beqb_refl in E; discriminate|contradiction].
        -- destruct K as [K|[r K]]; [left; congruence|right; exists r; cbn [app]; congruence].
      * intros [H [K|[r K]]].
        -- subst s. f_equal. apply IH. split; [intros Hi; apply H; now right|now left].
        -- destruct s as [|c s]; [injection K as -> _; rewrite beqb_refl in E; discriminate|].
           injection K as <- ->. f_equal. apply IH. split; [intros Hi; apply H; now right|right; now exists r].
Qed.
Lemma str_of_name n name : is_name n name -> to_str n = Some name.
Proof.
  intros [H T]. apply until_nul_holds in H. unfold to_str. rewrite H, (utf8_lossy_valid name T).
  assert (E : bytes_eqb name name = true) by now apply bytes_eqb_eq. now rewrite E.
Qed.
Lemma str_holds n name : to_str n = Some name -> holds n name.
Proof.
  unfold to_str. intros H. apply until_nul_holds. destruct (bytes_eqb _ _); [|discriminate]. now injection H.
Qed.
Lemma has_nul_iff s : has_nul s = false <-> ~ In x00 s.
Proof.
  unfold has_nul. rewrite <- Bool.not_true_iff_false, existsb_exists. split.
  - intros H Hi. apply H. exists x00. split; [exact Hi|reflexivity].
  - intros H (b & Hi & E). apply beqb_eq in E. now subst b.
Qed.
Lemma named_nul name : named name -> has_nul name = false.
Proof. intros [n H]. apply has_nul_iff. exact (proj1 (str_holds _ _ H)). Qed.
Lemma genuine_nul h : genuine h -> has_nul (ah_path h) = false.
Proof. intros [_ H]. now apply named_nul. Qed.

Lemma open_code_nz e : open_code e <> 0. Proof. destruct e; discriminate. Qed.
Lemma create_code_nz e : create_code e <> 0. Proof. destruct e; discriminate. Qed.
Lemma handle_zero h : handle_to_id h = None -> h = 0.
Proof. unfold handle_to_id. destruct (h =? 0) eqn:E; [intros _; now apply N.eqb_eq|discriminate]. Qed.
Lemma handle_some h id : handle_to_id h = Some id -> id = h.
Proof. unfold handle_to_id. destruct (h =? 0); [discriminate|intros E; now injection E]. Qed.

(** Symbolic execution. *)
Lemma wf_act {R A} (Q : ghost -> R -> Prop) g (a : act A) (k : A -> prog R) :
  pre a g -> (forall x, poss a x g -> wf Q (gnext a x g) (k x)) -> wf Q g (Act a k).
Proof. split; assumption. Qed.
Lemma wf_ret {R} (Q : ghost -> R -> Prop) g r : Q g r -> wf Q g (Ret r).
Proof. trivial. Qed.
Ltac ob := cbn [f_obs In]; first [left; reflexivity | right; ob].
Ltac saw := first [ left; eexists; ob | right; ob ].
Ltac use_id :=
  repeat match goal with
  | H : handle_to_id _ = None |- _ => apply handle_zero in H
  | H : handle_to_id _ = Some _ |- _ => apply handle_some in H
  | H : (_ =? 0) = true |- _ => apply N.eqb_eq in H
  end; subst.
Ltac contra :=
  match goal with
  | H : False |- _ => destruct H
  | H : good_name None |- _ => destruct (good_name_null H)
  | H : to_str ?d = None, G : good_name (Some ?d) |- _ => destruct (good_name_some _ H G)
  | H : negb ?b = true, G : ?b = true |- _ => rewrite G in H; discriminate H
  | H : negb true = true |- _ => discriminate H
  | H : ?x <> ?x |- _ => destruct (H eq_refl)
  | H : RBool ?a = RBool ?b |- _ => discriminate H
  | H : Some _ = None |- _ => discriminate H
  | H : true = false |- _ => discriminate H
  | H : false = true |- _ => discriminate H
  end.
Ltac solve_ref :=
  first [ right; saw
        | right; left; saw | right; right; saw
        | left; split; [first [left; reflexivity | right; reflexivity]
                       | cbn [good_arguments]; intros G1 G2;
                         first [reflexivity | repeat (match goal with H : _ /\ _ |- _ => destruct H | H : _ \/ _ |- _ => destruct H end); subst; contra
                               | exfalso; eapply G2; reflexivity ] ] ].
Ltac solve_handle :=
  match goal with
  | E : RHandle _ = RHandle _ |- _ => injection E as <-;
      first [ eexists; eexists; split; [ob|]; split; [reflexivity|]; assumption
            | eexists; eexists; split; [ob|]; split; [reflexivity|]; split; [reflexivity|]; assumption | idtac ]
  | E : _ = RHandle _ |- _ => discriminate E
  end.
Ltac usables :=
  cbn [good_ask] in *;
  repeat match goal with
  | H : _ /\ _ |- _ => destruct H
  | H : false = true \/ _ |- _ => destruct H as [H|H]; [discriminate H|]
  | H : Some _ = None \/ _ |- _ => destruct H as [H|H]; [discriminate H|]
  | H : ?n = 0, K : ?n <> 0 |- _ => destruct (K H)
  | H : usable None |- _ => exfalso; destruct H as (? & ? & E & _); discriminate E
  | H : usable (Some _) |- _ =>
      let n := fresh "n" in let name := fresh "name" in let E := fresh in let U := fresh "U" in let T := fresh "T" in
      destruct H as (n & name & E & U); injection E as <-; pose proof (str_of_name _ _ U) as T;
      repeat match goal with K : to_str _ = _ |- _ => first [constr_eq K T; fail 1 | rewrite T in K; first [discriminate K | injection K as K; try subst]] end
  end.
Ltac ans :=
  unfold ok_answer; cbn [f_call f_obs]; intros ? Hnz Hask; split; [|split];
  cbn [asks_archive asks_file on_either]; intros K; try (destruct K; fail); try subst;
  try contra; usables; try contra;
  first [ left; split; [ob | split; [first [left; reflexivity | right; reflexivity] | first [exact I | reflexivity]]]
        | right; split; [ob | left; split; [ob | split; [first [left; reflexivity | right; reflexivity] | first [exact I | reflexivity]]]]
        | right; eexists; split; [ob|]; cbn [archive_answer file_answer]; try exact I
        | right; eexists; eexists; split; [ob|]; cbn [archive_answer file_answer]; try exact I
        | idtac ].
Ltac solve_cells :=
  repeat split; cbn [succeeded]; intros; try reflexivity; try discriminate; try assumption;
  try apply open_code_nz; try apply create_code_nz;
  try (match goal with H : _ \/ _ |- _ => destruct H end); try contra; auto.
Ltac solve_read :=
  first [ exact I
        | right; split; [repeat constructor; intros K; destruct K | split; [discriminate | intros; first [discriminate | contradiction | ob]]]
        | left; eexists; split; reflexivity
        | right; split; [solve [repeat constructor; intros K; destruct K] | reflexivity]
        | left; eexists; split; [reflexivity|]; match goal with E : seek_target _ _ _ _ = _ |- _ => rewrite E; reflexivity end
        | intros ? ? ? K; cbn [In] in K; repeat (destruct K as [K|K]; [first [discriminate K | injection K as <- <- <-; reflexivity]|]); destruct K ].
Ltac done_post :=
  unfold post, start, see; cbn [g_st g_err g_loc g_merr g_mloc f_call f_past f_err0 f_loc0 f_obs];
  do 5 eexists; split; [reflexivity|];
  unfold allowed; split; [|split; [|split; [|split; [|split]]]];
  [ unfold ok_handle; cbn [f_call f_obs]; intros ? E; solve_handle
  | unfold ok_close; cbn [f_call f_obs]; first [exact I | intros; first [discriminate | split; ob | ob] | idtac]
  | unfold ok_refused; cbn [f_call f_obs]; intros ?; split; [|split];
      cbn [on_file on_archive on_either]; intros K; try (destruct K; fail); try subst; solve_ref
  | unfold ok_cells; cbn [f_call f_err0 f_loc0]; solve_cells
  | unfold ok_read; cbn [f_call f_obs]; solve_read
  | ans ].
Ltac solve_pend :=
  cbn [pend g_st f_obs]; split; [ob|];
  intros [[? K]|[? K]]; cbn [In] in K; repeat (destruct K as [K|K]; [discriminate K|]); destruct K.
Ltac solve_pre :=
  cbn [pre start see g_st g_err g_loc g_merr g_mloc f_call f_past f_err0 f_loc0 f_obs];
  first [ exact I | discriminate | reflexivity | solve_pend
        | split; [solve_pend | split; [eexists; eassumption | eexists; eassumption]]
        | split; [discriminate | intros; reflexivity]
        | split; [unfold touches, start; cbn [g_st f_call on_file on_either]; first [left; reflexivity | right; reflexivity]
             | split; [unfold first_op, start; cbn [g_st f_obs]; repeat constructor; intros K; destruct K | intros ?; repeat split; reflexivity]]
        | idtac ].
Ltac wf_step :=
  cbv beta iota zeta delta [same];
  match goal with
  | |- wf _ _ (match ?x with _ => _ end) => destruct x eqn:?; use_id
  | |- wf _ _ Abort => exact I
  | |- wf _ _ (pbind _ _) => apply wf_pbind
  | |- wf _ _ (Act _ _) =>
      apply wf_act; [solve_pre | intros ? ?;
        cbn [poss gnext start see g_st g_err g_loc g_merr g_mloc f_call f_past f_err0 f_loc0 f_obs] in * ]
  | |- wf _ _ (Ret _) => apply wf_ret
  end.
Ltac wf_all :=
  unfold with_archive, with_file, locked, new_id, Ffi.fail, finish, fail_num;
  repeat wf_step; use_id; try done_post.

Lemma close_file_wf h past e0 l0 rest :
  wf (post (CCloseFile h) past e0 l0 rest) (start (CCloseFile h) past e0 l0 rest) (close_file_api h).
Proof. unfold close_file_api. wf_all. Qed.
Lemma close_archive_wf h past e0 l0 rest :
  wf (post (CCloseArchive h) past e0 l0 rest) (start (CCloseArchive h) past e0 l0 rest) (close_archive_api h).
Proof. unfold close_archive_api. wf_all. Qed.
Lemma read_file_wf h b n past e0 l0 rest :
  wf (post (CReadFile h b n) past e0 l0 rest) (start (CReadFile h b n) past e0 l0 rest) (read_file_api h b n).
Proof. destruct b; unfold read_file_api; cbn [negb]; wf_all.
Qed.
Lemma file_size_wf h b past e0 l0 rest :
  wf (post (CFileSize h b) past e0 l0 rest) (start (CFileSize h b) past e0 l0 rest) (file_size_api h b).
Proof.
  unfold file_size_api. wf_all. eexists. split; [reflexivity|]. intros ->. unfold w32. rewrite N.shiftr_div_pow2. reflexivity.
Qed.
Lemma seek_wf h p hi m past e0 l0 rest :
  wf (post (CSeek h p hi m) past e0 l0 rest) (start (CSeek h p hi m) past e0 l0 rest) (seek_api h p hi m).
Proof. unfold seek_api. wf_all.
Qed.
Lemma has_file_wf a f past e0 l0 rest :
  wf (post (CHasFile a f) past e0 l0 rest) (start (CHasFile a f) past e0 l0 rest) (has_file_api a f).
Proof.
  unfold has_file_api. wf_all.
  all: match goal with |- exists _, _ => eexists; split; [eassumption|] end.
  - destruct a1 as [fi|]; cbn [some]; [left|right]; eauto.
  - right. eauto.
Qed.
Definition info_result (e : N) (r : ret) : Prop :=
  (exists d k, r = RInfo d k /\ e = 0) \/ (exists k, r = RNeed k /\ e = 122) \/ (r = RBool false /\ e = 50).
Lemma file_info_cases f c n e r : file_info f c n = (e, r) -> info_result e r.
Proof.
  unfold file_info, info_result. intros E.
  assert (G : forall v, (if 8 <=? n then (ERROR_SUCCESS, RInfo (le_enc 8 v) 8) else (ERROR_INSUFFICIENT_BUFFER, RNeed 8)) = (e, r) ->
             (exists d k, r = RInfo d k /\ e = 0) \/ (exists k, r = RNeed k /\ e = 122) \/ (r = RBool false /\ e = 50)).
  { intros v E'. destruct (8 <=? n); injection E' as <- <-; [left|right; left]; eauto. }
  assert (D : (ERROR_NOT_SUPPORTED, RBool false) = (e, r) ->
             (exists d k, r = RInfo d k /\ e = 0) \/ (exists k, r = RNeed k /\ e = 122) \/ (r = RBool false /\ e = 50)).
  { intros E'. injection E' as <- <-. right. right. auto. }
  repeat match type of E with (match ?x with _ => _ end) = _ => destruct x; auto end; eauto.
Qed.
Lemma archive_info_cases h c n e r : archive_info h c n = Ok (e, r) -> info_result e r.
Proof.
  unfold archive_info. intros E.
  assert (G : forall k v, (if k <=? n then Ok (ERROR_SUCCESS, RInfo (le_enc (N.to_nat k) v) k) else Ok (ERROR_INSUFFICIENT_BUFFER, RNeed k)) = Ok (e, r) ->
             info_result e r).
  { intros k v E'. unfold info_result. destruct (k <=? n); injection E' as <- <-; [left|right; left]; eauto. }
  assert (D : Ok (ERROR_NOT_SUPPORTED, RBool false) = Ok (e, r) -> info_result e r).
  { intros E'. injection E' as <- <-. right. right. auto. }
  assert (D' : Ok (ERROR_INSUFFICIENT_BUFFER, RNeed 4) = Ok (e, r) -> info_result e r).
  { intros E'. injection E' as <- <-. right. left. eauto. }
  repeat match type of E with
    | bind ?x _ = _ => destruct x; try discriminate E; cbn [bind] in E
    | (match ?x with _ => _ end) = _ => destruct x; eauto; try discriminate E
    end; eauto.
  injection E as <- <-. left. eauto.
Qed.
Lemma file_info_answer f c n e r h b name : file_info f c n = (e, r) ->
  file_answer (CFileInfo h c b n) name (fh_size f) r e.
Proof.
  unfold file_info, file_answer. intros E.
  assert (G : forall v, (if 8 <=? n then (ERROR_SUCCESS, RInfo (le_enc 8 v) 8) else (ERROR_INSUFFICIENT_BUFFER, RNeed 8)) = (e, r) ->
             (n < 8 -> r = RNeed 8 /\ e = 122) /\ (8 <= n -> r = RInfo (le_enc 8 v) 8)).
  { intros v E'. destruct (8 <=? n) eqn:K; [apply N.leb_le in K|apply N.leb_gt in K]; injection E' as <- <-;
      split; intros; try lia; auto. }
  assert (D : (ERROR_NOT_SUPPORTED, RBool false) = (e, r) -> r = RBool false /\ e = 50).
  { intros E'. injection E' as <- <-. auto. }
  assert (G' : forall v, (if 8 <=? n then (ERROR_SUCCESS, RInfo (le_enc 8 v) 8) else (ERROR_INSUFFICIENT_BUFFER, RNeed 8)) = (e, r) ->
             (n < 8 -> r = RNeed 8 /\ e = 122) /\ (8 <= n -> exists x, r = RInfo x 8)).
  { intros v E'. destruct (G v E') as [G1 G2]. split; eauto. }
  repeat match type of E with
    | (if _ then _ else _) = _ => first [exact (G _ E) | exact (G' _ E)]
    | (match ?x with _ => _ end) = _ => destruct x; try exact (D E)
    end.
Qed.
Lemma mod_mod_mul x m k : m <> 0 -> k <> 0 -> (x mod (m * k)) mod m = x mod m.
Proof.
  intros Hm Hk. rewrite N.mod_mul_r by assumption. rewrite N.mul_comm, N.mod_add, N.mod_mod by assumption. reflexivity.
Qed.
Lemma archive_info_answer y c n e r h b p : archive_info (a_header y) c n = Ok (e, r) ->
  archive_answer L md5 sha1 crc32 rd (CFileInfo h c b n) p y r e.
Proof.
  unfold archive_info, archive_answer. intros E.
  assert (G : forall k v, (if k <=? n then Ok (ERROR_SUCCESS, RInfo (le_enc (N.to_nat k) v) k) else Ok (ERROR_INSUFFICIENT_BUFFER, RNeed k)) = Ok (e, r) ->
             (n < k -> r = RNeed k /\ e = 122) /\ (k <= n -> r = RInfo (le_enc (N.to_nat k) v) k)).
  { intros k v E'. destruct (k <=? n) eqn:K; [apply N.leb_le in K|apply N.leb_gt in K]; injection E' as <- <-;
      split; intros; try lia; auto. }
  assert (D : Ok (ERROR_NOT_SUPPORTED, RBool false) = Ok (e, r) -> r = RBool false /\ e = 50).
  { intros E'. injection E' as <- <-. auto. }
  assert (S : (if 4 <=? n then ss <- sector_size (h_block_size (a_header y)) ;;
               (if 4 <=? n then Ok (ERROR_SUCCESS, RInfo (le_enc (N.to_nat 4) (w32 ss)) 4) else Ok (ERROR_INSUFFICIENT_BUFFER, RNeed 4))
               else Ok (ERROR_INSUFFICIENT_BUFFER, RNeed 4)) = Ok (e, r) ->
              (n < 4 -> r = RNeed 4 /\ e = 122) /\
              (4 <= n -> r = RInfo (le_enc (N.to_nat 4) ((512 * 2 ^ h_block_size (a_header y)) mod 2 ^ 32)) 4)).
  { intros E'. destruct (4 <=? n) eqn:K.
    - unfold sector_size in E'. destruct (h_block_size (a_header y) <? 64); [|discriminate]. cbn [bind] in E'.
      assert (W : w32 (w64 (N.shiftl 512 (h_block_size (a_header y)))) = (512 * 2 ^ h_block_size (a_header y)) mod 2 ^ 32).
      { unfold w32, w64. rewrite N.shiftl_mul_pow2. change M64 with (2 ^ 32 * 2 ^ 32). change M32 with (2 ^ 32). apply mod_mod_mul; discriminate. }
      rewrite W in E'. pose proof (G 4 ((512 * 2 ^ h_block_size (a_header y)) mod 2 ^ 32)) as G4. rewrite K in G4. exact (G4 E').
    - injection E' as <- <-. apply N.leb_gt in K. split; [auto|intros; lia]. }
  cbv zeta in E |- *.
  repeat match type of E with
    | (if _ then _ else _) = _ => first [exact (G 8 _ E) | exact (G 4 _ E) | exact (S E)]
    | (match ?x with _ => _ end) = _ => destruct x; try exact (D E)
    end.
Qed.
Lemma file_info_wf h c b n past e0 l0 rest :
  wf (post (CFileInfo h c b n) past e0 l0 rest) (start (CFileInfo h c b n) past e0 l0 rest) (file_info_api h c b n).
Proof.
  unfold file_info_api. destruct (negb b && (0 <? n)) eqn:E0.
  - assert (b = false /\ n <> 0) as [-> Hn] by lia. wf_all.
  - wf_all.
    + pose proof (fun name => file_info_answer _ _ _ _ _ h b name Heqp) as A.
      destruct (file_info_cases _ _ _ _ _ Heqp) as [(d & k & -> & ->)|[(k & -> & ->)|[-> ->]]]; done_post.
      all: left; eexists; eexists; split; [ob|]; apply A.
    + pose proof (fun p => archive_info_answer _ _ _ _ _ h b p Heqr) as A.
      destruct (archive_info_cases _ _ _ _ _ Heqr) as [(d & k & -> & ->)|[(k & -> & ->)|[-> ->]]]; done_post.
      all: right; split; [ob|]; right; eexists; split; [ob|]; apply A.
Qed.
Lemma archive_name_wf a b n past e0 l0 rest :
  wf (post (CArchiveName a b n) past e0 l0 rest) (start (CArchiveName a b n) past e0 l0 rest) (archive_name_api a b n).
Proof.
  unfold archive_name_api. destruct (negb b || (n =? 0)) eqn:E0.
  - assert (b = false \/ n = 0) as [-> | ->] by lia; wf_all.
  - wf_all.
    + match goal with G : genuine _ |- _ => rewrite (genuine_nul _ G) in *; discriminate end.
    + match goal with E : (_ <? _) = _ |- _ => rewrite E end. auto.
    + match goal with E : (_ <? _) = _ |- _ => rewrite E end. auto.
Qed.
Lemma file_name_wf h b past e0 l0 rest :
  wf (post (CFileName h b) past e0 l0 rest) (start (CFileName h b) past e0 l0 rest) (file_name_api h b).
Proof.
  unfold file_name_api. wf_all.
  - match goal with G : named _ |- _ => rewrite (named_nul _ G) in *; discriminate end.
  - reflexivity.
Qed.
Lemma set_locale_wf l past e0 l0 rest :
  wf (post (CSetLocale l) past e0 l0 rest) (start (CSetLocale l) past e0 l0 rest) (set_locale_api l).
Proof. unfold set_locale_api. wf_all. Qed.
Lemma get_locale_wf past e0 l0 rest :
  wf (post CGetLocale past e0 l0 rest) (start CGetLocale past e0 l0 rest) get_locale_api.
Proof. unfold get_locale_api. wf_all. Qed.
Lemma get_error_wf past e0 l0 rest :
  wf (post CGetLastError past e0 l0 rest) (start CGetLastError past e0 l0 rest) get_error_api.
Proof. unfold get_error_api. wf_all. Qed.
Lemma set_error_wf e past e0 l0 rest :
  wf (post (CSetLastError e) past e0 l0 rest) (start (CSetLastError e) past e0 l0 rest) (set_error_api e).
Proof. unfold set_error_api. wf_all. Qed.
Lemma extract_wf a f d past e0 l0 rest :
  wf (post (CExtract a f d) past e0 l0 rest) (start (CExtract a f d) past e0 l0 rest) (extract_api L a f d).
Proof.
  unfold extract_api. wf_all.
  all: eexists; split; [eassumption|].
  - left. eauto.
  - right. auto.
  - right. eauto.
Qed.
Lemma open_file_wf a f o past e0 l0 rest :
  wf (post (COpenFile a f o) past e0 l0 rest) (start (COpenFile a f o) past e0 l0 rest) (open_file_api L a f o).
Proof.
  unfold open_file_api. wf_all.
  1: { split; [unfold start, see; cbn [g_st f_call f_past f_err0 f_loc0 f_obs]; solve_pend|].
       eexists. split; [right; left; reflexivity|].
       eexists. split; [eassumption|]. split; [eassumption|]. split; [reflexivity|]. split; [reflexivity|]. now exists b. }
  all: eexists; split; [eassumption|].
  - left. do 3 eexists. split; [reflexivity|]. split; eassumption.
  - right. split; [reflexivity|]. match goal with E : find_file _ _ = _ |- _ => rewrite E end. split; [reflexivity|]. eexists. eassumption.
  - right. split; [reflexivity|]. match goal with E : find_file _ _ = _ |- _ => rewrite E end. reflexivity.
  - right. split; [reflexivity|]. match goal with E : find_file _ _ = _ |- _ => rewrite E end. reflexivity.
Qed.

Lemma open_archive_wf c past e0 l0 rest f o :
  (c = COpenArchive f o \/ exists d n, c = CCreateArchive f d n o) ->
  wf (post c past e0 l0 rest) (start c past e0 l0 rest) (open_archive_api L f o).
Proof.
  intros [->|(d & n & ->)]; unfold open_archive_api; wf_all.
  all: split; [unfold start, see; cbn [g_st f_call f_past f_err0 f_loc0 f_obs]; solve_pend|].
  all: destruct x as [x|]; [|discriminate]; split; eexists; eassumption.
Qed.
Lemma create_archive_wf f d n o past e0 l0 rest :
  wf (post (CCreateArchive f d n o) past e0 l0 rest) (start (CCreateArchive f d n o) past e0 l0 rest)
     (create_archive_api L md5 f d n o).
Proof.
  unfold create_archive_api. unfold Ffi.fail.
  repeat first [apply open_archive_wf; right; eauto | wf_step]; use_id; try done_post.
Qed.
Lemma verify_mod_same h name fl : genuine h ->
  (match verify_file L md5 crc32 (ah_archive h) name fl with
   | Ok (_, a') => mkAH a' (ah_path h)
   | _ => h
   end) = h.
Proof.
  intros [[file Ho] _]. destruct (verify_file L md5 crc32 (ah_archive h) name fl) as [[e a']| |] eqn:E; try reflexivity.
  rewrite (verify_file_same _ _ _ _ _ (open_settled _ _ Ho) E). now destruct h.
Qed.
Lemma genuine_means h name fl e a' : genuine h ->
  verify_file L md5 crc32 (ah_archive h) name fl = Ok (e, a') ->
  (e = 0 <-> checks_out L md5 crc32 (ah_archive h) name fl).
Proof. intros [[file Ho] _]. apply verify_file_means. exact (open_settled _ _ Ho). Qed.
Lemma verify_file_wf_in c a f fl past e0 l0 rest :
  c = CVerifyFile a f fl -> 
  wf (post c past e0 l0 rest) (start c past e0 l0 rest) (verify_file_api L md5 crc32 a f fl).
Proof.
  intros ->. unfold verify_file_api. wf_all.
  - split; [discriminate|]. intros h G. now apply verify_mod_same.
  - eexists. split; [eassumption|]. left. split; [reflexivity|].
    match goal with G : genuine _, E : verify_file _ _ _ _ _ _ = _ |- _ => apply (genuine_means _ _ _ _ _ G E) end. now apply N.eqb_eq.
  - now apply N.eqb_neq.
  - eexists. split; [eassumption|]. right. split; [reflexivity|]. intros K.
    match goal with G : genuine _, E : verify_file _ _ _ _ _ _ = _ |- _ => apply (genuine_means _ _ _ _ _ G E) in K end.
    subst. discriminate.
Qed.

(** [SFileVerifyArchive] calls [SFileVerifyFile] itself. *)
Definition arch_only (o : list obs) : Prop := forall b, In b o -> exists i x, b = BArch i x.
Definition good_sig (a fl : N) (o : list obs) : Prop :=
  exists ah, In (BArch a (Some ah)) o /\
    (asked fl 16 -> exists s, verify_signature L md5 sha1 (rd (ah_archive ah)) weak_public_key strong_public_key (ah_archive ah) = Ok s /\
       s <> WeakInvalid /\ s <> StrongInvalid).
Lemma allowed_varch a fl past e0 l0 o r e l : arch_only o ->
  (exists ah, In (BArch a (Some ah)) o) -> (r = RBool true -> good_sig a fl o) ->
  (r = RBool true /\ e = 0 \/ r = RBool false /\ e <> 0) ->
  allowed (mkF (CVerifyArchive a fl) past e0 l0 o) r e l l.
Proof.
  intros Ho [ah0 Hi0] Hs Hr. unfold allowed. split; [|split; [|split; [|split; [|split]]]].
  - intros h E. destruct Hr as [[-> _]|[-> _]]; discriminate.
  - exact I.
  - intros h. split; [|split]; cbn [f_call on_file on_archive on_either]; intros K; [destruct K|subst h; right; left; exists ah0; exact Hi0|destruct K].
  - unfold ok_cells. cbn [f_call]. destruct Hr as [[-> ->]|[-> H]]; cbn [succeeded]; repeat split; auto; discriminate.
  - unfold ok_read. cbn [f_call f_obs]. intros h f f' H. destruct (Ho _ H) as (i & x & E). discriminate.
  - unfold ok_answer. cbn [f_call f_obs]. intros h Hn _. split; [|split]; cbn [asks_archive asks_file on_either]; intros K; try (destruct K; fail).
    subst h. right. destruct Hr as [[-> _]|[-> _]].
    + destruct (Hs eq_refl) as (ah & Hi & H). exists ah. split; [exact Hi|]. cbn [archive_answer]. auto.
    + exists ah0. split; [exact Hi0|]. cbn [archive_answer]. discriminate.
Qed.
Lemma arch_only_cons i x o : arch_only o -> arch_only (BArch i x :: o).
Proof. intros H b [<-|Hb]; eauto. Qed.
Lemma good_sig_saw a fl o : good_sig a fl o -> exists ah, In (BArch a (Some ah)) o.
Proof. intros (ah & Hi & _). eauto. Qed.
Lemma good_sig_cons a fl i x o : good_sig a fl o -> good_sig a fl (BArch i x :: o).
Proof. intros (ah & Hi & H). exists ah. split; [now right|exact H]. Qed.
Lemma verify_file_inside c a fl n fl' past e0 l0 rest o e me : arch_only o -> good_sig a fl o ->
  wf (fun g r => exists o' e' b, g = mkG (mkF c past e0 l0 o' :: rest) e' l0 me l0 /\ arch_only o' /\ good_sig a fl o' /\
                   r = RBool b /\ (b = false -> e' <> 0))
     (mkG (mkF c past e0 l0 o :: rest) e l0 me l0) (verify_file_api L md5 crc32 a (Some n) fl').
Proof.
  intros Ho Hs.
  assert (D : forall (e : N) b, (b = false -> e <> 0) -> exists o' e' b',
    mkG (mkF c past e0 l0 o :: rest) e l0 me l0 = mkG (mkF c past e0 l0 o' :: rest) e' l0 me l0 /\
    arch_only o' /\ good_sig a fl o' /\ RBool b = RBool b' /\ (b' = false -> e' <> 0)).
  { intros e1 b Hb. exists o, e1, b. auto. }
  assert (D' : forall (e : N) b x, (b = false -> e <> 0) -> exists o' e' b',
    mkG (mkF c past e0 l0 (BArch a x :: o) :: rest) e l0 me l0 = mkG (mkF c past e0 l0 o' :: rest) e' l0 me l0 /\
    arch_only o' /\ good_sig a fl o' /\ RBool b = RBool b' /\ (b' = false -> e' <> 0)).
  { intros e1 b x Hb. exists (BArch a x :: o), e1, b. split; [reflexivity|]. split; [now apply arch_only_cons|].
    split; [|auto]. now apply good_sig_cons. }
  unfold verify_file_api. unfold with_archive, locked, Ffi.fail, finish.
  repeat wf_step; use_id; cbn [gnext see g_st g_err g_loc g_merr g_mloc f_call f_past f_err0 f_loc0 f_obs];
    try (apply D; discriminate); try (apply D'; discriminate).
  - split; [discriminate|]. intros h G. now apply verify_mod_same.
  - apply D'. intros _. now apply N.eqb_neq.
Qed.
Lemma verify_all_wf a fl past e0 l0 rest me : forall l o e, arch_only o -> good_sig a fl o ->
  wf (post (CVerifyArchive a fl) past e0 l0 rest) (mkG (mkF (CVerifyArchive a fl) past e0 l0 o :: rest) e l0 me l0)
     (verify_all L md5 crc32 a l).
Proof.
  intros l. induction l as [|f t IH]; intros o e Ho Hs; cbn [verify_all].
  - unfold finish. repeat wf_step. cbn [gnext g_st g_loc g_merr g_mloc]. do 5 eexists. split; [reflexivity|].
    apply allowed_varch; eauto using good_sig_saw.
  - destruct (skipped_name (fe_name f)); [now apply IH|]. apply wf_pbind.
    eapply wf_mono; [|apply verify_file_inside; eauto].
    intros g r (o' & e' & b & -> & Ho' & Hs' & -> & Hb). destruct b; [now apply IH|].
    apply wf_act; [exact I|]. intros x Hx. cbn [poss g_err gnext] in *. subst x.
    destruct (e' =? ERROR_FILE_CORRUPT) eqn:E; [|now apply IH].
    apply N.eqb_eq in E. subst e'. do 5 eexists. split; [reflexivity|].
    apply allowed_varch; eauto using good_sig_saw.
Qed.
Lemma sig_asked fl : N.land (if fl =? 0 then VERIFY_SIGNATURE else fl) VERIFY_SIGNATURE = 0 -> ~ asked fl 16.
Proof.
  unfold asked. destruct (fl =? 0) eqn:E; [discriminate|]. apply N.eqb_neq in E. intros H [K|K]; [contradiction|]. apply K. exact H.
Qed.
Lemma verify_archive_wf a fl past e0 l0 rest :
  wf (post (CVerifyArchive a fl) past e0 l0 rest) (start (CVerifyArchive a fl) past e0 l0 rest)
     (verify_archive_api L md5 sha1 crc32 rd a fl).
Proof.
  unfold verify_archive_api. set (vf := if fl =? 0 then VERIFY_SIGNATURE else fl).
  assert (Hv : N.land vf VERIFY_SIGNATURE = 0 -> ~ asked fl 16) by apply sig_asked. clearbody vf.
  unfold with_archive, locked, Ffi.fail, finish.
  destruct (handle_to_id a) as [id|] eqn:Ea; use_id; [|repeat wf_step; done_post].
  apply wf_act; [exact I|]. intros [] _. cbn [gnext]. apply wf_pbind.
  apply wf_act; [solve_pre|]. intros [ah|] Hg; cbn [poss] in Hg; [|repeat wf_step; done_post].
  unfold same. cbn [gnext].
  set (sg := if N.land vf VERIFY_SIGNATURE =? 0 then Ok SigNone else _).
  assert (Hs : forall s, sg = Ok s -> s <> WeakInvalid -> s <> StrongInvalid ->
     good_sig a fl [BArch a (Some ah)]).
  { intros s E H1 H2. exists ah. split; [now left|]. intros K. unfold sg in E.
    destruct (N.land vf VERIFY_SIGNATURE =? 0) eqn:Ev; [apply N.eqb_eq in Ev; now apply Hv in Ev|]. eauto. }
  assert (Ho : arch_only [BArch a (Some ah)]) by (intros b [<-|[]]; eauto).
  clearbody sg. destruct sg as [s| |]; [|repeat wf_step; do 5 eexists; split; [reflexivity|]; apply allowed_varch;
    [exact Ho|eexists; now left|discriminate|right; split; [reflexivity|discriminate]]|exact I].
  assert (Hb : good_sig a fl [BArch a (Some ah)] \/ s = WeakInvalid \/ s = StrongInvalid).
  { destruct s; auto; left; eapply Hs; try reflexivity; discriminate. }
  destruct Hb as [Hb|Hb].
  - assert (Hgo : wf (fun g r => wf (post (CVerifyArchive a fl) past e0 l0 rest) g (! AUnlock ARCHIVES; Ret r))
       (see (BArch a (Some ah)) (start (CVerifyArchive a fl) past e0 l0 rest))
       (if N.land vf VERIFY_ALL_FILES =? 0 then finish (RBool true)
        else match (match list_files L (ah_archive ah) with Err _ => list_all (ah_archive ah) | r => r end) with
             | Ok l => verify_all L md5 crc32 a l
             | Err _ => Ffi.fail ERROR_FILE_CORRUPT
             | Panic => Abort
             end)).
    { destruct (N.land vf VERIFY_ALL_FILES =? 0).
      - unfold finish. repeat wf_step. do 5 eexists. split; [reflexivity|]. apply allowed_varch; eauto using good_sig_saw.
      - destruct (match list_files L (ah_archive ah) with Err _ => _ | r => r end) as [l|e|]; [| |exact I].
        + eapply wf_mono; [|apply verify_all_wf; [exact Ho|exact Hb]].
          intros g r H1; apply wf_act; [exact I|]; intros x1 _; apply wf_ret; exact H1.
        + unfold Ffi.fail. repeat wf_step. do 5 eexists. split; [reflexivity|]. apply allowed_varch;
            [exact Ho|eexists; now left|discriminate|right; split; [reflexivity|discriminate]]. }
    destruct s; try exact Hgo; repeat wf_step; do 5 eexists; (split; [reflexivity|]); apply allowed_varch;
      solve [exact Ho | eexists; now left | discriminate | right; split; [reflexivity|discriminate]].
  - destruct Hb as [-> | ->]; repeat wf_step; do 5 eexists; (split; [reflexivity|]); apply allowed_varch;
      solve [exact Ho | eexists; now left | discriminate | right; split; [reflexivity|discriminate]].
Qed.

(** ** Enumeration with its callback's calls *)
Lemma recorded_wf {R} (Q : ghost -> R -> Prop) c (p : prog ret) (k : ret -> prog R) st e l :
  match st with fr :: _ => Forall (fun b => ~ is_file_op b) (f_obs fr) | [] => True end ->
  (forall past, wf (post c past e l st) (start c past e l st) p) ->
  (forall r e' l', wf Q (mkG st e' l' e' l') (k r)) ->
  wf Q (mkG st e l e l) (recorded c p k).
Proof.
  intros Hf Hp Hk. unfold recorded. apply wf_act.
  { cbn [pre g_err g_loc g_merr g_mloc]. split; [reflexivity|]. split; [reflexivity|]. exact Hf. }
  intros past _. cbn [gnext g_err g_loc g_merr g_mloc g_st]. apply wf_pbind.
  eapply wf_mono; [|apply Hp]. intros g r (o & e' & l' & me & ml & -> & Ha).
  apply wf_act; [cbn [pre g_st f_call f_past g_err g_loc g_mloc]; auto|].
  intros x _. cbn [gnext g_st tl g_err g_loc]. apply Hk.
Qed.

Definition good_call (c : call) : Prop := forall past e0 l0 rest,
  wf (post c past e0 l0 rest) (start c past e0 l0 rest) (api L md5 sha1 crc32 rd c).

Fixpoint call_rect_nested (P : call -> Prop)
  (Hbase : forall c, match c with CEnumFiles _ _ _ _ => False | _ => True end -> P c)
  (Henum : forall a m z cb, (forall n, Forall P (fst (cb n))) -> P (CEnumFiles a m z cb)) (c : call) : P c :=
  match c return P c with
  | CEnumFiles a m z cb =>
      Henum a m z cb (fun n =>
        (fix F (l : list call) : Forall P l :=
           match l with
           | [] => Forall_nil P
           | c :: t => Forall_cons c (call_rect_nested P Hbase Henum c) (F t)
           end) (fst (cb n)))
  | c => Hbase c I
  end.

Lemma starts_with_iff p : forall s, starts_with p s = true <-> exists v, s = p ++ v.
Proof.
  induction p as [|x p IH]; intros s; cbn [starts_with].
  - split; [intros _; now exists s|reflexivity].
  - destruct s as [|y s]; [split; [discriminate|intros [v E]; discriminate]|].
    rewrite andb_true_iff, IH. split.
    + intros [E [v ->]]. apply beqb_eq in E. subst y. now exists v.
    + intros [v E]. injection E as -> ->. split; [apply beqb_refl|now exists v].
Qed.
Lemma contains_iff p : forall s, contains p s = true <-> inside_of p s.
Proof.
  unfold inside_of. induction s as [|y s IH]; cbn [contains]; rewrite orb_true_iff, starts_with_iff.
  - split.
    + intros [[v E]|E]; [exists [], v; exact E|discriminate].
    + intros (u & v & E). left. destruct u; [exists v; exact E|discriminate].
  - rewrite IH. split.
    + intros [[v E]|(u & v & E)]; [exists [], v; exact E|exists (y :: u), v; cbn [app]; congruence].
    + intros (u & v & E). destruct u as [|z u]; [left; exists v; exact E|].
      injection E as <- ->. right. exists u, v. reflexivity.
Qed.
Lemma mask_some d p s : to_str d = Some p -> (enumerated p s = true <-> mask_matches (Some d) s).
Proof.
  intros H. apply str_holds in H. unfold enumerated, mask_matches.
  rewrite andb_true_iff, orb_true_iff, negb_true_iff, has_nul_iff, contains_iff. split.
  - intros [K N]. split; [exact N|]. exists p. split; [exact H|]. destruct K as [K|K]; [|exact K].
    apply bytes_eqb_eq in K. subst p. exists [], s. reflexivity.
  - intros [N (p' & H' & K)]. split; [right|exact N].
    apply until_nul_holds in H. apply until_nul_holds in H'. rewrite H in H'. subst p'. exact K.
Qed.
Lemma mask_none s : enumerated (lit "*") s = true <-> mask_matches None s.
Proof.
  unfold enumerated, mask_matches. rewrite andb_true_iff, negb_true_iff, has_nul_iff. split.
  - intros [_ N]. auto.
  - intros [N _]. auto.
Qed.
Lemma enum_wf a m z cb past e0 l0 rest : (forall n, Forall good_call (fst (cb n))) ->
  wf (post (CEnumFiles a m z cb) past e0 l0 rest) (start (CEnumFiles a m z cb) past e0 l0 rest)
     (api L md5 sha1 crc32 rd (CEnumFiles a m z cb)).
Proof.
  intros Hcb. cbn [api]. set (run := fun (n : bytes) (k : bool -> prog ret) => _).
  assert (Hrun : forall n k st e l,
    match st with fr :: _ => Forall (fun b => ~ is_file_op b) (f_obs fr) | [] => True end ->
    forall Q : ghost -> ret -> Prop,
    (forall e' l', wf Q (mkG st e' l' e' l') (k (snd (cb n)))) -> wf Q (mkG st e l e l) (run n k)).
  { intros n k st e l Hf Q Hk. unfold run. specialize (Hcb n). destruct (cb n) as [cs b]. cbn [fst snd] in Hcb, Hk.
    revert e l. induction cs as [|c t IH]; intros e l; [apply Hk|].
    inversion Hcb as [|? ? Hc Ht]; subst. apply recorded_wf; [exact Hf|intros; apply Hc|].
    intros r e' l'. now apply IH. }
  assert (Hloop : forall pattern ah fs,
    (forall s, enumerated pattern s = true <-> mask_matches m s) ->
    list_files L (ah_archive ah) = Ok fs -> forall names given e l,
    (forall r, passed_on (mask_matches m) (fun n => snd (cb n)) names r ->
       passed_on (mask_matches m) (fun n => snd (cb n)) (map fe_name fs) (rev given ++ r)) ->
    wf (post (CEnumFiles a m z cb) past e0 l0 rest)
       (mkG (mkF (CEnumFiles a m z cb) past e0 l0 [BArch a (Some ah)] :: rest) e l e l)
       (enum_loop pattern run names given)).
  { intros pattern ah fs Hm Hfs names. induction names as [|n t IH]; intros given0 e l Hr; cbn [enum_loop].
    - unfold finish. repeat wf_step. done_post.
      eexists. split; [reflexivity|]. rewrite Hfs. rewrite <- (app_nil_r (rev given0)). apply Hr; constructor.
    - destruct (enumerated pattern n) eqn:En.
      + apply Hrun; [repeat constructor; intros []|]. intros e' l'. destruct (snd (cb n)) eqn:Eb.
        * apply IH. intros r K. cbn [rev]. rewrite <- app_assoc. apply Hr. apply po_more; [now apply Hm|exact Eb|exact K].
        * unfold finish. repeat wf_step. done_post.
          eexists. split; [reflexivity|]. rewrite Hfs. cbn [rev]. apply Hr. apply po_stop; [now apply Hm|exact Eb].
      + apply IH. intros r K. apply Hr. apply po_skip; [|exact K]. intros M. apply Hm in M. congruence. }
  clearbody run. destruct m as [m|]; unfold enum_api, with_archive, locked, Ffi.fail, finish.
  all: repeat wf_step; use_id; try done_post.
  all: try (eexists; split; [reflexivity|]; match goal with E : list_files _ _ = _ |- _ => rewrite E end; reflexivity).
  all: eapply wf_mono; [|eapply Hloop; [|eassumption|intros r K; exact K]].
  all: try (intros g r H1; apply wf_act; [exact I|]; intros x1 _; apply wf_ret; exact H1).
  - intros s. now apply mask_some.
  - intros s. now apply mask_none.
Qed.

Theorem api_wf : forall c, good_call c.
Proof.
  apply call_rect_nested.
  - intros c Hc past e0 l0 rest. destruct c; cbn [api]; try (destruct Hc; fail).
    + apply open_archive_wf. now left.
    + apply create_archive_wf.
    + apply close_archive_wf.
    + apply open_file_wf.
    + apply close_file_wf.
    + apply read_file_wf.
    + apply file_size_wf.
    + apply seek_wf.
    + apply has_file_wf.
    + apply file_info_wf.
    + apply archive_name_wf.
    + apply set_locale_wf.
    + apply get_locale_wf.
    + apply get_error_wf.
    + apply set_error_wf.
    + apply file_name_wf.
    + apply extract_wf.
    + now apply verify_file_wf_in.
    + apply verify_archive_wf.
  - intros a m z cb H past e0 l0 rest. now apply enum_wf.
Qed.

(** A thread outside of any call. *)
Definition idle (g : ghost) : Prop := exists e l, g = mkG [] e l e l.
Theorem run_wf cl : forall g, idle g -> wf (fun g _ => idle g) g (run L md5 sha1 crc32 rd cl).
Proof.
  induction cl as [|c k IH]; intros g Hg; cbn [run].
  - apply wf_ret. exact Hg.
  - destruct Hg as (e & l & ->). apply recorded_wf; [exact I|intros; apply api_wf|].
    intros r e' l'. apply IH. exists e', l'. reflexivity.
Qed.
End Wf.
