(** * What the C API writes: proofs for [PropWrites]. *)
From Verif Require Import Bytes Header Compress Archive Builder Create Listfile Attributes Signature Ffi SpecFfi SpecAnswers SpecWrites TextFacts HashTable HashTableFacts FfiWf FfiInv FfiFacts FfiMain.
Open Scope N_scope.

Section FfiWrites.
Variable L : codecs.
Variable md5 sha1 : bytes -> bytes.
Variable crc32 : bytes -> N.
Variable rd : archive -> N -> N -> N.

(** What a call that writes has done before, without the other threads. *)
Definition licence (now : list deed) (c : call) (path data : bytes) : Prop :=
  match c with
  | CCreateArchive (Some n) disposition table_size out =>
      is_name n path /\ out = true /\ is_table_size table_size /\
      build L md5 (create_config (Some V2)) [] = Ok data /\
      exists ex, now = [Did (AExists path) ex] /\ to_be_written disposition ex
  | CExtract h (Some n) (Some d) =>
      is_name d path /\ exists name ah f, is_name n name /\
      now = [Did (AArchMod h f) (Some ah); Did (ALock ARCHIVES) tt] /\
      read_file L (ah_archive ah) name = Ok data
  | _ => False
  end.
Definition check {A} (a : act A) (h : list deed) : Prop :=
  match a with
  | AWriteDisk path data => exists c rest, open_calls h = c :: rest /\ licence (lately h) c path data
  | AArchIns id ah => exists file, In (Did (AReadDisk (ah_path ah)) (Some file)) (lately h) /\
      open_archive L file = Ok (ah_archive ah)
  | AEnd c past r => (exists rest, open_calls h = c :: rest) /\ reports (lately h) c r
  | _ => True
  end.
Fixpoint okw {R} (Q : list deed -> R -> Prop) (h : list deed) (p : prog R) : Prop :=
  match p with
  | Ret r => Q h r
  | Abort => True
  | Act a k => check a h /\ forall x, okw Q (Did a x :: h) (k x)
  end.
Lemma okw_mono {R} (Q Q' : list deed -> R -> Prop) : (forall h r, Q h r -> Q' h r) ->
  forall p h, okw Q h p -> okw Q' h p.
Proof.
  intros H p. induction p as [r| |A a k IH]; intros h; cbn [okw]; auto.
  intros [Hp Hk]. split; [exact Hp|]. intros x. apply IH. auto.
Qed.
Lemma okw_pbind {R S} (Q : list deed -> S -> Prop) (f : R -> prog S) : forall p h,
  okw (fun h r => okw Q h (f r)) h p -> okw Q h (pbind p f).
Proof.
  intros p. induction p as [r| |A a k IH]; intros h; cbn [okw pbind]; auto.
  intros [Hp Hk]. split; [exact Hp|]. intros x. apply IH. auto.
Qed.

(** ** Calls that do nothing that matters here *)
Definition dull {A} (a : act A) : Prop :=
  match a with AWriteDisk _ _ | AArchIns _ _ | ABegin _ | AEnd _ _ _ => False | _ => True end.
Fixpoint plain {R} (p : prog R) : Prop :=
  match p with
  | Act a k => dull a /\ forall x, plain (k x)
  | _ => True
  end.
Lemma plain_pbind {R S} (f : R -> prog S) : (forall r, plain (f r)) -> forall p, plain p -> plain (pbind p f).
Proof. intros H p. induction p as [r| |A a k IH]; cbn [plain pbind]; auto. intros [D K]. split; auto. Qed.
Lemma plain_okw {R} (p : prog R) : plain p -> forall h, okw (fun h' _ => open_calls h' = open_calls h) h p.
Proof.
  induction p as [r| |A a k IH]; intros H h; cbn [okw]; auto. destruct H as [D K]. split.
  - destruct a; try exact I; contradiction.
  - intros x. eapply okw_mono; [|apply IH; apply K]. intros h' r. cbn beta. destruct a; cbn [open_calls]; auto; contradiction.
Qed.

Ltac pl :=
  repeat match goal with
  | |- plain (match ?x with _ => _ end) => destruct x
  | |- plain (if ?x then _ else _) => destruct x
  | |- plain (Act _ _) => split; [exact I|intros ?]
  | |- plain (Ret _) => exact I
  | |- plain Abort => exact I
  | |- plain (pbind _ _) => apply plain_pbind; [intros ?|]
  | |- plain (locked _ _) => unfold locked
  | |- plain (with_archive _ _ _) => unfold with_archive
  | |- plain (with_file _ _ _ _) => unfold with_file
  | |- plain (fail _) => unfold fail
  | |- plain (fail_num _) => unfold fail_num
  | |- plain (finish _) => unfold finish
  | |- plain (new_id _) => unfold new_id
  | |- plain (let _ := _ in _) => cbv zeta
  end.
Lemma plain_verify_file a f fl : plain (verify_file_api L md5 crc32 a f fl).
Proof. unfold verify_file_api. pl. Qed.
Lemma plain_verify_all a l : plain (verify_all L md5 crc32 a l).
Proof.
  induction l as [|f l IH]; cbn [verify_all]; pl; try assumption. apply plain_verify_file.
Qed.
Lemma plain_verify_archive a fl : plain (verify_archive_api L md5 sha1 crc32 rd a fl).
Proof. unfold verify_archive_api. pl; try (apply plain_verify_all). Qed.
Lemma plain_close h : plain (close_archive_api h). Proof. unfold close_archive_api. pl. Qed.
Lemma plain_open_file a f o : plain (open_file_api L a f o). Proof. unfold open_file_api. pl. Qed.
Lemma plain_close_file h : plain (close_file_api h). Proof. unfold close_file_api. pl. Qed.
Lemma plain_read h b n : plain (read_file_api h b n). Proof. unfold read_file_api. pl. Qed.
Lemma plain_size h b : plain (file_size_api h b). Proof. unfold file_size_api. pl. Qed.
Lemma plain_seek h p hi m : plain (seek_api h p hi m). Proof. unfold seek_api. pl. Qed.
Lemma plain_has a f : plain (has_file_api a f). Proof. unfold has_file_api. pl. Qed.
Lemma plain_info h c b n : plain (file_info_api h c b n). Proof. unfold file_info_api. pl. Qed.
Lemma plain_arch_name a b n : plain (archive_name_api a b n). Proof. unfold archive_name_api. pl. Qed.
Lemma plain_file_name h b : plain (file_name_api h b). Proof. unfold file_name_api. pl. Qed.

Lemma str_name n p : to_str n = Some p -> is_name n p.
Proof.
  intros H. split; [now apply str_holds|]. unfold to_str in H.
  destruct (bytes_eqb (utf8_lossy (until_nul n)) (until_nul n)) eqn:E; [|discriminate].
  injection H as <-. apply bytes_eqb_eq in E. now apply lossy_same.
Qed.
Lemma size_ok n : ((n =? 0) || negb (N.land n (n - 1) =? 0)) || (n <? 4) = false -> is_table_size n.
Proof.
  rewrite !orb_false_iff, negb_false_iff. intros ((E0 & E1) & E2).
  destruct (proj1 (is_power_of_two_spec n)) as [k Hk].
  { unfold is_power_of_two. now rewrite E0, E1. }
  exists k. split; [|exact Hk]. destruct (N.lt_ge_cases k 2) as [K|K]; [|exact K].
  assert (H : k = 0 \/ k = 1) by lia. destruct H; subst k n; discriminate.
Qed.

(** ** The calls *)
Definition fits c rest h (r : ret) : Prop := open_calls h = c :: rest /\ reports (lately h) c r.
Definition good c := forall h rest, open_calls h = c :: rest -> lately h = [] -> okw (fits c rest) h (api L md5 sha1 crc32 rd c).

Definition unreported c := match c with CCreateArchive _ _ _ _ | CExtract _ _ _ => False | _ => True end.
Lemma plain_good c : unreported c -> plain (api L md5 sha1 crc32 rd c) -> good c.
Proof.
  intros U P h rest E _. eapply okw_mono; [|apply plain_okw; exact P].
  intros h' r H. cbn beta in H. split; [congruence|]. destruct c; try exact I; contradiction.
Qed.

Lemma okw_act {R A} Q h (a : act A) (k : A -> prog R) : check a h -> (forall x, okw Q (Did a x :: h) (k x)) -> okw Q h (Act a k).
Proof. intros H K. split; assumption. Qed.
Lemma okw_ret {R} (Q : list deed -> R -> Prop) h r : Q h r -> okw Q h (Ret r).
Proof. auto. Qed.
Ltac w_step :=
  match goal with
  | |- okw _ _ (Act _ _) => apply okw_act; [try exact I|let x := fresh "x" in intros x; try destruct x as []]
  | |- okw _ _ (Ret _) => apply okw_ret
  | |- okw _ _ Abort => exact I
  end.

(** Opening, within a call that has done [lately h] before. *)
Definition neutral (d : deed) : Prop :=
  match d with Did a _ => match a with AWriteDisk _ _ | AExists _ => False | _ => True end end.
Definition grown (h h' : list deed) : Prop := exists m, lately h' = m ++ lately h /\ Forall neutral m.
Lemma grown_refl h : grown h h.
Proof. exists []. split; [reflexivity|constructor]. Qed.
Lemma grown_more {A} (a : act A) x h h' : grown h h' -> neutral (Did a x) -> dull a \/ (exists id ah, Did a x = Did (AArchIns id ah) tt) ->
  grown h (Did a x :: h').
Proof.
  intros (m & E & F) N D. exists (Did a x :: m). split; [|now constructor]. cbn [app]. rewrite <- E.
  destruct a; try reflexivity. destruct D as [D|(id & ah & D)]; [contradiction|discriminate].
Qed.
Lemma grown_in h h' d : grown h h' -> ~ neutral d -> In d (lately h') -> In d (lately h).
Proof.
  intros (m & E & F) N K. rewrite E in K. apply in_app_or in K. destruct K as [K|K]; [|exact K].
  rewrite Forall_forall in F. exfalso. apply N. now apply F.
Qed.
Lemma grown_incl h h' d : grown h h' -> In d (lately h) -> In d (lately h').
Proof. intros (m & E & F) K. rewrite E. apply in_or_app. now right. Qed.
Ltac grow := repeat (apply grown_more; [|exact I|first [left; exact I|right; now do 2 eexists]]); try apply grown_refl.

Lemma open_okw f o (Q : list deed -> ret -> Prop) h :
  (forall h', open_calls h' = open_calls h -> grown h h' -> Q h' (RBool false)) ->
  (forall h' id, open_calls h' = open_calls h -> grown h h' -> Q h' (RHandle id)) ->
  okw Q h (open_archive_api L f o).
Proof.
  intros HF HS.
  assert (F : forall h' e, open_calls h' = open_calls h -> grown h h' -> okw Q h' (Ffi.fail e)).
  { intros h' e E1 E2. unfold Ffi.fail. apply okw_act; [exact I|]. intros []. apply okw_ret.
    apply HF; [exact E1|]. grow. exact E2. }
  unfold open_archive_api. destruct f as [d|]; [|apply F; [reflexivity|grow]].
  destruct o; cbn [negb]; [|apply F; [reflexivity|grow]].
  destruct (to_str d) as [path|]; [|apply F; [reflexivity|grow]].
  apply okw_act; [exact I|]. intros [file|]; [|apply F; [reflexivity|grow]].
  destruct (open_archive L file) as [a|e|] eqn:E; [|apply F; [reflexivity|grow]|exact I].
  unfold new_id, finish. apply okw_act; [exact I|]. intros []. apply okw_act; [exact I|]. intros [id|]; [|exact I].
  apply okw_act; [exact I|]. intros []. apply okw_act; [exact I|]. intros []. apply okw_act.
  { exists file. cbn [ah_path ah_archive lately]. split; [|exact E]. auto 6 using in_eq, in_cons. }
  intros []. apply okw_act; [exact I|]. intros []. apply okw_act; [exact I|]. intros []. apply okw_ret. apply HS; [reflexivity|].
  grow.
Qed.

Lemma open_good f o : good (COpenArchive f o).
Proof.
  intros h rest E1 E2. cbn [api]. apply open_okw; intros; (split; [congruence|exact I]).
Qed.

Definition told (d : deed) : option bool :=
  match d with Did a x => match a in act A return A -> option bool with AExists _ => fun b => Some b | _ => fun _ => None end x end.
Definition told_write (d : deed) : option bool :=
  match d with Did a x => match a in act A return A -> option bool with AWriteDisk _ _ => fun b => Some b | _ => fun _ => None end x end.
Ltac no_write := intros (p0 & d0 & Hin); cbn in Hin; repeat (destruct Hin as [Hin|Hin]; [discriminate|]); contradiction.

Lemma create_good f dis n o : good (CCreateArchive f dis n o).
Proof.
  intros h rest E1 E2. cbn [api]. unfold create_archive_api.
  assert (F : forall e, okw (fits (CCreateArchive f dis n o) rest) h (Ffi.fail e)).
  { intros e. unfold Ffi.fail. apply okw_act; [exact I|]. intros []. apply okw_ret. split; [exact E1|].
    cbn [lately]. rewrite E2. unfold reports. split; [left; left; reflexivity|].
    split; [intros [h0 H0]; discriminate|]. split; intros _ (p & [H2|[]]); discriminate. }
  destruct f as [d|]; [|apply F]. destruct o; cbn [negb]; [|apply F].
  destruct (((n =? 0) || negb (N.land n (n - 1) =? 0)) || (n <? 4)) eqn:En; [apply F|]. apply size_ok in En.
  destruct (to_str d) as [path|] eqn:Ed; [|apply F]. apply str_name in Ed. clear F. cbv zeta.
  set (c := CCreateArchive (Some d) dis n true) in *.
  set (create := match build L md5 _ [] with Ok arc => _ | Err e => _ | Panic => _ end).
  apply okw_act; [exact I|]. intros ex.
  set (h1 := Did (AExists path) ex :: h).
  assert (O1 : open_calls h1 = c :: rest) by exact E1.
  assert (L1 : lately h1 = [Did (AExists path) ex]) by (unfold h1; cbn [lately]; now rewrite E2).
  (* failing right away *)
  assert (F : forall e, (dis = 1 -> ex = true -> e = 183) -> (dis = 5 -> ex = false -> e = 2) -> okw (fits c rest) h1 (Ffi.fail e)).
  { intros e K1 K5. unfold Ffi.fail. apply okw_act; [exact I|]. intros []. apply okw_ret. split; [exact O1|].
    cbn [lately]. rewrite L1. unfold c, reports. split; [left; left; reflexivity|].
    split; [intros [h0 H0]; discriminate|]. split; intros H1 (p & [H2|[H2|[]]]); try discriminate.
    - apply (f_equal told) in H2. injection H2 as Hx. rewrite (K1 H1 Hx).
      split; [left; reflexivity|]. split; [reflexivity|]. no_write.
    - apply (f_equal told) in H2. injection H2 as Hx. rewrite (K5 H1 Hx).
      split; [left; reflexivity|]. split; [reflexivity|]. no_write. }
  (* opening what exists *)
  assert (Op : dis = 4 -> ex = true -> okw (fits c rest) h1 (open_archive_api L (Some d) true)).
  { intros K4 Kx. apply open_okw.
    - intros h' O' _. split; [congruence|]. unfold c, reports. split; [left; left; reflexivity|].
      split; [intros [h0 H0]; discriminate|]. split; intros H1; rewrite K4 in H1; discriminate.
    - intros h' id O' I'. split; [congruence|]. unfold c, reports. split; [right; now exists id|].
      split; [intros _; right; split; [exact K4|]; exists path; apply (grown_incl _ _ _ I'); rewrite L1, Kx; now left|].
      split; intros H1; rewrite K4 in H1; discriminate. }
  (* writing *)
  assert (Cr : to_be_written dis ex -> okw (fits c rest) h1 create).
  { intros T. unfold create.
    assert (T1 : dis = 1 -> ex = false) by (intros K; rewrite K in T; exact T).
    assert (T5 : dis = 5 -> ex = true) by (intros K; rewrite K in T; exact T).
    destruct (build L md5 _ []) as [arc|e|] eqn:Eb; [|apply F; intros Kd Kx|exact I].
    2: { rewrite (T1 Kd) in Kx. discriminate. }
    2: { rewrite (T5 Kd) in Kx. discriminate. }
    apply okw_act.
    { exists c, rest. split; [exact O1|]. unfold c, licence. rewrite L1. split; [exact Ed|]. split; [reflexivity|].
      split; [exact En|]. split; [exact Eb|]. exists ex. now split. }
    intros ok. set (h2 := Did (AWriteDisk path arc) ok :: h1).
    assert (O2 : open_calls h2 = c :: rest) by exact O1.
    assert (L2 : lately h2 = [Did (AWriteDisk path arc) ok; Did (AExists path) ex]) by (unfold h2; cbn [lately]; now rewrite L1).
    assert (N2 : forall h' b p, grown h2 h' -> In (Did (AExists p) b) (lately h') -> b = ex).
    { intros h' b p G K. apply (grown_in _ _ _ G) in K; [|intros []]. rewrite L2 in K.
      destruct K as [K|[K|[]]]; [discriminate|]. apply (f_equal told) in K. now injection K. }
    assert (N3 : forall h' (r : ret) (X Y : Prop), grown h2 h' ->
      (dis = 1 -> (exists p, In (Did (AExists p) true) (lately h')) -> X) /\
      (dis = 5 -> (exists p, In (Did (AExists p) false) (lately h')) -> Y)).
    { intros h' r X Y G. split; intros Kd (p & Kp); exfalso; apply (N2 _ _ _ G) in Kp.
      - rewrite (T1 Kd) in Kp. discriminate.
      - rewrite (T5 Kd) in Kp. discriminate. }
    destruct ok.
    - apply open_okw.
      + intros h' O' G. split; [congruence|]. unfold c, reports. split; [left; left; reflexivity|].
        split; [intros [h0 H0]; discriminate|]. apply N3; [exact (RBool true)|exact G].
      + intros h' id O' G. split; [congruence|]. unfold c, reports. split; [right; now exists id|].
        split; [intros _; left; exists path, arc; apply (grown_incl _ _ _ G); rewrite L2; now left|].
        apply N3; [exact (RBool true)|exact G].
    - unfold Ffi.fail. apply okw_act; [exact I|]. intros []. apply okw_ret. split; [exact O2|].
      unfold c, reports. split; [left; left; reflexivity|].
      split; [intros [h0 H0]; discriminate|]. apply N3; [exact (RBool true)|]. grow. }
  assert (F' : forall e, (dis <> 1) -> (dis <> 5) -> okw (fits c rest) h1 (Ffi.fail e)).
  { intros e K1 K5. apply F; intros; contradiction. }
  clearbody create. destruct dis as [|dis]; [apply F'; discriminate|].
  destruct dis as [[[]|[]|]|[[]|[]|]|]; try (apply F'; discriminate).
  - destruct ex; [apply Cr; reflexivity|]. apply F; [discriminate|reflexivity].
  - destruct ex; [apply Op; reflexivity|apply Cr; reflexivity].
  - apply Cr. exact I.
  - destruct ex; [apply F; [reflexivity|discriminate]|apply Cr; reflexivity].
Qed.

Lemma extract_good a f d : good (CExtract a f d).
Proof.
  intros h rest E1 E2. cbn [api]. unfold extract_api. set (c := CExtract a f d) in *.
  assert (F : forall e, okw (fits c rest) h (Ffi.fail e)).
  { intros e. unfold Ffi.fail. apply okw_act; [exact I|]. intros []. apply okw_ret. split; [exact E1|].
    cbn [lately]. rewrite E2. right. split; [reflexivity|]. no_write. }
  destruct f as [n|]; [|apply F]. destruct d as [d|]; [|apply F]. destruct (N.eqb_spec a 0) as [E|E]; [apply F|].
  destruct (to_str n) as [name|] eqn:En; [|apply F]. apply str_name in En.
  destruct (to_str d) as [path|] eqn:Ed; [|apply F]. apply str_name in Ed. clear F.
  unfold with_archive, handle_to_id. apply N.eqb_neq in E. rewrite E. unfold locked.
  apply okw_act; [exact I|]. intros []. apply okw_pbind. apply okw_act; [exact I|]. intros o.
  set (h1 := Did (AArchMod a same) o :: Did (ALock ARCHIVES) tt :: h).
  assert (O1 : open_calls h1 = c :: rest) by exact E1.
  assert (L1 : lately h1 = [Did (AArchMod a same) o; Did (ALock ARCHIVES) tt]) by (unfold h1; cbn [lately]; now rewrite E2).
  set (Q := fun h r => okw (fits c rest) h (! AUnlock ARCHIVES; Ret r)).
  assert (F : forall e, okw Q h1 (Ffi.fail e)).
  { intros e. unfold Ffi.fail, Q. apply okw_act; [exact I|]. intros []. apply okw_ret. apply okw_act; [exact I|]. intros []. apply okw_ret. split; [exact O1|].
    cbn [lately]. rewrite L1. right. split; [reflexivity|]. no_write. }
  destruct o as [ah|]; [|apply F]. destruct (read_file L (ah_archive ah) name) as [data|e|] eqn:Er; [|apply F|exact I].
  apply okw_act.
  { exists c, rest. split; [exact O1|]. unfold c, licence. split; [exact Ed|]. exists name, ah, same. rewrite L1. auto. }
  intros ok. destruct ok; unfold finish, Ffi.fail; (apply okw_act; [exact I|]); intros []; apply okw_ret; unfold Q;
    (apply okw_act; [exact I|]); intros []; apply okw_ret; (split; [exact O1|]); cbn [lately]; rewrite L1.
  - left. split; [reflexivity|]. exists path, data. cbn [In]. tauto.
  - right. split; [reflexivity|]. intros (p0 & d0 & Hin); cbn in Hin. destruct Hin as [Hin|[Hin|[Hin|[Hin|[Hin|[]]]]]]; try discriminate.
    apply (f_equal told_write) in Hin. discriminate.
Qed.

(** A recorded call. *)
Lemma recorded_okw {R} c (k : ret -> prog R) Q h : good c ->
  (forall r h', open_calls h' = open_calls h -> okw Q h' (k r)) -> okw Q h (recorded c (api L md5 sha1 crc32 rd c) k).
Proof.
  intros G K. unfold recorded. apply okw_act; [exact I|]. intros past. apply okw_pbind.
  eapply okw_mono; [|apply (G _ (open_calls h)); reflexivity].
  intros h' r [O Rp]. apply okw_act.
  - split; [now exists (open_calls h)|exact Rp].
  - intros []. apply K. cbn [open_calls]. now rewrite O.
Qed.

Lemma enum_good a m z cb : (forall n, Forall good (fst (cb n))) -> good (CEnumFiles a m z cb).
Proof.
  intros Hcb h rest E1 _. cbn [api]. set (run := fun (n : bytes) (k : bool -> prog ret) => _).
  set (c := CEnumFiles a m z cb) in *. set (same_calls := fun (h : list deed) (_ : ret) => open_calls h = c :: rest).
  apply (okw_mono same_calls). { intros h' r O. split; [exact O|exact I]. }
  assert (Hrun : forall n (k : bool -> prog ret) h, open_calls h = c :: rest ->
    (forall b h', open_calls h' = c :: rest -> okw same_calls h' (k b)) -> okw same_calls h (run n k)).
  { intros n k h0 O K. unfold run. specialize (Hcb n). destruct (cb n) as [cs b]. cbn [fst] in Hcb. revert h0 O.
    induction cs as [|c' cs IH]; intros h0 O; [now apply K|]. inversion Hcb as [|? ? G1 G2]; subst.
    apply recorded_okw; [exact G1|]. intros r h' O'. apply (IH G2). congruence. }
  assert (Hloop : forall pattern names given h, open_calls h = c :: rest -> okw same_calls h (enum_loop pattern run names given)).
  { intros pattern names. induction names as [|n t IH]; intros given0 h0 O; cbn [enum_loop].
    - unfold finish. apply okw_act; [exact I|]. intros []. apply okw_ret. exact O.
    - destruct (enumerated pattern n); [|now apply IH]. apply Hrun; [exact O|]. intros [] h' O'; [now apply IH|].
      unfold finish. apply okw_act; [exact I|]. intros []. apply okw_ret. exact O'. }
  clearbody run. assert (F : forall e h, open_calls h = c :: rest -> okw same_calls h (Ffi.fail e)).
  { intros e h0 O. unfold Ffi.fail. apply okw_act; [exact I|]. intros []. apply okw_ret. exact O. }
  unfold enum_api, with_archive. destruct z; [now apply F|]. destruct (a =? 0); [now apply F|].
  match goal with |- okw _ _ (match ?x with _ => _ end) => destruct x end; [|now apply F].
  destruct (handle_to_id a); [|now apply F]. unfold locked. apply okw_act; [exact I|]. intros []. apply okw_pbind.
  apply (okw_mono same_calls). { intros h' r O. apply okw_act; [exact I|]. intros []. apply okw_ret. exact O. }
  apply okw_act; [exact I|]. intros [ah|]; [|now apply F]. destruct (list_files L (ah_archive ah)) as [l|e|]; [now apply Hloop| |exact I].
  unfold finish. apply okw_act; [exact I|]. intros []. apply okw_ret. exact E1.
Qed.

Lemma all_good : forall c, good c.
Proof.
  apply call_rect_nested; [|intros; now apply enum_good].
  intros c Hc. destruct c; try (destruct Hc; fail).
  - apply open_good.
  - apply create_good.
  - apply plain_good; [exact I|apply plain_close].
  - apply plain_good; [exact I|apply plain_open_file].
  - apply plain_good; [exact I|apply plain_close_file].
  - apply plain_good; [exact I|apply plain_read].
  - apply plain_good; [exact I|apply plain_size].
  - apply plain_good; [exact I|apply plain_seek].
  - apply plain_good; [exact I|apply plain_has].
  - apply plain_good; [exact I|apply plain_info].
  - apply plain_good; [exact I|apply plain_arch_name].
  - apply plain_good; [exact I|cbn [api]; unfold set_locale_api; pl].
  - apply plain_good; [exact I|cbn [api]; unfold get_locale_api; pl].
  - apply plain_good; [exact I|cbn [api]; unfold get_error_api; pl].
  - apply plain_good; [exact I|cbn [api]; unfold set_error_api; pl].
  - apply plain_good; [exact I|apply plain_file_name].
  - apply extract_good.
  - apply plain_good; [exact I|apply plain_verify_file].
  - apply plain_good; [exact I|apply plain_verify_archive].
Qed.
Definition outside (h : list deed) (_ : unit) : Prop := open_calls h = [].
Lemma run_okw cl : forall h, open_calls h = [] -> okw outside h (run L md5 sha1 crc32 rd cl).
Proof.
  induction cl as [|c k IH]; intros h O; cbn [run]; [exact O|].
  apply recorded_okw; [apply all_good|]. intros r h' O'. apply IH. congruence.
Qed.

(** ** Executions *)
Lemma journal_steps c j c' : journal c j c' -> steps c c'.
Proof.
  induction 1 as [|j c' t A a k x s H IH E C]; [constructor|].
  eapply steps_more; [exact IH|]. exists t, (Act a k), (k x). split; [exact E|]. split; [|reflexivity].
  exists x. split; [exact C|reflexivity].
Qed.
Lemma steps_journal c c' : steps c c' -> exists j, journal c j c'.
Proof.
  induction 1 as [c|c c' c'' H [j IH] (t & p & p' & E & N & S)]; [exists []; constructor|].
  destruct p as [r| |A a k]; try contradiction. destruct N as (x & C & ->).
  exists ((t, Did a x) :: j). destruct c'' as [s ps]. cbn [fst snd] in *. subst ps. now apply j_more.
Qed.

Definition begin_of clients : state := (initial, map (run L md5 sha1 crc32 rd) clients).
Lemma deeds_same t d j : deeds t ((t, d) :: j) = d :: deeds t j.
Proof. unfold deeds. cbn [filter fst]. now rewrite Nat.eqb_refl. Qed.
Lemma deeds_other t t' d j : t' <> t -> deeds t ((t', d) :: j) = deeds t j.
Proof. intros H. unfold deeds. cbn [filter fst]. apply Nat.eqb_neq in H. now rewrite H. Qed.
Lemma in_deeds t d j : In d (deeds t j) <-> In (t, d) j.
Proof.
  unfold deeds. rewrite in_map_iff. split.
  - intros ((t', d') & E & K). apply filter_In in K. destruct K as [K E']. cbn in E, E'. apply Nat.eqb_eq in E'. now subst.
  - intros K. exists (t, d). split; [reflexivity|]. apply filter_In. split; [exact K|]. cbn. apply Nat.eqb_refl.
Qed.
Lemma in_lately d l : In d (lately l) -> In d l.
Proof.
  induction l as [|[A a x] l IH]; cbn [lately]; [auto|]. intros K.
  assert (K' : In d (Did a x :: lately l) \/ False) by (destruct a; cbn in K |- *; tauto).
  destruct K' as [[K'|K']|[]]; [now left|right; auto].
Qed.

Lemma journal_okw clients j c : journal (begin_of clients) j c ->
  forall t p, nth_error (snd c) t = Some p -> okw outside (deeds t j) p.
Proof.
  induction 1 as [|j c' t A a k x s H IH E C]; intros t0 p E0.
  - unfold begin_of in E0. cbn [snd] in E0. rewrite nth_error_map in E0. destruct (nth_error clients t0) as [cl|]; [|discriminate].
    injection E0 as <-. now apply run_okw.
  - cbn [snd] in E0. rewrite nth_set_nth in E0. destruct (Nat.eqb_spec t0 t) as [->|N].
    + rewrite E in E0. injection E0 as <-. rewrite deeds_same. apply (IH t _ E).
    + rewrite deeds_other by congruence. now apply IH.
Qed.

Definition checked (d : deed) (h : list deed) : Prop := match d with Did a _ => check a h end.
Lemma journal_checked clients t d j c : journal (begin_of clients) ((t, d) :: j) c -> checked d (deeds t j).
Proof.
  intros H. remember ((t, d) :: j) as J eqn:EJ. destruct H as [|j' c' t' A a k x s H E C]; [discriminate|].
  injection EJ as <- <- <-. cbn [checked]. apply (journal_okw _ _ _ H t' _ E).
Qed.
Lemma journal_prefix clients t d j : forall J c, journal (begin_of clients) J c -> forall m, J = m ++ (t, d) :: j ->
  exists c', journal (begin_of clients) ((t, d) :: j) c'.
Proof.
  intros J c H. induction H as [|j0 c' t0 A a k x s H IH E C]; intros m Em.
  - destruct m; discriminate.
  - destruct m as [|y m]; cbn [app] in Em.
    + exists (s, set_nth (snd c') t0 (k x)). rewrite <- Em. now apply j_more.
    + injection Em as _ Em. eapply IH. exact Em.
Qed.

(** The archives of the handles. *)
Definition explained (j : list (nat * deed)) (d : deed) : Prop :=
  match d with
  | Did a x =>
      match a in act A return A -> Prop with
      | AArchMod id _ => fun x => match x with Some ah => exists t, In (t, Did (AArchIns id ah) tt) j | None => True end
      | _ => fun _ => True
      end x
  end.
Lemma archs_kept {A} (a : act A) t s x s' : can a t s x s' ->
  match a with AArchIns _ _ | AArchMod _ _ | AArchDel _ => False | _ => True end -> s_archs s' = s_archs s.
Proof.
  destruct a; cbn [can]; intros H K; try contradiction; try (now subst); try (now (destruct H as [_ ->])).
  destruct (s_next s + 1 <? M64); destruct H as [_ ->]; reflexivity.
Qed.
Lemma journal_archs clients j c : journal (begin_of clients) j c ->
  (forall id ah, s_archs (fst c) id = Some ah -> exists t, In (t, Did (AArchIns id ah) tt) j) /\
  (forall t d, In (t, d) j -> explained j d).
Proof.
  induction 1 as [|j c' t A a k x s H [IH1 IH2] E C]; [split; [discriminate|contradiction]|].
  assert (W : pre L md5 sha1 crc32 rd a (start_ghost t) \/ exists g, pre L md5 sha1 crc32 rd a g).
  { right. destruct (reachable_inv L md5 sha1 crc32 rd clients c') as (G & ops & _ & _ & _ & _ & W & _).
    - unfold reachable. exact (journal_steps _ _ _ H).
    - specialize (W t _ E). cbn [wf] in W. exists (G t). apply W. }
  assert (V : forall id ah, s_archs (fst c') id = Some ah -> genuine L ah).
  { destruct (reachable_inv L md5 sha1 crc32 rd clients c') as (G & ops & V & _).
    - unfold reachable. exact (journal_steps _ _ _ H).
    - apply (v_gen L _ _ V). }
  assert (W' : exists g, pre L md5 sha1 crc32 rd a g) by (destruct W as [W|W]; [now exists (start_ghost t)|exact W]). clear W.
  destruct W' as [g W].
  assert (Up : forall id ah, (exists t', In (t', Did (AArchIns id ah) tt) j) -> exists t', In (t', Did (AArchIns id ah) tt) ((t, Did a x) :: j)).
  { intros id ah [t' K]. exists t'. now right. }
  assert (Up' : forall d, explained j d -> explained ((t, Did a x) :: j) d).
  { intros [B b y]. unfold explained. destruct b; auto. destruct y; auto. }
  split.
  - cbn [fst]. intros id ah K.
    destruct a; try (rewrite (archs_kept _ _ _ _ _ C I) in K; now apply Up, IH1); cbn [can] in C.
    + subst s. cbn [s_archs set_archs] in K. destruct (upd_cases (s_archs (fst c')) id0 (Some h) id) as [[-> E']|[N E']]; rewrite E' in K.
      * injection K as <-. exists t. destruct x. now left.
      * now apply Up, IH1.
    + destruct C as [_ ->]. cbn [s_archs set_archs] in K.
      destruct (upd_cases (s_archs (fst c')) id0 (option_map f (s_archs (fst c') id0)) id) as [[-> E']|[N E']]; rewrite E' in K.
      * destruct (s_archs (fst c') id0) as [ah0|] eqn:Ea; [|discriminate]. cbn [option_map] in K. injection K as <-.
        cbn [pre] in W. destruct W as [_ W]. rewrite (W ah0) by (eapply V; exact Ea). now apply Up, IH1.
      * now apply Up, IH1.
    + destruct C as [_ ->]. cbn [s_archs set_archs] in K.
      destruct (upd_cases (s_archs (fst c')) id0 None id) as [[-> E']|[N E']]; rewrite E' in K; [discriminate|now apply Up, IH1].
  - intros t0 d [K|K]; [|now apply Up', (IH2 t0)]. injection K as <- <-.
    destruct a; try exact I. cbn [can] in C. destruct C as [-> _]. cbn [explained].
    destruct (s_archs (fst c') id) as [ah|] eqn:Ea; [|exact I]. apply Up. now apply IH1.
Qed.

Lemma journal_loaded clients j c : journal (begin_of clients) j c -> forall t id f ah,
  In (t, Did (AArchMod id f) (Some ah)) j -> loaded L j id ah.
Proof.
  intros H t id f ah K. destruct (journal_archs _ _ _ H) as [_ X]. specialize (X _ _ K). cbn [explained] in X.
  destruct X as [t' X]. destruct (in_split _ _ X) as (m & m' & Em).
  destruct (journal_prefix clients t' _ m' _ _ H m Em) as [c' H'].
  pose proof (journal_checked _ _ _ _ _ H') as (file & F1 & F2).
  exists t', file. split; [exact X|]. split; [|exact F2]. rewrite Em. apply in_or_app. right. right.
  apply in_deeds, in_lately. exact F1.
Qed.

(** ** The theorems *)
Lemma writes clients j c t path data ok : journal (begin_of clients) ((t, Did (AWriteDisk path data) ok) :: j) c ->
  exists cl rest, open_calls (deeds t j) = cl :: rest /\ may_write L md5 j (lately (deeds t j)) cl path data.
Proof.
  intros H. pose proof (journal_checked _ _ _ _ _ H) as (cl & rest & O & Li). exists cl, rest. split; [exact O|].
  destruct cl; try contradiction.
  - exact Li.
  - unfold licence in Li. unfold may_write. destruct fname as [n|]; [|contradiction]. destruct dest as [d|]; [|contradiction].
    destruct Li as (N1 & name & ah & f & N2 & Ln & Rf). split; [exact N1|]. exists name, ah, f. split; [exact N2|].
    split; [exact Ln|]. split; [|exact Rf].
    assert (H' : exists c', journal (begin_of clients) j c').
    { remember ((t, Did (AWriteDisk path data) ok) :: j) as J eqn:EJ. destruct H as [|j' c' t' A b k x s H E C]; [discriminate|].
      assert (j' = j) as <- by congruence. now exists c'. }
    destruct H' as [c' H']. apply (journal_loaded _ _ _ H' t a f). apply in_deeds, in_lately. rewrite Ln. now left.
Qed.
Lemma ends clients j c t cl past r : journal (begin_of clients) ((t, Did (AEnd cl past r) tt) :: j) c ->
  (exists rest, open_calls (deeds t j) = cl :: rest) /\ reports (lately (deeds t j)) cl r.
Proof. exact (journal_checked _ _ _ _ _). Qed.
End FfiWrites.
