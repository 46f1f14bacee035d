(** * Runs by computation: the examples and counterexamples of [PropAnswers]. *)
From Verif Require Import Bytes SpecListfile Adler Compress ToyCodec BlockTable Builder Archive Attributes DemoArchive Ffi SpecFfi SpecAnswers FfiWf FfiMain FfiDemo.
Open Scope N_scope.

(** ** Masks *)
Definition go_on (_ : bytes) : list call * bool := ([], true).
Definition lister (l : list bytes) : client :=
  open_then (fun a => calls (map (fun m => CEnumFiles a (Some m) false go_on) l)).

(** Between stars and without inner stars and question marks the mask means what
    it commonly means. *)
Lemma wild_lit x : (forall b, In b x -> b <> "*"%byte /\ b <> "?"%byte) -> forall v, wild (x ++ lit "*") v <-> exists r, v = x ++ r.
Proof.
  induction x as [|b x IH]; intros Hx v; cbn [app].
  - split; [intros _; now exists v|]. intros _. rewrite <- (app_nil_r v). apply (wild_star [] v []). constructor.
  - assert (Hx' : forall b, In b x -> b <> "*"%byte /\ b <> "?"%byte) by (intros c Hc; apply Hx; now right).
    destruct (Hx b (or_introl eq_refl)) as [N1 N2]. split.
    + intros K. inversion K as [|? ? ? ?|? ? ? ?|? ? s ? ? Hw]; subst; try congruence.
      apply (proj1 (IH Hx' s)) in Hw. destruct Hw as [r ->]. now exists r.
    + intros [r ->]. cbn [app]. constructor; [exact N1|exact N2|]. apply (proj2 (IH Hx' _)). now exists r.
Qed.
Lemma mask_agrees x d s : (forall b, In b x -> b <> "*"%byte /\ b <> "?"%byte) -> holds d ("*"%byte :: x ++ lit "*") -> ~ In x00 s ->
  (mask_matches (Some d) s <-> wild ("*"%byte :: x ++ lit "*") s).
Proof.
  intros Hx Hd Hs. 
  assert (F : filter (fun b => negb (beqb b "*"%byte)) ("*"%byte :: x ++ lit "*") = x).
  { cbn [filter]. change (beqb "*"%byte "*"%byte) with true. cbn [negb]. rewrite filter_app. cbn [filter lit].
    change (filter _ (lit "*")) with (@nil byte). rewrite app_nil_r.
    clear -Hx. induction x as [|b x IH]; [reflexivity|]. cbn [filter]. destruct (beqb b "*"%byte) eqn:E.
    - apply beqb_eq in E. destruct (Hx b (or_introl eq_refl)). contradiction.
    - cbn [negb]. f_equal. apply IH. intros c Hc. apply Hx. now right. }
  unfold mask_matches. split.
  - intros (_ & p & Hp & u & v & ->). assert (p = "*"%byte :: x ++ lit "*") as ->.
    { destruct Hp as [Z1 E1], Hd as [Z2 E2]. clear -Z1 E1 Z2 E2. revert Z1 E1 Z2 E2. generalize ("*"%byte :: x ++ lit "*"). intros q.
      revert p q. induction d as [|b d IH]; intros p q Z1 E1 Z2 E2.
      - destruct E1 as [<-|[r E1]]; [|destruct p; discriminate]. destruct E2 as [<-|[r E2]]; [reflexivity|destruct q; discriminate].
      - destruct p as [|b1 p], q as [|b2 q]; [reflexivity| | |].
        + destruct E1 as [E1|[r E1]]; [discriminate|]. injection E1 as -> ->.
          destruct E2 as [E2|[r' E2]]; injection E2 as <- _; exfalso; apply Z2; now left.
        + destruct E2 as [E2|[r E2]]; [discriminate|]. injection E2 as -> ->.
          destruct E1 as [E1|[r' E1]]; injection E1 as <- _; exfalso; apply Z1; now left.
        + assert (b1 = b /\ (d = p \/ exists r, d = p ++ x00 :: r)) as [-> E1'].
          { destruct E1 as [E1|[r E1]]; injection E1 as -> ->; eauto. }
          assert (b2 = b /\ (d = q \/ exists r, d = q ++ x00 :: r)) as [-> E2'].
          { destruct E2 as [E2|[r E2]]; injection E2 as -> ->; eauto. }
          f_equal. apply IH; auto; intros K; [apply Z1|apply Z2]; now right. }
    rewrite F. apply wild_star. apply (proj2 (wild_lit x Hx _)). now exists v.
  - intros K. split; [exact Hs|]. exists ("*"%byte :: x ++ lit "*"). split; [exact Hd|]. rewrite F.
    inversion K as [|? u v Hw Ep Es|? ? ? ?|? ? ? N1 ? ?]; subst; [|congruence].
    apply (proj1 (wild_lit x Hx v)) in Hw. destruct Hw as [r ->]. now exists u, r.
Qed.

Lemma wild_suffix x s : (forall b, In b x -> b <> "*"%byte /\ b <> "?"%byte) -> wild x s -> s = x.
Proof.
  revert s. induction x as [|b x IH]; intros s Hx K; inversion K as [|? ? ? ?|? ? ? ?|? ? ? N1 N2 Hw]; subst; auto.
  - destruct (Hx "*"%byte (or_introl eq_refl)). congruence.
  - destruct (Hx "?"%byte (or_introl eq_refl)). congruence.
  - f_equal. apply IH; [|exact Hw]. intros c Hc. apply Hx. now right.
Qed.
Lemma mask_run :
  exists c, reachable toy no_md5 no_md5 zero_crc full [lister [lit "*.t"; lit "?.txt"]] c /\ finished c /\
  exists e0 e1 e2, s_log (fst c) = [e2; e1; e0] /\ opened_archive e0 1 /\
    e_call e1 = CEnumFiles 1 (Some (lit "*.t")) false go_on /\ e_ret e1 = RNames [lit "dir\a.txt"; lit "dir\b.txt"; lit "d.txt"] /\
    e_call e2 = CEnumFiles 1 (Some (lit "?.txt")) false go_on /\ e_ret e2 = RNames [].
Proof.
  exists (demo_run [(0, 200)]%nat [lister [lit "*.t"; lit "?.txt"]]).
  split; [apply demo_run_reachable|]. split; [apply finishedb_sound; vm_compute; reflexivity|].
  do 3 eexists. split; [vm_compute; reflexivity|]. repeat split; vm_compute; reflexivity.
Qed.
Lemma masks_astray :
  exists L md5 sha1 crc32 rd clients c, reachable L md5 sha1 crc32 rd clients c /\ finished c /\
  (exists e a m cb shown n, In e (s_log (fst c)) /\ e_call e = CEnumFiles a (Some m) false cb /\
     e_ret e = RNames shown /\ In n shown /\ ~ wild m n) /\
  (exists e a m cb shown n, In e (s_log (fst c)) /\ e_call e = CEnumFiles a (Some m) false cb /\
     (forall x, snd (cb x) = true) /\ e_ret e = RNames shown /\ ~ In n shown /\ wild m n /\
     exists e0 cb0 shown0, In e0 (s_log (fst c)) /\ e_call e0 = CEnumFiles a (Some (lit "*.t")) false cb0 /\
       e_ret e0 = RNames shown0 /\ In n shown0).
Proof.
  destruct mask_run as (c & H1 & H2 & e0 & e1 & e2 & El & Ho & C1 & R1 & C2 & R2).
  exists toy, no_md5, no_md5, zero_crc, full, [lister [lit "*.t"; lit "?.txt"]], c.
  split; [exact H1|]. split; [exact H2|]. rewrite El. split.
  - exists e1, 1, (lit "*.t"), go_on, [lit "dir\a.txt"; lit "dir\b.txt"; lit "d.txt"], (lit "d.txt").
    split; [right; now left|]. split; [exact C1|]. split; [exact R1|]. split; [right; right; now left|].
    intros K. inversion K as [|? u v Hw Ep Es|? ? ? ?|? ? ? N1 ? ?].
    apply wild_suffix in Hw; [|vm_compute; intuition congruence]. subst v.
    apply (f_equal (@rev byte)) in Es. rewrite rev_app_distr in Es. vm_compute in Es. discriminate.
  - exists e2, 1, (lit "?.txt"), go_on, [], (lit "d.txt").
    split; [now left|]. split; [exact C2|]. split; [reflexivity|]. split; [exact R2|]. split; [intros []|]. split.
    + change (lit "?.txt") with ("?"%byte :: lit ".txt"). change (lit "d.txt") with ("d"%byte :: lit ".txt").
      apply wild_any. repeat (apply wild_one; [discriminate|discriminate|]). apply wild_end.
    + exists e1, go_on, [lit "dir\a.txt"; lit "dir\b.txt"; lit "d.txt"].
      split; [right; now left|]. split; [exact C1|]. split; [exact R1|]. right. right. now left.
Qed.

(** ** Sizes *)
Definition raw_disk (p : bytes) : option bytes := if bytes_eqb p mpq then Some raw_arc else None.
Definition raw_client : client :=
  open_then (fun a => file_then a (lit "raw.bin") (fun h => calls [CFileSize h true; CReadFile h true 10000])).
Definition raw_end : state := exec_all raw_disk [(0, 200)]%nat (initial, map (run toy no_md5 no_md5 zero_crc full) [raw_client]).
Lemma size_run :
  exists c, reachable toy no_md5 no_md5 zero_crc full [raw_client] c /\ finished c /\
  exists e1 e2 x, In e1 (s_log (fst c)) /\ In e2 (s_log (fst c)) /\
    e_call e1 = CFileSize 2 true /\ e_ret e1 = RNum 700 (Some 0%Z) /\
    (forall e, In e (s_log (fst c)) -> on_file (e_call e) 2 -> e = e1 \/ e = e2) /\
    e_call e2 = CReadFile 2 true 10000 /\ e_ret e2 = RData x /\ lenN x <> 700 /\ lenN x < 10000.
Proof.
  exists raw_end. split; [apply exec_all_sound|]. split; [apply finishedb_sound; vm_compute; reflexivity|].
  assert (K : exists e1 e2 e3 e4 x, s_log (fst raw_end) = [e2; e1; e3; e4] /\ 
    (e_call e3, e_call e4) = (COpenFile 1 (Some (lit "raw.bin")) true, COpenArchive (Some mpq) true) /\
    e_call e1 = CFileSize 2 true /\ e_ret e1 = RNum 700 (Some 0%Z) /\
    e_call e2 = CReadFile 2 true 10000 /\ e_ret e2 = RData x /\ negb (lenN x =? 700) && (lenN x <? 10000) = true).
  { do 5 eexists. split; [vm_compute; reflexivity|]. repeat (split; [vm_compute; reflexivity|]). vm_compute. reflexivity. }
  destruct K as (e1 & e2 & e3 & e4 & x & -> & K3 & K1 & R1 & K2 & R2 & B). injection K3 as K3 K4.
  apply andb_true_iff in B. destruct B as [B1 B2].
  exists e1, e2, x. split; [right; now left|]. split; [now left|]. split; [exact K1|]. split; [exact R1|]. split.
  - intros e [<-|[<-|[<-|[<-|[]]]]] Ho; auto; [rewrite K3 in Ho|rewrite K4 in Ho]; destruct Ho.
  - split; [exact K2|]. split; [exact R2|]. split; [|now apply N.ltb_lt].
    apply N.eqb_neq. now apply negb_true_iff.
Qed.

(** ** Verification of a file *)
Lemma verify_opened L md5 crc32 file y name fl e y' : open_archive L file = Ok y ->
  verify_file L md5 crc32 y name fl = Ok (e, y') -> (e = 0 <-> checks_out L md5 crc32 y name fl).
Proof. intros Ho. apply verify_file_means. exact (open_settled _ _ _ Ho). Qed.
Definition is_none {A} (o : option A) : bool := match o with None => true | _ => false end.
Lemma checks_no_attributes L md5 crc32 y name fl fi d : find_file y name = Ok (Some fi) -> read_file L y name = Ok d ->
  a_attrs y = None -> checks_out L md5 crc32 y name fl.
Proof.
  intros Hf Hr Ha. exists fi. split; [exact Hf|]. split; [|split].
  - intros _ _. exists d. auto.
  - intros _ x v (t & E & _). congruence.
  - intros _ x v (t & E & _). congruence.
Qed.
Lemma wrong_checksum :
  exists L md5 crc32 c f arc i b y d, c_crcs c = true /\ build L md5 c [f] = Ok arc /\
    open_archive L (Bytes.upd arc i b) = Ok y /\ read_file L y (pf_name f) = Ok d /\ adler32 d <> adler32 (pf_data f) /\
    lenN d = lenN (pf_data f) /\
    forall fl, checks_out L md5 crc32 y (pf_name f) fl.
Proof.
  destruct crc_unnoticed as (a & a' & d & H1 & H2 & H3 & H4 & H5 & H6 & H7).
  exists toy, no_md5, zero_crc, demo_cfg, crc_file, crc_arc, 66%nat, "!"%byte, a', d.
  split; [exact H1|]. split; [exact H2|]. split; [exact H4|]. split; [exact H6|]. split; [exact H7|].
  assert (K : match open_archive toy (Bytes.upd crc_arc 66 "!"%byte) with
              | Ok y => match find_file y (pf_name crc_file), read_file toy y (pf_name crc_file) with
                        | Ok (Some _), Ok d => is_none (a_attrs y) && (lenN d =? lenN (pf_data crc_file)) | _, _ => false end
              | _ => false end = true) by (vm_compute; reflexivity).
  rewrite H4, H6 in K. destruct (find_file a' (pf_name crc_file)) as [[fi|]| |] eqn:E; [|discriminate..].
  apply andb_true_iff in K. destruct K as [K1 K2]. split; [now apply N.eqb_eq|].
  intros fl. apply (checks_no_attributes toy no_md5 zero_crc a' _ fl fi d E H6). now destruct (a_attrs a').
Qed.
