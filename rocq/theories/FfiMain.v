(** * What the invariants give for finished calls. *)
From Verif Require Import Bytes Compress Archive Ffi SpecFfi SpecAnswers FfiWf FfiInv FfiFacts FfiLive FfiReads FfiAnswers.
Open Scope N_scope.

Section Main.
Variable L : codecs.
Variable md5 sha1 : bytes -> bytes.
Variable crc32 : bytes -> N.
Variable rd : archive -> N -> N -> N.

(** ** All reachable states *)
Lemma nth_set_nth {A} (l : list A) i x j : nth_error (set_nth l i x) j =
  if Nat.eqb j i then match nth_error l i with Some _ => Some x | None => None end else nth_error l j.
Proof.
  revert i j. induction l as [|y l IH]; intros [|i] [|j]; cbn; try reflexivity.
  - now destruct (Nat.eqb j i).
  - apply IH.
Qed.

Theorem reachable_inv clients c : reachable L md5 sha1 crc32 rd clients c ->
  exists G ops, inv L (fst c) G /\ hist L (fst c) G ops /\ extra (fst c) G /\ answers L md5 sha1 crc32 rd (fst c) G ops /\
    (forall t p, nth_error (snd c) t = Some p -> wf L md5 sha1 crc32 rd (fun g _ => idle g) (G t) p) /\
    (forall t, nth_error (snd c) t = None -> g_st (G t) = []).
Proof.
  unfold reachable. remember (initial, map (run L md5 sha1 crc32 rd) clients) as c0 eqn:E0.
  intros H. induction H as [c|c c1 c2 H IH St]; subst.
  - exists start_ghost, []. cbn [fst snd]. split; [apply inv_initial|]. split; [apply hist_initial|]. split; [apply extra_initial|]. split; [apply answers_initial|].
    split; [|reflexivity]. intros t p E. rewrite nth_error_map in E. destruct (nth_error clients t) as [cl|]; [|discriminate].
    injection E as <-. apply run_wf. exists 0, 0. reflexivity.
  - destruct (IH eq_refl) as (G & ops & I & Hh & X & Y & W & W'). destruct St as (t & p & p' & E1 & E2 & E3).
    pose proof (W t p E1) as Wp. unfold next in E2. destruct p as [r| |A a k]; try contradiction.
    destruct E2 as (x & Hc & ->). cbn [wf] in Wp. destruct Wp as [Hp Hk].
    destruct (hist_step L md5 sha1 crc32 rd a t _ _ x G ops I Hh Hp Hc) as (ops' & Hh' & Gr).
    exists (updn G t (gnext a x (G t))), ops'. split; [eapply inv_step; eassumption|]. split; [exact Hh'|].
    split; [eapply extra_step; eassumption|]. split; [eapply answers_step; eassumption|]. split.
    + intros t' q Eq. rewrite E3, nth_set_nth in Eq.
      destruct (updn_cases G t (gnext a x (G t)) t') as [[-> E]|[Hn E]]; rewrite E.
      * rewrite Nat.eqb_refl, E1 in Eq. injection Eq as <-. apply Hk. eapply inv_poss; eassumption.
      * apply Nat.eqb_neq in Hn. rewrite Hn in Eq. eauto.
    + intros t' Eq. rewrite E3, nth_set_nth in Eq.
      destruct (updn_cases G t (gnext a x (G t)) t') as [[-> E]|[Hn E]].
      * rewrite Nat.eqb_refl, E1 in Eq. discriminate.
      * rewrite E. apply W'. apply Nat.eqb_neq in Hn. now rewrite Hn in Eq.
Qed.

(** ** Handles *)
Lemma handles_new clients c : reachable L md5 sha1 crc32 rd clients c ->
  NoDup (handles (s_log (fst c))) /\ ~ In 0 (handles (s_log (fst c))).
Proof.
  intros H. destruct (reachable_inv _ _ H) as (G & ops & I & _). pose proof (v_core _ _ _ I) as C. split; [apply C|].
  intros K. destruct (c_ret _ _ _ _ _ C 0 K). lia.
Qed.
Lemma refused_file clients c e h : reachable L md5 sha1 crc32 rd clients c -> In e (s_log (fst c)) ->
  on_file (e_call e) h -> G_nofile (e_past e) h -> refused e.
Proof. intros H He. destruct (reachable_inv _ _ H) as (G & ops & I & _). apply (v_log _ _ _ I e He). Qed.
Lemma refused_archive clients c e h : reachable L md5 sha1 crc32 rd clients c -> In e (s_log (fst c)) ->
  on_archive (e_call e) h -> G_noarch (e_past e) h -> refused e.
Proof. intros H He. destruct (reachable_inv _ _ H) as (G & ops & I & _). apply (v_log _ _ _ I e He). Qed.
Lemma refused_either clients c e h : reachable L md5 sha1 crc32 rd clients c -> In e (s_log (fst c)) ->
  on_either (e_call e) h -> G_nofile (e_past e) h -> G_noarch (e_past e) h -> refused e.
Proof. intros H He. destruct (reachable_inv _ _ H) as (G & ops & I & _). apply (v_log _ _ _ I e He). Qed.

Lemma closed_refused clients c e h : reachable L md5 sha1 crc32 rd clients c -> In e (s_log (fst c)) ->
  (on_file (e_call e) h \/ on_archive (e_call e) h \/ on_either (e_call e) h) ->
  (exists e0, In e0 (e_past e) /\ (closed_file e0 h \/ closed_archive e0 h)) -> refused e.
Proof.
  intros H He Ho (e0 & Hp & Hc).
  assert (F : G_nofile (e_past e) h) by (right; left; exists e0; tauto).
  assert (A : G_noarch (e_past e) h) by (right; exists e0; tauto).
  destruct Ho as [Ho|[Ho|Ho]]; [eapply refused_file|eapply refused_archive|eapply refused_either]; eassumption.
Qed.
Lemma kind_refused clients c e h : reachable L md5 sha1 crc32 rd clients c -> In e (s_log (fst c)) ->
  (on_file (e_call e) h /\ (exists e0, In e0 (e_past e) /\ opened_archive e0 h)) \/
  (on_archive (e_call e) h /\ (exists e0 a, In e0 (e_past e) /\ opened_file e0 a h)) -> refused e.
Proof.
  intros H He [[Ho (e0 & Hp & K)]|[Ho (e0 & a & Hp & K)]].
  - eapply refused_file; [eassumption|exact He|exact Ho|]. right. left. exists e0. auto.
  - eapply refused_archive; [eassumption|exact He|exact Ho|]. right. exists e0. eauto.
Qed.
Lemma zero_refused clients c e : reachable L md5 sha1 crc32 rd clients c -> In e (s_log (fst c)) ->
  (on_file (e_call e) 0 \/ on_archive (e_call e) 0 \/ on_either (e_call e) 0) -> refused e.
Proof.
  intros H He [Ho|[Ho|Ho]].
  - eapply refused_file; [eassumption|exact He|exact Ho|now left].
  - eapply refused_archive; [eassumption|exact He|exact Ho|now left].
  - eapply refused_either; [eassumption|exact He|exact Ho|now left|now left].
Qed.

(** ** Files of a closed archive *)
Lemma closed_archive_refuses clients c e e1 e2 a h : reachable L md5 sha1 crc32 rd clients c -> In e (s_log (fst c)) ->
  In e2 (e_past e) -> closed_archive e2 a -> In e1 (e_past e2) -> opened_file e1 a h ->
  (on_file (e_call e) h \/ on_archive (e_call e) h \/ on_either (e_call e) h) -> refused e.
Proof.
  intros H He H2 K2 H1 K1 Ho.
  assert (F : G_nofile (e_past e) h) by (right; right; exists e2, a, e1; auto).
  assert (A : G_noarch (e_past e) h).
  { destruct (reachable_inv _ _ H) as (G & ops & _ & _ & [P _] & _).
    pose proof (p_ev _ _ P e He) as Cl. right. exists e1. split; [exact (Cl e2 H2 e1 H1)|eauto]. }
  destruct Ho as [Ho|[Ho|Ho]]; [eapply refused_file|eapply refused_archive|eapply refused_either]; eassumption.
Qed.

(** ** Cells *)
Lemma cells clients c e : reachable L md5 sha1 crc32 rd clients c -> In e (s_log (fst c)) -> cells_ok e.
Proof. intros H He. destruct (reachable_inv _ _ H) as (G & ops & I & _). apply (v_log _ _ _ I e He). Qed.

(** ** Reads *)
Definition onh (h : N) (l : list use) : list use := filter (fun u => fst (fst u) =? h) l.
Fixpoint lchain (f0 : fhandle) (l : list use) (c : fhandle) : Prop :=
  match l with
  | [] => c = f0
  | (_, f, f') :: r => c = f' /\ lchain f0 r f
  end.
Lemma onh_app h l m : onh h (l ++ m) = onh h l ++ onh h m.
Proof. apply filter_app. Qed.

Lemma born_none_cur ops h : chained ops -> born ops h = None -> cur ops h = None.
Proof.
  induction ops as [|[i f|t i f f'|a x] r IH]; cbn; auto.
  - intros [_ H]. destruct (i =? h); [discriminate|auto].
  - intros (H1 & _ & H2) Hb. destruct (i =? h) eqn:E; [|auto]. apply N.eqb_eq in E. subst i. rewrite IH in H1 by assumption. discriminate.
  - intros [_ H]. auto.
Qed.

Lemma chain_of ops h t f0 : chained ops -> born ops h = Some f0 ->
  (forall t' f f', In (OMod t' h f f') ops -> t' = t) ->
  exists c, cur ops h = Some c /\ lchain f0 (onh h (mine t ops)) c.
Proof.
  induction ops as [|[i f|t' i f f'|a x] r IH]; cbn [chained born cur]; intros Hc Hb Ht; [discriminate| | |].
  - destruct Hc as [Hn Hc]. cbn [mine flat_map mine_op app]. destruct (i =? h) eqn:E.
    + injection Hb as <-. exists f. split; [reflexivity|]. apply N.eqb_eq in E. subst i.
      assert (K : onh h (mine t r) = []); [|unfold mine in K; rewrite K; reflexivity].
      clear IH Ht. induction r as [|[i f1|t1 i f1 f1'|a x] r IH]; cbn in *; auto.
      * destruct (i =? h); [discriminate|]. apply IH; tauto.
      * destruct (i =? h) eqn:E; [discriminate|]. destruct (Nat.eqb t1 t); cbn; [rewrite E|]; apply IH; tauto.
      * apply IH; tauto.
    + apply IH; auto. intros t' g g' K. apply (Ht t' g g'). now right.
  - destruct Hc as (Hcur & _ & Hc). destruct (i =? h) eqn:E.
    + apply N.eqb_eq in E. subst i. exists f'. split; [reflexivity|].
      assert (t' = t) as -> by (apply (Ht t' f f'); now left).
      cbn [mine flat_map mine_op]. rewrite Nat.eqb_refl. cbn [app onh filter fst]. rewrite N.eqb_refl. cbn [lchain].
      split; [reflexivity|]. destruct IH as (c & K1 & K2); auto.
      * intros t' g g' K. apply (Ht t' g g'). now right.
      * rewrite Hcur in K1. injection K1 as <-. exact K2.
    + destruct IH as (c & K1 & K2); auto.
      * intros t1 g g' K. apply (Ht t1 g g'). now right.
      * exists c. split; [exact K1|]. cbn [mine flat_map mine_op]. destruct (Nat.eqb t' t); [|exact K2].
        cbn [app onh filter fst]. rewrite E. exact K2.
  - destruct Hc as [_ Hc]. destruct IH as (c & K1 & K2); auto.
    + intros t1 g g' K. apply (Ht t1 g g'). now right.
    + exists c. auto.
Qed.

Fixpoint total (l : list (N * bytes)) : N := match l with [] => 0 | (_, x) :: r => lenN x + total r end.
Lemma in_order_app d l : forall p n x, in_order d p l ->
  x = firstn (N.to_nat (N.min n (lenN d - (p + total l)))) (skipn (N.to_nat (p + total l)) d) ->
  in_order d p (l ++ [(n, x)]).
Proof.
  induction l as [|[m y] l IH]; intros p n x; cbn [in_order total app].
  - intros _. rewrite N.add_0_r. auto.
  - intros [H1 H2] Hx. split; [exact H1|]. apply IH; [exact H2|]. rewrite Hx. now rewrite !N.add_assoc.
Qed.
Lemma total_app l n x : total (l ++ [(n, x)]) = total l + lenN x.
Proof. induction l as [|[m y] l IH]; cbn [total app]; [lia|]. rewrite IH. lia. Qed.

Lemma lchain_app f0 l : forall m c, lchain f0 (l ++ m) c -> exists c1, lchain f0 m c1 /\ lchain c1 l c.
Proof.
  induction l as [|[[h f] f'] l IH]; intros m c; cbn [app lchain].
  - intros H. exists c. auto.
  - intros [-> H]. destruct (IH _ _ H) as (c1 & K1 & K2). exists c1. auto.
Qed.
Lemma lchain_same c1 l : forall c, lchain c1 l c -> Forall (fun u : use => snd u = snd (fst u)) l -> c = c1.
Proof.
  induction l as [|[[h f] f'] l IH]; intros c; cbn [lchain]; [auto|].
  intros [-> H] Hf. inversion Hf as [|? ? Hu Hr]; subst. cbn in Hu. subst f'. now apply IH.
Qed.
Lemma Forall_filter {A} (P : A -> Prop) f l : Forall P l -> Forall P (filter f l).
Proof. induction 1; cbn; [constructor|]. destruct (f x); [constructor|]; auto. Qed.
Lemma onh_not_named c h l : Forall (fun u : use => names c (fst (fst u))) l -> ~ names c h -> onh h l = [].
Proof.
  intros H Hn. induction H as [|u l Hu _ IH]; cbn; [reflexivity|]. destruct (fst (fst u) =? h) eqn:E; [|exact IH].
  apply N.eqb_eq in E. rewrite E in Hu. contradiction.
Qed.

Lemma given_len n f : fh_pos f <= lenN (fh_data f) -> lenN (given n f) = bytes_to_read n f.
Proof.
  intros H. unfold given, bytes_to_read. unfold lenN in *. rewrite firstn_length, skipn_length. lia.
Qed.

Lemma pieces_cons t h e log : pieces t h (e :: log) = pieces t h log ++ read_piece t h e.
Proof. unfold pieces. cbn [rev]. rewrite flat_map_app. cbn [flat_map]. now rewrite app_nil_r. Qed.

Lemma explained_reads t h f0 : fh_pos f0 = 0 -> forall log R c, explained t log R -> lchain f0 (onh h R) c ->
  (forall e p hi m, In e log -> e_call e <> CSeek h p hi m) ->
  fh_data c = fh_data f0 /\ fh_pos c = total (pieces t h log) /\ fh_pos c <= lenN (fh_data f0) /\
  in_order (fh_data f0) 0 (pieces t h log).
Proof.
  intros H0 log. induction log as [|e log IH]; intros R c Hx Hl Hs; cbn [explained] in Hx.
  - subst R. cbn in Hl. subst c. cbn. repeat split; lia.
  - assert (Hs' : forall e p hi m, In e log -> e_call e <> CSeek h p hi m) by (intros; apply Hs; now right).
    rewrite pieces_cons. destruct (Nat.eqb (e_thread e) t) eqn:Et.
    2:{ assert (read_piece t h e = []) as ->.
        { unfold read_piece. destruct (e_call e); try reflexivity. destruct (e_ret e); try reflexivity. now rewrite Et. }
        rewrite app_nil_r. eauto. }
    destruct Hx as (l1 & l2 & -> & [Hn He] & Hx). rewrite onh_app in Hl.
    destruct (lchain_app _ _ _ _ Hl) as (c1 & K1 & K2).
    destruct (IH _ _ Hx K1 Hs') as (I1 & I2 & I3 & I4).
    assert (Hid : onh h l1 = [] \/ Forall (fun u : use => snd u = snd (fst u)) (onh h l1) -> read_piece t h e = [] ->
      fh_data c = fh_data f0 /\ fh_pos c = total (pieces t h log ++ read_piece t h e) /\ fh_pos c <= lenN (fh_data f0) /\
      in_order (fh_data f0) 0 (pieces t h log ++ read_piece t h e)).
    { intros Hor ->. rewrite app_nil_r. assert (c = c1) as ->; [|auto].
      destruct Hor as [E|E]; [rewrite E in K2; exact K2|]. eapply lchain_same; eassumption. }
    destruct (e_call e) as [| | | | |h' buffer n| |h' pos high method| | | | | | | | | | | |] eqn:Ec;
      try (apply Hid; [right; now apply Forall_filter|unfold read_piece; now rewrite Ec]).
    + destruct He as [(f & -> & Er)|[-> Er]].
      * unfold read_piece. rewrite Ec, Er, Et. cbn [andb]. cbn [onh filter fst] in K2. destruct (h' =? h) eqn:Eh.
        -- cbn [lchain] in K2. destruct K2 as [-> <-]. unfold moved. cbn [fh_data set_pos fh_pos].
           assert (Hlen : lenN (given n f) = bytes_to_read n f) by (apply given_len; rewrite I1; exact I3).
           rewrite total_app, Hlen. split; [exact I1|]. split; [lia|]. split; [unfold bytes_to_read; rewrite I1; lia|].
           apply in_order_app; [exact I4|]. rewrite N.add_0_l, <- I2. unfold given, bytes_to_read. now rewrite I1.
        -- cbn [lchain] in K2. subst c. rewrite app_nil_r. auto.
      * apply Hid; [now left|]. unfold read_piece. rewrite Ec. destruct (e_ret e) as [| | x| | | |] eqn:E; try reflexivity. exfalso. now apply (Er x).
    + apply Hid; [left|unfold read_piece; now rewrite Ec]. eapply onh_not_named; [exact Hn|].
      intros [K|K]; [|destruct K]. cbn in K. subst h'. eapply Hs; [now left|exact Ec].
Qed.

(** With seeks. *)
Fixpoint to_pos (d : bytes) (h p : N) (l : list event) (q : N) : Prop :=
  match l with
  | [] => q = p
  | e :: r => exists p', works d h p e p' /\ to_pos d h p' r q
  end.
Lemma to_pos_app d h l : forall p q e q', to_pos d h p l q -> works d h q e q' -> to_pos d h p (l ++ [e]) q'.
Proof.
  induction l as [|e0 l IH]; intros p q e q'; cbn [app to_pos].
  - intros -> H. exists q'. auto.
  - intros (p' & K1 & K2) H. exists p'. split; [exact K1|]. eapply IH; eassumption.
Qed.
Lemma to_pos_follows d h l : forall p q, to_pos d h p l q -> follows d h p l.
Proof.
  induction l as [|e l IH]; intros p q; cbn [to_pos follows]; [auto|].
  intros (p' & K1 & K2). exists p'. split; [exact K1|]. eapply IH. exact K2.
Qed.
Lemma calls_of_cons t e log : calls_of t (e :: log) = calls_of t log ++ (if Nat.eqb (e_thread e) t then [e] else []).
Proof. unfold calls_of. cbn [rev]. rewrite filter_app. cbn [filter]. now destruct (Nat.eqb (e_thread e) t). Qed.

Lemma seek_works d h e f pos high m : e_call e = CSeek h pos high m -> i32 pos -> (forall z, high = Some z -> i32 z) ->
  fh_data f = d -> fh_pos f <= lenN d ->
  match seek_target f pos high m with
  | None => e_ret e = RNum 0xFFFFFFFF None
  | Some (Ok _) => let p := seek_pos f pos high m in
         e_ret e = RNum (w32 p) (option_map (fun _ => Z.of_N (N.shiftr p 32)) high)
  | _ => False
  end ->
  works d h (fh_pos f) e (seek_pos f pos high m).
Proof.
  intros Ec Hp Hh <- Hl. unfold works. rewrite Ec.
  destruct (seek_target f pos high m) as [[q| |]|] eqn:E; try contradiction; cbn zeta; intros ->.
  - rewrite N.eqb_refl. unfold seek_pos. rewrite E. set (p' := N.min q (lenN (fh_data f))).
    split; [unfold p'; lia|]. split.
    + intros _. split; [unfold w32; reflexivity|]. split.
      * intros Hn. destruct high as [z|]; [|contradiction]. cbn. now rewrite N.shiftr_div_pow2.
      * unfold seek_target in E. unfold seek_goal.
        set (off := match high with Some h0 => Z.lor pos (Z.shiftl h0 32) | None => pos end) in E.
        set (off' := match high with None => pos | Some h0 => (h0 * 2 ^ 32 + pos mod 2 ^ 32)%Z end).
        assert (Hoff : (0 <= pos)%Z \/ high = None -> off = off' /\ (- 2 ^ 63 <= off' < 2 ^ 63)%Z).
        { intros Hor. unfold off, off'. unfold i32 in Hp. destruct high as [z|].
          - destruct Hor as [Hor|]; [|discriminate]. specialize (Hh z eq_refl). unfold i32 in Hh.
            rewrite Z.shiftl_mul_pow2 by lia. rewrite (Z.mod_small pos) by lia. split; [|lia].
            assert (Hz : Z.land pos (z * 2 ^ 32) = 0%Z).
            { apply Z.bits_inj'. intros i Hi. rewrite Z.land_spec, Z.bits_0.
              destruct (Z.ltb_spec i 32).
              - rewrite Z.mul_pow2_bits_low by lia. apply andb_false_r.
              - destruct (Z.eq_dec pos 0) as [->|]; [now rewrite Z.bits_0|].
                rewrite (Z.bits_above_log2 pos i); [reflexivity|lia|]. apply Z.log2_lt_pow2; [lia|].
                apply Z.lt_le_trans with (2 ^ 32)%Z; [lia|]. apply Z.pow_le_mono_r; lia. }
            rewrite <- Z.lxor_lor by exact Hz. rewrite <- Z.add_nocarry_lxor by exact Hz. lia.
          - split; [reflexivity|lia]. }
        assert (M : forall z, (0 <= z < 2 ^ 63)%Z -> Z.to_N (z mod 2 ^ 64) = Z.to_N z).
        { intros z Hz. rewrite Z.mod_small; [reflexivity|lia]. }
        destruct m as [|[[]|[]|]]; try discriminate.
        -- exists off'. split; [reflexivity|]. intros Hz Hor. destruct (Hoff Hor) as [E1 E2]. injection E as <-.
           unfold p'. rewrite E1, M by lia. reflexivity.
        -- eexists. split; [reflexivity|]. intros Hz Hor. destruct (Hoff Hor) as [E1 E2].
           destruct (_ && _)%bool eqn:B in E; [|discriminate]. injection E as <-. unfold p'. rewrite <- E1 in *.
           apply andb_true_iff in B. destruct B as [B1 B2]. apply Z.leb_le in B1. apply Z.ltb_lt in B2.
           rewrite M by lia. reflexivity.
        -- eexists. split; [reflexivity|]. intros Hz Hor. destruct (Hoff Hor) as [E1 E2].
           destruct (_ && _)%bool eqn:B in E; [|discriminate]. injection E as <-. unfold p'. rewrite <- E1 in *.
           apply andb_true_iff in B. destruct B as [B1 B2]. apply Z.leb_le in B1. apply Z.ltb_lt in B2.
           rewrite M by lia. reflexivity.
    + intros [E1 _]. right. exact E1.
  - rewrite N.eqb_refl. unfold seek_pos. rewrite E. split; [exact Hl|]. split; [intros [K|K]; contradiction|]. auto.
Qed.

Lemma explained_follows t h f0 : fh_pos f0 = 0 -> forall log R c, explained t log R -> lchain f0 (onh h R) c ->
  (forall e p hi m, In e log -> e_call e = CSeek h p hi m -> i32 p /\ (forall z, hi = Some z -> i32 z)) ->
  fh_data c = fh_data f0 /\ fh_pos c <= lenN (fh_data f0) /\
  to_pos (fh_data f0) h 0 (calls_of t log) (fh_pos c).
Proof.
  intros H0 log. induction log as [|e log IH]; intros R c Hx Hl Hs; cbn [explained] in Hx.
  - subst R. cbn in Hl. subst c. cbn. repeat split; lia.
  - assert (Hs' : forall e p hi m, In e log -> e_call e = CSeek h p hi m -> i32 p /\ (forall z, hi = Some z -> i32 z))
      by (intros e' p hi m K; exact (Hs e' p hi m (or_intror K))).
    rewrite calls_of_cons. destruct (Nat.eqb (e_thread e) t) eqn:Et; [|rewrite app_nil_r; eauto].
    destruct Hx as (l1 & l2 & -> & [Hn He] & Hx). rewrite onh_app in Hl.
    destruct (lchain_app _ _ _ _ Hl) as (c1 & K1 & K2).
    destruct (IH _ _ Hx K1 Hs') as (I1 & I2 & I3).
    assert (Hid : onh h l1 = [] \/ Forall (fun u : use => snd u = snd (fst u)) (onh h l1) -> works (fh_data f0) h (fh_pos c1) e (fh_pos c1) ->
      fh_data c = fh_data f0 /\ fh_pos c <= lenN (fh_data f0) /\ to_pos (fh_data f0) h 0 (calls_of t log ++ [e]) (fh_pos c)).
    { intros Hor Hw. assert (c = c1) as ->.
      { destruct Hor as [E|E]; [rewrite E in K2; exact K2|]. eapply lchain_same; eassumption. }
      split; [exact I1|]. split; [exact I2|]. eapply to_pos_app; eassumption. }
    destruct (e_call e) as [| | | | |h' buffer n| |h' pos high method| | | | | | | | | | | |] eqn:Ec;
      try (apply Hid; [right; now apply Forall_filter|unfold works; now rewrite Ec]).
    + destruct He as [(f & -> & Er)|[-> Er]].
      * cbn [onh filter fst] in K2. destruct (h' =? h) eqn:Eh.
        -- cbn [lchain] in K2. destruct K2 as [-> <-]. unfold moved. cbn [fh_data set_pos fh_pos].
           assert (Hlen : lenN (given n f) = bytes_to_read n f) by (apply given_len; rewrite I1; exact I2).
           split; [exact I1|]. split; [unfold bytes_to_read; rewrite I1; lia|].
           eapply to_pos_app; [exact I3|]. unfold works. rewrite Ec, Er, Eh, Hlen. split; [|reflexivity].
           unfold given, bytes_to_read. now rewrite I1.
        -- cbn [lchain] in K2. subst c. split; [exact I1|]. split; [exact I2|]. eapply to_pos_app; [exact I3|].
           unfold works. now rewrite Ec, Er, Eh.
      * apply Hid; [now left|]. unfold works. rewrite Ec.
        destruct (e_ret e) as [| | x| | | |] eqn:E; try reflexivity. exfalso. now apply (Er x).
    + destruct He as [(f & -> & Er)|[-> Er]].
      * cbn [onh filter fst] in K2. destruct (h' =? h) eqn:Eh.
        -- cbn [lchain] in K2. destruct K2 as [-> <-]. cbn [fh_data set_pos fh_pos]. apply N.eqb_eq in Eh. subst h'.
           destruct (Hs e pos high method (or_introl eq_refl) Ec) as [S1 S2].
           pose proof (seek_works (fh_data f0) h e f pos high method Ec S1 S2 I1 I2 Er) as W.
           split; [exact I1|]. split; [|eapply to_pos_app; eassumption].
           unfold seek_pos. rewrite I1. destruct (seek_target f pos high method) as [[q| |]|]; lia.
        -- cbn [lchain] in K2. subst c. split; [exact I1|]. split; [exact I2|]. eapply to_pos_app; [exact I3|].
           unfold works. rewrite Ec. destruct (e_ret e); try reflexivity. now rewrite Eh.
      * apply Hid; [now left|]. unfold works. rewrite Ec, Er. destruct (h' =? h); [|reflexivity].
        split; [exact I2|]. split; [intros [K|K]; contradiction|]. auto.
Qed.

Lemma explained_named t log : forall R u, explained t log R -> In u R ->
  exists e, In e log /\ e_thread e = t /\ names (e_call e) (fst (fst u)).
Proof.
  induction log as [|e log IH]; intros R u Hx Hu; cbn [explained] in Hx; [subst R; destruct Hu|].
  destruct (Nat.eqb (e_thread e) t) eqn:Et.
  - destruct Hx as (l1 & l2 & -> & [Hn _] & Hx). apply in_app_or in Hu. destruct Hu as [Hu|Hu].
    + rewrite Forall_forall in Hn. exists e. split; [now left|]. split; [now apply Nat.eqb_eq|auto].
    + destruct (IH _ _ Hx Hu) as (e' & K1 & K2). exists e'. split; [now right|exact K2].
  - destruct (IH _ _ Hx Hu) as (e' & K1 & K2). exists e'. split; [now right|exact K2].
Qed.


Lemma finished_idle c G : finished c -> (forall t p, nth_error (snd c) t = Some p -> wf L md5 sha1 crc32 rd (fun g _ => idle g) (G t) p) ->
  (forall t, nth_error (snd c) t = None -> g_st (G t) = []) -> forall t, g_st (G t) = [].
Proof.
  intros F W W' t. destruct (nth_error (snd c) t) as [p|] eqn:E; [|auto].
  pose proof (W _ _ E) as K. unfold finished in F. rewrite Forall_forall in F.
  apply nth_error_In in E. rewrite (F p E) in K. cbn [wf] in K. destruct K as (e & l & ->). reflexivity.
Qed.

Lemma arcs_from_disk s G ops : hist L s G ops -> forall a y, option_map ah_archive (arc ops a) = Some y -> from_disk L y.
Proof.
  intros J a y. destruct (arc ops a) as [x|] eqn:E; [|discriminate]. intros K. injection K as <-.
  apply (j_agen _ _ _ _ J _ _ E).
Qed.
Lemma reads clients c : reachable L md5 sha1 crc32 rd clients c -> finished c ->
  exists arcs : N -> option archive, (forall a y, arcs a = Some y -> from_disk L y) /\
  forall e0 a h t, In e0 (s_log (fst c)) -> opened_file e0 a h ->
  (forall e, In e (s_log (fst c)) -> on_file (e_call e) h \/ on_either (e_call e) h -> e_thread e = t) ->
  (forall e p hi m, In e (s_log (fst c)) -> e_call e <> CSeek h p hi m) ->
  exists y n out name d, e_call e0 = COpenFile a (Some n) out /\ holds n name /\
    arcs a = Some y /\ read_file L y name = Ok d /\ in_order d 0 (pieces t h (s_log (fst c))).
Proof.
  intros H F. destruct (reachable_inv _ _ H) as (G & ops & I & J & X & _ & W & W').
  pose proof (finished_idle _ _ F W W') as Z. exists (fun a => option_map ah_archive (arc ops a)). split; [apply (arcs_from_disk _ _ _ J)|].
  intros e0 a h t He Ho Ht Hs. destruct (j_open _ _ _ _ J _ _ _ He Ho) as (f & n & out & B1 & B3 & B4 & B5).
  destruct (j_born _ _ _ _ J _ _ B1) as (y & B6 & fi & _ & B7 & _ & B2 & _). rewrite B3 in B6.
  exists (ah_archive y), n, out, (fh_name f), (fh_data f). split; [exact B4|]. split; [now apply str_holds|].
  split; [now rewrite B6|]. split; [exact B7|].
  assert (Hall : forall t', explained t' (s_log (fst c)) (mine t' ops)).
  { intros t'. destruct (j_thread _ _ _ _ J t') as (R & K1 & K2 & _). rewrite Z in K1. cbn [flat_map app] in K1. now rewrite K1. }
  destruct (chain_of ops h t f (j_chain _ _ _ _ J) B1) as (cf & _ & K).
  - intros t' g g' Hi. destruct (explained_named t' _ _ (h, g, g') (Hall t')) as (e & E1 & E2 & E3).
    + apply in_flat_map. eexists. split; [exact Hi|]. cbn. rewrite Nat.eqb_refl. now left.
    + rewrite <- E2. apply Ht; assumption.
  - destruct (explained_reads t h f B2 _ _ _ (Hall t) K Hs) as (_ & _ & _ & R). exact R.
Qed.
Lemma reads_and_seeks clients c : reachable L md5 sha1 crc32 rd clients c -> finished c ->
  exists arcs : N -> option archive, (forall a y, arcs a = Some y -> from_disk L y) /\
  forall e0 a h t, In e0 (s_log (fst c)) -> opened_file e0 a h ->
  (forall e, In e (s_log (fst c)) -> on_file (e_call e) h \/ on_either (e_call e) h -> e_thread e = t) ->
  (forall e p hi m, In e (s_log (fst c)) -> e_call e = CSeek h p hi m -> i32 p /\ (forall z, hi = Some z -> i32 z)) ->
  exists y n out name d, e_call e0 = COpenFile a (Some n) out /\ holds n name /\
    arcs a = Some y /\ read_file L y name = Ok d /\ follows d h 0 (calls_of t (s_log (fst c))).
Proof.
  intros H F. destruct (reachable_inv _ _ H) as (G & ops & I & J & X & _ & W & W').
  pose proof (finished_idle _ _ F W W') as Z. exists (fun a => option_map ah_archive (arc ops a)). split; [apply (arcs_from_disk _ _ _ J)|].
  intros e0 a h t He Ho Ht Hs. destruct (j_open _ _ _ _ J _ _ _ He Ho) as (f & n & out & B1 & B3 & B4 & B5).
  destruct (j_born _ _ _ _ J _ _ B1) as (y & B6 & fi & _ & B7 & _ & B2 & _). rewrite B3 in B6.
  exists (ah_archive y), n, out, (fh_name f), (fh_data f). split; [exact B4|]. split; [now apply str_holds|].
  split; [now rewrite B6|]. split; [exact B7|].
  assert (Hall : forall t', explained t' (s_log (fst c)) (mine t' ops)).
  { intros t'. destruct (j_thread _ _ _ _ J t') as (R & K1 & K2 & _). rewrite Z in K1. cbn [flat_map app] in K1. now rewrite K1. }
  destruct (chain_of ops h t f (j_chain _ _ _ _ J) B1) as (cf & _ & K).
  - intros t' g g' Hi. destruct (explained_named t' _ _ (h, g, g') (Hall t')) as (e & E1 & E2 & E3).
    + apply in_flat_map. eexists. split; [exact Hi|]. cbn. rewrite Nat.eqb_refl. now left.
    + rewrite <- E2. apply Ht; assumption.
  - destruct (explained_follows t h f B2 _ _ _ (Hall t) K Hs) as (_ & _ & R). eapply to_pos_follows. exact R.
Qed.
Lemma reads_succeed clients c : reachable L md5 sha1 crc32 rd clients c -> finished c ->
  forall e e1 a h n, In e (s_log (fst c)) -> e_call e = CReadFile h true n -> In e1 (e_past e) -> opened_file e1 a h ->
  (forall e2, In e2 (s_log (fst c)) -> e_call e2 <> CCloseFile h /\ e_call e2 <> CCloseArchive a) ->
  exists x, e_ret e = RData x.
Proof.
  intros H F e e1 a h n He Hc H1 Ho Hn. destruct (reachable_inv _ _ H) as (G & ops & I & J & [_ X] & _ & W & W').
  pose proof (finished_idle _ _ F W W') as Z.
  destruct (l_read _ _ X _ _ _ _ _ He Hc H1 Ho) as [K|(cl & Hcl & [(e2 & K1 & K2)|(t & fr & K & _)])]; [exact K| |].
  - destruct (Hn e2 K1). destruct Hcl; congruence.
  - rewrite Z in K. destruct K.
Qed.

(** ** Answers *)
Lemma answers_fit clients c : reachable L md5 sha1 crc32 rd clients c -> finished c ->
  exists w, fits_history L w (s_log (fst c)) /\
  forall e h, In e (s_log (fst c)) -> h <> 0 -> good_ask (e_call e) ->
  (asks_archive (e_call e) h ->
     (refused_handle (e_call e) (e_ret e) (e_err e) /\ no_archive (s_log (fst c)) e h) \/ tells_archive L md5 sha1 crc32 rd w e h) /\
  (asks_file (e_call e) h ->
     (refused_handle (e_call e) (e_ret e) (e_err e) /\ no_file (s_log (fst c)) e h) \/ tells_file w e h) /\
  (on_either (e_call e) h ->
     tells_file w e h \/ (no_file (s_log (fst c)) e h /\
       ((refused_handle (e_call e) (e_ret e) (e_err e) /\ no_archive (s_log (fst c)) e h) \/ tells_archive L md5 sha1 crc32 rd w e h))).
Proof.
  intros H F. destruct (reachable_inv _ _ H) as (G & ops & I & J & X & Y & W & W').
  pose proof (finished_idle _ _ F W W') as Z.
  exists (mkW (fun a => option_map (fun x => (ah_path x, ah_archive x)) (arc ops a))
              (fun h => option_map (fun f => (fh_archive f, fh_name f)) (born ops h))).
  split.
  - split; [|split]; cbn [w_archive w_file].
    + intros a p y. destruct (arc ops a) as [x|] eqn:E; [|discriminate]. intros K. injection K as _ <-.
      apply (j_agen _ _ _ _ J _ _ E).
    + intros e h He Ho. destruct (j_aopen _ _ _ _ J _ _ He Ho) as (x & d & E & Es & Ec).
      exists d, (ah_path x), (ah_archive x). rewrite E. split; [now apply str_holds|]. split; [reflexivity|exact Ec].
    + intros e a h He Ho. destruct (j_open _ _ _ _ J _ _ _ He Ho) as (f & d & out & E & Ea & Ec & Es).
      exists d, (fh_name f), out. rewrite E, <- Ea. split; [now apply str_holds|]. split; [reflexivity|now rewrite Ea].
  - intros e h He H0 Hk. destruct (n_ans _ _ _ _ _ _ _ _ Y e He h H0 Hk) as (K1 & K2 & K3).
    assert (A : amiss (fst c) G e h -> no_archive (s_log (fst c)) e h).
    { intros M e1 I1 O1. destruct (M e1 I1 O1) as [(e2 & E1 & E2)|(t & fr & E1 & _)]; [eauto|]. rewrite Z in E1. destruct E1. }
    assert (B : fmiss (fst c) G e h -> no_file (s_log (fst c)) e h).
    { intros M e1 a I1 O1. destruct (M e1 a I1 O1) as (cl & Hcl & [(e2 & E1 & E2)|(t & fr & E1 & _)]).
      - exists e2. split; [exact E1|]. rewrite E2. exact Hcl.
      - rewrite Z in E1. destruct E1. }
    set (w := mkW _ _).
    assert (C : aans L md5 sha1 crc32 rd ops e h -> tells_archive L md5 sha1 crc32 rd w e h).
    { intros (x & E & K). exists (ah_path x), (ah_archive x). split; [|exact K]. cbn. now rewrite E. }
    assert (D : fans ops e h -> tells_file w e h).
    { intros (f & E & K). destruct (j_born _ _ _ _ J _ _ E) as (y & Ey & fi & F1 & _ & F2 & _).
      exists (fh_archive f), (fh_name f), (ah_path y), (ah_archive y), fi. cbn. rewrite E, Ey, <- F2. auto. }
    split; [|split]; intros Hc.
    + destruct (K1 Hc) as [[M1 F1]|K]; auto.
    + destruct (K2 Hc) as [[M1 F1]|K]; auto.
    + destruct (K3 Hc) as [K|[M1 [[M2 F1]|K]]]; [left; auto|right|right]; (split; [auto|]); [left|right]; auto.
Qed.
End Main.
