(** * Facts about the builder: sectors, layout of the written files. *)
From Verif Require Import Bytes Crypto CryptoFacts HashTable BlockTable Header Compress
  SpecTables HashTableFacts TableMap SpecCompress CompressFacts Adler Listfile HetBet Builder.
Open Scope N_scope.

(** ** Cutting into sectors *)
Lemma firstn_skipn_lenN (d : bytes) n : (n <= length d)%nat ->
  lenN (firstn n d) = N.of_nat n /\ lenN (skipn n d) = lenN d - N.of_nat n.
Proof. intros H. unfold lenN. rewrite firstn_length, skipn_length. lia. Qed.

Lemma chunks_concat fuel ss d : 0 < ss -> (length d <= fuel)%nat -> concat (chunks fuel ss d) = d.
Proof.
  intros Hs. revert d. induction fuel as [|f IH]; intros d Hl.
  - destruct d; [reflexivity|cbn in Hl; lia].
  - cbn [chunks]. destruct d as [|b d]; [reflexivity|]. set (x := b :: d) in *.
    assert (Hx : (0 < length x)%nat) by (cbn; lia). clearbody x.
    cbn [concat]. rewrite IH; [apply firstn_skipn|].
    rewrite skipn_length. unfold lenN. lia.
Qed.

Lemma div_ceil_0 ss : 0 < ss -> div_ceil 0 ss = 0.
Proof. intros H. unfold div_ceil. apply N.div_small. lia. Qed.

Lemma div_ceil_step a ss : 0 < ss -> 0 < a -> div_ceil a ss = 1 + div_ceil (a - N.min ss a) ss.
Proof.
  intros H Ha. unfold div_ceil. destruct (N.le_gt_cases ss a) as [C|C].
  - rewrite N.min_l by lia. replace (a + ss - 1) with (1 * ss + (a - ss + ss - 1)) by lia.
    rewrite N.div_add_l by lia. reflexivity.
  - rewrite N.min_r by lia. rewrite N.sub_diag, N.add_0_l.
    rewrite (N.div_small (ss - 1)) by lia.
    replace (a + ss - 1) with (1 * ss + (a - 1)) by lia.
    rewrite N.div_add_l by lia. rewrite N.div_small by lia. reflexivity.
Qed.

Lemma chunks_count fuel ss d : 0 < ss -> (length d <= fuel)%nat ->
  lenN (chunks fuel ss d) = div_ceil (lenN d) ss.
Proof.
  intros Hs. revert d. induction fuel as [|f IH]; intros d Hl.
  - destruct d; [|cbn in Hl; lia]. cbn [chunks]. change (lenN (@nil byte)) with 0.
    rewrite div_ceil_0 by exact Hs. reflexivity.
  - cbn [chunks]. destruct d as [|b d].
    { change (lenN (@nil byte)) with 0. rewrite div_ceil_0 by exact Hs. reflexivity. }
    set (x := b :: d) in *.
    assert (Hx : (0 < length x)%nat) by (cbn; lia). clearbody x.
    rewrite lenN_cons.
    rewrite (div_ceil_step (lenN x)) by (unfold lenN in *; lia). rewrite IH.
    + f_equal. destruct (firstn_skipn_lenN x (N.to_nat (N.min ss (lenN x)))) as [_ ->];
        [unfold lenN; lia|]. rewrite N2Nat.id. reflexivity.
    + rewrite skipn_length. unfold lenN in *. lia.
Qed.

(** The shape of a cut: every sector is full except possibly the last. *)
Inductive cut (ss : N) : N -> list bytes -> Prop :=
| cut_nil : cut ss 0 []
| cut_cons total s t : 0 < lenN s -> lenN s = N.min total ss -> cut ss (total - lenN s) t ->
    cut ss total (s :: t).

Lemma chunks_cut fuel ss d : 0 < ss -> (length d <= fuel)%nat -> cut ss (lenN d) (chunks fuel ss d).
Proof.
  intros Hs. revert d. induction fuel as [|f IH]; intros d Hl.
  - destruct d; [apply cut_nil|cbn in Hl; lia].
  - cbn [chunks]. destruct d as [|b d]; [apply cut_nil|]. set (x := b :: d) in *.
    assert (Hx : (0 < length x)%nat) by (cbn; lia). clearbody x.
    destruct (firstn_skipn_lenN x (N.to_nat (N.min ss (lenN x)))) as [H1 H2]; [unfold lenN; lia|].
    rewrite N2Nat.id in H1, H2. apply cut_cons.
    + rewrite H1. unfold lenN. lia.
    + rewrite H1. lia.
    + rewrite H1, <- H2. apply IH. rewrite skipn_length. unfold lenN in *. lia.
Qed.

Lemma lenN_concat_cons (s : bytes) t : lenN (concat (s :: t)) = lenN s + lenN (concat t).
Proof. cbn [concat]. apply lenN_app. Qed.

(** ** Encrypting sector by sector *)
Fixpoint enc_each (key i : N) (l : list bytes) : list bytes :=
  match l with
  | [] => []
  | s :: t => encrypt_data s (w32 (key + w32 i)) :: enc_each key (i + 1) t
  end.

Lemma lenN_encrypt_data d k : lenN (encrypt_data d k) = lenN d.
Proof. unfold lenN. now rewrite encrypt_data_length. Qed.

Lemma enc_each_concat_length key l : forall i, lenN (concat (enc_each key i l)) = lenN (concat l).
Proof.
  induction l as [|s t IH]; intros i; cbn [enc_each]; [reflexivity|].
  rewrite !lenN_concat_cons, lenN_encrypt_data, IH. reflexivity.
Qed.

Lemma sector_offsets_shape at_ l : exists t, sector_offsets at_ l = w32 at_ :: t.
Proof. destruct l; cbn [sector_offsets]; eauto. Qed.

Lemma enc_sectors_step key ds data a b r i :
  enc_sectors key ds data (a :: b :: r) i =
  (s <- sub_chk a (w32 ds) ;;
   e <- sub_chk b (w32 ds) ;;
   if e <? s then Panic
   else match slice s (e - s) data with
        | None => Panic
        | Some sec => rest <- enc_sectors key ds data (b :: r) (i + 1) ;;
                      Ok (encrypt_data sec (w32 (key + w32 i)) ++ rest)
        end).
Proof. reflexivity. Qed.

Lemma enc_sectors_eq key ds l : forall p i,
  ds + lenN p + lenN (concat l) < M32 ->
  enc_sectors key ds (p ++ concat l) (sector_offsets (ds + lenN p) l) i
  = Ok (concat (enc_each key i l)).
Proof.
  induction l as [|s t IH]; intros p i H.
  - reflexivity.
  - rewrite lenN_concat_cons in H. cbn [sector_offsets].
    destruct (sector_offsets_shape (ds + lenN p + lenN s) t) as [r Er].
    pose proof (IH (p ++ s) (i + 1)) as IH'.
    rewrite lenN_app, N.add_assoc in IH'. specialize (IH' ltac:(lia)).
    rewrite Er in IH' |- *. rewrite enc_sectors_step.
    rewrite !w32_small by lia. unfold sub_chk.
    replace (ds + lenN p <? ds) with false by lia.
    replace (ds + lenN p + lenN s <? ds) with false by lia. cbn [bind].
    replace (ds + lenN p + lenN s - ds <? ds + lenN p - ds) with false by lia.
    replace (ds + lenN p - ds) with (lenN p) by lia.
    replace (ds + lenN p + lenN s - ds - lenN p) with (lenN s) by lia.
    cbn [concat]. rewrite slice_mid. rewrite app_assoc.
    rewrite w32_small in IH' by lia. fold (concat t).
    rewrite IH'. cbn [bind enc_each concat]. reflexivity.
Qed.

Section B.
Variable L : codecs.

Lemma store_form_result d m b x : store_form L d m = Ok (b, x) ->
  (x = false /\ b = d) \/ (x = true /\ m <> 0 /\ compress L d m = Ok b /\ b <> d).
Proof.
  unfold store_form. destruct (N.eqb_spec m 0) as [E|E]; cbn [orb].
  - intros H. apply Ok_inj in H. injection H as <- <-. auto.
  - destruct (lenN d =? 0).
    + intros H. apply Ok_inj in H. injection H as <- <-. auto.
    + destruct (compress L d m) as [c| |] eqn:C; cbn [bind]; try discriminate.
      destruct (bytes_eqb c d) eqn:B; intros H; apply Ok_inj in H; injection H as <- <-; [auto|].
      right. repeat split; auto. intros ->. rewrite bytes_eqb_refl in B. discriminate.
Qed.

Lemma store_form_le d m b x : store_form L d m = Ok (b, x) -> lenN b <= lenN d.
Proof.
  intros H. apply store_form_result in H as [[_ ->]|(_ & _ & H & _)]; [lia|].
  now apply compress_never_longer in H.
Qed.

Lemma store_sectors_le l m : forall bs x, store_sectors L l m = Ok (bs, x) ->
  length bs = length l /\ lenN (concat bs) <= lenN (concat l).
Proof.
  induction l as [|s t IH]; intros bs x H; cbn [store_sectors] in H.
  - apply Ok_inj in H. injection H as <- <-. split; [reflexivity|cbn; lia].
  - destruct (store_form L s m) as [[b x']| |] eqn:E; cbn [bind] in H; try discriminate.
    destruct (store_sectors L t m) as [[r y]| |] eqn:F; cbn [bind] in H; try discriminate.
    apply Ok_inj in H. injection H as <- <-. destruct (IH _ _ eq_refl) as [H1 H2].
    apply store_form_le in E. cbn [length]. split; [lia|]. rewrite !lenN_concat_cons. lia.
Qed.

(** ** Where each file ends up *)
Lemma write_files_layout c ss fs : forall pos body es,
  write_files L c ss fs pos = Ok (body, es) ->
  length es = length fs /\
  forall i f, nth_error fs i = Some f ->
    exists p out csize flags a b,
      write_file L c ss f p = Ok (out, csize, flags) /\
      nth_error es i = Some (p, block_entry f p csize flags) /\
      body = a ++ out ++ b /\ p = pos + lenN a.
Proof.
  induction fs as [|f fs IH]; intros pos body es H; cbn [write_files] in H.
  - apply Ok_inj in H. injection H as <- <-. split; [reflexivity|].
    intros [|i] g Hg; discriminate.
  - destruct (write_file L c ss f pos) as [[[out csize] flags]| |] eqn:E; cbn [bind] in H; try discriminate.
    destruct (write_files L c ss fs (pos + lenN out)) as [[rest es']| |] eqn:F; cbn [bind] in H;
      try discriminate.
    apply Ok_inj in H. injection H as <- <-.
    destruct (IH _ _ _ F) as [H1 H2]. split; [cbn; lia|].
    intros [|i] g Hg; cbn [nth_error] in *.
    + injection Hg as <-. exists pos, out, csize, flags, [], rest.
      split; [exact E|]. split; [reflexivity|]. split; [reflexivity|]. rewrite lenN_nil. lia.
    + destruct (H2 i g Hg) as (p & o & cs & fl & a & b & W & N1 & B & P).
      exists p, o, cs, fl, (out ++ a), b. split; [exact W|]. split; [exact N1|].
      split; [rewrite B, <- app_assoc; reflexivity|]. rewrite lenN_app. lia.
Qed.

(** One file ends where the next begins. *)
Lemma write_files_order c ss fs : forall pos body es,
  write_files L c ss fs pos = Ok (body, es) ->
  forall i j fi fj pi pj bi bj oi ci gi, (i < j)%nat ->
    nth_error fs i = Some fi -> nth_error fs j = Some fj ->
    nth_error es i = Some (pi, bi) -> nth_error es j = Some (pj, bj) ->
    write_file L c ss fi pi = Ok (oi, ci, gi) -> pi + lenN oi <= pj.
Proof.
  induction fs as [|f fs IH]; intros pos body es H; cbn [write_files] in H.
  - intros [|i] j ? ? ? ? ? ? ? ? ? _ Hf; discriminate.
  - destruct (write_file L c ss f pos) as [[[out csize] flags]| |] eqn:E; cbn [bind] in H; try discriminate.
    destruct (write_files L c ss fs (pos + lenN out)) as [[rest es']| |] eqn:F; cbn [bind] in H;
      try discriminate.
    apply Ok_inj in H. injection H as <- <-.
    intros [|i] [|j] fi fj pi pj bi bj oi ci gi Hij Hi Hj Ei Ej W; try lia; cbn [nth_error] in *.
    + injection Hi as <-. injection Ei as <- <-. rewrite E in W. apply Ok_inj in W.
      injection W as <- <- <-.
      destruct (proj2 (write_files_layout _ _ _ _ _ _ F) j fj Hj)
        as (p & o & cs & fl & a & b & _ & N1 & _ & P).
      rewrite Ej in N1. injection N1 as <- _. lia.
    + eapply (IH _ _ _ F i j); eauto. lia.
Qed.

Lemma write_files_body c ss fs : forall pos body es,
  write_files L c ss fs pos = Ok (body, es) ->
  Forall (fun e => pos <= fst e <= pos + lenN body) es.
Proof.
  intros pos body es H. destruct (write_files_layout _ _ _ _ _ _ H) as [H1 H2].
  apply Forall_forall. intros e He. apply In_nth_error in He as [i Hi].
  destruct (nth_error fs i) as [f|] eqn:Hf.
  - destruct (H2 i f Hf) as (p & o & cs & fl & a & b & _ & N1 & -> & ->).
    rewrite Hi in N1. injection N1 as ->. cbn [fst]. rewrite !lenN_app. lia.
  - exfalso. apply nth_error_None in Hf. assert (i < length es)%nat by (apply nth_error_Some; congruence). lia.
Qed.

(** ** Names in the hash table *)
Definition file_key (f : pending) : key := (pf_name f, pf_locale f).

Lemma add_files_all fs : forall t i, i + lenN fs <= M32 ->
  add_files t fs i = add_all t (map file_key fs) i.
Proof.
  induction fs as [|f fs IH]; intros t i H; [reflexivity|].
  rewrite lenN_cons in H. cbn [add_files map add_all file_key].
  rewrite w32_small by lia.
  destruct (add_to_hash_table t (pf_name f) i (pf_locale f)) as [t'| |]; cbn [bind]; auto.
  apply IH. lia.
Qed.

End B.
