(** * Facts about sparse compression. *)
From Verif Require Import Bytes Sparse HashTableFacts.
Open Scope N_scope.

(** [n] zero bytes, counted in [nat] *)
Definition zs (n : nat) : bytes := repeat x00 n.
Lemma zs_zeros n : zeros n = zs (N.to_nat n). Proof. reflexivity. Qed.
Lemma zs_length n : length (zs n) = n. Proof. apply repeat_length. Qed.

Lemma bN0 c : bN c = 0 <-> c = x00.
Proof. split; [|intros ->; reflexivity]. intros H. apply bN_inj. exact H. Qed.

Lemma zero_run_spec d n r : zero_run d = (n, r) ->
  d = zs n ++ r /\ (r = [] \/ exists c r', r = c :: r' /\ bN c <> 0).
Proof.
  revert n r. induction d as [|c d IH]; intros n r H; cbn [zero_run] in H.
  - injection H as <- <-. auto.
  - destruct (N.eqb_spec (bN c) 0) as [E|E].
    + destruct (zero_run d) as [m s]. injection H as <- <-.
      destruct (IH m s eq_refl) as [-> H2]. apply bN0 in E. subst c. split; [reflexivity|exact H2].
    + injection H as <- <-. split; [reflexivity|]. right. eauto.
Qed.

Lemma lit_run_spec k d l r : lit_run k d = (l, r) ->
  d = l ++ r /\ Forall (fun c => bN c <> 0) l /\ (length l <= k)%nat /\
  (l = [] -> k = O \/ d = [] \/ exists c d', d = c :: d' /\ bN c = 0) /\
  (length l = k \/ r = [] \/ exists c r', r = c :: r' /\ bN c = 0).
Proof.
  revert d l r. induction k as [|k IH]; intros d l r H; cbn [lit_run] in H.
  - injection H as <- <-. cbn. auto 6.
  - destruct d as [|c d].
    + injection H as <- <-. cbn. repeat split; auto; lia.
    + destruct (N.eqb_spec (bN c) 0) as [E|E].
      * injection H as <- <-. cbn. repeat split; auto; try lia.
        -- intros _. right; right. eauto.
        -- right; right. eauto.
      * destruct (lit_run k d) as [a s] eqn:Er. injection H as <- <-.
        destruct (IH d a s Er) as (-> & H2 & H3 & H4 & H5).
        cbn [app length]. repeat split; auto; try lia.
        -- discriminate.
        -- destruct H5 as [H5|H5]; [left; lia|right; exact H5].
Qed.

(** ** Decoding control bytes *)
Lemma land_80_small n : n < 128 -> N.land n 0x80 = 0.
Proof.
  intros H. apply N.bits_inj. intros i. rewrite N.land_spec, N.bits_0.
  change 0x80 with (2 ^ 7). rewrite N.pow2_bits_eqb.
  destruct (N.eqb_spec 7 i) as [<-|]; [|apply andb_false_r].
  rewrite andb_true_r. apply N.bits_above_log2.
  destruct (N.eq_dec n 0) as [->|Hn]; [reflexivity|].
  apply N.log2_lt_pow2; [lia|exact H].
Qed.

Lemma lor_80_add n : n < 128 -> N.lor 0x80 n = 0x80 + n.
Proof.
  intros H. rewrite <- N.lxor_lor, N.add_nocarry_lxor; [reflexivity| |];
    rewrite N.land_comm; now apply land_80_small.
Qed.

Lemma lor_80_bits n : n < 128 ->
  N.land (N.lor 0x80 n) 0x80 = 0x80 /\ N.land (N.lor 0x80 n) 0x7F = n.
Proof.
  intros H. split.
  - rewrite N.land_lor_distr_l, (land_80_small n H). reflexivity.
  - rewrite N.land_lor_distr_l. change (N.land 128 127) with 0. rewrite N.lor_0_l.
    change 127 with (N.ones 7). rewrite N.land_ones. now apply N.mod_small.
Qed.

(** The part of the data in front of the first run of 127 zs or more. *)
Fixpoint cut (fuel : nat) (d : bytes) : bytes :=
  match fuel with
  | O => []
  | S f =>
      match d with
      | [] => []
      | _ =>
          let (z, r) := zero_run d in
          if (127 <=? N.of_nat z) then []
          else let (l, r') := lit_run 127 r in zs z ++ l ++ cut f r'
      end
  end.

Lemma dec_loop_empty f out e : (0 < f)%nat -> sparse_dec_loop f [] out e = Ok [].
Proof. destruct f; [lia|reflexivity]. Qed.

Lemma dec_loop_done f data out e : (0 < f)%nat -> e <= out -> sparse_dec_loop f data out e = Ok [].
Proof.
  intros Hf H. destruct f; [lia|]. cbn [sparse_dec_loop]. destruct data; [reflexivity|].
  replace (out <? e) with false by (symmetry; apply N.ltb_ge; exact H). reflexivity.
Qed.

Lemma dec_zero_chunk f rest out e n :
  0 < n < 127 -> out < e ->
  sparse_dec_loop (S f) (Nb (N.lor 0x80 n) :: rest) out e =
  (r <- sparse_dec_loop f rest (out + n) e ;; Ok (zeros n ++ r)).
Proof.
  intros Hn Ho. cbn [sparse_dec_loop].
  replace (out <? e) with true by (symmetry; apply N.ltb_lt; exact Ho).
  assert (Hb : bN (Nb (N.lor 0x80 n)) = N.lor 0x80 n).
  { rewrite bN_Nb. apply N.mod_small. rewrite lor_80_add by lia. lia. }
  rewrite Hb. destruct (lor_80_bits n ltac:(lia)) as [H1 H2]. rewrite H1, H2.
  replace (N.lor 0x80 n =? 0xFF) with false
    by (symmetry; apply N.eqb_neq; rewrite lor_80_add by lia; lia).
  reflexivity.
Qed.

Lemma dec_lit f l rest out e :
  (0 < length l <= 127)%nat -> out < e ->
  sparse_dec_loop (S f) (Nb (lenN l) :: l ++ rest) out e =
  (r <- sparse_dec_loop f rest (out + lenN l) e ;; Ok (l ++ r)).
Proof.
  intros Hl Ho. cbn [sparse_dec_loop].
  replace (out <? e) with true by (symmetry; apply N.ltb_lt; exact Ho).
  assert (Hs : lenN l < 128) by (unfold lenN; lia).
  assert (Hb : bN (Nb (lenN l)) = lenN l) by (rewrite bN_Nb; apply N.mod_small; lia).
  rewrite Hb, (land_80_small _ Hs).
  replace (lenN l =? 0xFF) with false by (symmetry; apply N.eqb_neq; lia).
  cbn [N.eqb negb]. change (0 =? 0) with true. cbn [negb].
  replace (lenN (l ++ rest) <? lenN l) with false
    by (symmetry; apply N.ltb_ge; rewrite lenN_app; lia).
  assert (E : N.to_nat (lenN l) = length l) by (unfold lenN; lia). rewrite E.
  rewrite firstn_app_exact, skipn_app_exact by reflexivity. reflexivity.
Qed.

Lemma zero_chunks_short z : N.of_nat z < 127 ->
  zero_chunks (S z) (N.of_nat z) = if (z =? 0)%nat then [] else [Nb (N.lor 0x80 (N.of_nat z))].
Proof.
  intros H. destruct z as [|z]; [reflexivity|].
  cbn [zero_chunks Nat.eqb].
  replace (N.of_nat (S z) =? 0) with false by (symmetry; apply N.eqb_neq; lia).
  replace (N.min (N.of_nat (S z)) 127) with (N.of_nat (S z)) by lia.
  rewrite N.sub_diag. reflexivity.
Qed.

Lemma zero_chunks_long z : 127 <= N.of_nat z ->
  exists r, zero_chunks (S z) (N.of_nat z) = Nb 0xFF :: r.
Proof.
  intros H. cbn [zero_chunks].
  replace (N.of_nat z =? 0) with false by (symmetry; apply N.eqb_neq; lia).
  replace (N.min (N.of_nat z) 127) with 127 by lia. eexists. reflexivity.
Qed.

Lemma zs_app a b : zs (a + b) = zs a ++ zs b.
Proof. unfold zs. apply repeat_app. Qed.
Lemma lenN_zs n : lenN (zs n) = N.of_nat n.
Proof. unfold lenN. now rewrite zs_length. Qed.

(** Decoding an encoded string yields [cut] (before padding). *)
Lemma dec_end f out e : sparse_dec_loop (S f) [Nb 0xFF] out e = Ok [].
Proof. cbn [sparse_dec_loop]. destruct (out <? e); reflexivity. Qed.

Lemma dec_enc : forall n fuel d out f e,
  (length d <= n)%nat -> (length d <= fuel)%nat ->
  (length (sparse_enc_loop fuel d) < f)%nat -> out + lenN d <= e ->
  sparse_dec_loop (S f) (sparse_enc_loop fuel d ++ [Nb 0xFF]) out e = Ok (cut fuel d).
Proof.
  induction n as [|n IH]; intros fuel d out f e Hn Hf Hf2 He.
  - destruct d; [|cbn in Hn; lia].
    destruct fuel; cbn [sparse_enc_loop app cut]; apply dec_end.
  - destruct fuel as [|fuel].
    { destruct d; [|cbn in Hf; lia]. cbn [sparse_enc_loop app cut]. apply dec_end. }
    destruct d as [|c d0] eqn:Ed.
    { cbn [sparse_enc_loop app cut]. apply dec_end. }
    cbn [sparse_enc_loop cut] in *. rewrite <- Ed in *.
    destruct (zero_run d) as [z r] eqn:Ez.
    destruct (zero_run_spec _ _ _ Ez) as [Hd Hr].
    destruct (lit_run 127 r) as [l r'] eqn:El.
    destruct (lit_run_spec _ _ _ _ El) as (Hrl & HFl & Hll & Hl0 & Hl1).
    assert (Hpos : 0 < lenN d) by (rewrite Ed, lenN_cons; lia).
    destruct (N.leb_spec 127 (N.of_nat z)) as [Hz|Hz].
    { destruct (zero_chunks_long z Hz) as [zr Ezr]. rewrite Ezr. cbn [app sparse_dec_loop].
      replace (out <? e) with true by (symmetry; apply N.ltb_lt; lia).
      change (bN (Nb 255) =? 255) with true. reflexivity. }
    rewrite zero_chunks_short in * by exact Hz.
    assert (HL : lenN d = N.of_nat z + lenN l + lenN r').
    { rewrite Hd, Hrl, !lenN_app, lenN_zs. lia. }
    assert (Hr' : (length r' < length d)%nat).
    { assert (lenN r' < lenN d); [|unfold lenN in *; lia].
      destruct z as [|z]; [|lia].
      destruct l as [|lc l']; [|rewrite lenN_cons in HL; lia].
      exfalso. destruct (Hl0 eq_refl) as [H|[H|(c1 & d1 & H & H0)]].
      - lia.
      - rewrite H in Hd. unfold zs in Hd. cbn in Hd. congruence.
      - destruct Hr as [Hr|(c2 & r2 & Hr & Hr2)]; [congruence|].
        rewrite H in Hr. injection Hr as -> ->. contradiction. }
    assert (Hlit : forall out' f', (length (match l with [] => [] | _ => Nb (lenN l) :: l end
                        ++ sparse_enc_loop fuel r') < f')%nat ->
      out' + lenN l + lenN r' <= e ->
      sparse_dec_loop (S f') ((match l with [] => [] | _ => Nb (lenN l) :: l end
          ++ sparse_enc_loop fuel r') ++ [Nb 0xFF]) out' e = Ok (l ++ cut fuel r')).
    { intros out' f' Hf' Ho'. destruct l as [|lc l'].
      - cbn [app] in *. rewrite lenN_nil in Ho'.
        apply IH; [lia|lia|exact Hf'|lia].
      - set (l := lc :: l') in *. cbn [app]. change (Nb (lenN l) :: l) with ([Nb (lenN l)] ++ l) in *.
        rewrite <- !app_assoc. cbn [app].
        rewrite dec_lit.
        + destruct f' as [|f'].
          { rewrite !app_length in Hf'. cbn in Hf'. lia. }
          rewrite IH; [reflexivity|lia|lia| |lia].
          rewrite !app_length in Hf'. cbn [length] in Hf'. lia.
        + cbn in *. lia.
        + unfold l in *. rewrite lenN_cons in *. lia. }
    destruct (Nat.eqb_spec z 0) as [Ez0|Ez0].
    + subst z. cbn [zs repeat app] in *. apply Hlit; [exact Hf2|lia].
    + rewrite <- app_assoc. cbn [app].
      rewrite dec_zero_chunk by lia.
      destruct f as [|f].
      { cbn [app length] in Hf2. lia. }
      rewrite Hlit.
      * cbn [bind]. rewrite zs_zeros, Nat2N.id. reflexivity.
      * cbn [app length] in Hf2. lia.
      * lia.
Qed.

Lemma cut_length : forall fuel d, (length (cut fuel d) <= length d)%nat.
Proof.
  induction fuel as [|fuel IH]; intros d; cbn [cut length]; [lia|].
  destruct d as [|c d0] eqn:Ed; [cbn; lia|]. rewrite <- Ed in *.
  destruct (zero_run d) as [z r] eqn:Ez. destruct (zero_run_spec _ _ _ Ez) as [Hd _].
  destruct (127 <=? N.of_nat z); [cbn; lia|].
  destruct (lit_run 127 r) as [l r'] eqn:El.
  destruct (lit_run_spec _ _ _ _ El) as (Hrl & _).
  rewrite !app_length, zs_length. pose proof (IH r').
  rewrite Hd, Hrl, !app_length, zs_length. lia.
Qed.

Lemma sparse_dec_enc d e : lenN d <= e ->
  sparse_decompress (sparse_compress d) e
  = Ok (cut (length d) d ++ zs (N.to_nat e - length (cut (length d) d))).
Proof.
  intros He. unfold sparse_decompress, sparse_compress.
  pose proof (dec_enc (length d) (length d) d 0
                (length (sparse_enc_loop (length d) d ++ [Nb 255])) e) as H.
  rewrite H; clear H.
  - cbn [bind]. f_equal. f_equal.
    pose proof (cut_length (length d) d) as L.
    destruct (N.ltb_spec (lenN (cut (length d) d)) e) as [H|H]; unfold lenN in *.
    + rewrite zs_zeros. f_equal. lia.
    + replace (N.to_nat e - length (cut (length d) d))%nat with 0%nat by lia. reflexivity.
  - lia.
  - lia.
  - rewrite app_length. cbn. lia.
  - lia.
Qed.

(** ** When is it lossless? *)
Definition harmless (d : bytes) : Prop :=
  forall p q, d = p ++ zs 127 ++ q -> q = zs (length q).

Lemma zs_S n : zs (S n) = x00 :: zs n. Proof. reflexivity. Qed.

(** [cut d] is a prefix of [d] followed, if shorter, by a run of 127 zs. *)
Lemma cut_prefix : forall fuel d, (length d <= fuel)%nat ->
  exists q, d = cut fuel d ++ q /\ (q = [] \/ exists q', q = zs 127 ++ q').
Proof.
  induction fuel as [|fuel IH]; intros d Hl.
  - destruct d; [|cbn in Hl; lia]. exists []. auto.
  - cbn [cut]. destruct d as [|c d0] eqn:Ed; [exists []; auto|]. rewrite <- Ed in *.
    destruct (zero_run d) as [z r] eqn:Ez. destruct (zero_run_spec _ _ _ Ez) as [Hd Hr].
    destruct (N.leb_spec 127 (N.of_nat z)) as [Hz|Hz].
    + exists d. split; [reflexivity|]. right.
      exists (zs (z - 127) ++ r). rewrite Hd.
      replace z with (127 + (z - 127))%nat at 1 by lia. rewrite zs_app, <- app_assoc. reflexivity.
    + destruct (lit_run 127 r) as [l r'] eqn:El.
      destruct (lit_run_spec _ _ _ _ El) as (Hrl & HFl & Hll & Hl0 & Hl1).
      assert (Hr' : (length r' < length d)%nat).
      { rewrite Hd, Hrl, !app_length, zs_length.
        destruct z as [|z]; [|lia].
        destruct l as [|lc l']; [|cbn; lia].
        exfalso. destruct (Hl0 eq_refl) as [H|[H|(c1 & d1 & H & H0)]].
        - lia.
        - rewrite H in Hd. unfold zs in Hd. cbn in Hd. congruence.
        - destruct Hr as [Hr|(c2 & r2 & Hr & Hr2)]; [congruence|].
          rewrite H in Hr. injection Hr as -> ->. contradiction. }
      destruct (IH r' ltac:(lia)) as (q & Hq & Hq').
      exists q. split; [|exact Hq'].
      rewrite Hd at 1. rewrite Hrl at 1. rewrite Hq at 1. rewrite <- !app_assoc. reflexivity.
Qed.

Lemma app_eq_len {A} (a b c d : list A) :
  length a = length c -> a ++ b = c ++ d -> a = c /\ b = d.
Proof.
  revert c. induction a as [|x a IH]; intros [|y c] L E; cbn in *; try lia.
  - auto.
  - injection E as -> E. destruct (IH c ltac:(lia) E) as [-> ->]. auto.
Qed.

Lemma app_split_le {A} (a b c d : list A) :
  a ++ b = c ++ d -> (length a <= length c)%nat -> exists e, c = a ++ e /\ b = e ++ d.
Proof.
  revert c. induction a as [|x a IH]; intros c E L; cbn in *.
  - eauto.
  - destruct c as [|y c]; cbn in *; [lia|]. injection E as -> E.
    destruct (IH c E ltac:(lia)) as (e & -> & ->). exists e. auto.
Qed.

(** A run of 127 zs inside [zs z ++ l ++ r'] (short run, then literals)
    lies inside [r']. *)
Lemma run_behind z l r p q :
  (z < 127)%nat -> Forall (fun c => bN c <> 0) l -> (l = [] -> r = []) ->
  zs z ++ l ++ r = p ++ zs 127 ++ q ->
  exists p', p = zs z ++ l ++ p' /\ r = p' ++ zs 127 ++ q.
Proof.
  intros Hz HF Hl0 E.
  destruct (Nat.le_gt_cases (z + length l) (length p)) as [L|L].
  - rewrite app_assoc in E. apply app_split_le in E as (e & -> & ->).
    + exists e. rewrite <- app_assoc. auto.
    + rewrite app_length, zs_length. lia.
  - exfalso. (* look at the position of the first literal after z, or the end *)
    assert (Hn : forall i, (length p <= i < length p + 127)%nat ->
              nth_error (zs z ++ l ++ r) i = Some x00).
    { intros i Hi. rewrite E, nth_error_app2 by lia.
      rewrite nth_error_app1 by (rewrite zs_length; lia).
      unfold zs. rewrite nth_error_repeat by lia. reflexivity. }
    destruct l as [|c l].
    + rewrite (Hl0 eq_refl) in E. cbn [app length] in *.
      apply (f_equal (@length byte)) in E. rewrite !app_length, !zs_length in E. cbn in E. lia.
    + set (i := Nat.max z (length p)).
      assert (Hi : nth_error (zs z ++ (c :: l) ++ r) i = Some x00) by (apply Hn; lia).
      rewrite nth_error_app2 in Hi by (rewrite zs_length; lia).
      rewrite nth_error_app1 in Hi by (rewrite zs_length; cbn in *; lia).
      apply nth_error_In in Hi. rewrite Forall_forall in HF. specialize (HF _ Hi). apply HF. reflexivity.
Qed.

Lemma cut_all : forall fuel d, (length d <= fuel)%nat ->
  (forall p q, d <> p ++ zs 127 ++ q) -> cut fuel d = d.
Proof.
  intros fuel d Hl Hno. destruct (cut_prefix fuel d Hl) as (q & Hq & [->|(q' & ->)]).
  - rewrite app_nil_r in Hq. auto.
  - exfalso. exact (Hno _ _ Hq).
Qed.

(** No run of 127 zeros starts in front of the end of [cut]. *)
Lemma cut_min : forall fuel d p q, (length d <= fuel)%nat ->
  d = p ++ zs 127 ++ q -> (length (cut fuel d) <= length p)%nat.
Proof.
  induction fuel as [|fuel IH]; intros d p q Hl E.
  - cbn. lia.
  - cbn [cut]. destruct d as [|c d0] eqn:Ed; [cbn; lia|]. rewrite <- Ed in *.
    destruct (zero_run d) as [z r] eqn:Ez. destruct (zero_run_spec _ _ _ Ez) as [Hd Hr].
    destruct (N.leb_spec 127 (N.of_nat z)) as [Hz|Hz]; [cbn; lia|].
    destruct (lit_run 127 r) as [l r'] eqn:El.
    destruct (lit_run_spec _ _ _ _ El) as (Hrl & HFl & Hll & Hl0 & Hl1).
    assert (Hr0 : l = [] -> r = []).
    { intros Hlz. destruct (Hl0 Hlz) as [H|[H|(c1 & d1 & H & H0)]]; [lia|exact H|].
      destruct Hr as [Hr|(c2 & r2 & Hr & Hr2)]; [exact Hr|].
      rewrite H in Hr. injection Hr as -> ->. contradiction. }
    assert (Hr0' : l = [] -> r' = []).
    { intros Hlz. pose proof (Hr0 Hlz) as H. rewrite Hlz, H in Hrl. cbn in Hrl. congruence. }
    assert (Ld : length d = (z + length l + length r')%nat).
    { rewrite Hd, Hrl, !app_length, zs_length. lia. }
    rewrite E in Hd. rewrite Hrl in Hd.
    destruct (run_behind z l r' p q ltac:(lia) HFl Hr0' (eq_sym Hd)) as (p' & -> & Er').
    rewrite !app_length, zs_length.
    assert (Hlr : (length r' <= fuel)%nat).
    { destruct z as [|z]; [|lia]. destruct l as [|lc l']; [|cbn in Ld; lia].
      rewrite (Hr0' eq_refl). cbn. lia. }
    pose proof (IH r' p' q Hlr Er'). lia.
Qed.

Lemma all_zero_suffix e q n : e ++ q = zs n -> q = zs (length q).
Proof.
  revert n. induction e as [|b e IH]; intros n E; cbn [app] in E.
  - rewrite E at 2. rewrite zs_length. exact E.
  - destruct n as [|n]; [discriminate|]. rewrite zs_S in E. injection E as _ E. eauto.
Qed.

Lemma sparse_lossless_iff d :
  sparse_decompress (sparse_compress d) (lenN d) = Ok d <-> harmless d.
Proof.
  rewrite sparse_dec_enc by lia. replace (N.to_nat (lenN d)) with (length d) by (unfold lenN; lia).
  destruct (cut_prefix (length d) d ltac:(lia)) as (q & Hq & Hc).
  pose proof (cut_min (length d) d) as Hmin.
  set (c := cut (length d) d) in *. clearbody c.
  assert (Hlen : (length d - length c)%nat = length q).
  { rewrite Hq at 1. rewrite app_length. lia. }
  rewrite Hlen.
  split.
  - intros H. apply Ok_inj in H. 
    assert (Hz : q = zs (length q)).
    { rewrite Hq in H. apply app_inv_head in H. congruence. }
    intros p q2 E. pose proof (Hmin p q2 ltac:(lia) E) as L.
    rewrite E in Hq. apply eq_sym, app_split_le in Hq as (e & -> & He); [|exact L].
    rewrite Hz, app_assoc in He. symmetry in He. eapply all_zero_suffix; exact He.
  - intros Hh. f_equal. transitivity (c ++ q); [f_equal|symmetry; exact Hq].
    destruct Hc as [->|(q' & ->)]; [reflexivity|].
    assert (q' = zs (length q')) by (apply (Hh c q' Hq)).
    rewrite app_length, zs_length, zs_app. f_equal. congruence.
Qed.

(** With a larger size the result is padded. *)
Lemma sparse_lossless_pad d e : harmless d -> lenN d <= e ->
  sparse_decompress (sparse_compress d) e = Ok (d ++ zs (N.to_nat e - length d)).
Proof.
  intros Hh He. pose proof (proj2 (sparse_lossless_iff d) Hh) as H.
  rewrite sparse_dec_enc in H |- * by lia. f_equal. apply Ok_inj in H.
  replace (N.to_nat (lenN d)) with (length d) in H by (unfold lenN; lia).
  pose proof (cut_length (length d) d) as L.
  transitivity ((cut (length d) d ++ zs (length d - length (cut (length d) d)))
                ++ zs (N.to_nat e - length d)); [|now rewrite H].
  rewrite <- app_assoc. f_equal. rewrite <- zs_app. f_equal. unfold lenN in He. lia.
Qed.

(** ** Robustness of the decoder *)
Lemma dec_loop_noPanic : forall f data out e, (length data < f)%nat ->
  sparse_dec_loop f data out e <> Panic.
Proof.
  induction f as [|f IH]; intros data out e L; [lia|].
  cbn [sparse_dec_loop]. destruct data as [|c rest]; [discriminate|].
  cbn [length] in L.
  destruct (out <? e); [|discriminate].
  destruct (bN c =? 255); [discriminate|].
  destruct (negb _).
  - destruct (sparse_dec_loop f rest _ _) eqn:E; cbn [bind]; try discriminate.
    intros _. eapply IH; [|exact E]. lia.
  - destruct (lenN rest <? bN c); [discriminate|].
    destruct (sparse_dec_loop f (skipn _ rest) _ _) eqn:E; cbn [bind]; try discriminate.
    intros _. eapply IH; [|exact E]. rewrite skipn_length. lia.
Qed.

Lemma land_7F_le n : N.land n 0x7F <= 127.
Proof.
  change (N.land n 0x7F) with (N.land n (N.ones 7)). rewrite N.land_ones.
  pose proof (N.mod_lt n (2^7) ltac:(discriminate)) as H. change (2^7) with 128 in *. lia.
Qed.

Lemma bit7_clear_lt n : n < 256 -> N.land n 0x80 = 0 -> n < 128.
Proof.
  intros H E. destruct (N.lt_ge_cases n 128) as [L|L]; [exact L|exfalso].
  assert (T : N.testbit (N.land n 0x80) 7 = true).
  { rewrite N.land_spec. change (N.testbit 0x80 7) with true. rewrite andb_true_r.
    rewrite N.testbit_odd, N.shiftr_div_pow2. change (2 ^ 7) with 128.
    replace (n / 128) with 1; [reflexivity|].
    apply N.div_unique with (r := n - 128); lia. }
  rewrite E in T. discriminate.
Qed.

Lemma dec_loop_length : forall f data out e r,
  sparse_dec_loop f data out e = Ok r -> out + lenN r <= N.max out (e + 126).
Proof.
  induction f as [|f IH]; intros data out e r H; [discriminate|].
  cbn [sparse_dec_loop] in H. destruct data as [|c rest].
  { apply Ok_inj in H. subst r. rewrite lenN_nil. lia. }
  destruct (N.ltb_spec out e) as [Ho|Ho].
  2:{ apply Ok_inj in H. subst r. rewrite lenN_nil. lia. }
  destruct (bN c =? 255).
  { apply Ok_inj in H. subst r. rewrite lenN_nil. lia. }
  destruct (N.land (bN c) 128 =? 0) eqn:E7; cbn [negb] in H.
  - apply N.eqb_eq in E7. pose proof (bit7_clear_lt _ (bN_lt c) E7) as Hc.
    destruct (N.ltb_spec (lenN rest) (bN c)) as [Hr|Hr]; [discriminate|].
    destruct (sparse_dec_loop f (skipn _ rest) _ _) as [x| |] eqn:E; cbn [bind] in H; try discriminate.
    apply Ok_inj in H. subst r. apply IH in E. rewrite lenN_app.
    assert (lenN (firstn (N.to_nat (bN c)) rest) = bN c)
      by (unfold lenN in *; rewrite firstn_length; lia).
    lia.
  - destruct (sparse_dec_loop f rest _ _) as [x| |] eqn:E; cbn [bind] in H; try discriminate.
    apply Ok_inj in H. subst r. apply IH in E. rewrite lenN_app, zeros_length.
    pose proof (land_7F_le (bN c)). lia.
Qed.

Lemma sparse_decompress_total data e :
  sparse_decompress data e <> Panic /\
  (forall out, sparse_decompress data e = Ok out -> e <= lenN out <= e + 126).
Proof.
  unfold sparse_decompress.
  pose proof (dec_loop_noPanic (S (length data)) data 0 e ltac:(lia)) as HP.
  destruct (sparse_dec_loop _ data 0 e) as [r| |] eqn:E; cbn [bind].
  - split; [discriminate|]. intros out H. apply Ok_inj in H. subst out.
    apply dec_loop_length in E. rewrite lenN_app.
    destruct (N.ltb_spec (lenN r) e).
    + rewrite zeros_length. lia.
    + rewrite lenN_nil. lia.
  - split; discriminate.
  - congruence.
Qed.

(** Asking for less gives a prefix of what asking for more gives. *)
Lemma dec_loop_prefix : forall f data out e1 e2 r1 r2, e1 <= e2 ->
  sparse_dec_loop f data out e1 = Ok r1 -> sparse_dec_loop f data out e2 = Ok r2 ->
  exists t, r2 = r1 ++ t /\ (out + lenN r1 < e1 -> t = []).
Proof.
  induction f as [|f IH]; intros data out e1 e2 r1 r2 He H1 H2; [discriminate|].
  cbn [sparse_dec_loop] in H1, H2. destruct data as [|c rest].
  { apply Ok_inj in H1. apply Ok_inj in H2. subst. exists []. auto. }
  destruct (N.ltb_spec out e1) as [Ho|Ho].
  2:{ apply Ok_inj in H1. subst r1. exists r2. split; [reflexivity|]. rewrite lenN_nil. lia. }
  replace (out <? e2) with true in H2 by (symmetry; apply N.ltb_lt; lia).
  destruct (bN c =? 255).
  { apply Ok_inj in H1. apply Ok_inj in H2. subst. exists []. auto. }
  destruct (negb _).
  - destruct (sparse_dec_loop f rest _ e1) as [x1| |] eqn:E1; cbn [bind] in H1; try discriminate.
    destruct (sparse_dec_loop f rest _ e2) as [x2| |] eqn:E2; cbn [bind] in H2; try discriminate.
    apply Ok_inj in H1. apply Ok_inj in H2. subst r1 r2.
    destruct (IH _ _ _ _ _ _ He E1 E2) as (t & -> & Ht).
    exists t. split; [now rewrite app_assoc|]. rewrite lenN_app, zeros_length. intros; apply Ht; lia.
  - destruct (N.ltb_spec (lenN rest) (bN c)) as [Hr|Hr]; [discriminate|].
    destruct (sparse_dec_loop f (skipn _ rest) _ e1) as [x1| |] eqn:E1; cbn [bind] in H1; try discriminate.
    destruct (sparse_dec_loop f (skipn _ rest) _ e2) as [x2| |] eqn:E2; cbn [bind] in H2; try discriminate.
    apply Ok_inj in H1. apply Ok_inj in H2. subst r1 r2.
    destruct (IH _ _ _ _ _ _ He E1 E2) as (t & -> & Ht).
    exists t. split; [now rewrite app_assoc|]. rewrite lenN_app. intros; apply Ht.
    assert (lenN (firstn (N.to_nat (bN c)) rest) = bN c)
      by (unfold lenN in *; rewrite firstn_length; lia).
    lia.
Qed.

Lemma sparse_prefix data e1 e2 r1 r2 : e1 <= e2 ->
  sparse_decompress data e1 = Ok r1 -> sparse_decompress data e2 = Ok r2 ->
  firstn (N.to_nat e1) r1 = firstn (N.to_nat e1) r2.
Proof.
  unfold sparse_decompress. intros He H1 H2.
  destruct (sparse_dec_loop _ data 0 e1) as [x1| |] eqn:E1; cbn [bind] in H1; try discriminate.
  destruct (sparse_dec_loop _ data 0 e2) as [x2| |] eqn:E2; cbn [bind] in H2; try discriminate.
  apply Ok_inj in H1. apply Ok_inj in H2. subst r1 r2.
  destruct (dec_loop_prefix _ _ _ _ _ _ _ He E1 E2) as (t & -> & Ht).
  destruct (N.ltb_spec (lenN x1) e1) as [L|L].
  - rewrite Ht by lia. rewrite app_nil_r.
    replace (lenN x1 <? e2) with true by (symmetry; apply N.ltb_lt; lia).
    rewrite !firstn_app. f_equal. rewrite !zs_zeros.
    assert (K : (N.to_nat e1 - length x1 <= N.to_nat (e1 - lenN x1))%nat) by (unfold lenN; lia).
    replace (N.to_nat (e2 - lenN x1))
      with (N.to_nat (e1 - lenN x1) + N.to_nat (e2 - e1))%nat by lia.
    rewrite zs_app, firstn_app, zs_length.
    replace (N.to_nat e1 - length x1 - N.to_nat (e1 - lenN x1))%nat with 0%nat by lia.
    now rewrite app_nil_r.
  - rewrite app_nil_r, <- app_assoc, firstn_app.
    replace (N.to_nat e1 - length x1)%nat with 0%nat by (unfold lenN in L; lia).
    now rewrite app_nil_r.
Qed.

(** What the decoder does with well formed streams. *)
Lemma sparse_compress_length d : lenN (sparse_compress d) <= 2 * lenN d + 1.
Proof.
  assert (Z : forall f n, lenN (zero_chunks f n) <= n).
  { induction f as [|f IH]; intros n; cbn [zero_chunks]; [rewrite lenN_nil; lia|].
    destruct (N.eqb_spec n 0); [rewrite lenN_nil; lia|].
    rewrite lenN_cons. specialize (IH (n - N.min n 127)). lia. }
  assert (K : forall f d, lenN (sparse_enc_loop f d) <= 2 * lenN d).
  { induction f as [|f IH]; intros e; cbn [sparse_enc_loop]; [rewrite lenN_nil; lia|].
    destruct e as [|c e0] eqn:Ee; [rewrite lenN_nil; lia|]. rewrite <- Ee.
    destruct (zero_run e) as [z r] eqn:Ez. destruct (zero_run_spec _ _ _ Ez) as [Hd _].
    destruct (lit_run 127 r) as [l r'] eqn:El. destruct (lit_run_spec _ _ _ _ El) as (Hr & _).
    rewrite Hd, Hr, !lenN_app, lenN_zs. specialize (IH r'). specialize (Z (S z) (N.of_nat z)).
    destruct l as [|x l]; [rewrite lenN_nil in *; lia|]. rewrite !lenN_cons. lia. }
  unfold sparse_compress. rewrite lenN_app, lenN_cons, lenN_nil. specialize (K (length d) d). lia.
Qed.
