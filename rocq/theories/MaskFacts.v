(** * Which masks of an enumeration have their common meaning. *)
From Coq Require Import Lia.
From Verif Require Import Bytes Ffi SpecFfi SpecAnswers SpecMasks.
Open Scope N_scope.

Definition star : byte := "*"%byte.
Definition is_star (b : byte) : bool := beqb b star.
Definition unstarred (p : bytes) : bytes := filter (fun b => negb (is_star b)) p.
Definition quest : byte := "?"%byte.

Lemma beqb_spec a b : reflect (a = b) (beqb a b).
Proof. apply iff_reflect. symmetry. apply beqb_eq. Qed.
Lemma held_once d s t : SpecFfi.holds d s -> SpecFfi.holds d t -> s = t.
Proof.
  assert (G : forall s t r r', ~ In x00 s -> ~ In x00 t -> s ++ x00 :: r = t ++ x00 :: r' -> s = t).
  { clear. induction s as [|b s IH]; intros [|c t] r r' Hs Ht E; cbn [app] in E.
    - reflexivity.
    - injection E as <- _. contradiction Ht. now left.
    - injection E as -> _. contradiction Hs. now left.
    - injection E as <- E. f_equal. apply (IH t r r'); [intros K; apply Hs; now right|intros K; apply Ht; now right|exact E]. }
  intros (Z1 & [->|(r & ->)]) (Z2 & [E|(r' & E)]).
  - exact E.
  - exfalso. apply Z1. rewrite E. apply in_or_app. right. now left.
  - exfalso. apply Z2. rewrite <- E. apply in_or_app. right. now left.
  - exact (G _ _ _ _ Z1 Z2 E).
Qed.
Lemma is_star_iff b : is_star b = true <-> b = star.
Proof. unfold is_star. destruct (beqb_spec b star); split; intros; congruence. Qed.
Lemma unstarred_app p q : unstarred (p ++ q) = unstarred p ++ unstarred q.
Proof. apply filter_app. Qed.
Lemma unstarred_stars n : unstarred (repeat star n) = [].
Proof. induction n as [|n IH]; [reflexivity|]. exact IH. Qed.
Lemma unstarred_plain x : ~ In star x -> unstarred x = x.
Proof.
  induction x as [|b x IH]; intros H; [reflexivity|]. unfold unstarred. cbn [filter].
  destruct (is_star b) eqn:E; [apply is_star_iff in E; subst; contradiction H; now left|]. cbn [negb]. f_equal. apply IH. intros K. apply H. now right.
Qed.
Lemma unstarred_has b p : In b (unstarred p) <-> In b p /\ b <> star.
Proof.
  unfold unstarred. rewrite filter_In. destruct (is_star b) eqn:E; cbn [negb].
  - apply is_star_iff in E. intuition congruence.
  - split; intros [H1 H2]; split; auto. intros ->. vm_compute in E. discriminate.
Qed.

(** ** The common meaning *)
Lemma wild_stars i p s : wild (repeat star (S i) ++ p) s <-> exists u v, s = u ++ v /\ wild p v.
Proof.
  revert s. induction i as [|i IH]; intros s.
  - split.
    + intros H. cbn in H. inversion H as [|? u v Hw|? ? ? ?|? ? ? N ? ?]; [now exists u, v|contradiction].
    + intros (u & v & -> & H). apply wild_star. exact H.
  - split.
    + intros H. cbn [repeat app] in H. inversion H as [|? u v Hw|? ? ? ?|? ? ? N ? ?]; [|contradiction].
      change (star :: repeat star i ++ p) with (repeat star (S i) ++ p) in Hw.
      apply IH in Hw. destruct Hw as (u' & v' & -> & H'). exists (u ++ u'), v'. split; [now rewrite app_assoc|exact H'].
    + intros (u & v & -> & H). change (repeat star (S (S i)) ++ p) with (star :: repeat star (S i) ++ p). apply wild_star.
      apply IH. now exists [], v.
Qed.
Lemma wild_plain x p s : (forall b, In b x -> b <> star /\ b <> quest) -> wild (x ++ p) s <-> exists r, s = x ++ r /\ wild p r.
Proof.
  revert s. induction x as [|b x IH]; intros s Hx.
  - split; [intros H; now exists s|intros (r & -> & H); exact H].
  - pose proof (Hx b (or_introl eq_refl)) as [N1 N2]. pose proof (fun s => IH s (fun c Hc => Hx c (or_intror Hc))) as IH'. split.
    + intros H. cbn [app] in H. inversion H as [|? u v Hw E1|? ? ? ? E1|? ? ? ? ? Hw]; [now contradiction N1|now contradiction N2|].
      apply IH' in Hw. destruct Hw as (r & -> & Hr). now exists r.
    + intros (r & -> & Hr). cbn [app]. apply wild_one; [exact N1|exact N2|]. apply IH'. now exists r.
Qed.
Lemma wild_only_stars i s : wild (repeat star (S i)) s.
Proof. rewrite <- (app_nil_r (repeat star (S i))). apply wild_stars. exists s, []. split; [now rewrite app_nil_r|constructor]. Qed.
(** Everything but stars is matched byte by byte. *)
Lemma wild_filled f p : ~ In star p -> (forall b, b <> quest -> f b = b) -> wild p (map f p).
Proof.
  intros H F. induction p as [|b p IH]; [constructor|]. assert (IH' : wild p (map f p)) by (apply IH; intros K; apply H; now right).
  cbn [map]. destruct (beqb_spec b quest) as [->|N]; [now apply wild_any|]. rewrite F by exact N.
  apply wild_one; [intros ->; apply H; now left|exact N|exact IH'].
Qed.
Lemma wild_empties f p : (forall b, b <> quest -> f b = b) -> wild p (map f (unstarred p)).
Proof.
  intros F. induction p as [|b p IH]; [constructor|]. unfold unstarred. cbn [filter]. destruct (is_star b) eqn:E.
  - apply is_star_iff in E. subst b. cbn [negb]. exact (wild_star p [] _ IH).
  - cbn [negb map]. destruct (beqb_spec b quest) as [->|N]; [now apply wild_any|]. rewrite F by exact N.
    apply wild_one; [intros ->; vm_compute in E; discriminate|exact N|exact IH].
Qed.
Lemma wild_self p : wild p (unstarred p).
Proof. pose proof (wild_empties (fun b => b) p (fun _ _ => eq_refl)) as H. now rewrite map_id in H. Qed.
Lemma wild_app p q s t : wild p s -> wild q t -> wild (p ++ q) (s ++ t).
Proof.
  induction 1 as [|p u v H IH|p b s H IH|p b s N1 N2 H IH]; intros Ht; [exact Ht| | |]; cbn [app].
  - rewrite <- app_assoc. apply wild_star. now apply IH.
  - apply wild_any. now apply IH.
  - apply wild_one; auto.
Qed.
Lemma wild_last p b s : b <> star -> b <> quest -> wild (p ++ [b]) s -> exists r, s = r ++ [b].
Proof.
  intros N1 N2. revert s. induction p as [|c p IH]; intros s H; cbn [app] in H.
  - apply (wild_plain [b] []) in H; [|intros c [<-|[]]; auto]. destruct H as (r & -> & Hr). inversion Hr. now exists [].
  - inversion H as [|? u v Hw|? c' s' Hw|? c' s' ? ? Hw]; subst; apply IH in Hw; destruct Hw as (r & ->).
    + exists (u ++ r). now rewrite app_assoc.
    + now exists (c' :: r).
    + now exists (c :: r).
Qed.
Lemma wild_first p b s : b <> star -> b <> quest -> wild (b :: p) s -> exists r, s = b :: r.
Proof.
  intros N1 N2 H. apply (wild_plain [b] p) in H; [|intros c [<-|[]]; auto]. destruct H as (r & -> & _). now exists r.
Qed.

(** ** What is inside *)
Lemma inside_same x s : inside_of x s -> length s = length x -> s = x.
Proof.
  intros (u & v & ->) H. rewrite !app_length in H. destruct u; [|cbn in H; lia]. destruct v; [now rewrite app_nil_r|cbn in H; lia].
Qed.
Lemma inside_middle x1 c x2 : x1 <> [] -> x2 <> [] -> (forall r, x2 <> c :: r) -> (forall r, x1 <> r ++ [c]) ->
  ~ inside_of (x1 ++ x2) (x1 ++ c :: x2).
Proof.
  intros N1 N2 H1 H2 (u & v & E). assert (Len : length (u ++ v) = 1%nat).
  { apply (f_equal (@length byte)) in E. repeat (rewrite app_length in E || cbn [length] in E). rewrite app_length. lia. }
  destruct u as [|h u].
  - cbn [app] in E. rewrite <- app_assoc in E. apply app_inv_head in E. destruct x2 as [|b x2]; [contradiction|].
    cbn [app] in E. injection E as E1 E2. apply (H1 x2). now rewrite E1.
  - destruct u; [|cbn in Len; lia]. destruct v; [|cbn in Len; lia]. rewrite app_nil_r in E. cbn [app] in E.
    assert (E' : x1 ++ [c] = h :: x1).
    { change (x1 ++ c :: x2) with (x1 ++ [c] ++ x2) in E. rewrite app_assoc in E.
      change (h :: x1 ++ x2) with ((h :: x1) ++ x2) in E. apply app_inv_tail in E. exact E. }
    destruct (exists_last N1) as (r & b & Er). rewrite Er in E'. change (h :: r ++ [b]) with ((h :: r) ++ [b]) in E'.
    apply app_inj_tail in E'. destruct E' as [_ Eb]. apply (H2 r). now rewrite Er, Eb.
Qed.
Lemma another a b : exists c : byte, c <> a /\ c <> b /\ c <> x00.
Proof.
  destruct (beqb_spec "a"%byte a) as [<-|Na].
  - destruct (beqb_spec "b"%byte b) as [<-|Nb]; [exists "c"%byte|exists "b"%byte]; repeat split; congruence.
  - destruct (beqb_spec "a"%byte b) as [<-|Nb]; [|exists "a"%byte; repeat split; congruence].
    destruct (beqb_spec "b"%byte a) as [<-|Nb]; [exists "c"%byte|exists "b"%byte]; repeat split; congruence.
Qed.

(** ** Shapes of masks *)
Lemma leading p : exists n q, p = repeat star n ++ q /\ (q = [] \/ exists b r, q = b :: r /\ b <> star).
Proof.
  induction p as [|b p (n & q & -> & H)]; [exists 0%nat, []; split; [reflexivity|now left]|].
  destruct (beqb_spec b star) as [->|N]; [now exists (S n), q|].
  exists 0%nat, (b :: repeat star n ++ q). split; [reflexivity|right]. eauto.
Qed.
Lemma rev_stars n : rev (repeat star n) = repeat star n.
Proof.
  induction n as [|n IH]; [reflexivity|]. cbn [repeat rev]. rewrite IH. clear IH. induction n as [|n IH]; [reflexivity|].
  cbn [repeat app]. now rewrite IH.
Qed.
Lemma trailing p : exists n q, p = q ++ repeat star n /\ (q = [] \/ exists b r, q = r ++ [b] /\ b <> star).
Proof.
  destruct (leading (rev p)) as (n & q & E & H). exists n, (rev q). split.
  - rewrite <- (rev_involutive p), E, rev_app_distr. now rewrite rev_stars.
  - destruct H as [->|(b & r & -> & N)]; [now left|right]. exists b, (rev r). split; [reflexivity|exact N].
Qed.
Lemma first_star x : In star x -> exists y z, x = y ++ star :: z /\ ~ In star y.
Proof.
  induction x as [|b x IH]; [intros []|]. intros H. destruct (beqb_spec b star) as [->|N]; [exists [], x; split; [reflexivity|intros []]|].
  destruct IH as (y & z & -> & Hy); [destruct H; [congruence|assumption]|]. exists (b :: y), z. split; [reflexivity|].
  intros [K|K]; [congruence|contradiction].
Qed.

Lemma no_zero_unstarred p : ~ In x00 p -> ~ In x00 (unstarred p).
Proof. intros H K. apply unstarred_has in K. tauto. Qed.

Section Mask.
Variable p : bytes.
Hypothesis Hz : ~ In x00 p.

Lemma agree_good : (forall s, ~ In x00 s -> (inside_of (unstarred p) s <-> wild p s)) -> between_stars p.
Proof.
  intros A.
  assert (Q : ~ In quest p).
  { intros K. set (f := fun b => if beqb b quest then "a"%byte else b).
    assert (F : forall b, b <> quest -> f b = b) by (intros b N; unfold f; destruct (beqb_spec b quest); congruence).
    assert (Z : ~ In x00 (map f (unstarred p))).
    { rewrite in_map_iff. intros (b & Eb & Hb). unfold f in Eb. destruct (beqb_spec b quest); [discriminate|].
      subst b. now apply no_zero_unstarred in Hb. }
    assert (I := proj2 (A _ Z) (wild_empties f p F)). apply inside_same in I; [|apply map_length].
    assert (K' : In quest (unstarred p)) by (apply unstarred_has; split; [exact K|discriminate]).
    rewrite <- I in K'. apply in_map_iff in K'. destruct K' as (b & Eb & _). unfold f in Eb.
    destruct (beqb_spec b quest); [discriminate|congruence]. }
  destruct (leading p) as (n & q & E & Hq).
  destruct Hq as [->|(b & r & Eq & Nb)].
  { rewrite app_nil_r in E. destruct n as [|n]; [|left; now exists n]. exfalso. cbn in E.
    assert (W : wild p (lit "a")) by (apply A; [vm_compute; intuition discriminate|rewrite E; exists [], (lit "a"); reflexivity]).
    rewrite E in W. inversion W. }
  destruct n as [|n].
  { exfalso. cbn [repeat app] in E. rewrite Eq in E. clear q Eq.
    destruct (another b b) as (c & Nc & _ & Zc).
    assert (Nq : b <> quest) by (intros ->; apply Q; rewrite E; now left).
    assert (W : wild p (c :: unstarred p)).
    { apply A; [intros [K|K]; [congruence|now apply no_zero_unstarred in K]|]. exists [c], []. now rewrite app_nil_r. }
    rewrite E in W at 1. apply wild_first in W; [|exact Nb|exact Nq]. destruct W as [r' W]. congruence. }
  destruct (trailing q) as (m & x & Ex & Hx).
  destruct Hx as [->|(b' & x' & Ex' & Nb')].
  { exfalso. cbn [app] in Ex. rewrite Ex in Eq. destruct m; [discriminate|]. cbn in Eq. congruence. }
  destruct m as [|m].
  { exfalso. rewrite app_nil_r in Ex. destruct (another b' b') as (c & Nc & _ & Zc).
    assert (Ep : p = (repeat star (S n) ++ x') ++ [b']) by (rewrite <- app_assoc; congruence).
    assert (Nq : b' <> quest) by (intros ->; apply Q; rewrite Ep; apply in_or_app; right; now left).
    assert (W : wild p (unstarred p ++ [c])).
    { apply A; [rewrite in_app_iff; intros [K|[K|[]]]; [now apply no_zero_unstarred in K|congruence]|]. exists [], [c]. reflexivity. }
    rewrite Ep in W at 1. apply wild_last in W; [|exact Nb'|exact Nq]. destruct W as [r' W]. apply app_inj_tail in W. destruct W. congruence. }
  right. exists n, x, m. split; [now rewrite E, Ex|].
  intros k Hk. split; [|intros ->; apply Q; rewrite E, Ex; rewrite !in_app_iff; auto].
  intros ->. destruct (first_star x Hk) as (y & z & Exy & Hy).
  assert (Ny : y <> []).
  { intros ->. rewrite Exy in Ex. rewrite Ex in Eq. cbn in Eq. congruence. }
  assert (Uz : unstarred z <> []).
  { intros K. assert (Ez : z = [] \/ exists w, z = w ++ [b']).
    { destruct z as [|c z0] using rev_ind; [now left|right]. exists z0. f_equal.
      rewrite Exy in Ex'. change (y ++ star :: z0 ++ [c]) with (y ++ (star :: z0) ++ [c]) in Ex'.
      rewrite app_assoc in Ex'. apply app_inj_tail in Ex'. destruct Ex' as [_ ->]. reflexivity. }
    destruct Ez as [->|[w ->]].
    - rewrite Exy in Ex'. apply app_inj_tail in Ex'. destruct Ex' as [_ K2]. congruence.
    - rewrite unstarred_app in K. apply app_eq_nil in K. destruct K as [_ K]. unfold unstarred in K. cbn [filter] in K.
      destruct (is_star b') eqn:S; [apply is_star_iff in S; contradiction|discriminate]. }
  destruct (exists_last Ny) as (y' & l & Ey). destruct (unstarred z) as [|h t] eqn:Eu; [contradiction|].
  destruct (another l h) as (c & C1 & C2 & C3).
  assert (U : unstarred p = y ++ h :: t).
  { rewrite E, Ex, Exy. rewrite !unstarred_app, !unstarred_stars, app_nil_r. cbn [app]. rewrite (unstarred_plain y Hy).
    f_equal. exact Eu. }
  apply (inside_middle y c (h :: t)).
  - exact Ny.
  - discriminate.
  - intros r' K. congruence.
  - intros r' K. rewrite Ey in K. apply app_inj_tail in K. destruct K. congruence.
  - rewrite <- U. apply A.
    + rewrite in_app_iff. intros [K|[K|K]].
      * apply Hz. rewrite E, Ex, Exy. rewrite !in_app_iff. auto.
      * congruence.
      * apply (no_zero_unstarred p Hz). rewrite U. apply in_or_app. now right.
    + rewrite E, Ex, Exy. apply wild_stars. exists [], (y ++ c :: h :: t). split; [reflexivity|].
      rewrite <- app_assoc. apply wild_app.
      * pose proof (wild_self y) as W. now rewrite (unstarred_plain y Hy) in W.
      * cbn [app]. change (c :: h :: t) with ([c] ++ (h :: t)). apply wild_star.
        rewrite <- (app_nil_r (h :: t)). apply wild_app; [rewrite <- Eu; apply wild_self|]. apply wild_only_stars.
Qed.

Lemma good_agree : between_stars p -> forall s, inside_of (unstarred p) s <-> wild p s.
Proof.
  intros [(i & E)|(i & x & j & E & Hx)] s.
  - rewrite E. split; intros _; [apply wild_only_stars|]. rewrite unstarred_stars. exists [], s. reflexivity.
  - rewrite E. rewrite unstarred_app. change "*"%byte with star. rewrite unstarred_app, !unstarred_stars, app_nil_r.
    rewrite unstarred_plain by (intros K; now apply Hx in K). cbn [app]. rewrite wild_stars. split.
    + intros (u & v & ->). exists u, (x ++ v). split; [reflexivity|]. apply wild_plain; [exact Hx|]. exists v. split; [reflexivity|apply wild_only_stars].
    + intros (u & v & -> & W). apply wild_plain in W; [|exact Hx]. destruct W as (r & -> & _). now exists u, r.
Qed.
End Mask.

Theorem masks_iff d p : SpecFfi.holds d p ->
  (forall s, ~ In x00 s -> (mask_matches (Some d) s <-> wild p s)) <-> between_stars p.
Proof.
  intros Hd. pose proof (proj1 Hd) as Hz.
  assert (M : forall s, ~ In x00 s -> (mask_matches (Some d) s <-> inside_of (unstarred p) s)).
  { intros s Zs. unfold mask_matches. split.
    - intros (_ & p' & Hp & I). assert (p' = p) as -> by (eapply held_once; eassumption). exact I.
    - intros I. split; [exact Zs|]. now exists p. }
  split.
  - intros A. apply agree_good; [exact Hz|]. intros s Zs. rewrite <- (M s Zs). now apply A.
  - intros G s Zs. rewrite (M s Zs). now apply good_agree.
Qed.
