(** * What the lossy conversion gives is text. *)
From Verif Require Import Bytes Listfile SpecListfile ListfileFacts.
Open Scope N_scope.

Lemma cont_all : forallb (fun m => negb (N.land (N.of_nat m) 192 =? 128) || ((128 <=? N.of_nat m) && (N.of_nat m <? 192))) (seq 0 256) = true.
Proof. vm_compute. reflexivity. Qed.
Lemma cont_range b : N.land (bN b) 192 = 128 -> 128 <= bN b < 192.
Proof.
  intros H. pose proof cont_all as G. rewrite forallb_forall in G.
  specialize (G (N.to_nat (bN b))). rewrite N2Nat.id in G.
  assert (K : In (N.to_nat (bN b)) (seq 0 256)) by (apply in_seq; pose proof (bN_lt b); lia).
  specialize (G K). rewrite H in G. cbn [N.eqb Pos.eqb negb orb] in G. lia.
Qed.
Lemma byte_is b x : x = bN b -> Nb x = b.
Proof. intros ->. apply Nb_bN. Qed.

Ltac digits := repeat match goal with |- Nb _ :: _ = _ :: _ => f_equal end; try reflexivity;
  apply byte_is; Z.to_euclidean_division_equations; lia.

Lemma step_scalar d n : utf8_step d = (true, n) -> exists c, scalar c /\ firstn n d = encode c.
Proof.
  unfold utf8_step, cont, in_range. destruct d as [|b d]; [discriminate|].
  destruct (bN b <? 128) eqn:B1.
  { intros [= <-]. exists (bN b). split; [left; lia|]. unfold encode. replace (bN b <? 0x80) with true. cbn [firstn]. now rewrite Nb_bN. }
  destruct ((0xC2 <=? bN b) && (bN b <=? 0xDF)) eqn:B2.
  { cbn [nth_error]. destruct d as [|b1 d]; cbn [nth_error]; [discriminate|]. destruct (N.land (bN b1) 192 =? 128) eqn:C1; [|discriminate].
    intros [= <-]. apply N.eqb_eq in C1. apply cont_range in C1. cbn [firstn].
    exists ((bN b - 0xC0) * 64 + (bN b1 - 0x80)). split; [left; lia|].
    unfold encode. no ((bN b - 0xC0) * 64 + (bN b1 - 0x80) <? 0x80). yes ((bN b - 0xC0) * 64 + (bN b1 - 0x80) <? 0x800).
    symmetry. digits. }
  destruct ((0xE0 <=? bN b) && (bN b <=? 0xEF)) eqn:B3.
  { destruct d as [|b1 d]; cbn [nth_error].
    { destruct (bN b =? 0xE0), (bN b =? 0xED); discriminate. }
    match goal with |- context [negb ?x] => destruct x eqn:S1; cbn [negb]; [|discriminate] end.
    destruct d as [|b2 d]; cbn [nth_error]; [discriminate|]. destruct (N.land (bN b2) 192 =? 128) eqn:C2; [|discriminate].
    intros [= <-]. apply N.eqb_eq in C2. apply cont_range in C2. cbn [firstn].
    set (c := (bN b - 0xE0) * 4096 + (bN b1 - 0x80) * 64 + (bN b2 - 0x80)).
    assert (R : 0x80 <= bN b1 <= 0xBF /\ (bN b = 0xE0 -> 0xA0 <= bN b1) /\ (bN b = 0xED -> bN b1 <= 0x9F)).
    { destruct (N.eqb_spec (bN b) 0xE0); [|destruct (N.eqb_spec (bN b) 0xED)]; lia. }
    exists c. split.
    { unfold scalar, c. destruct (N.lt_trichotomy (bN b) 0xED) as [K|[K|K]]; [left|left|right]; lia. }
    unfold encode. assert (Hc : 0x800 <= c < 0x10000).
    { unfold c. destruct (N.eq_dec (bN b) 0xE0) as [K|K]; lia. }
    no (c <? 0x80). no (c <? 0x800). yes (c <? 0x10000). clear Hc. subst c. symmetry. digits. }
  destruct ((0xF0 <=? bN b) && (bN b <=? 0xF4)) eqn:B4; [|discriminate].
  { destruct d as [|b1 d]; cbn [nth_error].
    { destruct (bN b =? 0xF0), (bN b =? 0xF4); discriminate. }
    match goal with |- context [if negb ?x then (false, 1%nat) else _] => destruct x eqn:S1; cbn [negb]; [|discriminate] end.
    destruct d as [|b2 d]; cbn [nth_error]; [discriminate|]. destruct (N.land (bN b2) 192 =? 128) eqn:C2; cbn [negb]; [|discriminate].
    destruct d as [|b3 d]; cbn [nth_error]; [discriminate|]. destruct (N.land (bN b3) 192 =? 128) eqn:C3; [|discriminate].
    intros [= <-]. apply N.eqb_eq in C2, C3. apply cont_range in C2, C3. cbn [firstn].
    set (c := (bN b - 0xF0) * 262144 + (bN b1 - 0x80) * 4096 + (bN b2 - 0x80) * 64 + (bN b3 - 0x80)).
    assert (R : 0x80 <= bN b1 <= 0xBF /\ (bN b = 0xF0 -> 0x90 <= bN b1) /\ (bN b = 0xF4 -> bN b1 <= 0x8F)).
    { destruct (N.eqb_spec (bN b) 0xF0); [|destruct (N.eqb_spec (bN b) 0xF4)]; lia. }
    assert (Hc : 0x10000 <= c < 0x110000).
    { unfold c. destruct (N.eq_dec (bN b) 0xF0) as [K|K]; [lia|]. destruct (N.eq_dec (bN b) 0xF4) as [K'|K']; lia. }
    exists c. split; [right; lia|].
    unfold encode. no (c <? 0x80). no (c <? 0x800). no (c <? 0x10000). clear Hc. subst c. symmetry. digits. }
Qed.

Lemma text_encode c : scalar c -> is_text (encode c).
Proof. intros H. exists [c]. split; [now constructor|]. cbn [map concat]. now rewrite app_nil_r. Qed.
Lemma text_lossy d : is_text (utf8_lossy d).
Proof.
  unfold utf8_lossy. generalize (length d). intros fuel. revert d.
  induction fuel as [|f IH]; intros d; cbn [utf8_lossy_loop]; [exists []; now split|].
  destruct d as [|b d]; [exists []; now split|]. destruct (utf8_step (b :: d)) as [[] n] eqn:E; apply text_app; try apply IH.
  - apply step_scalar in E. destruct E as (c & Hc & ->). now apply text_encode.
  - change replacement with (encode 0xFFFD). apply text_encode. right. lia.
Qed.
Lemma lossy_same d : utf8_lossy d = d <-> is_text d.
Proof. split; [intros <-; apply text_lossy|apply utf8_lossy_valid]. Qed.
