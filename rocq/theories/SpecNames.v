(** * Specification: when do two file names mean the same file?
    Independent of the model: names are byte strings; two characters are
    interchangeable when they are equal, are the same ASCII letter in
    different case, or are the two path separators. *)
From Verif Require Import Bytes.
Open Scope N_scope.

Definition ascii_lower_of (u l : byte) : Prop :=
  bN "A" <= bN u <= bN "Z" /\ bN l = bN u + 32.

Inductive char_equiv : byte -> byte -> Prop :=
| ce_same c : char_equiv c c
| ce_lower u l : ascii_lower_of u l -> char_equiv u l
| ce_upper u l : ascii_lower_of u l -> char_equiv l u
| ce_slash : char_equiv "/" "\"
| ce_backslash : char_equiv "\" "/".

(** Same spelling up to case and separators. *)
Definition name_equiv (a b : bytes) : Prop := Forall2 char_equiv a b.

Lemma char_equiv_sym a b : char_equiv a b -> char_equiv b a.
Proof.
  destruct 1 as [c|u l H|u l H| |];
    [apply ce_same|now apply ce_upper|now apply ce_lower|apply ce_backslash|apply ce_slash].
Qed.

Lemma name_equiv_refl a : name_equiv a a.
Proof. induction a; constructor; auto; constructor. Qed.

Lemma name_equiv_sym a b : name_equiv a b -> name_equiv b a.
Proof. induction 1; constructor; auto using char_equiv_sym. Qed.

(** A decision procedure, used to exhibit concrete equivalent names. *)
Definition char_equivb (a b : byte) : bool :=
  let up u l := (bN "A" <=? bN u) && (bN u <=? bN "Z") && (bN l =? bN u + 32) in
  beqb a b || up a b || up b a ||
  (beqb a "/" && beqb b "\") || (beqb a "\" && beqb b "/").

Fixpoint name_equivb (a b : bytes) : bool :=
  match a, b with
  | [], [] => true
  | x :: a', y :: b' => char_equivb x y && name_equivb a' b'
  | _, _ => false
  end.

Lemma char_equivb_sound a b : char_equivb a b = true -> char_equiv a b.
Proof.
  unfold char_equivb. rewrite !orb_true_iff, !andb_true_iff.
  intros [[[[H|[[H1 H2] H3]]|[[H1 H2] H3]]|[H1 H2]]|[H1 H2]].
  - apply beqb_eq in H as ->. apply ce_same.
  - apply ce_lower. split; [split; apply N.leb_le; assumption|now apply N.eqb_eq].
  - apply ce_upper. split; [split; apply N.leb_le; assumption|now apply N.eqb_eq].
  - apply beqb_eq in H1 as ->. apply beqb_eq in H2 as ->. apply ce_slash.
  - apply beqb_eq in H1 as ->. apply beqb_eq in H2 as ->. apply ce_backslash.
Qed.

Lemma name_equivb_sound a b : name_equivb a b = true -> name_equiv a b.
Proof.
  revert b. induction a as [|x a IH]; intros [|y b] H; cbn [name_equivb] in H;
    try discriminate; constructor.
  - apply andb_true_iff in H as [H _]. now apply char_equivb_sound.
  - apply andb_true_iff in H as [_ H]. now apply IH.
Qed.
