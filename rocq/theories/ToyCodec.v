(** * A small lossless codec, used only to show that the hypotheses about third
    party codecs can be met by something that really compresses: a run of one
    byte (shorter than 256) becomes three bytes. *)
From Verif Require Import Bytes Compress SpecCompress.
Open Scope N_scope.

Definition toy_enc (d : bytes) : res bytes :=
  match d with
  | b :: t =>
      if forallb (beqb b) t && (lenN d <? 256) then Ok [x00; Nb (lenN d); b] else Ok (x01 :: d)
  | [] => Ok [x01]
  end.
Definition toy_dec (c : bytes) : res bytes :=
  match c with
  | x01 :: d => Ok d
  | [x00; n; b] => Ok (repeat b (N.to_nat (bN n)))
  | _ => Err ECompression
  end.

Lemma forallb_repeat b t : forallb (beqb b) t = true -> t = repeat b (length t).
Proof.
  induction t as [|x t IH]; intros H; [reflexivity|].
  cbn in H. apply andb_prop in H as [H1 H2]. apply beqb_eq in H1. subst x. cbn. f_equal. auto.
Qed.

Lemma toy_faithful : faithful toy_enc toy_dec.
Proof.
  intros d c H. unfold toy_enc in H. destruct d as [|b t].
  - apply Ok_inj in H. subst c. split; [discriminate|reflexivity].
  - destruct (forallb (beqb b) t && (lenN (b :: t) <? 256)) eqn:E.
    + apply Ok_inj in H. subst c. split; [discriminate|].
      apply andb_prop in E as [E1 E2]. apply N.ltb_lt in E2. cbn [toy_dec].
      rewrite bN_Nb, N.mod_small by exact E2. f_equal.
      rewrite (forallb_repeat b t E1) at 2. unfold lenN. rewrite Nat2N.id. reflexivity.
    + apply Ok_inj in H. subst c. split; [discriminate|reflexivity].
Qed.

Definition toy : codecs := mkCodecs toy_enc toy_dec toy_enc toy_dec toy_enc toy_dec toy_enc toy_dec.
Lemma toy_lossless : lossless toy.
Proof. unfold lossless. cbn. auto using toy_faithful. Qed.
