(** * Attributes that seem to be packed twice *)
From Coq Require Import Lia ZifyBool ZifyNat ZifyN.
From Verif Require Import Bytes Header BlockTable Compress Attributes AttributesFacts Archive.
Open Scope N_scope.

Lemma le_dec_100 d : length d = 4%nat -> le_dec d = 100 -> d = le32 100.
Proof. intros H E. rewrite <- (le_enc_dec d), H, E. reflexivity. Qed.
Lemma not_version d n : 4 <= lenN d -> firstn 4 d <> le32 100 -> attr_parse d n = Err EInvalidFormat.
Proof.
  intros H4 Hv. unfold attr_parse. destruct (lenN d <? 8) eqn:E8; [reflexivity|].
  unfold take at 1. replace (length d <? 4)%nat with false by (unfold lenN in H4; lia). cbn [bind].
  replace (le_dec (firstn 4 d) =? EXPECTED_VERSION) with false; [reflexivity|].
  symmetry. apply N.eqb_neq. intros C. apply Hv. apply le_dec_100; [rewrite firstn_length; unfold lenN in H4; lia|exact C].
Qed.
Lemma unwrapped L a bt m rest :
  a_attrs a = None -> a_block a = Some bt -> read_file L a (lit "(attributes)") = Ok (m :: rest) ->
  4 <= lenN (m :: rest) -> firstn 4 (m :: rest) <> le32 100 -> bN m <> 100 -> bN m mod 16 <> 0 ->
  (forall d x, decompress L rest (bN m) (lenN bt * 100) = Ok d -> attr_parse d (lenN bt) = Ok x ->
     exists y, load_attributes L a = Ok y /\ a_attrs y = Some x) /\
  (forall d e, decompress L rest (bN m) (lenN bt * 100) = Ok d -> attr_parse d (lenN bt) = Err e -> load_attributes L a = Err e) /\
  (forall e, decompress L rest (bN m) (lenN bt * 100) = Err e -> load_attributes L a = Err EInvalidFormat).
Proof.
  intros Ha Hb Hr H4 Hv Hm Hl. unfold load_attributes. rewrite Ha. change (read_file L a ATTRIBUTES) with (read_file L a (lit "(attributes)")).
  rewrite Hr, Hb. cbn [bind].
  assert (E : attr_unwrap L (m :: rest) (lenN bt) =
              match decompress L rest (bN m) (lenN bt * 100) with Ok d => Ok d | Err _ => Ok (m :: rest) | Panic => Panic end).
  { unfold attr_unwrap. replace (4 <=? lenN (m :: rest)) with true by lia.
    replace (le_dec (firstn 4 (m :: rest)) =? 100) with false
      by (symmetry; apply N.eqb_neq; intros C; apply Hv; apply le_dec_100; [rewrite firstn_length; unfold lenN in H4; lia|exact C]).
    replace (bN m =? 0x64) with false by lia.
    replace (N.land (bN m) 0x0F) with (bN m mod 16) by (symmetry; change 0x0F with (N.ones 4); rewrite N.land_ones; reflexivity).
    replace (bN m mod 16 =? 0) with false by (symmetry; apply N.eqb_neq; exact Hl). reflexivity. }
  rewrite E. repeat split.
  - intros d x -> Hx. cbn [bind]. rewrite Hx. cbn [bind]. eexists. split; reflexivity.
  - intros d e -> Hx. cbn [bind]. rewrite Hx. reflexivity.
  - intros e ->. cbn [bind]. rewrite not_version by assumption. reflexivity.
Qed.
