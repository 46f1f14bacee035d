(** * Which attribute files are refused. *)
From Verif Require Import Bytes Attributes SpecAttributes AttributesFacts.
Open Scope N_scope.

Lemma attr_accepts data n s : n < 2 ^ 59 -> slice 0 4 data = Some (le32 100) -> slice 4 4 data = Some s ->
  whole_size (le_dec s) n <= lenN data -> exists a, attr_parse data n = Ok a.
Proof.
  intros Hn Hv Hs Hw. destruct (attr_parse_total data n Hn) as [H|(a & _ & H & _)]; [exfalso|eauto]. revert H. unfold attr_parse.
  assert (L : (8 <= length data)%nat).
  { unfold whole_size, patch_start, md5_start, time_start, crc_start, lenN in Hw. lia. }
  destruct (N.ltb_spec (lenN data) 8) as [C|_]; [unfold lenN in C; lia|]. rewrite take_ok by lia. cbn [bind].
  assert (Ev : firstn 4 data = le32 100).
  { change 4 with (N.of_nat 4) in Hv. rewrite slice_firstn in Hv by (cbn; lia). now injection Hv. }
  rewrite Ev. change (le_dec (le32 100) =? EXPECTED_VERSION) with true. cbn [negb].
  rewrite take_ok by (rewrite skipn_length; lia). cbn [bind].
  assert (Es : firstn 4 (skipn 4 data) = s).
  { change (slice 4 4 data) with (slice 4 (N.of_nat 4) data) in Hs. rewrite slice_firstn in Hs by (cbn; lia). now injection Hs. }
  rewrite Es, attr_size_whole by exact Hn. cbn [bind].
  destruct (N.ltb_spec (lenN data) (whole_size (le_dec s) n)) as [C|_]; [lia|].
  intros H. exfalso. revert H. clear.
  assert (T : forall k d, take k d <> Err EInvalidFormat) by (intros k d; unfold take; destruct (_ <? _)%nat; discriminate).
  assert (V : forall k m d, take_values k m d <> Err EInvalidFormat).
  { intros k. induction m as [|m IH]; intros d; cbn [take_values]; [discriminate|]. specialize (T k d). destruct (take k d) as [[x d']|e|]; cbn [bind]; try congruence.
    specialize (IH d'). destruct (take_values k m d') as [[x' d'']|e|]; cbn [bind]; congruence. }
  assert (O : forall p k m d, opt_values p k m d <> Err EInvalidFormat).
  { intros p k m d. unfold opt_values. destruct p; [|discriminate]. specialize (V k m d). destruct (take_values k m d) as [[x d']|e|]; cbn [bind]; congruence. }
  assert (Va : forall v i, val_at v i <> Err EInvalidFormat) by (intros [v|] i; cbn [val_at]; [destruct (nth_error v i)|]; discriminate).
  assert (Bi : forall v i, bit_at v i <> Err EInvalidFormat) by (intros [v|] i; cbn [bit_at]; [destruct (nth_error v _)|]; discriminate).
  assert (A : forall a b c d l, combine_all a b c d l <> Err EInvalidFormat).
  { intros a b c d. induction l as [|i l IH]; cbn [combine_all]; [discriminate|]. unfold combine_attr.
    pose proof (Va a i). destruct (val_at a i); cbn [bind]; try congruence. pose proof (Va b i). destruct (val_at b i); cbn [bind]; try congruence.
    pose proof (Va c i). destruct (val_at c i); cbn [bind]; try congruence. pose proof (Bi d i). destruct (bit_at d i); cbn [bind]; try congruence.
    destruct (combine_all a b c d l); cbn [bind]; congruence. }
  match goal with |- context [opt_values ?p ?k ?m ?d] => pose proof (O p k m d); destruct (opt_values p k m d) as [[x1 d1]|e|]; cbn [bind]; try congruence end.
  match goal with |- context [opt_values ?p ?k ?m ?d] => pose proof (O p k m d); destruct (opt_values p k m d) as [[x2 d2]|e|]; cbn [bind]; try congruence end.
  match goal with |- context [opt_values ?p ?k ?m ?d] => pose proof (O p k m d); destruct (opt_values p k m d) as [[x3 d3]|e|]; cbn [bind]; try congruence end.
  destruct (a_has (le_dec s) A_PATCH); [match goal with |- context [take ?k ?d] => pose proof (T k d); destruct (take k d) as [[x4 d4]|e|] end|]; cbn [bind]; try congruence;
  match goal with |- context [combine_all ?a ?b ?c ?d ?l] => pose proof (A a b c d l); destruct (combine_all a b c d l) end; cbn [bind]; congruence.
Qed.
