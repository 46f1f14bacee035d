(** * What the header reader takes from where. *)
From Coq Require Import Lia.
From Verif Require Import Bytes Header HeaderFacts Compress Archive Info InfoFacts SpecDigest SpecFields.
Open Scope N_scope.

Lemma take_at k p d : Header.take k (skipn (N.to_nat p) d) =
  (if p + k <=? lenN d then Ok (part d p k, skipn (N.to_nat (p + k)) d)
   else if k =? 0 then Ok ([], skipn (N.to_nat p) d) else Err EIo).
Proof.
  unfold Header.take, part. unfold lenN. rewrite skipn_length.
  rewrite skipn_skipn. replace (N.to_nat k + N.to_nat p)%nat with (N.to_nat (p + k)) by lia.
  destruct (N.eqb_spec k 0) as [->|Hk].
  - rewrite N.add_0_r. now destruct (0 <=? _) eqn:E; [|lia]; destruct (p <=? _).
  - destruct (k <=? _) eqn:E1, (p + k <=? _) eqn:E2; try reflexivity; lia.
Qed.
Lemma take_le_at k p d : k <> 0 -> take_le k (skipn (N.to_nat p) d) =
  (if p + k <=? lenN d then Ok (field d p k, skipn (N.to_nat (p + k)) d) else Err EIo).
Proof.
  intros Hk. unfold take_le. rewrite take_at. apply N.eqb_neq in Hk. rewrite Hk.
  now destruct (p + k <=? lenN d).
Qed.

Ltac tk := match goal with
  | |- context [bind (take_le ?k (skipn (N.to_nat ?p) ?d)) _] =>
      rewrite (take_le_at k p d) by discriminate;
      let q := eval vm_compute in (p + k) in change (p + k) with q;
      destruct (N.leb_spec q (lenN d)); cbn [bind]
  | |- context [bind (Header.take ?k (skipn (N.to_nat ?p) ?d)) _] =>
      rewrite (take_at k p d); change (k =? 0) with false; cbn iota;
      let q := eval vm_compute in (p + k) in change (p + k) with q;
      destruct (N.leb_spec q (lenN d)); cbn [bind]
  end.

Lemma header_read_fields d h :
  header_read d = Ok h <-> exists v, begins_with_header d v /\ h = header_in d v.
Proof.
  unfold begins_with_header.
  assert (Short : forall n e, lenN d < n -> n <= 32 ->
    (@Err header e = Ok h <-> exists v, (field d 0 4 = 0x1A51504D /\
      field d 12 2 = match v with V1 => 0 | V2 => 1 | V3 => 2 | V4 => 3 end /\
      header_length v <= field d 4 4 /\ header_length v <= lenN d) /\ h = header_in d v)).
  { intros n e H1 H2. split; [discriminate|]. intros (v & (_ & _ & _ & H) & _). destruct v; cbn in H; lia. }
  unfold header_read. change d with (skipn (N.to_nat 0) d) at 1.
  tk; [|eapply Short; eauto; lia].
  unfold MPQ_HEADER_SIGNATURE. destruct (N.eqb_spec (field d 0 4) 0x1A51504D) as [Es|Es]; cbn [negb].
  2:{ split; [discriminate|]. intros (v & (E & _) & _). congruence. }
  do 8 (tk; [|eapply Short; eauto; lia]).
  destruct (version_of_raw (field d 12 2)) as [v|] eqn:Ev.
  2:{ split; [discriminate|]. intros (v & (_ & E & _) & _). rewrite E in Ev. destruct v; discriminate. }
  assert (Hv : field d 12 2 = match v with V1 => 0 | V2 => 1 | V3 => 2 | V4 => 3 end).
  { clear -Ev. unfold version_of_raw in Ev.
    destruct (field d 12 2) as [|[[p|p|]|[p|p|]|]]; try discriminate; now injection Ev as <-. }
  assert (Uv : forall w, field d 12 2 = match w with V1 => 0 | V2 => 1 | V3 => 2 | V4 => 3 end -> w = v).
  { intros w. rewrite Hv. now destruct v, w. }
  change (header_size_of v) with (header_length v).
  destruct (N.ltb_spec (field d 4 4) (header_length v)) as [Hl|Hl].
  { split; [discriminate|]. intros (w & (_ & E & E' & _) & _). apply Uv in E. subst w. lia. }
  assert (Long : forall e, lenN d < header_length v ->
    (@Err header e = Ok h <-> exists v, (field d 0 4 = 0x1A51504D /\
      field d 12 2 = match v with V1 => 0 | V2 => 1 | V3 => 2 | V4 => 3 end /\
      header_length v <= field d 4 4 /\ header_length v <= lenN d) /\ h = header_in d v)).
  { intros e H'. split; [discriminate|]. intros (w & (_ & E & _ & E') & _). apply Uv in E. subst w. lia. }
  assert (Done : forall h', h' = header_in d v -> header_length v <= lenN d ->
    (Ok h' = Ok h <-> exists v, (field d 0 4 = 0x1A51504D /\
      field d 12 2 = match v with V1 => 0 | V2 => 1 | V3 => 2 | V4 => 3 end /\
      header_length v <= field d 4 4 /\ header_length v <= lenN d) /\ h = header_in d v)).
  { intros h' -> H'. split.
    - intros E. apply Ok_inj in E. subst h. exists v. auto.
    - intros (w & (_ & E & _) & ->). apply Uv in E. now subst w. }
  destruct v; cbn [version_ge version_raw negb header_length] in *;
    unfold version_ge; cbn [version_raw N.leb N.compare Pos.compare Pos.compare_cont negb].
  - apply Done; [reflexivity|lia].
  - do 3 (tk; [|apply Long; lia]). apply Done; [reflexivity|lia].
  - do 6 (tk; [|apply Long; lia]). apply Done; [reflexivity|lia].
  - do 6 (tk; [|apply Long; lia]). unfold v4_read.
    do 12 (tk; [|apply Long; lia]). apply Done; [reflexivity|lia].
Qed.

(** ** The digests of whatever archive *)
Lemma part_from g off p n : part (from g off) p n = part g (off + p) n.
Proof.
  rewrite from_skipn. unfold part. rewrite skipn_skipn. do 2 f_equal. lia.
Qed.
Lemma field_from g off p n : field (from g off) p n = field g (off + p) n.
Proof. unfold field. now rewrite part_from. Qed.

Lemma pos_of_halves hi lo : lo < 2 ^ 32 -> N.lor (N.shiftl hi 32) lo = hi * 2 ^ 32 + lo.
Proof.
  intros H. rewrite <- N.shiftl_mul_pow2.
  assert (E : N.land (N.shiftl hi 32) lo = 0).
  { apply N.bits_inj. intros i. rewrite N.land_spec, N.bits_0.
    destruct (N.lt_ge_cases i 32) as [Hi|Hi].
    - now rewrite N.shiftl_spec_low.
    - rewrite <- (N.mod_small lo (2 ^ 32)) by exact H. rewrite N.mod_pow2_bits_high by exact Hi.
      apply andb_false_r. }
  now rewrite N.add_nocarry_lxor, N.lxor_lor by exact E.
Qed.
Lemma field_lt d p n : field d p n < 256 ^ n.
Proof.
  unfold field. eapply N.lt_le_trans; [apply le_dec_lt|].
  apply N.pow_le_mono_r; [discriminate|]. unfold part. rewrite firstn_length. lia.
Qed.

Section D.
Variable L : codecs.
Variable md5 : bytes -> bytes.

Lemma check_table_iff a e off size b : check_table md5 a e off size = Ok b ->
  (b = true <-> size = 0 \/ md5 (part (a_file a) (a_off a + off) size) = e).
Proof.
  unfold check_table. destruct (N.eqb_spec size 0) as [->|Hs]; intros H.
  - apply Ok_inj in H. subst b. tauto.
  - destruct (add64 (a_off a) off) as [o| |] eqn:Eo; cbn [bind] in H; try discriminate.
    unfold add64 in Eo. destruct (_ <? _); [|discriminate]. apply Ok_inj in Eo. subst o.
    destruct (read_at (a_file a) (a_off a + off) size) as [x| |] eqn:Ex; cbn [bind] in H; try discriminate.
    apply Ok_inj in H. subst b. rewrite bytes_eqb_iff.
    assert (x = part (a_file a) (a_off a + off) size) as ->; [|tauto].
    unfold read_at in Ex. destruct (slice _ _ _) eqn:E.
    2:{ apply N.eqb_neq in Hs. rewrite Hs in Ex. repeat destruct (_ <=? _) in Ex; discriminate. }
    apply Ok_inj in Ex. subst x.
    unfold slice in E. destruct (_ <=? _); [|discriminate]. now injection E as <-.
Qed.

Lemma any_digests g a s d : opened L g a -> validate_v4 md5 a = Ok (Some s) ->
  (flag s d = true <-> match digested_part g (a_off a) d with
                       | Some (p, n) => md5 (part g p n) = digest_at g (a_off a) d
                       | None => True
                       end).
Proof.
  intros Ha Hs. destruct d; [..|
    unfold digested_part, digest_at; now apply (header_digest_tells L md5 g a s Ha Hs)].
  all: destruct (opened_find _ _ _ Ha) as (Ef & ud & Hh); apply header_at in Hh;
    apply header_read_fields in Hh as (v & _ & Eh);
    unfold validate_v4 in Hs; rewrite Eh in Hs; destruct v; try discriminate Hs;
    cbn [header_in h_v4 h_hash_count h_block_count v4_md5_block v4_md5_hash v4_md5_hi v4_md5_het v4_md5_bet
         v4_hash_size v4_block_size v4_hi_size v4_het_size v4_bet_size h_hi_pos h_het_pos h_bet_pos] in Hs;
    unfold get_hash_table_pos, get_block_table_pos in Hs;
    cbn [header_in h_hash_pos_hi h_block_pos_hi h_hash_pos h_block_pos] in Hs;
    repeat rewrite field_from in Hs; repeat rewrite part_from in Hs;
    repeat match type of Hs with
    | bind ?X _ = Ok _ => destruct X eqn:?; cbn [bind] in Hs; try discriminate Hs
    end;
    apply Ok_inj in Hs; injection Hs as <-; cbn [flag ms_hash ms_block ms_hi ms_het ms_bet];
    unfold digested_part, digest_at; unfold check_optional in *.
  - revert Heqr. change (2 ^ 32) with (256 ^ 4) in *.
    rewrite pos_of_halves by (apply (field_lt g _ 4)).
    destruct (N.ltb_spec 0 (field g (a_off a + 24) 4)) as [H0|H0]; intros E.
    + replace (field g (a_off a + 24) 4 =? 0) with false by lia. apply check_table_iff in E. rewrite Ef in E.
      destruct (N.eqb_spec (field g (a_off a + 68) 8) 0); [tauto|]. rewrite E. tauto.
    + replace (field g (a_off a + 24) 4 =? 0) with true by lia. apply Ok_inj in E. subst. tauto.
  - revert Heqr0. change (2 ^ 32) with (256 ^ 4) in *.
    rewrite pos_of_halves by (apply (field_lt g _ 4)).
    destruct (N.ltb_spec 0 (field g (a_off a + 28) 4)) as [H0|H0]; intros E.
    + replace (field g (a_off a + 28) 4 =? 0) with false by lia. apply check_table_iff in E. rewrite Ef in E.
      destruct (N.eqb_spec (field g (a_off a + 76) 8) 0); [tauto|]. rewrite E. tauto.
    + replace (field g (a_off a + 28) 4 =? 0) with true by lia. apply Ok_inj in E. subst. tauto.
  - revert Heqr1. destruct (N.eqb_spec (field g (a_off a + 32) 8) 0) as [H0|H0]; intros E.
    + apply Ok_inj in E. subst. tauto.
    + apply check_table_iff in E. rewrite Ef in E.
      destruct (N.eqb_spec (field g (a_off a + 84) 8) 0); [tauto|]. rewrite E. tauto.
  - revert Heqr2. destruct (N.eqb_spec (field g (a_off a + 60) 8) 0) as [H0|H0]; intros E.
    + apply Ok_inj in E. subst. tauto.
    + apply check_table_iff in E. rewrite Ef in E.
      destruct (N.eqb_spec (field g (a_off a + 92) 8) 0); [tauto|]. rewrite E. tauto.
  - revert Heqr3. destruct (N.eqb_spec (field g (a_off a + 52) 8) 0) as [H0|H0]; intros E.
    + apply Ok_inj in E. subst. tauto.
    + apply check_table_iff in E. rewrite Ef in E.
      destruct (N.eqb_spec (field g (a_off a + 100) 8) 0); [tauto|]. rewrite E. tauto.
Qed.
End D.
