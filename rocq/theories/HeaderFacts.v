(** * Facts about headers. *)
From Verif Require Import Bytes BlockTable HashTableFacts TableMap Header.
Open Scope N_scope.

Lemma take_app k a b : lenN a = k -> take k (a ++ b) = Ok (a, b).
Proof.
  intros <-. unfold take. rewrite lenN_app.
  replace (lenN a <=? lenN a + lenN b) with true by (symmetry; apply N.leb_le; lia).
  unfold lenN. rewrite Nat2N.id.
  now rewrite firstn_app_exact, skipn_app_exact.
Qed.

Lemma take_le_app k n b : n < 256 ^ k -> take_le k (le_enc (N.to_nat k) n ++ b) = Ok (n, b).
Proof.
  intros H. unfold take_le. rewrite take_app.
  - cbn [bind]. rewrite le_dec_enc, N2Nat.id, N.mod_small by exact H. reflexivity.
  - unfold lenN. rewrite le_enc_length. lia.
Qed.

Lemma take16 n b : n < M16 -> take_le 2 (le16 n ++ b) = Ok (n, b).
Proof. exact (take_le_app 2 n b). Qed.
Lemma take32 n b : n < M32 -> take_le 4 (le32 n ++ b) = Ok (n, b).
Proof. exact (take_le_app 4 n b). Qed.
Lemma take64 n b : n < M64 -> take_le 8 (le64 n ++ b) = Ok (n, b).
Proof. exact (take_le_app 8 n b). Qed.

Definition v4_ok (v : v4data) : Prop :=
  v4_hash_size v < M64 /\ v4_block_size v < M64 /\ v4_hi_size v < M64 /\
  v4_het_size v < M64 /\ v4_bet_size v < M64 /\ v4_chunk v < M32 /\
  lenN (v4_md5_block v) = 16 /\ lenN (v4_md5_hash v) = 16 /\ lenN (v4_md5_hi v) = 16 /\
  lenN (v4_md5_bet v) = 16 /\ lenN (v4_md5_het v) = 16 /\ lenN (v4_md5_header v) = 16.

Lemma v4_read_bytes v rest : v4_ok v -> v4_read (v4_bytes v ++ rest) = Ok v.
Proof.
  intros (H1 & H2 & H3 & H4 & H5 & H6 & L1 & L2 & L3 & L4 & L5 & L6).
  unfold v4_read, v4_bytes. rewrite <- !app_assoc.
  rewrite take64 by assumption; cbn [bind].
  rewrite take64 by assumption; cbn [bind].
  rewrite take64 by assumption; cbn [bind].
  rewrite take64 by assumption; cbn [bind].
  rewrite take64 by assumption; cbn [bind].
  rewrite take32 by assumption; cbn [bind].
  rewrite take_app by assumption; cbn [bind].
  rewrite take_app by assumption; cbn [bind].
  rewrite take_app by assumption; cbn [bind].
  rewrite take_app by assumption; cbn [bind].
  rewrite take_app by assumption; cbn [bind].
  rewrite take_app by assumption; cbn [bind].
  destruct v; reflexivity.
Qed.

(** Machine ranges of the fields, by their Rust types. *)
Definition opt_lt (o : option N) (m : N) : Prop := or0 o < m.
Definition hp_ok (p : hparams) : Prop :=
  p_block_size p < M16 /\ p_archive_size p < M64 /\
  p_hash_count p < M32 /\ p_block_count p < M32 /\
  opt_lt (p_hi_pos p) M64 /\ opt_lt (p_het_pos p) M64 /\ opt_lt (p_bet_pos p) M64 /\
  match p_v4 p with Some v => v4_ok v | None => True end.

(** The header the reader gets. *)
Definition header_of (p : hparams) : header :=
  let g2 {A} (x : A) := if version_ge (p_version p) V2 then Some x else None in
  let g3 {A} (x : A) := if version_ge (p_version p) V3 then Some x else None in
  mkHeader (header_size_of (p_version p)) (N.min (p_archive_size p) 0xFFFFFFFF)
    (p_version p) (p_block_size p) (w32 (p_hash_pos p)) (w32 (p_block_pos p))
    (p_hash_count p) (p_block_count p)
    (g2 (or0 (p_hi_pos p))) (g2 (pos_high (p_hash_pos p))) (g2 (pos_high (p_block_pos p)))
    (g3 (p_archive_size p)) (g3 (or0 (p_bet_pos p))) (g3 (or0 (p_het_pos p)))
    (match p_version p with V4 => p_v4 p | _ => None end).

Lemma min_u32 n : N.min n 0xFFFFFFFF < M32.
Proof. unfold M32. change (2 ^ 32) with 4294967296. lia. Qed.
Lemma sig_lt : MPQ_HEADER_SIGNATURE < M32. Proof. reflexivity. Qed.
Lemma hsize_lt v : header_size_of v < M32. Proof. destruct v; reflexivity. Qed.
Lemma vraw_lt v : version_raw v < M16. Proof. destruct v; reflexivity. Qed.
Lemma w16_lt n : w16 n < M16. Proof. apply N.mod_lt. discriminate. Qed.

Lemma header_read_write p w rest :
  hp_ok p -> write_header p = Ok w -> header_read (w ++ rest) = Ok (header_of p).
Proof.
  intros (H1 & H2 & H3 & H4 & H5 & H6 & H7 & H8) Hw.
  assert (K1 := take32 MPQ_HEADER_SIGNATURE).
  assert (E : exists tail, w ++ rest = header_v1_bytes p ++ tail /\
    match p_version p with
    | V1 => tail = rest
    | V2 => tail = header_v2_bytes p ++ rest
    | V3 => tail = header_v2_bytes p ++ header_v3_bytes p ++ rest
    | V4 => exists v, p_v4 p = Some v /\
              tail = header_v2_bytes p ++ header_v3_bytes p ++ v4_bytes v ++ rest
    end).
  { unfold write_header in Hw. destruct (p_version p).
    - apply Ok_inj in Hw; subst w. eauto.
    - apply Ok_inj in Hw; subst w. rewrite <- app_assoc. eauto.
    - apply Ok_inj in Hw; subst w. rewrite <- !app_assoc. eauto.
    - destruct (p_v4 p) as [v|] eqn:Ev; [|discriminate]. apply Ok_inj in Hw; subst w.
      rewrite <- !app_assoc. eauto. }
  destruct E as (tail & -> & Htail).
  unfold header_read, header_v1_bytes. rewrite <- !app_assoc.
  rewrite take32 by apply sig_lt. cbn [bind]. rewrite N.eqb_refl. cbn [negb].
  rewrite take32 by apply hsize_lt. cbn [bind].
  rewrite take32 by apply min_u32. cbn [bind].
  rewrite take16 by apply vraw_lt. cbn [bind].
  rewrite take16 by assumption. cbn [bind].
  rewrite take32 by apply w32_lt. cbn [bind].
  rewrite take32 by apply w32_lt. cbn [bind].
  rewrite take32 by assumption. cbn [bind].
  rewrite take32 by assumption. cbn [bind].
  replace (version_of_raw (version_raw (p_version p))) with (Some (p_version p))
    by (destruct (p_version p); reflexivity).
  rewrite N.ltb_irrefl. unfold header_of.
  destruct (p_version p) eqn:Ev.
  - reflexivity.
  - change (version_ge V2 V2) with true. change (version_ge V2 V3) with false. cbn [negb].
    rewrite Htail. unfold header_v2_bytes. rewrite <- !app_assoc.
    rewrite take64 by assumption. cbn [bind].
    rewrite take16 by apply w16_lt. cbn [bind].
    rewrite take16 by apply w16_lt. cbn [bind]. reflexivity.
  - change (version_ge V3 V2) with true. change (version_ge V3 V3) with true.
    change (version_ge V3 V4) with false. cbn [negb].
    rewrite Htail. unfold header_v2_bytes, header_v3_bytes. rewrite <- !app_assoc.
    rewrite take64 by assumption. cbn [bind].
    rewrite take16 by apply w16_lt. cbn [bind].
    rewrite take16 by apply w16_lt. cbn [bind].
    rewrite take64 by assumption. cbn [bind].
    rewrite take64 by assumption. cbn [bind].
    rewrite take64 by assumption. cbn [bind]. reflexivity.
  - change (version_ge V4 V2) with true. change (version_ge V4 V3) with true.
    change (version_ge V4 V4) with true. cbn [negb].
    destruct Htail as (v & Hv & ->). rewrite Hv in *.
    unfold header_v2_bytes, header_v3_bytes. rewrite <- !app_assoc.
    rewrite take64 by assumption. cbn [bind].
    rewrite take16 by apply w16_lt. cbn [bind].
    rewrite take16 by apply w16_lt. cbn [bind].
    rewrite take64 by assumption. cbn [bind].
    rewrite take64 by assumption. cbn [bind].
    rewrite take64 by assumption. cbn [bind].
    rewrite v4_read_bytes by assumption. cbn [bind]. reflexivity.
Qed.

Lemma write_header_length p w :
  (match p_v4 p with Some v => v4_ok v | None => True end) ->
  write_header p = Ok w -> lenN w = header_size_of (p_version p).
Proof.
  intros H8 Hw. unfold write_header in Hw.
  assert (L1 : lenN (header_v1_bytes p) = 32)
    by (unfold lenN, header_v1_bytes, le32, le16; rewrite !app_length, !le_enc_length; reflexivity).
  assert (L2 : lenN (header_v2_bytes p) = 12)
    by (unfold lenN, header_v2_bytes, le64, le16; rewrite !app_length, !le_enc_length; reflexivity).
  assert (L3 : lenN (header_v3_bytes p) = 24)
    by (unfold lenN, header_v3_bytes, le64; rewrite !app_length, !le_enc_length; reflexivity).
  destruct (p_version p).
  - apply Ok_inj in Hw; subst w. exact L1.
  - apply Ok_inj in Hw; subst w. rewrite lenN_app, L1, L2. reflexivity.
  - apply Ok_inj in Hw; subst w. rewrite !lenN_app, L1, L2, L3. reflexivity.
  - destruct (p_v4 p) as [v|]; [|discriminate]. apply Ok_inj in Hw; subst w.
    assert (lenN (v4_bytes v) = 140).
    { destruct H8 as (_ & _ & _ & _ & _ & _ & M1 & M2 & M3 & M4 & M5 & M6).
      unfold v4_bytes. rewrite !lenN_app, M1, M2, M3, M4, M5, M6.
      unfold lenN, le64, le32. rewrite !le_enc_length. reflexivity. }
    rewrite !lenN_app, L1, L2, L3, H. reflexivity.
Qed.

(** A header position that fits the format. *)
Definition pos_fits (v : version) (pos : N) : Prop :=
  pos < (if version_ge v V2 then 2 ^ 48 else 2 ^ 32).

Lemma header_round_trip p w rest :
  hp_ok p -> write_header p = Ok w ->
  exists h, header_read (w ++ rest) = Ok h /\ lenN w = header_size_of (p_version p) /\
    h_version h = p_version p /\ h_size h = lenN w /\
    h_block_size h = p_block_size p /\
    h_hash_count h = p_hash_count p /\ h_block_count h = p_block_count p /\
    (pos_fits (p_version p) (p_hash_pos p) -> get_hash_table_pos h = p_hash_pos p) /\
    (pos_fits (p_version p) (p_block_pos p) -> get_block_table_pos h = p_block_pos p) /\
    (p_archive_size p < 2 ^ 32 \/ version_ge (p_version p) V3 = true ->
       get_archive_size h = p_archive_size p) /\
    (version_ge (p_version p) V2 = true -> h_hi_pos h = Some (or0 (p_hi_pos p))) /\
    (version_ge (p_version p) V3 = true ->
       h_bet_pos h = Some (or0 (p_bet_pos p)) /\ h_het_pos h = Some (or0 (p_het_pos p))) /\
    (p_version p = V4 -> h_v4 h = p_v4 p).
Proof.
  intros Hok Hw. exists (header_of p).
  assert (Hp : forall pos, pos_fits (p_version p) pos ->
     match (if version_ge (p_version p) V2 then Some (pos_high pos) else None) with
     | Some hi => N.lor (N.shiftl hi 32) (w32 pos)
     | None => w32 pos
     end = pos).
  { intros pos. unfold pos_fits. destruct (version_ge (p_version p) V2).
    - intros H. apply (pos_recombine pos H).
    - intros H. now apply w32_small. }
  split; [now apply header_read_write|].
  assert (HL : lenN w = header_size_of (p_version p)).
  { apply write_header_length; [|exact Hw].
    destruct Hok as (_ & _ & _ & _ & _ & _ & _ & H8). exact H8. }
  split; [exact HL|].
  split; [reflexivity|]. split; [symmetry; exact HL|]. split; [reflexivity|].
  split; [reflexivity|]. split; [reflexivity|].
  split; [apply Hp|]. split; [apply Hp|].
  split.
  { unfold get_archive_size, header_of; cbn [h_archive_size64 h_archive_size].
    intros [H|H].
    - destruct (version_ge (p_version p) V3); [reflexivity|]. change (2 ^ 32) with 4294967296 in H. lia.
    - rewrite H. reflexivity. }
  split; [intros H; unfold header_of; cbn [h_hi_pos]; rewrite H; reflexivity|].
  split; [intros H; unfold header_of; cbn [h_bet_pos h_het_pos]; rewrite H; auto|].
  intros H. unfold header_of; cbn [h_v4]. now rewrite H.
Qed.
