(** * Data packed in several steps. *)
From Coq Require Import Lia ZifyBool ZifyNat ZifyN.
From Verif Require Import Bytes Sparse Adpcm Compress SpecCompress SparseFacts CompressFacts SpecNested ToyCodec.
Open Scope N_scope.

Lemma thrice_combo L f d c : lossless L -> lenN d < 2 ^ 61 -> from_flags f = MMultiple f ->
  bit f HUFFMAN = false -> bit f ZLIB = true -> bit f PKWARE = true ->
  bit f ADPCM_MONO && bit f ADPCM_STEREO = false ->
  (f =? ADPCM_MONO) = false -> (f =? ADPCM_STEREO) = false ->
  packed_thrice L f d c -> decompress L c f (lenN d) = lossy_image f d.
Proof.
  intros (Hz & _ & _ & Hp) Hs Hf B1 B2 B3 B6 N1 N2 (a & p & Ha & Ep & Ec).
  destruct (Hz _ _ Ec) as [Nc Dc]. destruct (Hp _ _ Ep) as [Np Dp].
  unfold first_step in Ha. unfold lossy_image, decompress. rewrite Hf. unfold decompress_multiple.
  destruct c as [|x c]; [congruence|].
  rewrite B1, B2, B3, N1, N2, (scaled_enough _ Hs). cbn [bind]. rewrite (room_enough _ _ Hs).
  unfold zlib_decompress. rewrite Dc. cbn [bind]. unfold pk_decompress.
  destruct p as [|y p]; [congruence|]. rewrite Dp. cbn [bind].
  destruct (bit f ADPCM_MONO), (bit f ADPCM_STEREO); cbn [andb orb negb] in *; try discriminate.
  - rewrite Ha. cbn [bind]. now destruct (adpcm_decompress a (lenN d) 1).
  - rewrite Ha. cbn [bind]. now destruct (adpcm_decompress a (lenN d) 2).
  - apply Ok_inj in Ha. now subst a.
Qed.

Lemma thrice_undone L f d c : lossless L -> lenN d < 2 ^ 61 -> In f zlib_over_pkware ->
  packed_thrice L f d c -> decompress L c f (lenN d) = lossy_image f d.
Proof.
  intros HL Hs Hf H.
  repeat (destruct Hf as [<-|Hf];
    [apply (thrice_combo L _ d c HL Hs); try reflexivity; exact H|]).
  destruct Hf.
Qed.

(** Of two general methods only the first is undone. *)
Lemma inner_left L s c n : lossless L -> n < 2 ^ 61 -> zlib_enc L s = Ok c ->
  decompress L c 0x22 n = Ok s.
Proof.
  intros (Hz & _) Hn H. destruct (Hz _ _ H) as [N D]. destruct c as [|x c]; [congruence|].
  change (decompress L (x :: c) 0x22 n) with
    (cur <- (k <- scaled n 4 ;; room k (zlib_decompress L (x :: c) k)) ;;
     zlib_decompress L (x :: c) n).
  rewrite (scaled_enough _ Hn). cbn [bind]. rewrite (room_enough _ _ Hn).
  unfold zlib_decompress. now rewrite D.
Qed.

(** bzip2 beside other general methods is refused whatever the data. *)
Lemma bzip2_refused L f c n out : bit f BZIP2 = true -> bit f HUFFMAN = false -> bit f ZLIB = false ->
  bit f PKWARE = false -> bit f ADPCM_MONO || bit f ADPCM_STEREO = false ->
  from_flags f = MMultiple f -> n <> 0 -> decompress L c f n <> Ok out.
Proof.
  intros B1 B2 B3 B4 B5 Hf Hn H. unfold decompress in H. destruct c as [|x c]; [discriminate|].
  rewrite Hf in H. unfold decompress_multiple in H. apply orb_false_elim in B5 as [B5 B6].
  rewrite B1, B2, B3, B4, B5, B6 in H. cbn [orb andb negb] in H.
  unfold scaled in H. destruct (n * 4 <? M64); [|discriminate].
  cbn [bind] in H. unfold room in H. destruct (n * 4 <? 2 ^ 63); [|discriminate].
  unfold bz_decompress in H. destruct (bz_dec L (x :: c)) as [o| |]; cbn [bind] in H; try discriminate.
  destruct (lenN o =? n * 4) eqn:E; cbn [bind] in H; [|discriminate].
  destruct (f =? ADPCM_MONO) eqn:E1.
  { apply N.eqb_eq in E1. subst f. discriminate. }
  destruct (f =? ADPCM_STEREO) eqn:E2.
  { apply N.eqb_eq in E2. subst f. discriminate. }
  destruct (lenN o =? n) eqn:E3; [|discriminate].
  apply N.eqb_eq in E, E3. lia.
Qed.

Lemma sparse_zlib_lost : exists L d c out, lossless L /\ sparse_in_zlib L d c /\
  decompress L c 0x22 (lenN d) = Ok out /\ out <> d.
Proof.
  exists toy, (lit "a" ++ repeat x00 9), (x01 :: [x01; Nb 97] ++ [Nb 0x89; Nb 0xFF]),
    ([x01; Nb 97] ++ [Nb 0x89; Nb 0xFF]).
  split; [exact toy_lossless|]. split; [|split; [vm_compute; reflexivity|discriminate]].
  exists ([x01; Nb 97] ++ [Nb 0x89; Nb 0xFF]). split; [|vm_compute; reflexivity].
  apply (runs_bytes 126 [Nb 97] [Nb 0x89; Nb 0xFF] (repeat x00 9)); [vm_compute; discriminate|].
  apply (runs_zeros 126 9 [Nb 0xFF] []); [vm_compute; discriminate|]. constructor.
Qed.

(** ** Sparse over PKWare *)
Lemma dec_runs_le c d : runs 126 c d -> forall f out e,
  (length c < f)%nat -> out + lenN d <= e -> sparse_dec_loop f c out e = Ok d.
Proof.
  induction 1 as [|n c d Hn H IH|l c d Hl H IH]; intros f out e Hf He.
  - destruct f; [cbn in Hf; lia|]. apply dec_end.
  - destruct f as [|f]; [cbn in Hf; lia|]. cbn [length] in Hf.
    rewrite lenN_app, (lenN_zs (N.to_nat n) : lenN (repeat x00 (N.to_nat n)) = _), N2Nat.id in He.
    destruct (N.eq_dec out e) as [Eo|Eo].
    { rewrite dec_loop_done by lia. assert (n = 0) as -> by lia.
      destruct d; [reflexivity|rewrite lenN_cons in He; lia]. }
    destruct (N.eq_dec n 0) as [->|Hz].
    + cbn [sparse_dec_loop]. replace (out <? e) with true by lia.
      change (bN (Nb (128 + 0)) =? 255) with false.
      change (negb (N.land (bN (Nb (128 + 0))) 128 =? 0)) with true.
      change (N.land (bN (Nb (128 + 0))) 127) with 0. cbv zeta iota.
      rewrite (IH f (out + 0) e) by lia. reflexivity.
    + rewrite <- lor_80_add by lia. rewrite dec_zero_chunk by lia.
      rewrite (IH f (out + n) e) by lia. reflexivity.
  - destruct f as [|f]; [cbn in Hf; lia|]. cbn [length] in Hf. rewrite app_length in Hf.
    rewrite lenN_app in He.
    destruct (N.eq_dec out e) as [Eo|Eo].
    { rewrite dec_loop_done by lia.
      destruct l; [|rewrite lenN_cons in He; lia]. destruct d; [reflexivity|rewrite lenN_cons in He; lia]. }
    destruct l as [|x l].
    + cbn [sparse_dec_loop app]. rewrite lenN_nil in *. replace (out <? e) with true by lia.
      change (bN (Nb 0)) with 0. change (0 =? 255) with false.
      change (N.land 0 128 =? 0) with true. cbv zeta iota. cbn [negb].
      replace (lenN c <? 0) with false by lia.
      change (skipn (N.to_nat 0) c) with c. change (firstn (N.to_nat 0) c) with (@nil byte).
      rewrite (IH f (out + 0) e) by (cbn in *; lia). reflexivity.
    + rewrite dec_lit by (try lia; cbn [length]; unfold lenN in Hl; cbn [length] in Hl; lia).
      rewrite (IH f (out + lenN (x :: l)) e) by lia. reflexivity.
Qed.
Lemma runs_padded c d e : runs 126 c d -> lenN d <= e ->
  exists n, sparse_decompress c e = Ok (d ++ repeat x00 n).
Proof.
  intros H He. unfold sparse_decompress. rewrite (dec_runs_le c d H) by lia. cbn [bind].
  destruct (lenN d <? e); [exists (N.to_nat (e - lenN d)); reflexivity|exists O; reflexivity].
Qed.
Lemma runs_not_nil c d : runs 126 c d -> c <> [].
Proof. destruct 1; discriminate. Qed.

Lemma sparse_pkware_combo L f d c : lossless L -> pkware_stops L -> lenN d < 2 ^ 61 -> from_flags f = MMultiple f ->
  bit f HUFFMAN = false -> bit f ZLIB = false -> bit f BZIP2 = false -> bit f SPARSE = true -> bit f PKWARE = true ->
  bit f ADPCM_MONO && bit f ADPCM_STEREO = false ->
  (f =? ADPCM_MONO) = false -> (f =? ADPCM_STEREO) = false ->
  sparse_after_pkware L f d c -> decompress L c f (lenN d) = lossy_image f d.
Proof.
  intros (_ & _ & _ & Hp) Ht Hs Hf B1 B2 B3 B4 B5 B6 N1 N2 (a & p & Ha & Ep & Hl & Hr).
  destruct (Hp _ _ Ep) as [Np _]. destruct (runs_padded c p (lenN d * 4) Hr) as (n & Er); [lia|].
  pose proof (runs_not_nil _ _ Hr) as Nc.
  unfold first_step in Ha. unfold lossy_image, decompress. rewrite Hf. unfold decompress_multiple.
  destruct c as [|x c]; [congruence|].
  rewrite B1, B2, B3, B4, B5, N1, N2, (scaled_enough _ Hs). cbn [bind]. rewrite (room_enough _ _ Hs), Er.
  cbn [bind]. unfold pk_decompress.
  assert (G : pk_dec L (p ++ repeat x00 n) = Ok a) by (now apply Ht).
  destruct (p ++ repeat x00 n) as [|y q] eqn:Eq; [apply app_eq_nil in Eq as [Eq _]; congruence|]. rewrite G. cbn [bind].
  destruct (bit f ADPCM_MONO), (bit f ADPCM_STEREO); cbn [andb orb negb] in *; try discriminate.
  - rewrite Ha. cbn [bind]. now destruct (adpcm_decompress a (lenN d) 1).
  - rewrite Ha. cbn [bind]. now destruct (adpcm_decompress a (lenN d) 2).
  - apply Ok_inj in Ha. now subst a.
Qed.
Lemma sparse_pkware_undone L f d c : lossless L -> pkware_stops L -> lenN d < 2 ^ 61 -> In f sparse_over_pkware ->
  sparse_after_pkware L f d c -> decompress L c f (lenN d) = lossy_image f d.
Proof.
  intros HL Ht Hs Hf H.
  repeat (destruct Hf as [<-|Hf];
    [apply (sparse_pkware_combo L _ d c HL Ht Hs); try reflexivity; exact H|]).
  destruct Hf.
Qed.
Lemma sparse_pkware_lost : exists L d c out, lossless L /\ sparse_after_pkware L 0x28 d c /\
  decompress L c 0x28 (lenN d) = Ok out /\ out <> d.
Proof.
  exists toy, (lit "ab"), (Nb 3 :: [x01; Nb 97; Nb 98] ++ [Nb 0xFF]), (lit "ab" ++ zeros 5).
  split; [exact toy_lossless|]. split; [|split; [vm_compute; reflexivity|discriminate]].
  exists (lit "ab"), [x01; Nb 97; Nb 98]. split; [reflexivity|]. split; [vm_compute; reflexivity|]. split; [vm_compute; discriminate|].
  apply (runs_bytes 126 [x01; Nb 97; Nb 98] [Nb 0xFF] []); [vm_compute; discriminate|]. constructor.
Qed.

(** ** bzip2 over PKWare *)
Lemma bzip2_pkware_combo L f d p c : lossless L -> lenN d < 2 ^ 61 -> from_flags f = MMultiple f ->
  bit f HUFFMAN = false -> bit f ZLIB = false -> bit f BZIP2 = true ->
  bzip2_after_pkware L f d p c -> lenN p <> 4 * lenN d -> decompress L c f (lenN d) = Err ECompression.
Proof.
  intros (_ & Hb & _) Hs Hf B1 B2 B3 (a & _ & _ & Ec) Hn. destruct (Hb _ _ Ec) as [Nc Dc].
  unfold decompress. rewrite Hf. unfold decompress_multiple. destruct c as [|x c]; [congruence|].
  rewrite B1, B2, B3, (scaled_enough _ Hs). cbn [bind]. rewrite (room_enough _ _ Hs). unfold bz_decompress at 1. rewrite Dc. cbn [bind].
  replace (lenN p =? lenN d * 4) with false; [reflexivity|]. symmetry. apply N.eqb_neq. lia.
Qed.
Lemma bzip2_pkware_refused L f d p c : lossless L -> lenN d < 2 ^ 61 -> In f bzip2_over_pkware ->
  bzip2_after_pkware L f d p c -> lenN p <> 4 * lenN d -> decompress L c f (lenN d) = Err ECompression.
Proof.
  intros HL Hs Hf H Hn.
  repeat (destruct Hf as [<-|Hf];
    [apply (bzip2_pkware_combo L _ d p c HL Hs); try reflexivity; [exact H|exact Hn]|]).
  destruct Hf.
Qed.

(** A codec whose decoder stops at the end of its stream: the length in front *)
Definition sized_enc (d : bytes) : res bytes := if lenN d <? 2 ^ 32 then Ok (le32 (lenN d) ++ d) else Err ECompression.
Definition sized_dec (c : bytes) : res bytes :=
  match slice 0 4 c with
  | Some s => match slice 4 (le_dec s) c with Some d => Ok d | None => Err ECompression end
  | None => Err ECompression
  end.
Definition sized : codecs := mkCodecs toy_enc toy_dec toy_enc toy_dec toy_enc toy_dec sized_enc sized_dec.
Lemma sized_reads d p z : sized_enc d = Ok p -> sized_dec (p ++ z) = Ok d.
Proof.
  unfold sized_enc. destruct (lenN d <? 2 ^ 32) eqn:E; [|discriminate]. intros H. apply Ok_inj in H. subst p. unfold sized_dec.
  rewrite <- app_assoc. assert (L4 : lenN (le32 (lenN d)) = 4) by reflexivity.
  assert (S0 : slice 0 4 (le32 (lenN d) ++ d ++ z) = Some (le32 (lenN d))) by (exact (slice_mid [] (le32 (lenN d)) (d ++ z))).
  rewrite S0.
  rewrite le32_dec by (change M32 with (2 ^ 32); lia).
  rewrite (slice_mid' 4 (lenN d) (le32 (lenN d)) d z) by auto. reflexivity.
Qed.
Lemma sized_stops : lossless sized /\ pkware_stops sized.
Proof.
  split.
  - unfold lossless. cbn. repeat split; try (eapply toy_faithful; eassumption).
    + unfold sized_enc in H. destruct (lenN d <? 2 ^ 32); [|discriminate]. apply Ok_inj in H. subst c. intros E. apply (f_equal (@length byte)) in E. rewrite app_length, le32_length in E. discriminate.
    + rewrite <- (app_nil_r c). now apply sized_reads.
  - intros d p n H. now apply sized_reads.
Qed.
