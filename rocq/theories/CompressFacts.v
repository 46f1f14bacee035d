(** * Facts about the compression front end. *)
From Verif Require Import Bytes Sparse SparseFacts Adpcm AdpcmFacts Huffman HuffmanFacts Compress SpecCompress.
Open Scope N_scope.

Lemma all_zeros_iff q : q = zs (length q) <-> Forall (fun b => b = x00) q.
Proof.
  split.
  - intros ->. apply Forall_forall. intros b Hb. now apply repeat_spec in Hb.
  - induction 1 as [|b l -> _ IH]; [reflexivity|]. cbn [length]. rewrite zs_S. congruence.
Qed.

Lemma sparse_lossless d :
  sparse_decompress (sparse_compress d) (lenN d) = Ok d <-> long_zeros_only_at_end d.
Proof.
  rewrite sparse_lossless_iff. unfold harmless, long_zeros_only_at_end. split; intros H p q E.
  - apply all_zeros_iff. now apply (H p).
  - apply all_zeros_iff. now apply (H p).
Qed.

Lemma sparse_compress_ne d : sparse_compress d <> [].
Proof. unfold sparse_compress. destruct (sparse_enc_loop _ d); discriminate. Qed.

Lemma compress_result L d m r : compress L d m = Ok r ->
  r = d \/ exists c, r = Nb m :: c /\ compress_internal L d m = Ok c /\ lenN c < lenN d.
Proof.
  unfold compress. destruct (compress_internal L d m) as [c| |]; cbn [bind]; try discriminate.
  destruct (N.leb_spec (lenN d) (lenN c)); intros E; apply Ok_inj in E; subst r; eauto.
Qed.

Lemma compress_never_longer L d m r : compress L d m = Ok r -> lenN r <= lenN d.
Proof.
  intros H. apply compress_result in H as [->|(c & -> & _ & L1)]; [lia|].
  rewrite lenN_cons. lia.
Qed.

Definition single_methods : list N := [ZLIB; BZIP2; LZMA; PKWARE].

Lemma container_single L d m r : lossless L -> In m single_methods ->
  compress L d m = Ok r -> r <> d ->
  exists c, r = Nb m :: c /\ decompress L c m (lenN d) = Ok d.
Proof.
  intros (Hz & Hb & Hl & Hp) Hm H Hne.
  apply compress_result in H as [E|(c & -> & Hc & Hlt)]; [congruence|].
  exists c. split; [reflexivity|].
  destruct Hm as [<-|[<-|[<-|[<-|[]]]]].
  - change (compress_internal L d ZLIB) with (zlib_enc L d) in Hc.
    destruct (Hz _ _ Hc) as [N D]. unfold decompress. destruct c; [congruence|]. exact D.
  - change (compress_internal L d BZIP2) with (bz_enc L d) in Hc.
    destruct (Hb _ _ Hc) as [N D]. unfold decompress. destruct c; [congruence|].
    change (from_flags BZIP2) with MBZip2. cbn iota. unfold bz_decompress. rewrite D. cbn [bind].
    now rewrite N.eqb_refl.
  - change (compress_internal L d LZMA) with (lzma_enc L d) in Hc.
    destruct (Hl _ _ Hc) as [N D]. unfold decompress. destruct c; [congruence|]. exact D.
  - change (compress_internal L d PKWARE) with (pk_compress L d) in Hc.
    unfold pk_compress in Hc. destruct d as [|x d]; [rewrite lenN_nil in Hlt; lia|].
    destruct (Hp _ _ Hc) as [N D]. unfold decompress. destruct c as [|y c]; [congruence|]. exact D.
Qed.

Lemma container_sparse L d r : compress L d SPARSE = Ok r -> r <> d ->
  exists c, r = Nb SPARSE :: c /\
    (decompress L c SPARSE (lenN d) = Ok d <-> long_zeros_only_at_end d).
Proof.
  intros H Hne. apply compress_result in H as [E|(c & -> & Hc & Hlt)]; [congruence|].
  exists c. split; [reflexivity|].
  change (compress_internal L d SPARSE) with (Ok (sparse_compress d)) in Hc.
  apply Ok_inj in Hc. subst c. rewrite <- sparse_lossless.
  unfold decompress. pose proof (sparse_compress_ne d).
  destruct (sparse_compress d); [congruence|]. reflexivity.
Qed.

Lemma container_adpcm L d cc m r : (m = ADPCM_MONO /\ cc = 1%nat) \/ (m = ADPCM_STEREO /\ cc = 2%nat) ->
  compress L d m = Ok r -> r <> d ->
  exists c out, r = Nb m :: c /\ adpcm_compress d 5 cc = Ok c /\
    decompress L c m (lenN d) = Ok out /\ adpcm_decompress c (lenN d) cc = Ok out.
Proof.
  intros Hm H Hne. apply compress_result in H as [E|(c & -> & Hc & Hlt)]; [congruence|].
  assert (Hc' : adpcm_compress d 5 cc = Ok c) by (destruct Hm as [[-> ->]|[-> ->]]; exact Hc).
  clear Hc. pose proof Hc' as He. unfold adpcm_compress in He.
  destruct (adpcm_encode d 5 cc) as [[o ps]| |] eqn:E; cbn [bind] in He; try discriminate.
  apply Ok_inj in He. subst o.
  destruct (adpcm_sync _ _ _ _ _ E ltac:(lia)) as (D & _ & _ & _ & Hlen).
  exists c, (concat (map write_sample ps)). split; [reflexivity|]. split; [exact Hc'|].
  split; [|exact D].
  unfold decompress. destruct c as [|y c].
  { exfalso. unfold adpcm_encode in E.
    destruct (_ || _); [discriminate|]. destruct (negb _); [discriminate|].
    destruct (samples_of d) eqn:Es.
    - apply Ok_inj in E. injection E as <-. cbn in Hlen. lia.
    - rewrite <- Es in E. destruct (negb _); [discriminate|].
      destruct (enc_loop _ _ _ _ _ _) as [[o1 p1]| |]; cbn [bind] in E; discriminate. }
  destruct Hm as [[-> ->]|[-> ->]]; exact D.
Qed.

(** ** Combinations *)
Lemma adpcm_compress_sync d cc c : (1 <= cc <= 2)%nat -> d <> [] -> adpcm_compress d 5 cc = Ok c ->
  c <> [] /\ exists ps, adpcm_encode d 5 cc = Ok (c, ps) /\
  adpcm_decompress c (lenN d) cc = Ok (concat (map write_sample ps)).
Proof.
  intros Hcc Hd He. unfold adpcm_compress in He.
  destruct (adpcm_encode d 5 cc) as [[o ps]| |] eqn:E; cbn [bind] in He; try discriminate.
  apply Ok_inj in He. subst o.
  destruct (adpcm_sync _ _ _ _ _ E ltac:(lia)) as (D & _ & _ & _ & Hlen).
  split; [|exists ps; auto].
  intros ->. unfold adpcm_encode in E.
  destruct (_ || _); [discriminate|]. destruct (negb _); [discriminate|].
  destruct (samples_of d) eqn:Es.
  - apply Ok_inj in E. injection E as <-. cbn in Hlen.
    destruct d; [congruence|]. rewrite lenN_cons in Hlen. lia.
  - rewrite <- Es in E. destruct (negb _); [discriminate|].
    destruct (enc_loop _ _ _ _ _ _) as [[o1 p1]| |]; cbn [bind] in E; discriminate.
Qed.

(** The data a combination stands for: ADPCM applied and undone, if its bit is
    set. *)
Definition lossy_image (f : N) (d : bytes) : res bytes :=
  if bit f ADPCM_MONO then
    c <- adpcm_compress d 5 1 ;; adpcm_decompress c (lenN d) 1
  else if bit f ADPCM_STEREO then
    c <- adpcm_compress d 5 2 ;; adpcm_decompress c (lenN d) 2
  else Ok d.

(** What the combination does to the data before the last step. *)
Definition first_step (f : N) (d : bytes) : res bytes :=
  if bit f ADPCM_MONO then adpcm_compress d 5 1
  else if bit f ADPCM_STEREO then adpcm_compress d 5 2 else Ok d.

Lemma room_enough n r : n < 2 ^ 61 -> room (n * 4) r = r.
Proof. intros H. unfold room. now replace (n * 4 <? 2 ^ 63) with true by lia. Qed.
Lemma scaled_enough n : n < 2 ^ 61 -> scaled n 4 = Ok (n * 4).
Proof. intros H. unfold scaled. change M64 with (2 ^ 64). now replace (n * 4 <? 2 ^ 64) with true by lia. Qed.

Lemma zlib_combo L f d c : lenN d < 2 ^ 61 ->
  faithful (zlib_enc L) (zlib_dec L) -> from_flags f = MMultiple f ->
  bit f HUFFMAN = false -> bit f ZLIB = true -> bit f PKWARE = false -> bit f BZIP2 = false ->
  bit f SPARSE = false -> bit f ADPCM_MONO && bit f ADPCM_STEREO = false ->
  (f =? ADPCM_MONO) = false -> (f =? ADPCM_STEREO) = false ->
  compress_internal L d f = Ok c -> decompress L c f (lenN d) = lossy_image f d.
Proof.
  intros Hs Hz Hf B1 B2 B3 B4 B5 B6 N1 N2 Hc.
  unfold compress_internal in Hc. rewrite Hf in Hc. unfold compress_multiple in Hc.
  rewrite B1, B2, B3, B4, B5 in Hc. cbn - [adpcm_compress] in Hc.
  unfold lossy_image, decompress. rewrite Hf. unfold decompress_multiple.
  rewrite B1, B2, B3, B4, B5, N1, N2, (scaled_enough _ Hs). cbn [bind]. rewrite (room_enough _ _ Hs). unfold zlib_decompress.
  destruct (bit f ADPCM_MONO), (bit f ADPCM_STEREO); cbn [andb orb negb] in *; try discriminate.
  - destruct (adpcm_compress d 5 1) as [a| |]; cbn [bind] in *; try discriminate.
    destruct (Hz _ _ Hc) as [Ne D]. destruct c; [congruence|]. rewrite D. cbn [bind].
    now destruct (adpcm_decompress a (lenN d) 1).
  - destruct (adpcm_compress d 5 2) as [a| |]; cbn [bind] in *; try discriminate.
    destruct (Hz _ _ Hc) as [Ne D]. destruct c; [congruence|]. rewrite D. cbn [bind].
    now destruct (adpcm_decompress a (lenN d) 2).
  - cbn [bind] in Hc. destruct (Hz _ _ Hc) as [Ne D]. destruct c; [congruence|]. rewrite D. reflexivity.
Qed.

Lemma pkware_combo L f d c :
  faithful (pk_enc L) (pk_dec L) -> from_flags f = MMultiple f -> d <> [] ->
  bit f HUFFMAN = false -> bit f ZLIB = false -> bit f PKWARE = true -> bit f BZIP2 = false ->
  bit f SPARSE = false -> bit f IMPLODE = false -> xorb (bit f ADPCM_MONO) (bit f ADPCM_STEREO) = true ->
  (f =? ADPCM_MONO) = false -> (f =? ADPCM_STEREO) = false ->
  compress_internal L d f = Ok c -> decompress L c f (lenN d) = lossy_image f d.
Proof.
  intros Hp Hf Hd B1 B2 B3 B4 B5 B6 B7 N1 N2 Hc.
  unfold compress_internal in Hc. rewrite Hf in Hc. unfold compress_multiple in Hc.
  rewrite B1, B2, B3, B4, B5 in Hc. cbn - [adpcm_compress] in Hc.
  unfold lossy_image, decompress. rewrite Hf. unfold decompress_multiple.
  rewrite B1, B2, B3, B4, B5, B6, N1, N2.
  destruct (bit f ADPCM_MONO), (bit f ADPCM_STEREO); cbn [andb orb negb xorb] in *; try discriminate.
  - destruct (adpcm_compress d 5 1) as [a| |] eqn:Ea; cbn [bind] in *; try discriminate.
    destruct (adpcm_compress_sync d 1 a ltac:(lia) Hd Ea) as [Na _].
    unfold pk_compress in Hc. destruct a as [|x a]; [congruence|].
    destruct (Hp _ _ Hc) as [Ne D]. destruct c; [congruence|].
    cbn [bind]. unfold pk_decompress. rewrite D. cbn [bind].
    now destruct (adpcm_decompress (x :: a) (lenN d) 1).
  - destruct (adpcm_compress d 5 2) as [a| |] eqn:Ea; cbn [bind] in *; try discriminate.
    destruct (adpcm_compress_sync d 2 a ltac:(lia) Hd Ea) as [Na _].
    unfold pk_compress in Hc. destruct a as [|x a]; [congruence|].
    destruct (Hp _ _ Hc) as [Ne D]. destruct c; [congruence|].
    cbn [bind]. unfold pk_decompress. rewrite D. cbn [bind].
    now destruct (adpcm_decompress (x :: a) (lenN d) 2).
Qed.

Lemma adpcm_tail d cc a k : d <> [] -> adpcm_compress d 5 cc = Ok a ->
  lenN a <= 4 * lenN d /\
  adpcm_decompress (a ++ k) (lenN d) cc = adpcm_decompress a (lenN d) cc.
Proof.
  intros Hd He. unfold adpcm_compress in He.
  destruct (adpcm_encode d 5 cc) as [[o ps]| |] eqn:E; cbn [bind] in He; try discriminate.
  apply Ok_inj in He. subst o. split; [exact (adpcm_length _ _ _ _ _ E)|].
  destruct (adpcm_sync _ _ _ _ _ E ltac:(lia)) as (-> & _).
  destruct (adpcm_sync_tail _ _ _ _ _ k E ltac:(lia)) as (-> & _); [congruence|reflexivity].
Qed.

Lemma sparse_combo L f d c : lenN d < 2 ^ 61 ->
  from_flags f = MMultiple f -> d <> [] ->
  bit f HUFFMAN = false -> bit f ZLIB = false -> bit f PKWARE = false -> bit f BZIP2 = false ->
  bit f SPARSE = true -> bit f ADPCM_MONO && bit f ADPCM_STEREO = false ->
  (f =? ADPCM_MONO) = false -> (f =? ADPCM_STEREO) = false ->
  (forall a, first_step f d = Ok a -> long_zeros_only_at_end a) ->
  compress_internal L d f = Ok c -> decompress L c f (lenN d) = lossy_image f d.
Proof.
  intros Hs Hf Hd B1 B2 B3 B4 B5 B6 N1 N2 Hh Hc.
  unfold compress_internal in Hc. rewrite Hf in Hc. unfold compress_multiple in Hc.
  rewrite B1, B2, B3, B4, B5 in Hc. cbn - [adpcm_compress sparse_compress] in Hc.
  unfold lossy_image, decompress. rewrite Hf. unfold decompress_multiple.
  rewrite B1, B2, B3, B4, B5, N1, N2, (scaled_enough _ Hs). cbn [bind]. rewrite (room_enough _ _ Hs). unfold first_step in Hh.
  assert (K : forall a e, long_zeros_only_at_end a -> lenN a <= e ->
            sparse_decompress (sparse_compress a) e = Ok (a ++ zs (N.to_nat e - length a))).
  { intros a e Ha He. apply sparse_lossless_pad; [|exact He].
    apply sparse_lossless_iff. now apply sparse_lossless. }
  destruct (bit f ADPCM_MONO), (bit f ADPCM_STEREO); cbn [andb orb negb] in *; try discriminate.
  - destruct (adpcm_compress d 5 1) as [a| |] eqn:Ea; cbn [bind] in *; try discriminate.
    apply Ok_inj in Hc. pose proof (sparse_compress_ne a) as Ne.
    destruct (adpcm_tail d 1 a (zs (N.to_nat (lenN d * 4) - length a)) Hd Ea) as [La Ta].
    specialize (K a (lenN d * 4) (Hh a eq_refl) ltac:(lia)).
    rewrite Hc in K, Ne. destruct c; [congruence|]. rewrite K. cbn [bind]. rewrite Ta.
    now destruct (adpcm_decompress a (lenN d) 1).
  - destruct (adpcm_compress d 5 2) as [a| |] eqn:Ea; cbn [bind] in *; try discriminate.
    apply Ok_inj in Hc. pose proof (sparse_compress_ne a) as Ne.
    destruct (adpcm_tail d 2 a (zs (N.to_nat (lenN d * 4) - length a)) Hd Ea) as [La Ta].
    specialize (K a (lenN d * 4) (Hh a eq_refl) ltac:(lia)).
    rewrite Hc in K, Ne. destruct c; [congruence|]. rewrite K. cbn [bind]. rewrite Ta.
    now destruct (adpcm_decompress a (lenN d) 2).
  - cbn [bind] in Hc. apply Ok_inj in Hc. pose proof (sparse_compress_ne d) as Ne.
    specialize (K d (lenN d * 4) (Hh d eq_refl) ltac:(lia)).
    pose proof (proj2 (sparse_lossless d) (Hh d eq_refl)) as K2.
    rewrite Hc in K, K2, Ne. destruct c; [congruence|]. rewrite K. cbn [bind]. exact K2.
Qed.

Lemma combos_undone L f d r : lossless L -> lenN d < 2 ^ 61 -> In f undone_combinations ->
  compress L d f = Ok r -> r <> d ->
  exists c, r = Nb f :: c /\ decompress L c f (lenN d) = lossy_image f d.
Proof.
  intros (Hz & Hb & Hl & Hp) Hs Hf H Hne.
  apply compress_result in H as [E|(c & -> & Hc & Hlt)]; [congruence|].
  exists c. split; [reflexivity|].
  assert (Hd : d <> []) by (intros ->; rewrite lenN_nil in Hlt; lia).
  repeat (destruct Hf as [<-|Hf];
    [first [ apply (zlib_combo L _ d c Hs Hz); try reflexivity; exact Hc
           | apply (pkware_combo L _ d c Hp); try reflexivity; [exact Hd|exact Hc] ]|]).
  destruct Hf.
Qed.

Lemma combos_sparse L f d r : lenN d < 2 ^ 61 -> In f sparse_combinations ->
  (forall a, first_step f d = Ok a -> long_zeros_only_at_end a) ->
  compress L d f = Ok r -> r <> d ->
  exists c, r = Nb f :: c /\ decompress L c f (lenN d) = lossy_image f d.
Proof.
  intros Hs Hf Hh H Hne.
  apply compress_result in H as [E|(c & -> & Hc & Hlt)]; [congruence|].
  exists c. split; [reflexivity|].
  assert (Hd : d <> []) by (intros ->; rewrite lenN_nil in Hlt; lia).
  repeat (destruct Hf as [<-|Hf];
    [apply (sparse_combo L _ d c Hs); try reflexivity; [exact Hd|exact Hh|exact Hc]|]).
  destruct Hf.
Qed.

(** bzip2 inside any combination is refused unless its payload happens to be
    exactly four times as long as the data. *)
Lemma combos_bzip2 L f (d a c : bytes) : lossless L -> lenN d < 2 ^ 61 ->
  bit f BZIP2 = true -> bit f HUFFMAN = false -> bit f ZLIB = false ->
  from_flags f = MMultiple f ->
  bz_enc L a = Ok c -> lenN a <> 4 * lenN d ->
  decompress L c f (lenN d) = Err ECompression.
Proof.
  intros (_ & Hb & _) Hs B1 B2 B3 Hf He Hn.
  destruct (Hb _ _ He) as [N D]. unfold decompress. destruct c as [|y c]; [congruence|].
  rewrite Hf. unfold decompress_multiple. rewrite B1, B2, B3, (scaled_enough _ Hs). cbn [bind]. rewrite (room_enough _ _ Hs). unfold bz_decompress at 1. rewrite D.
  cbn [bind]. replace (lenN a =? lenN d * 4) with false; [reflexivity|].
  symmetry. apply N.eqb_neq. lia.
Qed.

(** ** Every method byte *)
Definition shape (f : N) : bool :=
  match from_flags f with
  | MNone | MImplode | MHuffman => false
  | MMultiple _ =>
      let b2n (b : bool) : N := if b then 1 else 0 in
      let count := b2n (bit f HUFFMAN) + b2n (bit f ZLIB) + b2n (bit f PKWARE)
                   + b2n (bit f BZIP2) + b2n (bit f SPARSE) in
      if count =? 0 then bit f ADPCM_MONO || bit f ADPCM_STEREO
      else (count <=? 1) && negb (bit f HUFFMAN)
  | _ => true
  end.

Lemma shape_listed :
  forallb (fun n => let f := N.of_nat n in
    implb (shape f) (existsb (N.eqb f)
      (lone_methods ++ undone_combinations ++ sparse_combinations ++ lost_combinations)))
    (seq 0 256) = true.
Proof. vm_compute. reflexivity. Qed.

Lemma accepted_shape L d f c :
  compress_internal L d f = Ok c -> lenN c < lenN d -> shape f = true.
Proof.
  intros H Hlt. unfold compress_internal in H. unfold shape.
  assert (Hd : d <> []) by (intros ->; rewrite lenN_nil in Hlt; lia).
  destruct (from_flags f) as [| | | | | | | | | |g] eqn:Ef; try reflexivity.
  - apply Ok_inj in H. subst c. lia.
  - destruct d; [congruence|discriminate].
  - destruct d; [congruence|discriminate].
  - assert (g = f) as ->.
    { unfold from_flags in Ef. repeat (destruct (_ =? _); [discriminate|]). now injection Ef. }
    unfold compress_multiple in H.
    assert (A : (bit f ADPCM_MONO || bit f ADPCM_STEREO = false /\ first_step f d = Ok d) \/
                (bit f ADPCM_MONO || bit f ADPCM_STEREO = true /\
                 forall a, first_step f d = Ok a -> a <> [])).
    { unfold first_step. destruct (bit f ADPCM_MONO).
      - right. split; [reflexivity|]. intros a Ha.
        exact (proj1 (adpcm_compress_sync d 1 a ltac:(lia) Hd Ha)).
      - destruct (bit f ADPCM_STEREO).
        + right. split; [reflexivity|]. intros a Ha.
          exact (proj1 (adpcm_compress_sync d 2 a ltac:(lia) Hd Ha)).
        + now left. }
    fold (first_step f d) in H.
    destruct (first_step f d) as [a|e|] eqn:Ea; cbn [bind] in H; try discriminate.
    assert (Na : a <> []).
    { destruct A as [[_ E]|[_ E]]; [apply Ok_inj in E; now subst|now apply E]. }
    cbv zeta in H |- *.
    destruct (bit f HUFFMAN), (bit f ZLIB), (bit f PKWARE), (bit f BZIP2), (bit f SPARSE);
      cbn [N.add N.eqb N.ltb N.leb N.compare Pos.add Pos.eqb Pos.succ Pos.compare Pos.compare_cont andb negb] in H |- *;
      try reflexivity; try discriminate H;
      try (unfold huffman_compress in H; destruct a; [congruence|discriminate H]).
    destruct A as [[_ E]|[E _]]; [|exact E].
    apply Ok_inj in E. subst a. apply Ok_inj in H. subst c. lia.
Qed.

Lemma accepted_listed L d f r : f < 256 -> compress L d f = Ok r -> r <> d ->
  In f (lone_methods ++ undone_combinations ++ sparse_combinations ++ lost_combinations).
Proof.
  intros Hf H Hne. apply compress_result in H as [E|(c & -> & Hc & Hlt)]; [congruence|].
  apply accepted_shape in Hc; [|exact Hlt].
  pose proof (proj1 (forallb_forall _ _) shape_listed (N.to_nat f)) as K.
  cbv beta zeta in K. rewrite N2Nat.id, Hc in K.
  cbn [implb] in K.
  specialize (K ltac:(apply in_seq; lia)).
  apply existsb_exists in K as (x & Hx & E). apply N.eqb_eq in E. now subst x.
Qed.

(** ** Sparse streams *)
Lemma runs_zero_chunks : forall fuel n c d, n < N.of_nat fuel -> runs 127 c d ->
  runs 127 (zero_chunks fuel n ++ c) (zs (N.to_nat n) ++ d).
Proof.
  induction fuel as [|f IH]; intros n c d Hn H; [lia|].
  cbn [zero_chunks]. destruct (N.eqb_spec n 0) as [->|Hz]; [exact H|].
  cbv zeta. cbn [app]. rewrite lor_80_add by lia.
  replace (N.to_nat n) with (N.to_nat (N.min n 127) + N.to_nat (n - N.min n 127))%nat by lia.
  rewrite zs_app, <- app_assoc. apply runs_zeros; [lia|]. apply IH; [lia|exact H].
Qed.

Lemma runs_enc : forall fuel d, (length d <= fuel)%nat ->
  runs 127 (sparse_enc_loop fuel d ++ [Nb 0xFF]) d.
Proof.
  induction fuel as [|f IH]; intros d Hf.
  - destruct d; [|cbn in Hf; lia]. apply runs_end.
  - cbn [sparse_enc_loop]. destruct d as [|c d0] eqn:Ed; [apply runs_end|]. rewrite <- Ed in *.
    destruct (zero_run d) as [z r] eqn:Ez. destruct (zero_run_spec _ _ _ Ez) as [Hd Hr0].
    destruct (lit_run 127 r) as [l r'] eqn:El. destruct (lit_run_spec _ _ _ _ El) as (Hr & _ & Hl & Hl0 & _).
    rewrite <- !app_assoc.
    assert (Hlen : (length d = z + (length l + length r'))%nat)
      by (rewrite Hd, Hr, !app_length, zs_length; reflexivity).
    assert (Hp : (0 < z + length l)%nat).
    { destruct z; [|lia]. destruct l; [|cbn; lia]. exfalso.
      cbn in Hd. subst r. destruct (Hl0 eq_refl) as [K|[K|(x & y & K & K')]];
        [discriminate|congruence|].
      destruct Hr0 as [K2|(x2 & y2 & K2 & K2')]; [congruence|].
      rewrite K in K2. injection K2 as <- <-. congruence. }
    rewrite Hd, Hr. rewrite <- (Nat2N.id z) at 3.
    apply runs_zero_chunks; [lia|].
    destruct l as [|x l]; [cbn [app]; apply IH; cbn in *; lia|].
    cbn [app]. change (x :: l ++ r') with ((x :: l) ++ r').
    change (x :: l ++ ?c) with ((x :: l) ++ c).
    apply (runs_bytes 127 (x :: l)); [unfold lenN; lia|]. apply IH. lia.
Qed.

Lemma sparse_runs d : runs 127 (sparse_compress d) d.
Proof. apply runs_enc. lia. Qed.

Lemma dec_runs c d : runs 126 c d -> forall f out e,
  (length c < f)%nat -> out + lenN d = e -> sparse_dec_loop f c out e = Ok d.
Proof.
  induction 1 as [|n c d Hn H IH|l c d Hl H IH]; intros f out e Hf He.
  - destruct f; [cbn in Hf; lia|]. apply dec_end.
  - destruct f as [|f]; [cbn in Hf; lia|]. cbn [length] in Hf.
    rewrite lenN_app, (lenN_zs (N.to_nat n) : lenN (repeat x00 (N.to_nat n)) = _), N2Nat.id in He.
    destruct (N.eq_dec (n + lenN d) 0) as [Ez|Ez].
    { rewrite dec_loop_done by lia. assert (n = 0) as -> by lia.
      destruct d; [reflexivity|rewrite lenN_cons in Ez; lia]. }
    destruct (N.eq_dec n 0) as [->|Hz].
    + cbn [sparse_dec_loop]. replace (out <? e) with true by lia.
      change (bN (Nb (128 + 0)) =? 255) with false.
      change (negb (N.land (bN (Nb (128 + 0))) 128 =? 0)) with true.
      change (N.land (bN (Nb (128 + 0))) 127) with 0. cbv zeta iota.
      rewrite (IH f (out + 0) e) by lia. reflexivity.
    + rewrite <- lor_80_add by lia. rewrite dec_zero_chunk by lia.
      rewrite (IH f (out + n) e) by lia. reflexivity.
  - destruct f as [|f]; [cbn in Hf; lia|]. cbn [length] in Hf. rewrite app_length in Hf.
    rewrite lenN_app in He.
    destruct (N.eq_dec (lenN l + lenN d) 0) as [Ez|Ez].
    { rewrite dec_loop_done by lia.
      destruct l; [|rewrite lenN_cons in Ez; lia]. destruct d; [reflexivity|rewrite lenN_cons in Ez; lia]. }
    destruct l as [|x l].
    + cbn [sparse_dec_loop app]. rewrite lenN_nil in *. replace (out <? e) with true by lia.
      change (bN (Nb 0)) with 0. change (0 =? 255) with false.
      change (N.land 0 128 =? 0) with true. cbv zeta iota. cbn [negb].
      replace (lenN c <? 0) with false by lia.
      change (skipn (N.to_nat 0) c) with c. change (firstn (N.to_nat 0) c) with (@nil byte).
      rewrite (IH f (out + 0) e) by (cbn in *; lia). reflexivity.
    + rewrite dec_lit by (try lia; cbn [length]; unfold lenN in Hl; cbn [length] in Hl; lia).
      rewrite (IH f (out + lenN (x :: l)) e) by lia. reflexivity.
Qed.

Lemma sparse_reads_runs c d : runs 126 c d -> sparse_decompress c (lenN d) = Ok d.
Proof.
  intros H. unfold sparse_decompress. rewrite (dec_runs c d H) by lia. cbn [bind].
  rewrite N.ltb_irrefl, app_nil_r. reflexivity.
Qed.
