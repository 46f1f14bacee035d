(** * What a hostile archive can do: the decoders, lookup, reading, opening. *)
From Verif Require Import Bytes BitFacts Crypto CryptoFacts Header HeaderSearch HashTable HashTableFacts
  TableMap BlockTable Adler Sparse SparseFacts Huffman HuffmanFacts Adpcm AdpcmBits AdpcmFacts Compress
  Attributes AttributesFacts HetBet Listfile Archive ArchiveFacts InfoFacts Archive34Facts SpecHostile SpecHostile34.
Open Scope N_scope.

Ltac unbind H E :=
  match type of H with
  | bind ?X _ = _ => destruct X eqn:E; cbn [bind] in H; try discriminate H
  end.

(** ** Decoders *)
Definition idx_ok (st : Z * N) : Prop := snd st <= 88.

Lemma upd_ok sts i st : Forall idx_ok sts -> idx_ok st -> Forall idx_ok (upd sts i st).
Proof.
  intros H Hs. revert i. induction H as [|x l Hx Hl IH]; intros [|i]; cbn [upd]; auto.
Qed.
Lemma upd_len {A} (l : list A) i x : length (upd l i x) = length l.
Proof. revert i. induction l as [|y l IH]; intros [|i]; cbn [upd length]; auto. Qed.

Lemma dec_loop_calm bs cc : bs < 32 -> (1 <= cc)%nat ->
  forall input sts ch out osz, length sts = cc -> Forall idx_ok sts ->
  dec_loop bs cc sts ch input out osz <> Panic.
Proof.
  intros Hbs Hcc. induction input as [|b rest IH]; intros sts ch out osz Hl Hok; cbn [dec_loop]; [discriminate|].
  destruct (out <? osz); [|discriminate].
  set (ch' := ((ch + 1) mod cc)%nat). assert (Hch : (ch' < cc)%nat) by (apply chan_lt; exact Hcc).
  destruct (nth_error sts ch') as [[pred idx]|] eqn:E; [|apply nth_error_None in E; lia].
  assert (Hi : idx <= 88).
  { apply nth_error_In in E. rewrite Forall_forall in Hok. exact (Hok _ E). }
  assert (IH' : forall st c o, idx_ok st -> dec_loop bs cc (upd sts ch' st) c rest o osz <> Panic).
  { intros st c o Hs. apply IH; [rewrite upd_len; exact Hl|now apply upd_ok]. }
  destruct (bN b =? 0x80).
  { specialize (IH' (pred, idx - 1) ch' (out + 2) ltac:(unfold idx_ok; cbn; lia)).
    intros H. unbind H D. exact (IH' eq_refl). }
  destruct (bN b =? 0x81).
  { apply IH'. unfold idx_ok; cbn [snd]. lia. }
  destruct (step_at_ok idx Hi) as (s & -> & _). cbn [bind].
  unfold sar32. rewrite (proj2 (N.ltb_lt _ _) Hbs). cbn [bind].
  destruct (next_step_ok idx (bN b)) as (i & -> & Hi'). cbn [bind].
  intros H. unbind H D. refine (IH' (_, i) _ _ _ D). exact Hi'.
Qed.

Lemma samples_len2 : forall d n, length d = (2 * n)%nat -> length (samples_of d) = n.
Proof.
  intros d n. revert d. induction n as [|n IH]; intros d H.
  - destruct d; [reflexivity|cbn in H; lia].
  - destruct d as [|a [|b d]]; cbn [length] in H; try lia. cbn [samples_of length]. f_equal. apply IH. lia.
Qed.

(** The audio decoder panics only for a shift byte of 32 or more. *)
Lemma adpcm_panics d size cc : adpcm_decompress d size cc = Panic ->
  exists x s rest, d = x :: s :: rest /\ 32 <= bN s.
Proof.
  unfold adpcm_decompress. destruct ((cc =? 0) || (2 <? cc))%nat eqn:Hc; [discriminate|].
  apply orb_false_iff in Hc as [H0 H2]. apply Nat.eqb_neq in H0. apply Nat.ltb_ge in H2.
  destruct d as [|x d]; [destruct (size =? 0); discriminate|].
  destruct (lenN (x :: d) <? 4) eqn:H4; [discriminate|]. apply N.ltb_ge in H4.
  destruct (lenN (x :: d) <? 2 + 2 * N.of_nat cc) eqn:Hl; [discriminate|]. apply N.ltb_ge in Hl.
  destruct d as [|s rest].
  { unfold lenN in H4. cbn [length] in H4. lia. }
  intros H. exists x, s, rest. split; [reflexivity|].
  destruct (N.lt_ge_cases (bN s) 32) as [C|C]; [exfalso|exact C].
  unbind H E. revert E. apply dec_loop_calm; [exact C|lia| |].
  - rewrite map_length. apply samples_len2. rewrite firstn_length. unfold lenN in Hl. cbn [length] in Hl.
    clear -Hl. lia.
  - apply Forall_forall. intros st Hst. apply in_map_iff in Hst as (y & <- & _). unfold idx_ok. cbn [snd].
    unfold INITIAL_STEP_INDEX. lia.
Qed.

Lemma huffman_calm d n : d <> [] -> huffman_decompress d n <> Panic.
Proof.
  destruct d as [|t rest]; [congruence|]. intros _. rewrite huffman_const.
  destruct (N.land (bN t) 15) as [|[p|[p|p|]|]]; discriminate.
Qed.

Section A.
Variable L : codecs.
Hypothesis HL : calm L.

Lemma zlib_calm d n : zlib_decompress L d n <> Panic.
Proof. apply HL. Qed.
Lemma bz_calm d n : bz_decompress L d n <> Panic.
Proof.
  unfold bz_decompress. destruct HL as (_ & H & _). specialize (H d). destruct (bz_dec L d) as [o| |]; [|discriminate|congruence].
  cbn [bind]. destruct (lenN o =? n); discriminate.
Qed.
Lemma pk_calm d n : pk_decompress L d n <> Panic.
Proof. unfold pk_decompress. destruct d; [discriminate|]. apply HL. Qed.
Lemma implode_calm d n : implode_decompress L d n <> Panic.
Proof.
  unfold implode_decompress. destruct d as [|x d]; [discriminate|].
  pose proof (proj2 (proj2 (proj2 HL))) as H.
  repeat match goal with
  | |- context [match pk_dec L ?z with _ => _ end] =>
      pose proof (H z); destruct (pk_dec L z); [discriminate| |congruence]
  end.
  discriminate.
Qed.
Lemma sparse_calm d n : sparse_decompress d n <> Panic.
Proof. apply sparse_decompress_total. Qed.

Lemma bit_pow f k : bit f (2 ^ k) = N.testbit f k.
Proof.
  unfold bit. destruct (N.testbit f k) eqn:E.
  - apply negb_true_iff, N.eqb_neq. intros H.
    assert (X : N.testbit (N.land f (2 ^ k)) k = true) by (rewrite N.land_spec, E, N.pow2_bits_true; reflexivity).
    rewrite H, N.bits_0 in X. discriminate.
  - apply negb_false_iff, N.eqb_eq. apply N.bits_inj_iff. intros i. rewrite N.land_spec, N.bits_0, N.pow2_bits_eqb.
    destruct (N.eqb_spec k i) as [->|]; [now rewrite E|apply andb_false_r].
Qed.

Lemma scaled_panics n k : scaled n k = Panic -> 2 ^ 64 <= n * k.
Proof. unfold scaled. destruct (N.ltb_spec (n * k) M64) as [|C]; [discriminate|intros _; exact C]. Qed.
Lemma room_panics n r : room n r = Panic -> r = Panic \/ 2 ^ 63 <= n.
Proof. unfold room. destruct (N.ltb_spec n (2 ^ 63)) as [|C]; auto. Qed.

(** Expanding panics only where an audio method is involved, or where the room
    for an intermediate result is too large. *)
Lemma decompress_panics d m n : decompress L d m n = Panic -> audio m \/ 2 ^ 61 <= n \/ 2 ^ 62 <= lenN d.
Proof.
  unfold decompress. destruct d as [|x d]; [discriminate|].
  assert (Hn : x :: d <> []) by discriminate. set (dd := x :: d) in *. clearbody dd. clear x d.
  destruct (N.le_gt_cases (2 ^ 61) n) as [|Gn]; [tauto|].
  destruct (N.le_gt_cases (2 ^ 62) (lenN dd)) as [|Gd]; [tauto|].
  assert (Hr : forall k f, k <= 4 -> (forall z, f z <> Panic) -> bind (scaled n k) (fun z => room z (f z)) <> Panic).
  { intros k f Hk Hf H. unbind H E.
    - unfold scaled in E. destruct (n * k <? M64); [|discriminate]. apply Ok_inj in E. subst a.
      apply room_panics in H as [H|H]; [exact (Hf _ H)|nia].
    - apply scaled_panics in E. nia. }
  intros H0. left. revert H0.
  assert (Hmulti : decompress_multiple L dd m n = Panic -> audio m).
  { unfold decompress_multiple. destruct dd as [|x d]; [congruence|]. set (e := x :: d) in *. clearbody e. clear x d.
    intros H. unfold audio. rewrite <- !bit_pow. change (2 ^ 6) with ADPCM_MONO. change (2 ^ 7) with ADPCM_STEREO.
    destruct (bit m ADPCM_MONO) eqn:B6; [now left|]. destruct (bit m ADPCM_STEREO) eqn:B7; [now right|]. exfalso.
    match type of H with bind ?X _ = _ => assert (H1 : X <> Panic) end.
    { destruct (bit m HUFFMAN).
      { intros H0. unbind H0 E0; [|apply scaled_panics in E0; nia].
        unfold scaled in E0. destruct (_ <? _) in E0; [|discriminate]. apply Ok_inj in E0. subst a.
        apply room_panics in H0 as [H0|H0]; [revert H0; now apply huffman_calm|]. clear -H0 Gn Gd. nia. }
      destruct (bit m ZLIB); [apply (Hr 4 (zlib_decompress L e)); [lia|apply zlib_calm]|].
      destruct (bit m BZIP2); [apply (Hr 4 (bz_decompress L e)); [lia|apply bz_calm]|].
      destruct (bit m SPARSE); [apply (Hr 4 (sparse_decompress e)); [lia|apply sparse_calm]|].
      destruct (bit m IMPLODE); [|discriminate].
      intros H0. unbind H0 E0; [exact (implode_calm _ _ H0)|]. apply scaled_panics in E0. nia. }
    unbind H E1. { clear H1.
    match type of H with bind ?X _ = _ => assert (H1 : X <> Panic) end.
    { destruct (bit m PKWARE); [apply pk_calm|discriminate]. }
    unbind H E2; [|now elim H1]. clear H1.
    assert (N6 : m =? ADPCM_MONO = false).
    { apply N.eqb_neq. intros ->. discriminate B6. }
    assert (N7 : m =? ADPCM_STEREO = false).
    { apply N.eqb_neq. intros ->. discriminate B7. }
    rewrite N6, N7 in H. cbn [orb negb andb] in H.
    destruct (negb (bit m PKWARE) && (bit m HUFFMAN || bit m ZLIB || bit m BZIP2 || bit m SPARSE)); [|discriminate].
    revert H. destruct (bit m HUFFMAN); [now apply huffman_calm|]. destruct (bit m ZLIB); [apply zlib_calm|].
    destruct (bit m BZIP2); [apply bz_calm|apply sparse_calm]. }
    now elim H1. }
  intros H. unfold from_flags in H.
  repeat match type of H with
  | context [if ?c then _ else _] => destruct c eqn:?
  end; try discriminate H.
  all: try (exfalso; revert H; first [apply HL | apply bz_calm | apply pk_calm | apply implode_calm | apply sparse_calm | now apply huffman_calm]).
  - apply N.eqb_eq in Heqb7. subst m. left. reflexivity.
  - apply N.eqb_eq in Heqb8. subst m. right. reflexivity.
  - exact (Hmulti H).
Qed.
(** ** Lookup *)
Record tidy (a : archive) : Prop := {
  t_file : lenN (a_file a) < 2 ^ 63;
  t_off : a_off a < 2 ^ 63;
  t_het : a_het a = None;
  t_hash : exists ht k, a_hash a = Some ht /\ lenN ht = 2 ^ k;
  t_block : exists bt, a_block a = Some bt /\ Forall be_ok bt /\ lenN bt < M32;
  t_hi : forall t, a_hi a = Some t -> Forall (fun v => v < M16) t }.

Lemma nthN_In {X} (l : list X) i x : nthN l i = Some x -> In x l.
Proof. unfold nthN. destruct (i <? lenN l); [apply nth_error_In|discriminate]. Qed.

Lemma pos_full_bound hi i low : low < M32 -> (forall t, hi = Some t -> Forall (fun v => v < M16) t) ->
  pos_full hi i low < 2 ^ 48.
Proof.
  intros Hl Hh. unfold pos_full. destruct hi as [t|].
  2:{ change M32 with (2 ^ 32) in Hl. eapply N.lt_trans; [exact Hl|reflexivity]. }
  assert (Hv : hi_get t i < 2 ^ 16).
  { unfold hi_get. destruct (nthN t i) as [v|] eqn:E; [|reflexivity].
    specialize (Hh t eq_refl). rewrite Forall_forall in Hh. exact (Hh _ (nthN_In _ _ _ E)). }
  destruct (N.eq_dec (N.lor (N.shiftl (hi_get t i) 32) low) 0) as [->|Hz]; [reflexivity|].
  apply N.log2_lt_pow2; [lia|]. rewrite N.log2_lor. apply N.max_lub_lt.
  - destruct (N.eq_dec (hi_get t i) 0) as [->|Hn]; [reflexivity|].
    rewrite N.log2_shiftl by exact Hn. apply N.log2_lt_pow2 in Hv; lia.
  - destruct (N.eq_dec low 0) as [->|Hn]; [reflexivity|].
    change M32 with (2 ^ 32) in Hl. apply N.log2_lt_pow2 in Hl; lia.
Qed.

Definition bounded (fi : finfo) : Prop :=
  fi_pos fi < 2 ^ 64 /\ fi_csize fi < 2 ^ 63 /\ fi_size fi < 2 ^ 63.
Definition small (fi : finfo) : Prop :=
  fi_pos fi < 2 ^ 63 + 2 ^ 48 /\ fi_csize fi < M32 /\ fi_size fi < M32.
Lemma small_bounded fi : small fi -> bounded fi.
Proof.
  intros (H1 & H2 & H3). assert (M32 < 2 ^ 63) by reflexivity. repeat split; try lia.
Qed.
Lemma small_scale L' a fi key : small fi -> ~ scale_trap L' a fi key.
Proof.
  intros (_ & H2 & H3) H. assert (M32 < 2 ^ 61) by reflexivity. assert (M32 < 2 ^ 62) by reflexivity.
  destruct H as [m c _ _ (raw & Hr & E) H _|i m c size _ _ _ _ _ Hs Hb _]; [|lia].
  destruct H as [H|H]; [lia|]. apply slice_length in Hr.
  assert (X : length (m :: c) = length raw).
  { rewrite E. unfold deciphered. destruct (negb _); [apply decrypt_data_length|reflexivity]. }
  unfold lenN in *. cbn [length] in X. lia.
Qed.
Definition found_ok (a : archive) (fi : finfo) : Prop :=
  small fi /\
  exists bt b, a_block a = Some bt /\ nthN bt (fi_block fi) = Some b /\ be_size b = fi_size fi.

Lemma find_tidy a name : tidy a ->
  find_file a name <> Panic /\ (forall fi, find_file a name = Ok (Some fi) -> found_ok a fi).
Proof.
  intros T. rewrite (find_is_classic a name (t_het a T)). unfold find_file_classic.
  destruct (t_hash a T) as (ht & k & -> & Hk). destruct (t_block a T) as (bt & Hbt & Hok & _). rewrite Hbt. cbn [of_option bind].
  destruct (ht_find_lookup ht k name 0 Hk) as (r & -> & _). cbn [bind].
  destruct r as [[hi e]|]; [|split; [discriminate|intros fi H; discriminate H]].
  destruct (nthN bt (he_block e)) as [b|] eqn:Eb; cbn [of_option bind]; [|split; [discriminate|intros fi H; discriminate H]].
  rewrite Forall_forall in Hok. destruct (Hok b (nthN_In _ _ _ Eb)) as (H1 & H2 & H3 & _).
  pose proof (pos_full_bound (a_hi a) (he_block e) (be_pos b) H1 (t_hi a T)) as Hp. pose proof (t_off a T) as Ho.
  rewrite add64_ok.
  2:{ change M64 with (2 ^ 64). lia. }
  cbn [bind]. split; [discriminate|]. intros fi H. injection H as <-. unfold found_ok, small. cbn [fi_pos fi_csize fi_size fi_block].
  repeat split; try assumption; [lia|]. exists bt, b. auto.
Qed.

(** ** Reading *)
Lemma le_values_bound n : forall d, Forall (fun v => v < M32) (le_values 4 n d).
Proof.
  induction n as [|n IH]; intros d; cbn [le_values]; constructor; [|apply IH].
  eapply N.lt_le_trans; [apply le_dec_lt|]. change M32 with (256 ^ 4).
  apply N.pow_le_mono_r; [discriminate|]. rewrite firstn_length. lia.
Qed.

Lemma le_values_slice : forall n d j v, lenN d = 4 * N.of_nat n -> nth_error (le_values 4 n d) j = Some v ->
  exists x, slice (4 * N.of_nat j) 4 d = Some x /\ le_dec x = v.
Proof.
  induction n as [|n IH]; intros d j v Hd H; [destruct j; discriminate|].
  cbn [le_values] in H. destruct j as [|j]; cbn [nth_error] in H.
  - injection H as <-. exists (firstn 4 d). split; [|reflexivity].
    unfold slice. replace (4 * N.of_nat 0 + 4 <=? lenN d) with true by (symmetry; apply N.leb_le; lia). reflexivity.
  - assert (Hd' : lenN (skipn 4 d) = 4 * N.of_nat n) by (unfold lenN in *; rewrite skipn_length; lia).
    destruct (IH _ _ _ Hd' H) as (x & Hx & Ex). exists x. split; [|exact Ex].
    unfold slice in *. destruct (N.leb_spec (4 * N.of_nat j + 4) (lenN (skipn 4 d))) as [C|C]; [|discriminate].
    replace (4 * N.of_nat (S j) + 4 <=? lenN d) with true by (symmetry; apply N.leb_le; lia).
    rewrite <- Hx. f_equal. f_equal. replace (N.to_nat (4 * N.of_nat (S j))) with (4 + N.to_nat (4 * N.of_nat j))%nat by lia.
    change (4 + N.to_nat (4 * N.of_nat j))%nat with (S (S (S (S (N.to_nat (4 * N.of_nat j)))))).
    destruct d as [|? [|? [|? [|? d]]]]; try reflexivity; unfold lenN in Hd; cbn [length] in Hd; try lia.
Qed.

Lemma read_sectors_panics a fi key ss :
  fi_pos fi + M32 <= M64 ->
  forall offs i out, Forall (fun v => v < M32) offs -> lenN out <= fi_size fi ->
  read_sectors L (a_file a) (fi_pos fi) (fi_size fi) ss (fi_flags fi) key offs i out = Panic ->
  exists j s e raw m c size,
    nth_error offs j = Some s /\ nth_error offs (S j) = Some e /\
    slice (fi_pos fi + s) (e - s) (a_file a) = Some raw /\
    m :: c = deciphered (fi_flags fi) (w32 (key + w32 (i + N.of_nat j))) raw /\
    size <= ss /\ size <= fi_size fi /\
    (decompress L c (bN m) size = Panic \/
     exists o, decompress L c (bN m) size = Ok o /\ size < lenN o /\ (S (S j) < length offs)%nat).
Proof.
  intros Hp. induction offs as [|s offs IH]; intros i out Hok Hout H; [discriminate H|].
  destruct offs as [|e r]; [discriminate H|]. rename IH into IH0.
  cbn [read_sectors] in H. fold (read_sectors L) in H.
  destruct (N.ltb_spec e s) as [C|C]; [discriminate H|].
  unfold sub_chk in H. destruct (N.ltb_spec (fi_size fi) (lenN out)) as [C1|_]; [lia|]. cbn [bind] in H.
  set (size := N.min (fi_size fi - lenN out) ss) in *.
  inversion Hok as [|? ? Hs Hok']; subst. inversion Hok' as [|? ? He _]; subst.
  rewrite add64_ok in H by lia. cbn [bind] in H.
  unbind H Er.
  2:{ exfalso. revert Er. apply read_at_noPanic. change (2 ^ 63) with (M32 * 2147483648). lia. }
  rename a0 into raw. pose proof (read_at_length _ _ _ _ Er) as Hlen.
  set (data := deciphered (fi_flags fi) (w32 (key + w32 i)) raw).
  change (if is_encrypted (fi_flags fi) then decrypt_file_data raw (w32 (key + w32 i)) else raw) with data in H.
  assert (Hsl : data <> [] -> slice (fi_pos fi + s) (e - s) (a_file a) = Some raw).
  { intros Hd. unfold read_at in Er. destruct (slice (fi_pos fi + s) (e - s) (a_file a)) as [x|]; [congruence|].
    destruct (2 ^ 63 <=? fi_pos fi + s); [discriminate|]. destruct (2 ^ 63 <=? e - s); [discriminate|].
    destruct (e - s =? 0); [|discriminate]. apply Ok_inj in Er. subst raw. elim Hd. unfold data, deciphered.
    destruct (negb _); reflexivity. }
  set (sec := if is_compressed (fi_flags fi) && (e - s <? size) then expand L data size
              else Ok (firstn (N.to_nat (N.min size (lenN data))) data)) in *.
  destruct sec as [x|er|] eqn:Es; cbn [bind] in H; [|discriminate|].
  - destruct (N.le_gt_cases (lenN (out ++ x)) (fi_size fi)) as [D|D].
    + destruct (IH0 (i + 1) (out ++ x) Hok' D H) as (j & s' & e' & raw' & m & c & sz & K1 & K2 & K3 & K4 & K5).
      exists (S j), s', e', raw', m, c, sz. split; [exact K1|]. split; [exact K2|]. split; [exact K3|].
      split; [|].
      * rewrite K4. do 3 f_equal. f_equal. lia.
      * destruct K5 as (K5 & K6 & K7). repeat (split; [assumption|]).
        destruct K7 as [K7|(o & K7 & K8 & K9)]; [now left|right]. exists o. repeat (split; [assumption|]). cbn [length] in *. lia.
    + destruct r as [|e2 r2]; [discriminate H|].
      assert (Hx : size < lenN x) by (unfold lenN in *; rewrite app_length in D; unfold size; lia).
      unfold sec in Es. destruct (is_compressed (fi_flags fi) && (e - s <? size)).
      2:{ exfalso. apply Ok_inj in Es. subst x. unfold lenN in Hx. rewrite firstn_length in Hx. lia. }
      unfold expand in Es. destruct data as [|m c] eqn:Ed; [discriminate|].
      exists 0%nat, s, e, raw, m, c, size. split; [reflexivity|]. split; [reflexivity|].
      split; [apply Hsl; discriminate|]. split.
      { change (N.of_nat 0) with 0. rewrite N.add_0_r. symmetry. exact Ed. }
      split; [unfold size; lia|]. split; [unfold size; lia|]. right. exists x. repeat (split; [assumption|]). cbn [length]. lia.
  - unfold sec in Es. destruct (is_compressed (fi_flags fi) && (e - s <? size)); [|discriminate Es].
    unfold expand in Es. destruct data as [|m c] eqn:Ed; [discriminate|].
    exists 0%nat, s, e, raw, m, c, size. split; [reflexivity|]. split; [reflexivity|].
    split; [apply Hsl; discriminate|]. split.
    { change (N.of_nat 0) with 0. rewrite N.add_0_r. symmetry. exact Ed. }
    split; [unfold size; lia|]. split; [unfold size; lia|]. now left.
Qed.

Lemma sector_size_cases bs ss : sector_size bs = Ok ss -> bs < 55 -> ss = 512 * 2 ^ bs.
Proof.
  unfold sector_size. intros H Hb. destruct (bs <? 64); [|discriminate]. apply Ok_inj in H. subst ss.
  rewrite N.shiftl_mul_pow2. unfold w64. apply N.mod_small.
  apply N.lt_le_trans with (512 * 2 ^ 55); [|vm_compute; discriminate].
  apply N.mul_lt_mono_pos_l; [lia|]. apply N.pow_lt_mono_r; lia.
Qed.
Lemma sector_size_small bs : bs < 55 -> sector_size bs = Ok (512 * 2 ^ bs).
Proof.
  intros H. destruct (sector_size bs) as [ss| |] eqn:E.
  - f_equal. now apply sector_size_cases.
  - unfold sector_size in E. destruct (bs <? 64); discriminate.
  - unfold sector_size in E. destruct (N.ltb_spec bs 64); [discriminate|lia].
Qed.
Lemma sector_count_half size bs : div_ceil size (512 * 2 ^ bs) <= size / 512 + 1.
Proof.
  unfold div_ceil. pose proof (N.pow_nonzero 2 bs ltac:(discriminate)) as Hp. set (p := 2 ^ bs) in *.
  assert (H : (size + 512 * p - 1) / (512 * p) < size / 512 + 2); [|lia].
  apply N.div_lt_upper_bound; [lia|]. pose proof (N.mul_succ_div_gt size 512 ltac:(discriminate)). nia.
Qed.
Lemma sector_count_bound size bs : div_ceil size (512 * 2 ^ bs) <= size.
Proof.
  unfold div_ceil. set (f := 512 * 2 ^ bs).
  assert (1 <= f) by (unfold f; pose proof (N.pow_nonzero 2 bs ltac:(discriminate)); lia).
  destruct (N.eq_dec size 0) as [->|Hz].
  - rewrite N.div_small by lia. lia.
  - apply N.lt_succ_r. apply N.div_lt_upper_bound; [lia|]. nia.
Qed.

Lemma le_values_length k n : forall d, length (le_values k n d) = n.
Proof. induction n as [|n IH]; intros d; cbn [le_values length]; [reflexivity|now rewrite IH]. Qed.

Lemma flag_compressed fi : is_compressed (fi_flags fi) = true -> compressed fi.
Proof. unfold is_compressed, has_flag, compressed. intros H. apply negb_true_iff, N.eqb_neq in H. exact H. Qed.
Lemma flag_one_piece fi : is_single_unit (fi_flags fi) = true -> in_one_piece fi.
Proof. unfold is_single_unit, has_flag, in_one_piece. intros H. apply negb_true_iff, N.eqb_neq in H. exact H. Qed.
Lemma flag_pieces fi : is_single_unit (fi_flags fi) = false -> ~ in_one_piece fi.
Proof. unfold is_single_unit, has_flag, in_one_piece. intros H. apply negb_false_iff, N.eqb_eq in H. intros C. exact (C H). Qed.
Lemma flag_checked fi : has_sector_crc (fi_flags fi) = true -> checked fi.
Proof. unfold has_sector_crc, has_flag, checked. intros H. apply negb_true_iff, N.eqb_neq in H. exact H. Qed.

Lemma deciphered_length flags key raw : length (deciphered flags key raw) = length raw.
Proof. unfold deciphered. destruct (negb _); [apply decrypt_data_length|reflexivity]. Qed.

Lemma sectored_panics a fi key : bounded fi -> lenN (a_file a) < 2 ^ 63 ->
  is_compressed (fi_flags fi) = true -> is_single_unit (fi_flags fi) = false ->
  read_sectored_file L a fi key = Panic -> trap L a fi key \/ scale_trap L a fi key.
Proof.
  intros (Hp & _ & Hsz) Hfile Hc Hs H. apply flag_compressed in Hc. apply flag_pieces in Hs.
  destruct (N.le_gt_cases 55 (h_block_size (a_header a))) as [B|B]; [left; now apply trap_exponent|].
  unfold read_sectored_file in H. rewrite (sector_size_small _ B) in H. cbn [bind] in H.
  change (512 * 2 ^ h_block_size (a_header a)) with (full_sector a) in H.
  assert (Hf : full_sector a <> 0).
  { unfold full_sector. pose proof (N.pow_nonzero 2 (h_block_size (a_header a)) ltac:(discriminate)). lia. }
  rewrite (proj2 (N.eqb_neq _ _) Hf) in H.
  pose proof (sector_count_half (fi_size fi) (h_block_size (a_header a))) as Hn.
  change (div_ceil (fi_size fi) (512 * 2 ^ h_block_size (a_header a))) with (sectors a fi) in Hn.
  change (div_ceil (fi_size fi) (full_sector a)) with (sectors a fi) in H.
  set (n := sectors a fi) in *.
  assert (Hbig : (n + 1) * 4 < 2 ^ 63).
  { assert (fi_size fi / 512 < 2 ^ 54); [|change (2 ^ 63) with (512 * 2 ^ 54); lia].
    apply N.div_lt_upper_bound; [discriminate|exact Hsz]. }
  unbind H Er; [|exfalso; revert Er; now apply read_at_noPanic]. rename a0 into raw.
  pose proof (read_at_length _ _ _ _ Er) as Hl.
  assert (Et : slice (fi_pos fi) (4 * (n + 1)) (a_file a) = Some raw).
  { rewrite N.mul_comm. unfold read_at in Er. destruct (slice (fi_pos fi) ((n + 1) * 4) (a_file a)); [congruence|].
    destruct (2 ^ 63 <=? fi_pos fi); [discriminate|]. destruct (2 ^ 63 <=? (n + 1) * 4); [discriminate|].
    destruct (N.eqb_spec ((n + 1) * 4) 0); [lia|discriminate]. }
  set (tab := deciphered (fi_flags fi) (dec32 key) raw).
  change (if is_encrypted (fi_flags fi) then decrypt_file_data raw (dec32 key) else raw) with tab in H.
  unbind H Ec.
  2:{ exfalso. revert Ec. destruct (has_sector_crc _ && _); [|discriminate]. apply read_at_noPanic. lia. }
  clear Ec.
  apply read_sectors_panics in H.
  2:{ assert (fi_pos fi < 2 ^ 63).
      { unfold slice in Et. destruct (N.leb_spec (fi_pos fi + 4 * (n + 1)) (lenN (a_file a))); [lia|discriminate]. }
      change M32 with (2 ^ 32). change M64 with (2 ^ 64). lia. }
  2:{ apply le_values_bound. }
  2:{ unfold lenN. cbn [length]. lia. }
  destruct H as (j & s & e & rw & m & c & size & K1 & K2 & K3 & K4 & K5 & K6 & K7).
  rewrite N.add_0_l in K4.
  assert (Hj : (S j < N.to_nat (n + 1))%nat).
  { rewrite <- (le_values_length 4 (N.to_nat (n + 1)) tab). apply nth_error_Some. rewrite K2. discriminate. }
  assert (Htab : lenN tab = 4 * N.of_nat (N.to_nat (n + 1))).
  { unfold lenN, tab in *. rewrite deciphered_length. lia. }
  assert (P : sector_piece a fi key (N.of_nat j) (m :: c)).
  { exists raw, s, e, rw. split; [exact Et|]. cbv zeta. fold tab.
    split; [exact (le_values_slice _ _ _ _ Htab K1)|]. split; [|now split].
    replace (N.of_nat j + 1) with (N.of_nat (S j)) by lia. exact (le_values_slice _ _ _ _ Htab K2). }
  destruct K7 as [K7|(o & K7 & K8 & K9)].
  - destruct (decompress_panics _ _ _ K7) as [A|[A|A]].
    + left. apply (trap_audio_sector L a fi key (N.of_nat j) m c size); auto. lia.
    + right. apply (scale_sector L a fi key (N.of_nat j) m c size); auto. lia.
    + exfalso. apply slice_length in K3. apply (f_equal (@length byte)) in K4. rewrite deciphered_length in K4.
      apply nth_error_In in K2. pose proof (le_values_bound (N.to_nat (n + 1)) tab) as Hb.
      rewrite Forall_forall in Hb. specialize (Hb _ K2). assert (M32 < 2 ^ 62) by reflexivity.
      unfold lenN in *. cbn [length] in K4. lia.
  - left. rewrite le_values_length in K9. apply (trap_overrun L a fi key (N.of_nat j) m c size o); auto. lia.
Qed.

Lemma whole_panics a fi key : bounded fi ->
  is_single_unit (fi_flags fi) || negb (is_compressed (fi_flags fi)) = true ->
  read_whole_file L a fi key (fi_size fi) = Panic -> trap L a fi key \/ scale_trap L a fi key.
Proof.
  intros (Hp & Hcs & Hsz) Hcase H. unfold read_whole_file in H.
  unbind H Er.
  2:{ exfalso. revert Er. apply read_at_noPanic. exact Hcs. }
  rename a0 into raw. pose proof (read_at_length _ _ _ _ Er) as Hl.
  set (data := deciphered (fi_flags fi) key raw).
  change (if is_encrypted (fi_flags fi) then decrypt_file_data raw key else raw) with data in H.
  assert (Hd : lenN data = fi_csize fi) by (unfold lenN, data in *; rewrite deciphered_length; exact Hl).
  assert (Hp1 : data <> [] -> whole_piece a fi key data).
  { intros Hn. exists raw. split; [|reflexivity]. unfold read_at in Er.
    destruct (slice (fi_pos fi) (fi_csize fi) (a_file a)); [congruence|].
    destruct (2 ^ 63 <=? fi_pos fi); [discriminate|]. destruct (2 ^ 63 <=? fi_csize fi); [discriminate|].
    destruct (N.eqb_spec (fi_csize fi) 0) as [C|]; [|discriminate]. elim Hn.
    destruct data; [reflexivity|]. unfold lenN in Hd. cbn [length] in Hd. lia. }
  assert (Hex : is_single_unit (fi_flags fi) = true -> is_compressed (fi_flags fi) = true ->
    forall m c, data = m :: c -> decompress L c (bN m) (fi_size fi) = Panic -> trap L a fi key \/ scale_trap L a fi key).
  { intros S C m c E D. rewrite E in Hp1. assert (P : whole_piece a fi key (m :: c)) by now apply Hp1.
    apply flag_one_piece in S. apply flag_compressed in C. destruct (decompress_panics _ _ _ D) as [A|A].
    - left. exact (trap_audio_whole L a fi key m c C S P A D).
    - right. exact (scale_whole L a fi key m c C S P A D). }
  assert (Hone : is_compressed (fi_flags fi) = true -> is_single_unit (fi_flags fi) = true).
  { intros C. rewrite C, orb_false_r in Hcase. exact Hcase. }
  match type of H with bind ?X _ = _ => destruct X as [?|?|] eqn:Ec end; cbn [bind] in H; [|discriminate H|].
  - destruct (is_compressed (fi_flags fi)) eqn:C; [|discriminate H]. unfold expand in H.
    destruct data as [|m c] eqn:Ed; [discriminate H|]. exact (Hex (Hone eq_refl) eq_refl m c eq_refl H).
  - clear H. destruct (has_sector_crc (fi_flags fi)) eqn:K; [|discriminate Ec].
    destruct (is_single_unit (fi_flags fi)) eqn:S; [|discriminate Ec]. cbn [andb] in Ec.
    unbind Ec E4; [|exfalso; revert E4; apply read_at_noPanic; reflexivity].
    destruct (is_compressed (fi_flags fi)) eqn:C.
    2:{ cbn [bind] in Ec. destruct (adler32 data =? le_dec a0); discriminate Ec. }
    destruct data as [|m c] eqn:Ed.
    + left. apply trap_empty; auto using flag_compressed, flag_one_piece, flag_checked.
    + unbind Ec E5; [destruct (_ =? _); discriminate Ec|]. exact (Hex eq_refl eq_refl m c eq_refl E5).
Qed.

Lemma read_panics a name : tidy a -> read_file L a name = Panic ->
  exists fi, find_file a name = Ok (Some fi) /\ trap L a fi (reading_key a name fi).
Proof.
  intros T H. unfold read_file in H. destruct (find_tidy a name T) as [Hf Hok].
  destruct (find_file a name) as [[fi|]| |]; cbn [of_option bind] in H; try discriminate H; [|congruence].
  specialize (Hok fi eq_refl). exists fi. split; [reflexivity|].
  rewrite (t_het a T) in H. pose proof Hok as (_ & bt & b & Hb & Hn & Hs).
  rewrite Hb in H. cbn [of_option bind] in H. rewrite Hn in H. cbn [of_option bind] in H. rewrite Hs in H.
  replace (read_key a name fi (fi_size fi)) with (reading_key a name fi) in H.
  2:{ change (reading_key a name fi) with (read_key a name fi (w32 (fi_size fi))). f_equal. apply N.mod_small. apply Hok. }
  assert (K : trap L a fi (reading_key a name fi) \/ scale_trap L a fi (reading_key a name fi)).
  { pose proof (small_bounded _ (proj1 Hok)) as HB.
    destruct (is_single_unit (fi_flags fi) || negb (is_compressed (fi_flags fi))) eqn:C.
    - exact (whole_panics _ _ _ HB C H).
    - apply orb_false_iff in C as [C1 C2]. apply negb_false_iff in C2. exact (sectored_panics _ _ _ HB (t_file a T) C2 C1 H). }
  destruct K as [K|K]; [exact K|]. elim (small_scale _ _ _ _ (proj1 Hok) K).
Qed.

(** ** Listing *)
Lemma list_named_calm a names : tidy a -> list_named a names <> Panic.
Proof.
  intros T. induction names as [|n t IH]; [discriminate|]. cbn [list_named]. intros H.
  destruct (find_tidy a n T) as [Hf _]. destruct (find_file a n) as [r| |]; cbn [bind] in H; try discriminate H; [|congruence].
  unbind H E; [destruct r; discriminate H|]. exact (IH eq_refl).
Qed.
Lemma list_tables_calm a k : tidy a -> list_tables a k <> Panic.
Proof.
  intros T. unfold list_tables, valid_het_bet. rewrite (t_het a T). cbn [bind].
  destruct (t_hash a T) as (ht & ? & -> & _). destruct (t_block a T) as (bt & -> & _). discriminate.
Qed.
Lemma list_panics a : tidy a -> list_files L a = Panic ->
  exists fi, find_file a LISTFILE = Ok (Some fi) /\ trap L a fi (reading_key a LISTFILE fi).
Proof.
  intros T H. unfold list_files in H. destruct (find_tidy a LISTFILE T) as [Hf _].
  destruct (find_file a LISTFILE) as [[fi|]| |] eqn:E; cbn [bind] in H; try discriminate H; [|exfalso|congruence].
  - destruct (read_file L a LISTFILE) as [d| |] eqn:Er; cbn [bind] in H; [|discriminate|].
    + now elim (list_named_calm a (parse_listfile d) T).
    + destruct (read_panics a LISTFILE T Er) as (fi' & E' & Ht). rewrite E in E'. injection E' as <-. eauto.
  - now elim (list_tables_calm a _ T H).
Qed.

(** ** Opening *)
Lemma parse_entries_Forall {X} (P : X -> Prop) (p : bytes -> res X) : (forall d x, p d = Ok x -> P x) ->
  forall n d l, parse_entries p n d = Ok l -> Forall P l /\ length l = n.
Proof.
  intros Hp. induction n as [|n IH]; intros d l H; cbn [parse_entries] in H.
  - apply Ok_inj in H. subst l. split; [constructor|reflexivity].
  - unbind H E. unbind H E2. apply Ok_inj in H. subst l. destruct (IH _ _ E2) as [H1 H2]. split; [constructor; eauto|cbn [length]; lia].
Qed.
Lemma parse_entries_calm {X} (p : bytes -> res X) : (forall d, p d <> Panic) ->
  forall n d, parse_entries p n d <> Panic.
Proof.
  intros Hp. induction n as [|n IH]; intros d; cbn [parse_entries]; [discriminate|]. intros H.
  specialize (Hp (firstn 16 d)). unbind H E; [|congruence]. unbind H E2. exact (IH _ E2).
Qed.
Lemma dec4 d : le_dec (firstn 4 d) < M32.
Proof.
  eapply N.lt_le_trans; [apply le_dec_lt|]. change M32 with (256 ^ 4). apply N.pow_le_mono_r; [discriminate|].
  rewrite firstn_length. lia.
Qed.
Lemma dec2 d : le_dec (firstn 2 d) < M16.
Proof.
  eapply N.lt_le_trans; [apply le_dec_lt|]. change M16 with (256 ^ 2). apply N.pow_le_mono_r; [discriminate|].
  rewrite firstn_length. lia.
Qed.
Lemma be_from_ok d b : be_from_bytes d = Ok b -> be_ok b.
Proof.
  unfold be_from_bytes. destruct (lenN d <? 16); [discriminate|]. intros H. apply Ok_inj in H. subst b.
  unfold be_ok. cbn [be_pos be_csize be_size be_flags]. repeat split; apply dec4.
Qed.

Lemma ht_read_calm file o n : ht_read file o n <> Panic.
Proof.
  unfold ht_read. destruct (is_power_of_two n); [|discriminate]. destruct (slice o (n * 16) file); cbn [of_option bind]; [|discriminate].
  apply parse_entries_calm. intros d. unfold he_from_bytes. destruct (lenN d <? 16); discriminate.
Qed.
Lemma ht_read_pow file o n t : ht_read file o n = Ok t -> exists k, lenN t = 2 ^ k.
Proof.
  unfold ht_read. destruct (is_power_of_two n) eqn:E; [|discriminate]. apply is_power_of_two_spec in E as (k & ->).
  destruct (slice o (2 ^ k * 16) file); cbn [of_option bind]; [|discriminate]. intros H.
  apply (parse_entries_Forall (fun _ => True)) in H as [_ H]; [|auto]. exists k. unfold lenN. rewrite H. lia.
Qed.
Lemma bt_read_calm file o n : n < M32 -> bt_read file o n <> Panic.
Proof.
  intros Hn. unfold bt_read. intros H. unbind H E.
  - revert H. apply parse_entries_calm. intros d. unfold be_from_bytes. destruct (lenN d <? 16); discriminate.
  - revert E. apply read_at_noPanic. change M32 with (2 ^ 32) in Hn. lia.
Qed.
Lemma bt_read_ok file o n t : bt_read file o n = Ok t -> Forall be_ok t /\ lenN t = n.
Proof.
  unfold bt_read. intros H. unbind H E. apply (parse_entries_Forall be_ok) in H as [H1 H2]; [|exact be_from_ok].
  split; [exact H1|]. unfold lenN. lia.
Qed.
Lemma hi_read_calm file o n : n < M32 -> hi_read file o n <> Panic.
Proof.
  intros Hn. unfold hi_read. intros H. unbind H E. revert E. apply read_at_noPanic. change M32 with (2 ^ 32) in Hn. lia.
Qed.
Lemma hi_read_ok file o n t : hi_read file o n = Ok t -> Forall (fun v => v < M16) t.
Proof.
  unfold hi_read. intros H. unbind H E. apply Ok_inj in H. subst t. clear E. revert a. induction (N.to_nat n) as [|k IH]; intros a; cbn [parse_u16s]; constructor; auto.
  apply dec2.
Qed.

Lemma take_le_bound k d n r : take_le k d = Ok (n, r) -> n < 256 ^ k.
Proof.
  unfold take_le, Header.take. intros H. destruct (N.leb_spec k (lenN d)) as [C|C]; cbn [bind] in H; [|discriminate].
  injection H as <- <-. eapply N.lt_le_trans; [apply le_dec_lt|].
  apply N.pow_le_mono_r; [discriminate|]. rewrite firstn_length. lia.
Qed.

Definition header_ok (h : header) : Prop :=
  h_block_count h < M32 /\ get_hash_table_pos h < 2 ^ 48 /\ get_block_table_pos h < 2 ^ 48.
Lemma lor_hi hi low : hi < M16 -> low < M32 -> N.lor (N.shiftl hi 32) low < 2 ^ 48.
Proof.
  intros Hh Hl. pose proof (pos_full_bound (Some [hi]) 0 low Hl) as H.
  apply H. intros t E. injection E as <-. constructor; [exact Hh|constructor].
Qed.
Lemma header_read_ok d h : header_read d = Ok h -> header_ok h.
Proof.
  unfold header_read. intros H.
  repeat (match type of H with
  | bind (take_le ?k ?x) _ = _ => destruct (take_le k x) as [[? ?]| |] eqn:?; cbn [bind] in H; try discriminate H
  | (if ?c then _ else _) = _ => destruct c; try discriminate H
  | match ?x with Some _ => _ | None => _ end = _ => destruct x; try discriminate H
  | bind (v4_read ?x) _ = _ => destruct (v4_read x); cbn [bind] in H; try discriminate H
  end).
  all: apply Ok_inj in H; subst h; unfold header_ok, get_hash_table_pos, get_block_table_pos;
    cbn [h_block_count h_hash_pos_hi h_block_pos_hi h_hash_pos h_block_pos].
  all: repeat match goal with E : take_le _ _ = Ok _ |- _ => apply take_le_bound in E end.
  all: change (256 ^ 4) with M32 in *; change (256 ^ 2) with M16 in *.
  all: repeat split; try assumption; try (apply lor_hi; assumption).
  all: apply N.lt_trans with M32; [assumption|reflexivity].
Qed.

Lemma find_header_off file off ud h : find_header file = Ok (off, ud, h) -> off <= lenN file /\ header_ok h.
Proof.
  intros H. apply header_at in H. pose proof (header_read_ok _ _ H) as Hk. split; [|exact Hk].
  unfold from in H. destruct (N.leb_spec off (lenN file)) as [C|C]; [exact C|]. exfalso.
  revert H. vm_compute. discriminate.
Qed.

Lemma with_tables_tidy file a : lenN file < 2 ^ 63 -> with_tables file a -> tidy a.
Proof.
  intros Hlen (Hf & Hh & (ht & Eh & Rh) & (bt & Eb & Rb) & Hhi & Hhet & _).
  destruct (find_header_off _ _ _ _ Hh) as [Ho Hk]. split.
  - now rewrite Hf.
  - lia.
  - exact Hhet.
  - destruct (ht_read_pow _ _ _ _ Rh) as [k Ek]. eauto.
  - destruct (bt_read_ok _ _ _ _ Rb) as [B1 B2]. exists bt. split; [exact Eb|]. split; [exact B1|]. rewrite B2. apply Hk.
  - intros t Et. destruct (h_hi_pos (a_header a)) as [[|p]|]; try congruence.
    destruct Hhi as (hi & E1 & E2). rewrite E1 in Et. injection Et as <-. exact (hi_read_ok _ _ _ _ E2).
Qed.

(** Opening: the tables, then the attributes. *)
Lemma open_steps file off ud h : lenN file < 2 ^ 63 -> find_header file = Ok (off, ud, h) ->
  h_version h = V1 \/ h_version h = V2 ->
  (exists p, h_hi_pos h = Some p /\ 2 ^ 64 <= off + p /\ (open_archive L file = Panic \/ exists e, open_archive L file = Err e)) \/
  (exists e, open_archive L file = Err e) \/
  exists a, with_tables file a /\ a_header a = h /\ open_archive L file = load_attributes L a.
Proof.
  intros Hlen Hh Hv. destruct (find_header_off _ _ _ _ Hh) as [Ho (K1 & K2 & K3)].
  unfold open_archive, open_with_options. rewrite Hh. cbn [bind]. unfold load_tables. cbn [a_header a_file a_off a_user a_hash a_block a_hi a_het a_bet a_attrs].
  replace (version_ge (h_version h) V3) with false by (destruct Hv as [-> | ->]; reflexivity).
  cbn [bind]. cbv zeta. unfold valid_het_bet. cbn [a_het a_bet].
  rewrite add64_ok.
  2:{ change M64 with (2 ^ 64). lia. }
  cbn [bind]. pose proof (ht_read_calm file (off + get_hash_table_pos h) (h_hash_count h)) as C1.
  destruct (ht_read file (off + get_hash_table_pos h) (h_hash_count h)) as [ht|e|] eqn:R1; cbn [bind]; [|right; left; eauto|congruence].
  rewrite add64_ok.
  2:{ change M64 with (2 ^ 64). lia. }
  cbn [bind]. pose proof (bt_read_calm file (off + get_block_table_pos h) (h_block_count h) K1) as C2.
  destruct (bt_read file (off + get_block_table_pos h) (h_block_count h)) as [bt|e|] eqn:R2; cbn [bind]; [|right; left; eauto|congruence].
  assert (Hd : forall hi, match h_hi_pos h with None | Some 0 => hi = None
      | Some p => exists t, hi = Some t /\ hi_read file (off + p) (h_block_count h) = Ok t end ->
      with_tables file (mkA file off ud h (Some ht) (Some bt) hi None None None)).
  { intros hi Hhi. unfold with_tables. cbn [a_header a_file a_off a_user a_hash a_block a_hi a_het a_bet a_attrs].
    split; [reflexivity|]. split; [exact Hh|]. split; [eauto|]. split; [eauto|]. split; [|auto].
    exact Hhi. }
  destruct (h_hi_pos h) as [p|] eqn:Ep.
  - destruct (N.eqb_spec p 0) as [Z|Z].
    + subst p. cbn [bind]. right; right. eexists. split; [apply (Hd None); reflexivity|]. split; reflexivity.
    + destruct (N.lt_ge_cases (off + p) M64) as [S|S].
      * rewrite (add64_ok _ _ S). cbn [bind]. pose proof (hi_read_calm file (off + p) (h_block_count h) K1) as C3.
        destruct (hi_read file (off + p) (h_block_count h)) as [t|e|] eqn:R3; cbn [bind]; [|right; left; eauto|congruence].
        right; right. eexists. split; [apply (Hd (Some t)); destruct p; [congruence|eauto]|]. split; reflexivity.
      * left. exists p. split; [reflexivity|]. split; [exact S|]. left. unfold add64. rewrite (proj2 (N.ltb_ge _ _) S). reflexivity.
  - cbn [bind]. right; right. eexists. split; [apply (Hd None); reflexivity|]. split; reflexivity.
Qed.

Lemma attributes_panics file a : lenN file < 2 ^ 63 -> with_tables file a -> load_attributes L a = Panic -> open_trap L file.
Proof.
  intros Hlen W H. pose proof (with_tables_tidy _ _ Hlen W) as T. unfold load_attributes in H.
  assert (Ha : a_attrs a = None) by apply W. rewrite Ha in H.
  destruct (read_file L a ATTRIBUTES) as [d|e|] eqn:Er.
  - destruct (t_block a T) as (bt & Hb & _ & Hc). rewrite Hb in H. cbn [bind] in H.
    destruct (attr_unwrap L d (lenN bt)) as [d'|e|] eqn:Eu; cbn [bind] in H; [|discriminate|].
    + destruct (attr_parse_total d' (lenN bt)) as [E|(x & s & E & _)].
      * change M32 with (2 ^ 32) in Hc. eapply N.lt_trans; [exact Hc|reflexivity].
      * rewrite E in H. discriminate H.
      * rewrite E in H. discriminate H.
    + clear H. unfold attr_unwrap in Eu. destruct d as [|m c]; [discriminate|].
      destruct (_ && _); [|discriminate]. destruct (decompress L c (bN m) (lenN bt * 100)) eqn:Ed; try discriminate Eu.
      apply (open_unwrap L file a m c _ W Er) with (2 := Ed).
      destruct (decompress_panics _ _ _ Ed) as [A|[A|A]]; auto. change M32 with (2 ^ 32) in Hc. lia.
  - destruct e; discriminate H.
  - destruct (read_panics a ATTRIBUTES T Er) as (fi & E & Ht). exact (open_attributes L file a fi W E Ht).
Qed.

Lemma open_panics file off ud h : lenN file < 2 ^ 63 -> find_header file = Ok (off, ud, h) ->
  h_version h = V1 \/ h_version h = V2 -> open_archive L file = Panic -> open_trap L file.
Proof.
  intros Hlen Hh Hv H. destruct (open_steps _ _ _ _ Hlen Hh Hv) as [(p & E & S & _)|[(e & E)|(a & W & _ & E)]].
  - exact (open_hi L file off ud h p Hh E S).
  - congruence.
  - rewrite E in H. exact (attributes_panics _ _ Hlen W H).
Qed.

Lemma opened_tidy file off ud h a : lenN file < 2 ^ 63 -> find_header file = Ok (off, ud, h) ->
  h_version h = V1 \/ h_version h = V2 -> open_archive L file = Ok a -> tidy a.
Proof.
  intros Hlen Hh Hv H. destruct (open_steps _ _ _ _ Hlen Hh Hv) as [(p & _ & _ & [E|(e & E)])|[(e & E)|(b & W & _ & E)]];
    try congruence.
  pose proof (with_tables_tidy _ _ Hlen W) as T. rewrite E in H.
  apply (Archive34Facts.load_attributes_same L) in H as (x & ->). destruct T as [T1 T2 T3 T4 T5 T6]. split; assumption.
Qed.

End A.

(** ** In the words of the properties *)
Lemma deferred_calm L file : open_with_options L file false <> Panic.
Proof.
  unfold open_with_options. pose proof (find_header_noPanic file) as H.
  destruct (find_header file) as [[[off ud] h]| |]; cbn [bind]; [discriminate|discriminate|congruence].
Qed.

Lemma trap_needs_compression L a fi key : trap L a fi key -> compressed fi.
Proof. now destruct 1. Qed.

Lemma uncompressed_calm L a name : calm L -> tidy a ->
  (forall fi, find_file a name = Ok (Some fi) -> ~ compressed fi) -> read_file L a name <> Panic.
Proof.
  intros HL T Hn H. destruct (read_panics L HL a name T H) as (fi & E & Ht).
  exact (Hn fi E (trap_needs_compression _ _ _ _ Ht)).
Qed.

Lemma list_all_calm L a : tidy a -> list_all a <> Panic /\ list_all_with_hashes a <> Panic /\
  (list_with_hashes L a = Panic -> list_files L a = Panic).
Proof.
  intros T. split; [now apply list_tables_calm|]. split; [now apply list_tables_calm|].
  unfold list_with_hashes. destruct (list_files L a); cbn [bind]; [discriminate|discriminate|reflexivity].
Qed.

Section Words.
Variables (L : codecs) (file : bytes) (off : N) (ud : option user_data) (h : header).
Hypothesis Hlen : lenN file < 2 ^ 63.
Hypothesis Hh : find_header file = Ok (off, ud, h).
Hypothesis Hv : h_version h = V1 \/ h_version h = V2.
Lemma lookup_calm_ a name : open_archive L file = Ok a -> find_file a name <> Panic.
Proof. intros H. exact (proj1 (find_tidy a name (opened_tidy L file off ud h a Hlen Hh Hv H))). Qed.
Lemma reading_panics_ a name : calm L -> open_archive L file = Ok a -> read_file L a name = Panic ->
  exists fi, find_file a name = Ok (Some fi) /\ trap L a fi (reading_key a name fi).
Proof. intros HL H. exact (read_panics L HL a name (opened_tidy L file off ud h a Hlen Hh Hv H)). Qed.
Lemma uncompressed_reading_ a name : calm L -> open_archive L file = Ok a ->
  (forall fi, find_file a name = Ok (Some fi) -> ~ compressed fi) -> read_file L a name <> Panic.
Proof. intros HL H. exact (uncompressed_calm L a name HL (opened_tidy L file off ud h a Hlen Hh Hv H)). Qed.
Lemma listing_panics_ a : calm L -> open_archive L file = Ok a ->
  list_all a <> Panic /\ list_all_with_hashes a <> Panic /\
  (list_files L a = Panic \/ list_with_hashes L a = Panic ->
   exists fi, find_file a LISTFILE = Ok (Some fi) /\ trap L a fi (reading_key a LISTFILE fi)).
Proof.
  intros HL H. pose proof (opened_tidy L file off ud h a Hlen Hh Hv H) as T.
  destruct (list_all_calm L a T) as (H1 & H2 & H3). split; [exact H1|]. split; [exact H2|].
  intros [E|E]; [|apply H3 in E]; exact (list_panics L HL a T E).
Qed.
End Words.
Definition lookup_calm L file off ud h a name Hlen Hh Hv := lookup_calm_ L file off ud h Hlen Hh Hv a name.
Definition reading_panics L file off ud h a name HL Hlen Hh Hv := reading_panics_ L file off ud h Hlen Hh Hv a name HL.
Definition uncompressed_reading L file off ud h a name HL Hlen Hh Hv := uncompressed_reading_ L file off ud h Hlen Hh Hv a name HL.
Definition listing_panics L file off ud h a HL Hlen Hh Hv := listing_panics_ L file off ud h Hlen Hh Hv a HL.
Definition opening_panics L file off ud h HL := open_panics L HL file off ud h.
Definition expanding_panics L d m size HL := decompress_panics L HL d m size.
Lemma no_header L file load : (forall x, find_header file <> Ok x) -> exists e, open_with_options L file load = Err e.
Proof.
  intros H. unfold open_with_options. pose proof (find_header_noPanic file) as P.
  destruct (find_header file) as [x|e|]; [now elim (H x)|cbn [bind]; eauto|congruence].
Qed.
