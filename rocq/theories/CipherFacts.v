(** * The cipher and the hashes are those of the format description. *)
From Verif Require Import Bytes Crypto CryptoFacts SpecCipher.
Open Scope N_scope.

(** ** The table *)
Lemma draw_lt k : draw k < 0x2AAAAB.
Proof. destruct k; cbn [draw]; [reflexivity|apply N.mod_lt; discriminate]. Qed.
Lemma seed_draw k : seed_step (draw k) = draw (S k).
Proof.
  cbn [draw]. pose proof (draw_lt k) as H. unfold seed_step, w32. set (d := draw k) in *. clearbody d.
  assert (E : M32 = 4294967296) by reflexivity. rewrite E. clear E.
  rewrite (N.mod_small (d * 125)) by lia. rewrite (N.mod_small (d * 125 + 3) 4294967296) by lia. rewrite (N.mul_comm 125). reflexivity.
Qed.
Lemma step_draw k : table_step (draw k) = (65536 * (draw (S k) mod 65536) + draw (S (S k)) mod 65536, draw (S (S k))).
Proof.
  unfold table_step. rewrite !seed_draw. f_equal.
  change 65535 with (N.ones 16). rewrite !N.land_ones. change (2 ^ 16) with 65536.
  set (x := draw (S k) mod 65536). set (y := draw (S (S k)) mod 65536).
  assert (Hx : x < 65536) by (apply N.mod_lt; discriminate). assert (Hy : y < 65536) by (apply N.mod_lt; discriminate).
  clearbody x y. unfold shl32. rewrite N.shiftl_mul_pow2. change (2 ^ 16) with 65536.
  unfold w32, M32. change (2 ^ 32) with 4294967296. rewrite N.mod_small by lia.
  rewrite (N.mul_comm x). apply N.bits_inj. intros n. rewrite N.lor_spec.
  destruct (N.lt_ge_cases n 16) as [C|C].
  - rewrite (N.mul_comm 65536). change 65536 with (2 ^ 16). rewrite N.mul_pow2_bits_low by exact C. cbn [orb].
    rewrite <- (N.mod_pow2_bits_low (x * 2 ^ 16 + y) 16 n C).
    rewrite N.add_comm, N.mod_add by discriminate. now rewrite N.mod_small.
  - assert (N.testbit y n = false) as ->.
    { destruct (N.eq_dec y 0) as [->|Hz]; [apply N.bits_0|]. apply N.bits_above_log2.
      apply N.log2_lt_pow2; [lia|]. apply N.lt_le_trans with (2 ^ 16); [exact Hy|]. apply N.pow_le_mono_r; lia. }
    rewrite orb_false_r. replace n with (n - 16 + 16) by lia.
    rewrite <- !N.div_pow2_bits. change (2 ^ 16) with 65536. f_equal.
    rewrite (N.mul_comm 65536), N.div_mul by discriminate. rewrite N.add_comm, N.div_add by discriminate.
    rewrite N.div_small by exact Hy. reflexivity.
Qed.
Lemma gen_nth n : forall k j, (j < n)%nat ->
  nth j (gen_values n (draw k)) 0 = 65536 * (draw (S (k + 2 * j)) mod 65536) + draw (S (S (k + 2 * j))) mod 65536.
Proof.
  induction n as [|n IH]; intros k j H; [lia|]. cbn [gen_values]. rewrite step_draw.
  destruct j as [|j]; cbn [nth].
  - now replace (k + 2 * 0)%nat with k by lia.
  - rewrite (IH (S (S k)) j) by lia. now replace (S (S k) + 2 * j)%nat with (k + 2 * S j)%nat by lia.
Qed.
Lemma raw_gen : raw_table = gen_values 1280 (draw 0).
Proof. vm_compute. reflexivity. Qed.
Lemma table_def : table = map (fun i => nth ((i mod 256) * 5 + i / 256) raw_table 0) (seq 0 1280).
Proof. vm_compute. reflexivity. Qed.

Transparent T.
Lemma T_def i : T i = nth (N.to_nat i) table 0.
Proof. reflexivity. Qed.
Opaque T.

Theorem table_entry i j : (i < 256)%nat -> (j < 5)%nat -> T (N.of_nat i + 256 * N.of_nat j) = entry i j.
Proof.
  intros Hi Hj. rewrite T_def. replace (N.to_nat (N.of_nat i + 256 * N.of_nat j)) with (i + j * 256)%nat by lia.
  rewrite table_def.
  assert (Hk : (i + j * 256 < 1280)%nat) by lia.
  rewrite (nth_indep _ _ (nth ((0 mod 256) * 5 + 0 / 256) raw_table 0)) by (rewrite map_length, seq_length; exact Hk).
  rewrite (map_nth (fun i => nth ((i mod 256) * 5 + i / 256) raw_table 0)).
  rewrite seq_nth by exact Hk. cbn [Nat.add].
  rewrite Nat.mod_add, Nat.div_add by discriminate. rewrite Nat.mod_small, Nat.div_small by exact Hi. cbn [Nat.add].
  rewrite raw_gen, gen_nth by lia. unfold entry. now replace (0 + 2 * (i * 5 + j))%nat with (2 * (5 * i + j))%nat by lia.
Qed.
Lemma table_at v j : v < 256 -> (j < 5)%nat -> T (N.of_nat j * 0x100 + v) = entry (N.to_nat v) j.
Proof.
  intros Hv Hj. rewrite <- table_entry by lia. f_equal. rewrite N2Nat.id. lia.
Qed.

(** ** Names *)
Lemma folded_eq c : bN (folded c) = to_upper (fold_sep (bN c)).
Proof. destruct c; vm_compute; reflexivity. Qed.
Lemma lowered_eq c : bN (lowered c) = to_lower (fold_sep (bN c)).
Proof. destruct c; vm_compute; reflexivity. Qed.

Lemma w32_l x y : w32 (w32 x + y) = w32 (x + y).
Proof. unfold w32. apply N.add_mod_idemp_l. discriminate. Qed.
Lemma w32_r x y : w32 (x + w32 y) = w32 (x + y).
Proof. unfold w32. apply N.add_mod_idemp_r. discriminate. Qed.
Lemma seed_sum v a b : w32 (w32 (w32 (w32 (v + a) + b) + shl32 b 5) + 3) = (v + a + 33 * b + 3) mod 2 ^ 32.
Proof.
  unfold shl32. rewrite N.shiftl_mul_pow2. change (2 ^ 5) with 32. rewrite !w32_l.
  rewrite <- (N.add_assoc (w32 (v + a + b))), w32_l.
  replace (v + a + b + (w32 (b * 32) + 3)) with (v + a + b + 3 + w32 (b * 32)) by lia. rewrite w32_r.
  change (2 ^ 32) with M32. unfold w32. f_equal. lia.
Qed.

Lemma hashed_fold j : (j < 5)%nat -> forall name a b,
  fst (fold_left (hash_step (N.of_nat j)) name (a, b)) = hashed j a b name.
Proof.
  intros Hj. induction name as [|c r IH]; intros a b; [reflexivity|]. cbn [fold_left hashed].
  unfold hash_step at 2. rewrite <- folded_eq. rewrite table_at by (try exact Hj; apply bN_lt).
  rewrite seed_sum. cbv zeta. rewrite IH. reflexivity.
Qed.
Theorem hash_is j name : (j < 5)%nat -> hash_string name (N.of_nat j) = name_hash j name.
Proof. intros Hj. unfold hash_string, name_hash. now apply hashed_fold. Qed.

Lemma jenkins_step_eq h c : jenkins_step h c =
  let x := (1025 * (h + bN (lowered c))) mod 2 ^ 64 in N.lxor x (x / 64).
Proof.
  unfold jenkins_step. rewrite <- lowered_eq. cbv zeta. rewrite N.shiftl_mul_pow2, N.shiftr_div_pow2.
  change (2 ^ 10) with 1024. change (2 ^ 6) with 64.
  assert (E : forall z, w64 (w64 z + w64 (w64 z * 1024)) = (1025 * z) mod 2 ^ 64).
  { intros z. unfold w64. fold M64. rewrite N.mul_mod_idemp_l by discriminate.
    rewrite N.add_mod_idemp_l, N.add_mod_idemp_r by discriminate. f_equal. lia. }
  now rewrite E.
Qed.
Theorem jenkins_is name : jenkins_hash name = extended_hash name.
Proof.
  unfold jenkins_hash, extended_hash.
  assert (E : forall l h, fold_left jenkins_step l h = mixed h l).
  { induction l as [|c r IH]; intros h; [reflexivity|]. cbn [fold_left mixed]. rewrite IH, jenkins_step_eq. reflexivity. }
  rewrite E. set (h := mixed 0 name). clearbody h. cbv zeta.
  rewrite !N.shiftl_mul_pow2, !N.shiftr_div_pow2. change (2 ^ 3) with 8. change (2 ^ 11) with 2048. change (2 ^ 15) with 32768.
  assert (E8 : forall k z, w64 (z + w64 (z * k)) = ((k + 1) * z) mod 2 ^ 64).
  { intros k z. unfold w64. fold M64. rewrite N.add_mod_idemp_r by discriminate. f_equal. lia. }
  rewrite !E8. reflexivity.
Qed.

(** ** Words *)
Lemma turned_eq key : key_next key = turned key.
Proof.
  unfold key_next, turned. rewrite N.shiftr_div_pow2. f_equal.
  unfold shl32. rewrite N.shiftl_mul_pow2, w32_l. reflexivity.
Qed.
Lemma seed_at key seed : seed_mix key seed = (seed + entry (N.to_nat (key mod 256)) 4) mod 2 ^ 32.
Proof.
  unfold seed_mix. change 0xFF with (N.ones 8). rewrite N.land_ones. change (2 ^ 8) with 256.
  change 0x400 with (N.of_nat 4 * 0x100). rewrite table_at; [reflexivity|apply N.mod_lt; discriminate|lia].
Qed.
Lemma seed_on w s : seed_next w s = (w + 33 * s + 3) mod 2 ^ 32.
Proof.
  unfold seed_next. pose proof (seed_sum w 0 s) as E. rewrite !N.add_0_r in E. rewrite (w32_l w s) in E. exact E.
Qed.
Lemma sealed_loop ws : forall key seed, enc_loop key seed ws = sealed key seed ws.
Proof.
  induction ws as [|w r IH]; intros key seed; [reflexivity|]. cbn [enc_loop sealed].
  rewrite seed_at, turned_eq, seed_on. cbv zeta. f_equal. apply IH.
Qed.
Theorem cipher_is ws key : encrypt_block ws key = cipher_of key ws.
Proof. unfold encrypt_block, cipher_of. now rewrite sealed_loop. Qed.
Theorem decipher_is ws key : decrypt_block (cipher_of key ws) key = ws /\ cipher_of key (decrypt_block ws key) = ws.
Proof. rewrite <- !cipher_is. split; [apply decrypt_encrypt_block|apply encrypt_decrypt_block]. Qed.
Theorem types_are name ht :
  (hash_string_chk name ht = Panic <-> 5 <= ht /\ name <> []) /\
  (forall v, hash_string_chk name ht = Ok v -> name <> [] -> v = name_hash (N.to_nat ht) name).
Proof.
  split.
  - destruct name as [|c r]; cbn [hash_string_chk]; [split; [discriminate|intros [_ H]; now destruct H]|].
    destruct (ht <? 5) eqn:C; [apply N.ltb_lt in C|apply N.ltb_ge in C]; split; try discriminate; try (split; [exact C|discriminate]).
    + intros [H _]. lia.
    + reflexivity.
  - destruct name as [|c r]; [now intros v _ []|]. cbn [hash_string_chk]. intros v H _.
    destruct (ht <? 5) eqn:C; [|discriminate]. apply N.ltb_lt in C. injection H as <-.
    rewrite <- hash_is by lia. now rewrite N2Nat.id.
Qed.

(** ** The test vectors of the description *)
Lemma hashes_wrong : Forall (fun '(name, ht, v) => hash_string name ht <> v) documented_hashes.
Proof.
  apply Forall_forall. intros [[n t] v] H.
  assert (E : forallb (fun '(name, ht, v) => negb (hash_string name ht =? v)) documented_hashes = true) by (vm_compute; reflexivity).
  rewrite forallb_forall in E. specialize (E _ H). cbn beta iota in E. apply negb_true_iff, N.eqb_neq in E. exact E.
Qed.
Lemma entries_wrong : Forall (fun '(i, j, v) => T (N.of_nat i + 256 * N.of_nat j) <> v) documented_entries.
Proof.
  apply Forall_forall. intros [[i j] v] H.
  assert (E : forallb (fun '(i, j, v) => negb (T (N.of_nat i + 256 * N.of_nat j) =? v)) documented_entries = true) by (vm_compute; reflexivity).
  rewrite forallb_forall in E. specialize (E _ H). cbn beta iota in E. apply negb_true_iff, N.eqb_neq in E. exact E.
Qed.
Fixpoint nowhere (a b : list N) : bool :=
  match a, b with [], [] => true | x :: a, y :: b => negb (x =? y) && nowhere a b | _, _ => false end.
Lemma nowhere_ok a : forall b, nowhere a b = true -> Forall2 (fun x y => x <> y) a b.
Proof.
  induction a as [|x a IH]; intros [|y b] H; try discriminate; [constructor|]. cbn [nowhere] in H.
  apply andb_prop in H. destruct H as [H1 H2]. constructor; [now apply N.eqb_neq, negb_true_iff|now apply IH].
Qed.
Lemma block_wrong : Forall2 (fun x y => x <> y) (encrypt_block documented_plain 0xC1EB1CEF) documented_cipher.
Proof. apply nowhere_ok. vm_compute. reflexivity. Qed.
Lemma extended_wrong : jenkins_hash (lit "unit\neutral\chicken.mdx") <> 0x0E47BAE570E8D3CA.
Proof. intros H. apply N.eqb_eq in H. vm_compute in H. discriminate H. Qed.
