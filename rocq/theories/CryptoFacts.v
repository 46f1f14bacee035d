(** * Facts about the cipher and the name hashes. *)
From Verif Require Import Bytes Crypto.
Open Scope N_scope.

Lemma table_ok : words_ok table.
Proof.
  apply Forall_forall. intros x Hx.
  assert (H : forallb (fun w => w <? M32) table = true) by (vm_compute; reflexivity).
  rewrite forallb_forall in H. specialize (H x Hx). now apply N.ltb_lt in H.
Qed.

Lemma T_lt i : T i < M32.
Proof.
  unfold T. destruct (nth_in_or_default (N.to_nat i) table 0) as [H| ->].
  - pose proof table_ok as HT. unfold words_ok in HT. rewrite Forall_forall in HT. now apply HT.
  - reflexivity.
Qed.

Global Opaque table T.

(** ** Word level *)
Lemma enc_loop_length k s l : length (enc_loop k s l) = length l.
Proof. revert k s; induction l; intros; cbn [enc_loop length]; auto. Qed.
Lemma dec_loop_length k s l : length (dec_loop k s l) = length l.
Proof. revert k s; induction l; intros; cbn [dec_loop length]; auto. Qed.

Lemma lxor_cancel a b : N.lxor (N.lxor a b) b = a.
Proof. now rewrite N.lxor_assoc, N.lxor_nilpotent, N.lxor_0_r. Qed.

Lemma dec_enc_loop k s l : dec_loop k s (enc_loop k s l) = l.
Proof.
  revert k s. induction l as [|x l IH]; intros k s; cbn [enc_loop dec_loop]; [reflexivity|].
  rewrite lxor_cancel. f_equal. apply IH.
Qed.
Lemma enc_dec_loop k s l : enc_loop k s (dec_loop k s l) = l.
Proof.
  revert k s. induction l as [|x l IH]; intros k s; cbn [enc_loop dec_loop]; [reflexivity|].
  rewrite lxor_cancel. f_equal. apply IH.
Qed.

Lemma decrypt_encrypt_block l k : decrypt_block (encrypt_block l k) k = l.
Proof. unfold decrypt_block, encrypt_block. destruct (k =? 0); auto using dec_enc_loop. Qed.
Lemma encrypt_decrypt_block l k : encrypt_block (decrypt_block l k) k = l.
Proof. unfold decrypt_block, encrypt_block. destruct (k =? 0); auto using enc_dec_loop. Qed.
Lemma encrypt_block_length l k : length (encrypt_block l k) = length l.
Proof. unfold encrypt_block. destruct (k =? 0); auto using enc_loop_length. Qed.
Lemma decrypt_block_length l k : length (decrypt_block l k) = length l.
Proof. unfold decrypt_block. destruct (k =? 0); auto using dec_loop_length. Qed.

Lemma lenN_encrypt_block l k : lenN (encrypt_block l k) = lenN l.
Proof. unfold lenN. now rewrite encrypt_block_length. Qed.
Lemma lenN_decrypt_block l k : lenN (decrypt_block l k) = lenN l.
Proof. unfold lenN. now rewrite decrypt_block_length. Qed.

Lemma enc_loop_ok k s l : words_ok l -> words_ok (enc_loop k s l).
Proof.
  intros H. revert k s. induction H as [|x l Hx H IH]; intros k s; cbn [enc_loop];
    constructor; [apply lxor_lt32; auto using w32_lt|apply IH].
Qed.
Lemma dec_loop_ok k s l : words_ok l -> words_ok (dec_loop k s l).
Proof.
  intros H. revert k s. induction H as [|x l Hx H IH]; intros k s; cbn [dec_loop];
    constructor; [apply lxor_lt32; auto using w32_lt|apply IH].
Qed.
Lemma encrypt_block_ok l k : words_ok l -> words_ok (encrypt_block l k).
Proof. unfold encrypt_block. destruct (k =? 0); auto using enc_loop_ok. Qed.
Lemma decrypt_block_ok l k : words_ok l -> words_ok (decrypt_block l k).
Proof. unfold decrypt_block. destruct (k =? 0); auto using dec_loop_ok. Qed.

Lemma encrypt_block_0 l : encrypt_block l 0 = l.
Proof. reflexivity. Qed.
Lemma decrypt_block_0 l : decrypt_block l 0 = l.
Proof. reflexivity. Qed.

Lemma decrypt_dword_block v k : decrypt_block [v] k = [decrypt_dword v k].
Proof. unfold decrypt_block, decrypt_dword. destruct (k =? 0); reflexivity. Qed.

Lemma decrypt_dword_encrypt v k :
  encrypt_block [v] k = [decrypt_dword v k].
Proof. unfold encrypt_block, decrypt_dword. destruct (k =? 0); reflexivity. Qed.

Lemma decrypt_dword_invol v k : decrypt_dword (decrypt_dword v k) k = v.
Proof. unfold decrypt_dword. destruct (k =? 0); auto using lxor_cancel. Qed.

(** ** Byte level *)
Definition bxor (a b : byte) : byte := Nb (N.lxor (bN a) (bN b)).

Lemma mod_lxor a b k : (N.lxor a b) mod 2 ^ k = N.lxor (a mod 2 ^ k) (b mod 2 ^ k).
Proof.
  rewrite <- !N.land_ones. apply N.bits_inj. intros n.
  rewrite !N.land_spec, !N.lxor_spec, !N.land_spec.
  destruct (N.testbit a n), (N.testbit b n), (N.testbit (N.ones k) n); reflexivity.
Qed.

Lemma Nb_mod n : Nb (n mod 256) = Nb n.
Proof. unfold Nb. now rewrite N.mod_mod by lia. Qed.

Lemma Nb_lxor a b : Nb (N.lxor a b) = bxor (Nb a) (Nb b).
Proof.
  unfold bxor. rewrite !bN_Nb. change 256 with (2 ^ 8). rewrite <- mod_lxor.
  change (2 ^ 8) with 256. now rewrite Nb_mod.
Qed.

Lemma bxor_cancel a b : bxor (bxor a b) b = a.
Proof.
  rewrite <- (Nb_bN a), <- (Nb_bN b). rewrite <- !Nb_lxor.
  now rewrite lxor_cancel.
Qed.

Fixpoint zipx (a b : bytes) : bytes :=
  match a, b with
  | x :: a', y :: b' => bxor x y :: zipx a' b'
  | _, _ => []
  end.

Lemma le_enc_lxor k a b : le_enc k (N.lxor a b) = zipx (le_enc k a) (le_enc k b).
Proof.
  revert a b. induction k as [|k IH]; intros a b; cbn [le_enc zipx]; [reflexivity|].
  rewrite Nb_lxor. f_equal.
  change 256 with (2 ^ 8). rewrite <- !N.shiftr_div_pow2, N.shiftr_lxor. apply IH.
Qed.

Lemma firstn_zipx n a b : firstn n (zipx a b) = zipx (firstn n a) (firstn n b).
Proof.
  revert a b. induction n as [|n IH]; intros [|x a] [|y b]; cbn; auto.
  f_equal. apply IH.
Qed.

Lemma zipx_length a b : length (zipx a b) = Nat.min (length a) (length b).
Proof. revert b; induction a; intros [|y b]; cbn; auto. Qed.

Lemma zipx_cancel a b : (length a <= length b)%nat -> zipx (zipx a b) b = a.
Proof.
  revert b. induction a as [|x a IH]; intros [|y b] H; cbn in *; try lia; auto.
  rewrite bxor_cancel. f_equal. apply IH. lia.
Qed.

Lemma pad4_length r : (length r < 4)%nat -> length (pad4 r) = 4%nat.
Proof. intros H. unfold pad4. rewrite firstn_length, app_length, repeat_length. lia. Qed.

Lemma firstn_pad4 r : (length r < 4)%nat -> firstn (length r) (pad4 r) = r.
Proof.
  intros H. unfold pad4. rewrite firstn_firstn.
  replace (Nat.min (length r) 4) with (length r) by lia.
  rewrite firstn_app, firstn_all, Nat.sub_diag. cbn. apply app_nil_r.
Qed.

Lemma le32_pad4 r : (length r < 4)%nat -> le32 (le_dec (pad4 r)) = pad4 r.
Proof.
  intros H. unfold le32. rewrite <- (pad4_length r H) at 1. apply le_enc_dec.
Qed.

(** One-word cipher on a short tail. *)
Definition tail_crypt (r : bytes) (key : N) : bytes :=
  firstn (length r) (le32 (decrypt_dword (le_dec (pad4 r)) key)).

Lemma tail_crypt_xor r key :
  (length r < 4)%nat ->
  tail_crypt r key =
  if key =? 0 then r
  else zipx r (firstn (length r) (le32 (w32 (key + seed_mix key 0xEEEEEEEE)))).
Proof.
  intros H. unfold tail_crypt, decrypt_dword. destruct (key =? 0).
  - rewrite le32_pad4, firstn_pad4; auto.
  - unfold le32 at 1. rewrite le_enc_lxor, firstn_zipx.
    fold (le32 (le_dec (pad4 r))). rewrite le32_pad4, firstn_pad4 by auto.
    reflexivity.
Qed.

Lemma tail_crypt_length r key : (length r < 4)%nat -> length (tail_crypt r key) = length r.
Proof.
  intros H. unfold tail_crypt. rewrite firstn_length, le32_length. lia.
Qed.

Lemma tail_crypt_invol r key :
  (length r < 4)%nat -> tail_crypt (tail_crypt r key) key = r.
Proof.
  intros H. rewrite (tail_crypt_xor (tail_crypt r key)) by (rewrite tail_crypt_length; auto).
  rewrite tail_crypt_length, tail_crypt_xor by auto.
  destruct (key =? 0); [reflexivity|].
  apply zipx_cancel. rewrite firstn_length, le32_length. lia.
Qed.

Lemma encrypt_data_eq d k ws r :
  words_of_bytes d = (ws, r) -> k <> 0 ->
  encrypt_data d k = bytes_of_words (encrypt_block ws k)
                     ++ tail_crypt r (w32 (k + w32 (lenN ws))).
Proof.
  intros E Hk. unfold encrypt_data.
  pose proof (words_of_bytes_spec d) as S. rewrite E in S. destruct S as (S1 & S2 & S3 & S4).
  destruct (N.eqb_spec k 0) as [|_]; [contradiction|].
  destruct (N.eqb_spec (lenN d) 0) as [Hd|_]; cbn [orb].
  - assert (d = []) as -> by (destruct d; [reflexivity|unfold lenN in Hd; cbn in Hd; lia]).
    cbn in E. injection E as <- <-. unfold tail_crypt. cbn [length firstn].
    unfold encrypt_block. destruct (k =? 0); reflexivity.
  - rewrite E. f_equal. destruct r as [|a r]; [reflexivity|].
    unfold tail_crypt. f_equal. rewrite decrypt_dword_encrypt.
    cbn [bytes_of_words]. now rewrite app_nil_r.
Qed.

Lemma decrypt_data_eq d k ws r :
  words_of_bytes d = (ws, r) -> k <> 0 ->
  decrypt_file_data d k = bytes_of_words (decrypt_block ws k)
                     ++ tail_crypt r (w32 (k + w32 (lenN ws))).
Proof.
  intros E Hk. unfold decrypt_file_data.
  destruct (N.eqb_spec k 0) as [|_]; [contradiction|].
  destruct (N.eqb_spec (lenN d) 0) as [Hd|_]; cbn [orb].
  - assert (d = []) as -> by (destruct d; [reflexivity|unfold lenN in Hd; cbn in Hd; lia]).
    cbn in E. injection E as <- <-. unfold tail_crypt. cbn [length firstn].
    unfold decrypt_block. destruct (k =? 0); reflexivity.
  - rewrite E. f_equal. destruct r as [|a r]; reflexivity.
Qed.

Lemma encrypt_data_0 d : encrypt_data d 0 = d.
Proof. unfold encrypt_data. now rewrite orb_true_r. Qed.
Lemma decrypt_data_0 d : decrypt_file_data d 0 = d.
Proof. unfold decrypt_file_data. now rewrite orb_true_r. Qed.

Lemma decrypt_encrypt_data d k : decrypt_file_data (encrypt_data d k) k = d.
Proof.
  destruct (N.eq_dec k 0) as [->|Hk]; [now rewrite encrypt_data_0, decrypt_data_0|].
  pose proof (words_of_bytes_spec d) as S.
  destruct (words_of_bytes d) as [ws r] eqn:E. destruct S as (S1 & S2 & S3 & S4).
  rewrite (encrypt_data_eq d k ws r E Hk).
  erewrite decrypt_data_eq; [|apply words_of_bytes_of_words|exact Hk].
  - rewrite decrypt_encrypt_block.
    rewrite lenN_encrypt_block.
    rewrite tail_crypt_invol by exact S3. congruence.
  - now apply encrypt_block_ok.
  - rewrite tail_crypt_length; exact S3.
Qed.

Lemma encrypt_decrypt_data d k : encrypt_data (decrypt_file_data d k) k = d.
Proof.
  destruct (N.eq_dec k 0) as [->|Hk]; [now rewrite encrypt_data_0, decrypt_data_0|].
  pose proof (words_of_bytes_spec d) as S.
  destruct (words_of_bytes d) as [ws r] eqn:E. destruct S as (S1 & S2 & S3 & S4).
  rewrite (decrypt_data_eq d k ws r E Hk).
  erewrite encrypt_data_eq; [|apply words_of_bytes_of_words|exact Hk].
  - rewrite encrypt_decrypt_block.
    rewrite lenN_decrypt_block.
    rewrite tail_crypt_invol by exact S3. congruence.
  - now apply decrypt_block_ok.
  - rewrite tail_crypt_length; exact S3.
Qed.

Lemma encrypt_data_length d k : length (encrypt_data d k) = length d.
Proof.
  destruct (N.eq_dec k 0) as [->|Hk]; [now rewrite encrypt_data_0|].
  pose proof (words_of_bytes_spec d) as S.
  destruct (words_of_bytes d) as [ws r] eqn:E. destruct S as (S1 & S2 & S3 & S4).
  rewrite (encrypt_data_eq d k ws r E Hk).
  rewrite app_length, bytes_of_words_length, encrypt_block_length.
  rewrite tail_crypt_length by exact S3.
  rewrite S1 at 1. now rewrite app_length, bytes_of_words_length.
Qed.

Lemma decrypt_data_length d k : length (decrypt_file_data d k) = length d.
Proof.
  rewrite <- (encrypt_decrypt_data d k) at 2. now rewrite encrypt_data_length.
Qed.

(** On whole words, table decryption inverts block encryption. *)
Lemma decrypt_table_words ws k :
  words_ok ws ->
  decrypt_table_data (bytes_of_words (encrypt_block ws k)) k = bytes_of_words ws.
Proof.
  intros H. unfold decrypt_table_data.
  rewrite <- (app_nil_r (bytes_of_words (encrypt_block ws k))).
  rewrite words_of_bytes_of_words; [|now apply encrypt_block_ok|cbn; lia].
  now rewrite decrypt_encrypt_block, app_nil_r.
Qed.

Lemma decrypt_table_data_length d k : length (decrypt_table_data d k) = length d.
Proof.
  unfold decrypt_table_data. pose proof (words_of_bytes_spec d) as S.
  destruct (words_of_bytes d) as [ws r]. destruct S as (S1 & _).
  rewrite S1, !app_length, !bytes_of_words_length. now rewrite decrypt_block_length.
Qed.

(** For data of whole words the table cipher and the file cipher agree. *)
Lemma decrypt_table_file d k :
  (length d mod 4 = 0)%nat -> decrypt_table_data d k = decrypt_file_data d k.
Proof.
  intros Hm. unfold decrypt_table_data.
  pose proof (words_of_bytes_spec d) as S.
  destruct (words_of_bytes d) as [ws r] eqn:E. destruct S as (S1 & S2 & S3 & S4).
  assert (r = []) as ->.
  { destruct r as [|a r]; [reflexivity|exfalso].
    rewrite S1, app_length, bytes_of_words_length in Hm.
    rewrite Nat.add_comm, Nat.mul_comm, Nat.mod_add in Hm by lia.
    rewrite Nat.mod_small in Hm by exact S3. discriminate. }
  destruct (N.eq_dec k 0) as [->|Hk].
  - rewrite decrypt_data_0, decrypt_block_0. congruence.
  - rewrite (decrypt_data_eq d k ws [] E Hk). reflexivity.
Qed.

(** ** Name hashes *)
(** Normal form of one character as both hashes see it. *)
Lemma hash_step_norm ht st a b :
  to_upper (fold_sep (bN a)) = to_upper (fold_sep (bN b)) ->
  hash_step ht st a = hash_step ht st b.
Proof. intros H. unfold hash_step. destruct st. now rewrite H. Qed.

Lemma jenkins_step_norm h a b :
  to_lower (fold_sep (bN a)) = to_lower (fold_sep (bN b)) ->
  jenkins_step h a = jenkins_step h b.
Proof. intros H. unfold jenkins_step. now rewrite H. Qed.

Lemma upper_lower_same x y :
  to_upper (fold_sep x) = to_upper (fold_sep y) <->
  to_lower (fold_sep x) = to_lower (fold_sep y).
Proof.
  unfold to_upper, to_lower.
  set (a := fold_sep x). set (b := fold_sep y). clearbody a b.
  destruct (N.leb_spec 97 a), (N.leb_spec a 122), (N.leb_spec 97 b), (N.leb_spec b 122),
    (N.leb_spec 65 a), (N.leb_spec a 90), (N.leb_spec 65 b), (N.leb_spec b 90);
    cbn [andb]; lia.
Qed.

Lemma hash_step_lt ht st b : fst st < M32 -> fst (hash_step ht st b) < M32.
Proof.
  intros H. unfold hash_step. destruct st. cbn [fst] in *.
  apply lxor_lt32; auto using T_lt, w32_lt.
Qed.

Lemma hash_string_lt name ht : hash_string name ht < M32.
Proof.
  unfold hash_string.
  assert (H : forall st, fst st < M32 -> fst (fold_left (hash_step ht) name st) < M32).
  { induction name as [|b name IH]; intros st Hst; cbn [fold_left]; auto.
    apply IH, hash_step_lt, Hst. }
  apply H. reflexivity.
Qed.

Lemma jenkins_hash_lt name : jenkins_hash name < M64.
Proof. apply w64_lt. Qed.
