(** * Bytes, machine words, results and file slices.
    Common vocabulary of the model; nothing here is specific to MPQ. *)
From Coq Require Export List Arith NArith ZArith Lia Bool.
From Coq Require Export Strings.Byte.
From Coq Require Strings.String.
From Coq Require Export ZifyBool ZifyNat ZifyN.
Export ListNotations.
Export Coq.Strings.String.StringSyntax.
Open Scope N_scope.

Arguments N.add : simpl never.
Arguments N.sub : simpl never.
Arguments N.mul : simpl never.
Arguments N.div : simpl never.
Arguments N.modulo : simpl never.
Arguments N.pow : simpl never.
Arguments N.eqb : simpl never.
Arguments N.ltb : simpl never.
Arguments N.leb : simpl never.
Arguments N.land : simpl never.
Arguments N.lor : simpl never.
Arguments N.lxor : simpl never.
Arguments N.shiftl : simpl never.
Arguments N.shiftr : simpl never.
Arguments N.of_nat : simpl never.
Arguments N.to_nat : simpl never.
Arguments N.min : simpl never.
Arguments N.max : simpl never.

(** ** Outcomes of a Rust computation.
    [Ok]/[Err] are [Result]; [Panic] is an arithmetic overflow, an out-of-range
    index or another abort.  Error messages are dropped, error kinds kept
    (mopaq/src/error.rs:11-100). *)
Inductive error : Type :=
| EIo | EInvalidFormat | EUnsupportedVersion | EFileNotFound | EHashTable
| EBlockTable | ECrypto | ECompression | ESignature | EInvalidHeader | EReadOnly
| ENotSupported | EInvalidFileSize | ECapacity | EChecksum | EMd5.

Inductive res (A : Type) : Type :=
| Ok (a : A)
| Err (e : error)
| Panic.
Arguments Ok {A} a.
Arguments Err {A} e.
Arguments Panic {A}.

Definition bind {A B} (r : res A) (f : A -> res B) : res B :=
  match r with Ok a => f a | Err e => Err e | Panic => Panic end.
Notation "x <- r ;; k" := (bind r (fun x => k))
  (at level 61, r at next level, right associativity).
Notation "' p <- r ;; k" := (bind r (fun p => k))
  (at level 61, p pattern, r at next level, right associativity).

(** [o.ok_or(e)]. *)
Definition of_option {A} (e : error) (o : option A) : res A :=
  match o with Some a => Ok a | None => Err e end.

(** Arithmetic that panics when it underflows. *)
Definition sub_chk (a b : N) : res N := if a <? b then Panic else Ok (a - b).

(** ** Bytes *)
Definition bN (b : byte) : N := Byte.to_N b.

(** Truncation to a byte ([n as u8]). *)
Definition Nb (n : N) : byte :=
  match Byte.of_N (n mod 256) with Some b => b | None => x00 end.

Definition bytes := list byte.

(** String literals ([b"..."]). *)
Definition lit (s : String.string) : bytes := String.list_byte_of_string s.
Delimit Scope string_scope with string.
Arguments lit s%string.

Definition beqb (a b : byte) : bool := Byte.eqb a b.

Fixpoint bytes_eqb (a b : bytes) : bool :=
  match a, b with
  | [], [] => true
  | x :: a', y :: b' => beqb x y && bytes_eqb a' b'
  | _, _ => false
  end.

(** Length as a number ([len()]). *)
Definition lenN {A} (l : list A) : N := N.of_nat (length l).

(** ** Machine words *)
Definition M16 : N := 2 ^ 16.
Definition M32 : N := 2 ^ 32.
Definition M64 : N := 2 ^ 64.
Definition w16 (n : N) : N := n mod M16.
Definition w32 (n : N) : N := n mod M32.
Definition w64 (n : N) : N := n mod M64.

(** Bitwise complement of a 32-bit word ([!x]). *)
Definition not32 (n : N) : N := M32 - 1 - n.
(** Shifts of a 32-bit word. *)
Definition shl32 (n k : N) : N := w32 (N.shiftl n k).

(** ** Little-endian encodings ([to_le_bytes], [from_le_bytes]) *)
Fixpoint le_enc (k : nat) (n : N) : bytes :=
  match k with
  | O => []
  | S k' => Nb n :: le_enc k' (n / 256)
  end.

Fixpoint le_dec (l : bytes) : N :=
  match l with
  | [] => 0
  | b :: t => bN b + 256 * le_dec t
  end.

Definition le16 (n : N) : bytes := le_enc 2 n.
Definition le32 (n : N) : bytes := le_enc 4 n.
Definition le64 (n : N) : bytes := le_enc 8 n.

(** Words to bytes. *)
Fixpoint bytes_of_words (l : list N) : bytes :=
  match l with
  | [] => []
  | w :: t => le32 w ++ bytes_of_words t
  end.

(** Bytes to words: full groups of four; the second component is the
    remainder of at most three bytes ([chunks_exact(4)] and [remainder()]). *)
Fixpoint words_of_bytes (l : bytes) : list N * bytes :=
  match l with
  | a :: b :: c :: d :: t =>
      let '(ws, r) := words_of_bytes t in (le_dec [a; b; c; d] :: ws, r)
  | r => ([], r)
  end.

(** ** Slices of a file or buffer.
    [slice off len d] is the [len] bytes at offset [off], or [None] if they do
    not all exist.  The guard also keeps evaluation from building huge unary
    numbers. *)
Definition slice (off len : N) (d : bytes) : option bytes :=
  if off + len <=? lenN d
  then Some (firstn (N.to_nat len) (skipn (N.to_nat off) d))
  else None.

(** [seek] to [off] and [read_exact] into a fresh vector of [len] bytes.  Files
    are shorter than 2^63 bytes, so the first case is the normal one; a position
    from 2^63 on is rejected by [lseek], a vector of 2^63 bytes or more is a
    capacity-overflow panic, and reading nothing succeeds past the end. *)
Definition read_at (file : bytes) (off len : N) : res bytes :=
  match slice off len file with
  | Some s => Ok s
  | None => if 2 ^ 63 <=? off then Err EIo
            else if 2 ^ 63 <=? len then Panic
            else if len =? 0 then Ok [] else Err EIo
  end.

(** Checked [u64] addition. *)
Definition add64 (a b : N) : res N := if a + b <? M64 then Ok (a + b) else Panic.

(** Guarded list access. *)
Definition nthN {A} (l : list A) (i : N) : option A :=
  if i <? lenN l then nth_error l (N.to_nat i) else None.

(** Overwrite [len v] bytes at [off] (the buffer is known to be long enough). *)
Definition splice (off : N) (v d : bytes) : bytes :=
  firstn (N.to_nat off) d ++ v ++ skipn (N.to_nat off + length v) d.

(** Replace element [i]. *)
Fixpoint upd {A} (l : list A) (i : nat) (x : A) : list A :=
  match l, i with
  | [], _ => []
  | _ :: t, O => x :: t
  | a :: t, S i' => a :: upd t i' x
  end.

(** A list of [n] zero bytes ([vec![0; n]]). *)
Definition zeros (n : N) : bytes := repeat x00 (N.to_nat n).

(** [a.div_ceil(b)]. *)
Definition div_ceil (a b : N) : N := (a + b - 1) / b.

(** *** Facts *)

Lemma bN_lt b : bN b < 256.
Proof. unfold bN. pose proof (Byte.to_N_bounded b). lia. Qed.

Lemma bN_Nb n : bN (Nb n) = n mod 256.
Proof.
  unfold bN, Nb.
  assert (H : n mod 256 < 256) by (apply N.mod_lt; lia).
  destruct (Byte.of_N (n mod 256)) as [b|] eqn:E.
  - now apply Byte.to_of_N in E.
  - apply Byte.of_N_None_iff in E. lia.
Qed.

Lemma Nb_bN b : Nb (bN b) = b.
Proof.
  unfold Nb. rewrite N.mod_small by apply bN_lt.
  unfold bN. now rewrite Byte.of_to_N.
Qed.

Lemma bN_inj a b : bN a = bN b -> a = b.
Proof. intros H. rewrite <- (Nb_bN a), <- (Nb_bN b). now rewrite H. Qed.

Lemma beqb_eq a b : beqb a b = true <-> a = b.
Proof.
  unfold beqb. split; intros H.
  - now apply Byte.byte_dec_bl.
  - now apply Byte.byte_dec_lb.
Qed.

Lemma beqb_refl a : beqb a a = true.
Proof. now apply beqb_eq. Qed.

Lemma bytes_eqb_eq a b : bytes_eqb a b = true <-> a = b.
Proof.
  revert b. induction a as [|x a IH]; intros [|y b]; cbn; split; intros H;
    try congruence.
  - apply andb_true_iff in H as [H1 H2].
    apply beqb_eq in H1. apply IH in H2. congruence.
  - injection H as -> ->. rewrite beqb_refl. now apply IH.
Qed.

Lemma bytes_eqb_refl a : bytes_eqb a a = true.
Proof. now apply bytes_eqb_eq. Qed.

Lemma le_enc_length k n : length (le_enc k n) = k.
Proof. revert n; induction k; intros; cbn [le_enc length]; auto. Qed.

Lemma le32_length n : length (le32 n) = 4%nat.
Proof. apply le_enc_length. Qed.

Lemma le_dec_enc k n : le_dec (le_enc k n) = n mod 256 ^ N.of_nat k.
Proof.
  revert n. induction k as [|k IH]; intros n.
  - cbn [le_enc le_dec]. change (256 ^ N.of_nat 0) with 1. now rewrite N.mod_1_r.
  - cbn [le_enc le_dec]. rewrite IH, bN_Nb.
    replace (N.of_nat (S k)) with (N.succ (N.of_nat k)) by lia.
    rewrite N.pow_succ_r'.
    rewrite (N.mod_mul_r n 256 (256 ^ N.of_nat k)); [reflexivity|lia|].
    apply N.pow_nonzero. lia.
Qed.

Lemma le_dec_lt l : le_dec l < 256 ^ N.of_nat (length l).
Proof.
  induction l as [|b l IH]; cbn [le_dec length].
  - change (256 ^ N.of_nat 0) with 1. lia.
  - replace (N.of_nat (S (length l))) with (N.succ (N.of_nat (length l))) by lia.
    rewrite N.pow_succ_r'. pose proof (bN_lt b).
    set (p := 256 ^ N.of_nat (length l)) in *. clearbody p. lia.
Qed.

Lemma le_enc_dec l : le_enc (length l) (le_dec l) = l.
Proof.
  induction l as [|b l IH]; cbn [le_dec length le_enc]; [reflexivity|].
  f_equal.
  - apply bN_inj. rewrite bN_Nb.
    rewrite N.mul_comm, N.mod_add by lia. apply N.mod_small, bN_lt.
  - replace ((bN b + 256 * le_dec l) / 256) with (le_dec l); [exact IH|].
    rewrite N.mul_comm, N.div_add by lia.
    rewrite (N.div_small (bN b)) by apply bN_lt. lia.
Qed.

Lemma le_enc_mod k n : le_enc k (n mod 256 ^ N.of_nat k) = le_enc k n.
Proof.
  rewrite <- le_dec_enc. rewrite <- (le_enc_length k n) at 1. apply le_enc_dec.
Qed.

Lemma le32_dec n : n < M32 -> le_dec (le32 n) = n.
Proof.
  intros H. unfold le32. rewrite le_dec_enc. apply N.mod_small. exact H.
Qed.

Lemma le64_dec n : n < M64 -> le_dec (le64 n) = n.
Proof.
  intros H. unfold le64. rewrite le_dec_enc. apply N.mod_small. exact H.
Qed.

Lemma le16_dec n : n < M16 -> le_dec (le16 n) = n.
Proof.
  intros H. unfold le16. rewrite le_dec_enc. apply N.mod_small. exact H.
Qed.

Lemma w32_lt n : w32 n < M32.
Proof. apply N.mod_lt. discriminate. Qed.

Lemma w32_small n : n < M32 -> w32 n = n.
Proof. apply N.mod_small. Qed.

Lemma w64_lt n : w64 n < M64.
Proof. apply N.mod_lt. discriminate. Qed.

Lemma w64_small n : n < M64 -> w64 n = n.
Proof. apply N.mod_small. Qed.

Lemma lxor_lt32 a b : a < M32 -> b < M32 -> N.lxor a b < M32.
Proof.
  intros Ha Hb.
  destruct (N.eq_dec (N.lxor a b) 0) as [->|Hz]; [reflexivity|].
  apply N.log2_lt_pow2; [lia|].
  eapply N.le_lt_trans; [apply N.log2_lxor|].
  apply N.max_lub_lt; (destruct (N.eq_dec a 0) as [->|]; destruct (N.eq_dec b 0) as [->|];
    try reflexivity; apply N.log2_lt_pow2; unfold M32 in *; lia).
Qed.

Lemma lor_lt32 a b : a < M32 -> b < M32 -> N.lor a b < M32.
Proof.
  intros Ha Hb.
  destruct (N.eq_dec (N.lor a b) 0) as [->|Hz]; [reflexivity|].
  apply N.log2_lt_pow2; [lia|].
  rewrite N.log2_lor.
  apply N.max_lub_lt; (destruct (N.eq_dec a 0) as [->|]; destruct (N.eq_dec b 0) as [->|];
    try reflexivity; apply N.log2_lt_pow2; unfold M32 in *; lia).
Qed.

(** Words *)
Lemma words_of_bytes_app w l :
  length w = 4%nat ->
  words_of_bytes (w ++ l) =
  (le_dec w :: fst (words_of_bytes l), snd (words_of_bytes l)).
Proof.
  destruct w as [|a [|b [|c [|d [|e w]]]]]; intros H; try discriminate H.
  cbn [app words_of_bytes]. destruct (words_of_bytes l). reflexivity.
Qed.

Definition words_ok (l : list N) : Prop := Forall (fun w => w < M32) l.

Lemma words_of_bytes_of_words ws r :
  words_ok ws -> (length r < 4)%nat ->
  words_of_bytes (bytes_of_words ws ++ r) = (ws, r).
Proof.
  intros Hws Hr. induction Hws as [|w ws Hw _ IH]; cbn [bytes_of_words].
  - cbn [app]. destruct r as [|a [|b [|c [|d r]]]]; cbn in *; try reflexivity. lia.
  - rewrite <- app_assoc, words_of_bytes_app by apply le32_length.
    rewrite IH. cbn [fst snd]. now rewrite le32_dec.
Qed.

Lemma bytes_of_words_length ws : length (bytes_of_words ws) = (4 * length ws)%nat.
Proof.
  induction ws as [|w ws IH]; cbn [bytes_of_words length]; [reflexivity|].
  rewrite app_length, IH, le32_length. lia.
Qed.

(** Induction in steps of four, as [words_of_bytes] recurses. *)
Lemma list_ind4 {A} (P : list A -> Prop) :
  (forall r, (length r < 4)%nat -> P r) ->
  (forall a b c d t, P t -> P (a :: b :: c :: d :: t)) ->
  forall l, P l.
Proof.
  intros H0 H4.
  assert (H : forall n l, (length l <= n)%nat -> P l).
  { induction n as [|n IH]; intros l Hl.
    - apply H0. lia.
    - destruct l as [|a [|b [|c [|d t]]]]; try (apply H0; cbn; lia).
      apply H4, IH. cbn in Hl. lia. }
  intros l. apply (H (length l)). lia.
Qed.

Lemma words_of_bytes_spec l :
  let '(ws, r) := words_of_bytes l in
  l = bytes_of_words ws ++ r /\ words_ok ws /\ (length r < 4)%nat /\
  length ws = (length l / 4)%nat.
Proof.
  induction l as [r Hr|a b c d t IH] using list_ind4.
  - destruct r as [|a [|b [|c [|d r]]]]; cbn in Hr; try lia; cbn;
      repeat split; auto; constructor.
  - cbn [words_of_bytes]. destruct (words_of_bytes t) as [ws r].
    destruct IH as (IH1 & IH2 & IH3 & IH4). repeat split.
    + cbn [bytes_of_words]. rewrite <- app_assoc, <- IH1.
      change (le32 (le_dec [a; b; c; d]))
        with (le_enc (length [a; b; c; d]) (le_dec [a; b; c; d])).
      rewrite le_enc_dec. reflexivity.
    + constructor; [|exact IH2].
      pose proof (le_dec_lt [a; b; c; d]) as H. exact H.
    + exact IH3.
    + cbn [length]. rewrite IH4.
      replace (S (S (S (S (length t))))) with (length t + 1 * 4)%nat by lia.
      rewrite Nat.div_add by lia. lia.
Qed.

Lemma words_of_bytes_ok l : words_ok (fst (words_of_bytes l)).
Proof.
  pose proof (words_of_bytes_spec l) as H. destruct (words_of_bytes l). apply H.
Qed.

(** Lengths and slices *)
Lemma lenN_app {A} (a b : list A) : lenN (a ++ b) = lenN a + lenN b.
Proof. unfold lenN. rewrite app_length. lia. Qed.

Lemma lenN_cons {A} (a : A) b : lenN (a :: b) = 1 + lenN b.
Proof. unfold lenN. cbn [length]. lia. Qed.

Lemma lenN_nil {A} : lenN (@nil A) = 0.
Proof. reflexivity. Qed.

Lemma slice_mid a b c : slice (lenN a) (lenN b) (a ++ b ++ c) = Some b.
Proof.
  unfold slice. rewrite !lenN_app.
  replace (lenN a + lenN b <=? lenN a + (lenN b + lenN c)) with true by lia.
  unfold lenN. rewrite !Nat2N.id.
  rewrite skipn_app, skipn_all, Nat.sub_diag. cbn [app skipn].
  rewrite firstn_app, firstn_all, Nat.sub_diag. cbn [firstn].
  now rewrite app_nil_r.
Qed.

Lemma slice_mid' off len a b c :
  off = lenN a -> len = lenN b -> slice off len (a ++ b ++ c) = Some b.
Proof. intros -> ->. apply slice_mid. Qed.

Lemma slice_length off len d s : slice off len d = Some s -> lenN s = len.
Proof.
  unfold slice. destruct (N.leb_spec (off + len) (lenN d)) as [H|]; [|discriminate].
  intros E; injection E as <-. unfold lenN in *.
  rewrite firstn_length, skipn_length. lia.
Qed.

Lemma slice_app_l off len d e s :
  slice off len d = Some s -> slice off len (d ++ e) = Some s.
Proof.
  unfold slice. rewrite lenN_app.
  destruct (N.leb_spec (off + len) (lenN d)) as [H|]; [|discriminate].
  intros E; injection E as <-.
  replace (off + len <=? lenN d + lenN e) with true by lia.
  f_equal. unfold lenN in *.
  rewrite skipn_app, firstn_app, skipn_length.
  replace (N.to_nat len - (length d - N.to_nat off))%nat with 0%nat by lia.
  cbn [firstn]. now rewrite app_nil_r.
Qed.

Lemma slice_app_r off len d e s :
  slice off len e = Some s -> slice (lenN d + off) len (d ++ e) = Some s.
Proof.
  unfold slice. rewrite lenN_app.
  destruct (N.leb_spec (off + len) (lenN e)) as [H|]; [|discriminate].
  intros E; injection E as <-.
  replace (lenN d + off + len <=? lenN d + lenN e) with true by lia.
  f_equal. unfold lenN in *.
  rewrite skipn_app.
  rewrite (skipn_all2 d) by lia. cbn [app].
  f_equal. f_equal. lia.
Qed.

Lemma slice_full d : slice 0 (lenN d) d = Some d.
Proof.
  unfold slice. rewrite N.add_0_l, N.leb_refl. unfold lenN. rewrite Nat2N.id.
  cbn [skipn]. change (N.to_nat 0) with 0%nat. cbn [skipn]. now rewrite firstn_all.
Qed.

Lemma slice_Some off len d :
  off + len <= lenN d -> exists s, slice off len d = Some s.
Proof.
  intros H. unfold slice. replace (off + len <=? lenN d) with true by lia. eauto.
Qed.

Lemma slice_None off len d : slice off len d = None <-> lenN d < off + len.
Proof.
  unfold slice. destruct (N.leb_spec (off + len) (lenN d)); split; intros; try lia;
    congruence.
Qed.

Lemma skipn_skipn {A} x y (l : list A) : skipn x (skipn y l) = skipn (x + y) l.
Proof.
  revert l. induction y as [|y IH]; intros l.
  - now rewrite Nat.add_0_r.
  - rewrite Nat.add_succ_r. destruct l as [|a l]; cbn [skipn].
    + now rewrite skipn_nil.
    + apply IH.
Qed.

(** Slices compose. *)
Lemma slice_slice o1 l1 o2 l2 d s t :
  slice o1 l1 d = Some s -> slice o2 l2 s = Some t ->
  slice (o1 + o2) l2 d = Some t.
Proof.
  intros H1 H2. pose proof (slice_length _ _ _ _ H1) as L1.
  unfold slice in *.
  destruct (N.leb_spec (o1 + l1) (lenN d)) as [Hd|]; [|discriminate].
  injection H1 as <-.
  destruct (N.leb_spec (o2 + l2) (lenN (firstn (N.to_nat l1) (skipn (N.to_nat o1) d))))
    as [Hs|]; [|discriminate].
  injection H2 as <-.
  rewrite L1 in Hs.
  replace (o1 + o2 + l2 <=? lenN d) with true by lia.
  f_equal.
  rewrite skipn_firstn_comm, skipn_skipn, firstn_firstn.
  replace (Nat.min (N.to_nat l2) (N.to_nat l1 - N.to_nat o2)) with (N.to_nat l2) by lia.
  f_equal. f_equal. lia.
Qed.

Lemma slice_split off len d s :
  slice off len d = Some s ->
  exists p q, d = p ++ s ++ q /\ lenN p = off.
Proof.
  unfold slice. destruct (N.leb_spec (off + len) (lenN d)) as [H|]; [|discriminate].
  intros E; injection E as <-.
  exists (firstn (N.to_nat off) d), (skipn (N.to_nat len) (skipn (N.to_nat off) d)).
  split.
  - now rewrite !firstn_skipn.
  - unfold lenN in *. rewrite firstn_length. lia.
Qed.

(** [upd] *)
Lemma upd_length {A} (l : list A) i x : length (upd l i x) = length l.
Proof. revert i; induction l; intros [|i]; cbn; auto. Qed.

Lemma nth_error_upd_eq {A} (l : list A) i x :
  (i < length l)%nat -> nth_error (upd l i x) i = Some x.
Proof. revert i; induction l; intros [|i] H; cbn in *; try lia; auto. apply IHl. lia. Qed.

Lemma nth_error_upd_neq {A} (l : list A) i j x :
  i <> j -> nth_error (upd l i x) j = nth_error l j.
Proof. revert i j; induction l; intros [|i] [|j] H; cbn; try congruence; auto. Qed.

Lemma zeros_length n : lenN (zeros n) = n.
Proof. unfold lenN, zeros. rewrite repeat_length. lia. Qed.

Lemma bind_Ok {A B} (r : res A) (f : A -> res B) b :
  bind r f = Ok b -> exists a, r = Ok a /\ f a = Ok b.
Proof. destruct r; cbn; intros; try discriminate; eauto. Qed.

Lemma Ok_inj {A} (a b : A) : Ok a = Ok b -> a = b.
Proof. congruence. Qed.

Lemma read_at_slice file off len s : slice off len file = Some s -> read_at file off len = Ok s.
Proof. unfold read_at. now intros ->. Qed.

Lemma read_at_length file off len s : read_at file off len = Ok s -> lenN s = len.
Proof.
  unfold read_at. destruct (slice off len file) as [x|] eqn:E.
  - intros H. apply Ok_inj in H. subst x. exact (slice_length _ _ _ _ E).
  - destruct (2 ^ 63 <=? off); [discriminate|]. destruct (2 ^ 63 <=? len); [discriminate|].
    destruct (N.eqb_spec len 0) as [->|]; [|discriminate]. intros H. apply Ok_inj in H. now subst s.
Qed.

Lemma read_at_noPanic file off len : len < 2 ^ 63 -> read_at file off len <> Panic.
Proof.
  intros H. unfold read_at. destruct (slice off len file); [discriminate|].
  destruct (2 ^ 63 <=? off); [discriminate|].
  destruct (N.leb_spec (2 ^ 63) len); [exfalso; lia|].
  destruct (len =? 0); discriminate.
Qed.

Lemma add64_ok a b : a + b < M64 -> add64 a b = Ok (a + b).
Proof. intros H. unfold add64. now rewrite (proj2 (N.ltb_lt _ _) H). Qed.
