(** * Exactly what reading a file kept in one piece asks for, and attributes packed once more. *)
From Verif Require Import Bytes Crypto HashTable BlockTable Header Compress Attributes Archive SpecHostile
  Memory SpecMemory MemoryFacts.
Open Scope N_scope.

Lemma unpack_exact c m size l : c <> [] -> steps_ask size (lenN c) m l -> unpack_asks c m size = l.
Proof.
  intros Hc H. destruct c as [|x c]; [congruence|]. unfold unpack_asks.
  destruct H as [m Hm|m Hm|m Hm|m Hm]; cbn [In] in Hm;
    repeat (destruct Hm as [<-|Hm]; [cbv [from_flags]; try reflexivity|]); try contradiction.
  all: try (change (N.max (2 * size) (2 * lenN (x :: c)) :: [size] = [2 * N.max size (lenN (x :: c)); size]); f_equal; lia).
Qed.

Section L.
Variable L : codecs.

Lemma size_known a name fi : find_file a name = Ok (Some fi) -> exists k,
  match a_het a, a_bet a with
  | Some _, Some _ => Ok (w32 (fi_size fi), fi_size fi)
  | _, _ => bt <- of_option EInvalidFormat (a_block a) ;; b <- of_option EBlockTable (nthN bt (fi_block fi)) ;; Ok (be_size b, be_size b)
  end = Ok (k, fi_size fi).
Proof.
  intros F.
  assert (C : (exists h b, a_het a = Some h /\ a_bet a = Some b) \/ valid_het_bet a = None).
  { unfold valid_het_bet. destruct (a_het a) as [h|], (a_bet a) as [b|]; eauto. }
  destruct C as [(h & b & -> & ->)|V]; [eauto|].
  destruct (find_block _ _ _ V F) as (bt & b & E1 & E2 & E3). rewrite E1. cbn [of_option bind]. rewrite E2. cbn [of_option bind]. rewrite E3.
  destruct (a_het a), (a_bet a); eauto.
Qed.

Lemma whole_exact a name fi m c l : find_file a name = Ok (Some fi) -> in_one_piece fi -> compressed fi ->
  N.land (fi_flags fi) 0x00010000 = 0 -> fi_pos fi < 2 ^ 63 ->
  slice (fi_pos fi) (fi_csize fi) (a_file a) = Some (m :: c) -> c <> [] -> steps_ask (fi_size fi) (lenN c) (bN m) l ->
  read_asks L a name = fi_csize fi :: l.
Proof.
  intros F Hu Hc He Hp Hs Hne Hl. unfold read_asks. rewrite F. cbn [after].
  destruct (size_known a name fi F) as (k & ->). cbn [after fst snd]. unfold sought.
  replace (2 ^ 63 <=? fi_pos fi) with false by (symmetry; now apply N.leb_gt).
  assert (U : is_single_unit (fi_flags fi) = true).
  { unfold is_single_unit, has_flag. unfold in_one_piece in Hu. apply negb_true_iff, N.eqb_neq. exact Hu. }
  rewrite U. cbn [orb]. unfold whole_asks.
  assert (E : is_encrypted (fi_flags fi) = false) by (unfold is_encrypted, has_flag; apply negb_false_iff, N.eqb_eq; exact He).
  assert (K : is_compressed (fi_flags fi) = true) by (unfold is_compressed, has_flag; apply negb_true_iff, N.eqb_neq; exact Hc).
  rewrite E, K. unfold read_at. rewrite Hs. cbn [after]. f_equal. unfold expand_asks. now apply unpack_exact.
Qed.

Lemma again_exact file a bt m rest l : of_version_1_or_2 file -> open_archive L file = Ok a -> a_block a = Some bt ->
  read_file L a (lit "(attributes)") = Ok (m :: rest) -> (3 <= length rest)%nat ->
  le_dec (firstn 4 (m :: rest)) <> 100 -> bN m <> 100 -> N.land (bN m) 15 <> 0 ->
  steps_ask (100 * lenN bt) (lenN rest) (bN m) l ->
  exists before behind, open_asks L file = before ++ read_asks L a (lit "(attributes)") ++ l ++ behind.
Proof.
  intros (Hlen & off & ud & h & Hh & Hv) H Hb R Hr H1 H2 H3 Hl.
  destruct (open_ok L file off ud h Hlen Hh Hv a H) as (b & W & Ff & Fr & -> & _ & E).
  pose proof W as (_ & _ & _ & (bt' & Hb' & _) & _ & _ & _ & Hat).
  destruct (Archive34Facts.load_attributes_same L _ _ E) as (x & Ex).
  assert (bt' = bt) as ->.
  { rewrite Ex in Hb. cbn in Hb. congruence. }
  unfold attributes_asks. rewrite Hat. change ATTRIBUTES with (lit "(attributes)").
  assert (Ra : read_asks L b (lit "(attributes)") = read_asks L a (lit "(attributes)")) by (rewrite Ex; reflexivity).
  rewrite Ra, Fr, R. cbn [after]. rewrite Hb'. cbn [after].
  eexists. eexists. f_equal. f_equal. f_equal.
  unfold unwrap_asks.
  replace (4 <=? lenN (m :: rest)) with true by (symmetry; apply N.leb_le; unfold lenN; cbn [length]; lia).
  replace (le_dec (firstn 4 (m :: rest)) =? 100) with false by (symmetry; now apply N.eqb_neq).
  replace (bN m =? 100) with false by (symmetry; now apply N.eqb_neq).
  replace (N.land (bN m) 15 =? 0) with false by (symmetry; now apply N.eqb_neq). cbn [negb andb].
  apply unpack_exact.
  - destruct rest; [cbn [length] in Hr; lia|discriminate].
  - now rewrite N.mul_comm.
Qed.
End L.
