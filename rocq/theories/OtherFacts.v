(** * Archives that any tool wrote, from opening to reading. *)
From Coq Require Import Lia.
From Verif Require Import Bytes Crypto CryptoFacts HashTable BlockTable HashTableFacts SpecTables TableMap Header HeaderSearch SpecHeader
  SpecDigest SpecFields HeaderFields Compress SpecCompress SpecCipher CipherFacts SpecStored StoredFacts Adler Listfile HetBet
  Attributes SpecAttributes AttributesFacts AcceptFacts Archive ReadFacts ExtendedFacts InfoFacts SpecOther.
Open Scope N_scope.

(** ** Tables as lists of entries *)
Lemma part_within d i w p n : (p + n <= w) ->
  part (firstn (N.to_nat w) (skipn (N.to_nat i) d)) p n = part d (i + p) n.
Proof.
  intros H. unfold part. rewrite skipn_firstn_comm, firstn_firstn, skipn_skipn.
  replace (Nat.min (N.to_nat n) (N.to_nat w - N.to_nat p)) with (N.to_nat n) by lia.
  replace (N.to_nat p + N.to_nat i)%nat with (N.to_nat (i + p)) by lia. reflexivity.
Qed.
Lemma parse_each {A} (p : bytes -> res A) (g : bytes -> A) n : forall d, length d = (16 * n)%nat ->
  (forall x, length x = 16%nat -> p x = Ok (g x)) ->
  parse_entries p n d = Ok (map (fun i => g (firstn 16 (skipn (16 * i) d))) (seq 0 n)).
Proof.
  induction n as [|n IH]; intros d Hd Hp; [reflexivity|]. cbn [parse_entries seq map].
  rewrite Hp by (rewrite firstn_length; lia). cbn [bind].
  rewrite IH; [|rewrite skipn_length; lia|exact Hp]. cbn [bind]. change (skipn (16 * 0) d) with d. f_equal. f_equal.
  rewrite <- seq_shift, map_map. apply map_ext. intros i. rewrite skipn_skipn. now replace (16 * i + 16)%nat with (16 * S i)%nat by lia.
Qed.
Lemma nthN_seq {A} (f : nat -> A) n i : i < N.of_nat n -> nthN (map f (seq 0 n)) i = Some (f (N.to_nat i)).
Proof.
  intros H. unfold nthN. assert (L : lenN (map f (seq 0 n)) = N.of_nat n) by (unfold lenN; now rewrite map_length, seq_length).
  rewrite L. replace (i <? N.of_nat n) with true by lia.
  rewrite nth_error_map, (nth_error_nth' _ 0%nat) by (rewrite seq_length; lia). rewrite seq_nth by lia. reflexivity.
Qed.

(** The entries by their fields *)
Definition hash_entry (t : bytes) (i : N) : hentry :=
  mkHE (field t (16 * i) 4) (field t (16 * i + 4) 4) (field t (16 * i + 8) 2) (field t (16 * i + 10) 2) (field t (16 * i + 12) 4).
Definition block_entry (t : bytes) (i : N) : bentry :=
  mkBE (field t (16 * i) 4) (field t (16 * i + 4) 4) (field t (16 * i + 8) 4) (field t (16 * i + 12) 4).

Lemma field_within d i p n : p + n <= 16 ->
  le_dec (firstn (N.to_nat n) (skipn (N.to_nat p) (firstn 16 (skipn (16 * i) d)))) = field d (16 * N.of_nat i + p) n.
Proof.
  intros H. unfold field. rewrite <- (part_within d (16 * N.of_nat i) 16 p n H). unfold part.
  change (N.to_nat 16) with 16%nat. replace (N.to_nat (16 * N.of_nat i)) with (16 * i)%nat by lia. reflexivity.
Qed.
Lemma hash_entries d n : length d = (16 * n)%nat ->
  parse_entries he_from_bytes n d = Ok (map (fun i => hash_entry d (N.of_nat i)) (seq 0 n)).
Proof.
  intros H. rewrite (parse_each he_from_bytes (fun x => mkHE (le_dec (firstn 4 x)) (le_dec (firstn 4 (skipn 4 x)))
             (le_dec (firstn 2 (skipn 8 x))) (le_dec (firstn 2 (skipn 10 x))) (le_dec (firstn 4 (skipn 12 x)))) n d H).
  - f_equal. apply map_ext. intros i. unfold hash_entry.
    rewrite <- (N.add_0_r (16 * N.of_nat i)) at 1. rewrite <- !field_within by (cbv; discriminate). reflexivity.
  - intros x Hx. unfold he_from_bytes, lenN. rewrite Hx. reflexivity.
Qed.
Lemma block_entries d n : length d = (16 * n)%nat ->
  parse_entries be_from_bytes n d = Ok (map (fun i => block_entry d (N.of_nat i)) (seq 0 n)).
Proof.
  intros H. rewrite (parse_each be_from_bytes (fun x => mkBE (le_dec (firstn 4 x)) (le_dec (firstn 4 (skipn 4 x)))
             (le_dec (firstn 4 (skipn 8 x))) (le_dec (firstn 4 (skipn 12 x)))) n d H).
  - f_equal. apply map_ext. intros i. unfold block_entry.
    rewrite <- (N.add_0_r (16 * N.of_nat i)) at 1. rewrite <- !field_within by (cbv; discriminate). reflexivity.
  - intros x Hx. unfold be_from_bytes, lenN. rewrite Hx. reflexivity.
Qed.
Lemma u16_entries n : forall d, length d = (2 * n)%nat ->
  parse_u16s n d = map (fun i => field d (2 * N.of_nat i) 2) (seq 0 n).
Proof.
  induction n as [|n IH]; intros d Hd; [reflexivity|]. cbn [parse_u16s seq map]. f_equal.
  rewrite IH by (rewrite skipn_length; lia). rewrite <- seq_shift, map_map. apply map_ext. intros i.
  unfold field, part. rewrite skipn_skipn. now replace (N.to_nat (2 * N.of_nat i) + 2)%nat with (N.to_nat (2 * N.of_nat (S i))) by lia.
Qed.

Lemma table_key name : name_hash 3 name = hash_string name HT_FILE_KEY.
Proof. change HT_FILE_KEY with (N.of_nat 3). now rewrite hash_is by lia. Qed.
Lemma whole_deciphered key p s : enciphered true key p s -> decrypt_table_data s key = p.
Proof. intros (ws & r & H1 & H2 & _ & H4 & H5). apply deciphered. exists ws, r. repeat split; try assumption. discriminate. Qed.

Definition hash_list (ht : bytes) : list hentry := map (fun i => hash_entry ht (N.of_nat i)) (seq 0 (length ht / 16)).
Definition block_list (bt : bytes) : list bentry := map (fun i => block_entry bt (N.of_nat i)) (seq 0 (length bt / 16)).

Lemma table_length (t : bytes) n : lenN t = 16 * n -> length t = (16 * N.to_nat n)%nat /\ (length t / 16)%nat = N.to_nat n.
Proof.
  intros H. unfold lenN in H. assert (E : length t = (N.to_nat n * 16)%nat) by lia. rewrite E. split; [lia|]. apply Nat.div_mul. discriminate.
Qed.
Lemma hash_table_in file pos n t : table_in file pos n (name_hash 3 (lit "(hash table)")) t -> (exists k, n = 2 ^ k) ->
  ht_read file pos n = Ok (hash_list t).
Proof.
  intros (Hl & s & Hs & He) Hk. unfold ht_read. apply is_power_of_two_spec in Hk. rewrite Hk. rewrite N.mul_comm, Hs. cbn [of_option bind].
  rewrite table_key in He. change ht_key with (hash_string (lit "(hash table)") HT_FILE_KEY). rewrite (whole_deciphered _ _ _ He).
  destruct (table_length _ _ Hl) as [L1 L2]. unfold hash_list. rewrite L2. now apply hash_entries.
Qed.
Lemma block_table_in file pos n t : table_in file pos n (name_hash 3 (lit "(block table)")) t ->
  bt_read file pos n = Ok (block_list t).
Proof.
  intros (Hl & s & Hs & He). unfold bt_read, read_at. rewrite N.mul_comm, Hs. cbn [of_option bind].
  rewrite table_key in He. change bt_key with (hash_string (lit "(block table)") HT_FILE_KEY). rewrite (whole_deciphered _ _ _ He).
  destruct (table_length _ _ Hl) as [L1 L2]. unfold block_list. rewrite L2. now apply block_entries.
Qed.

(** ** Opening *)
Section Other.
Variable L : codecs.
Variables (file : bytes) (base : N) (ht bt hi : bytes).
Hypothesis Hout : laid_out file base ht bt hi.
Hypothesis Hlen : lenN file < 2 ^ 63.

(** The archive as it is before the attributes are loaded *)
Definition tables_read (ud : option user_data) (h : header) (hl : option (list N)) : archive :=
  mkA file base ud h (Some (hash_list ht)) (Some (block_list bt)) hl None None None.
Definition highs (hl : option (list N)) : Prop :=
  forall b low, 16 * b < lenN bt -> low < 2 ^ 32 -> pos_full hl b low = field hi (2 * b) 2 * 2 ^ 32 + low.

Lemma field_skipn p n : field (skipn (N.to_nat base) file) p n = field file (base + p) n.
Proof. rewrite <- from_skipn. apply field_from. Qed.
Lemma field_nil p n : field [] p n = 0.
Proof. unfold field, part. now rewrite skipn_nil, firstn_nil. Qed.
Lemma in_file pos n d s : slice pos n d = Some s -> pos <= lenN d.
Proof. intros H. destruct (N.le_gt_cases (pos + n) (lenN d)) as [C|C]; [lia|]. apply slice_None in C. congruence. Qed.

Lemma loads : exists ud h hl,
  open_archive L file = load_attributes L (tables_read ud h hl) /\ h_block_size h = field file (base + 14) 2 /\ highs hl /\
  exists k, lenN (hash_list ht) = 2 ^ k.
Proof.
  destruct Hout as ((k & Hp & Hl) & v & Hb & (kk & Hk) & Hht & Hbt & Hhi & Hx). cbv zeta in *.
  destruct (find_header_found file k base Hp Hl) as (ud & Hf & _).
  assert (Hr : header_read (from file base) = Ok (header_in (from file base) v)).
  { apply header_read_fields. exists v. split; [|reflexivity]. now rewrite from_skipn. }
  rewrite Hr in Hf. cbn [bind] in Hf. set (h := header_in (from file base) v) in *.
  assert (Hhp : get_hash_table_pos h = match v with V1 => 0 | _ => field file (base + 40) 2 * 2 ^ 32 end + field file (base + 16) 4).
  { unfold get_hash_table_pos, h, header_in. cbn [h_hash_pos h_hash_pos_hi]. rewrite !field_from.
    destruct v; cbv beta iota; try reflexivity; apply pos_of_halves; exact (field_lt _ _ 4). }
  assert (Hbp : get_block_table_pos h = match v with V1 => 0 | _ => field file (base + 42) 2 * 2 ^ 32 end + field file (base + 20) 4).
  { unfold get_block_table_pos, h, header_in. cbn [h_block_pos h_block_pos_hi]. rewrite !field_from.
    destruct v; cbv beta iota; try reflexivity; apply pos_of_halves; exact (field_lt _ _ 4). }
  assert (Hhc : h_hash_count h = field file (base + 24) 4) by (unfold h, header_in; cbn [h_hash_count]; apply field_from).
  assert (Hbc : h_block_count h = field file (base + 28) 4) by (unfold h, header_in; cbn [h_block_count]; apply field_from).
  assert (Hbs : h_block_size h = field file (base + 14) 2) by (unfold h, header_in; cbn [h_block_size]; apply field_from).
  assert (Hv : h_version h = v) by reflexivity.
  pose proof (hash_table_in _ _ _ _ Hht (ex_intro _ kk Hk)) as Rh. pose proof (block_table_in _ _ _ _ Hbt) as Rb.
  assert (Ah : base + (match v with V1 => 0 | _ => field file (base + 40) 2 * 2 ^ 32 end + field file (base + 16) 4) < M64).
  { destruct Hht as (_ & s & Hs & _). apply in_file in Hs. unfold M64. lia. }
  assert (Ab : base + (match v with V1 => 0 | _ => field file (base + 42) 2 * 2 ^ 32 end + field file (base + 20) 4) < M64).
  { destruct Hbt as (_ & s & Hs & _). apply in_file in Hs. unfold M64. lia. }
  (* the upper halves *)
  assert (Hi : exists hl, highs hl /\
    (match h_hi_pos h with
         | Some p => if p =? 0 then Ok None
                     else o <- add64 base p ;; t <- hi_read file o (h_block_count h) ;; Ok (Some t)
         | None => Ok None
         end) = Ok hl).
  { assert (N : hi = [] -> highs None).
    { intros E b low _ _. unfold pos_full. now rewrite E, field_nil. }
    assert (E : h_hi_pos h = match v with V1 => None | _ => Some (field file (base + 32) 8) end).
    { unfold h, header_in. cbn [h_hi_pos]. rewrite field_from. reflexivity. }
    rewrite E, Hbc. destruct v; [exists None; split; [auto|reflexivity]| | |];
    (destruct (field file (base + 32) 8 =? 0); [exists None; split; [auto|reflexivity]|];
     exists (Some (map (fun i => field hi (2 * N.of_nat i) 2) (seq 0 (N.to_nat (field file (base + 28) 4)))));
     (split;
      [intros b low Hb1 Hlow; unfold pos_full, hi_get; rewrite nthN_seq;
       [rewrite N2Nat.id; apply pos_of_halves; exact Hlow
       |destruct Hbt as (Hbt & _); rewrite N2Nat.id; lia]
      |rewrite add64_ok by (apply in_file in Hhi; unfold M64; lia); cbn [bind];
       unfold hi_read, read_at; rewrite N.mul_comm, Hhi; cbn [bind]; rewrite u16_entries; [reflexivity|];
       apply slice_length in Hhi; unfold lenN in Hhi; lia])). }
  destruct Hi as (hl & Hh & Hi). exists ud, h, hl.
  split; [|split; [exact Hbs|split; [exact Hh|]]].
  2:{ exists kk. destruct Hht as (Hht & _). unfold hash_list, lenN. rewrite map_length, seq_length.
      rewrite (proj2 (table_length _ _ Hht)). rewrite N2Nat.id. exact Hk. }
  unfold open_archive, open_with_options. rewrite Hf. cbn [bind].
  unfold load_tables. cbn [a_header a_file a_off a_het a_bet a_user a_attrs a_hash a_block a_hi].
  assert (X : (if version_ge (h_version h) V3 then
       het <- load_ext base (h_het_pos h) (v4_het h) (h_version h) (het_table_size h)
                (fun o s => het_read L file o s ht_key) ;;
       bet <- load_ext base (h_bet_pos h) (v4_bet h) (h_version h) (bet_table_size h)
                (fun o s => bet_read L file o s bt_key) ;;
       Ok (match het with Some t => Some t | None => None end,
           match bet with Some t => Some t | None => None end)
     else Ok (None, None)) = Ok (None, None)).
  { rewrite Hv. destruct v; [reflexivity|reflexivity| |]; destruct Hx as [X1 X2];
    unfold h, header_in; cbn [h_het_pos h_bet_pos]; rewrite !field_from, X1, X2; reflexivity. }
  rewrite X. cbn [bind]. unfold valid_het_bet. cbn [a_het]. rewrite Hhp, Hbp, Hhc, Hbc.
  rewrite !add64_ok by assumption. cbn [bind]. rewrite Rh. cbn [bind]. rewrite Rb. cbn [bind].
  rewrite Hbc in Hi. rewrite Hi. cbn [bind]. reflexivity.
Qed.

(** ** Names *)
Lemma hash_whole : lenN ht = 16 * (lenN ht / 16) /\ lenN (hash_list ht) = lenN ht / 16.
Proof.
  destruct Hout as (_ & v & _ & _ & (E & _) & _). assert (D : lenN ht / 16 = field file (base + 24) 4).
  { rewrite E, N.mul_comm. now apply N.div_mul. }
  split; [lia|]. rewrite D. unfold hash_list, lenN. rewrite map_length, seq_length.
  rewrite (proj2 (table_length _ _ E)). apply N2Nat.id.
Qed.
Lemma slots_pos : 0 < lenN ht / 16.
Proof.
  destruct Hout as (_ & v & _ & (k & Hk) & (E & _) & _). rewrite E, N.mul_comm, N.div_mul by discriminate.
  rewrite Hk. assert (2 ^ k <> 0) by now apply N.pow_nonzero. lia.
Qed.
Lemma slot_there name k : slot_at (hash_list ht) (name_hash 0 name) k = Some (hash_entry ht (on_way ht name k)).
Proof.
  unfold slot_at. change (N.of_nat (length (hash_list ht))) with (lenN (hash_list ht)). rewrite (proj2 hash_whole).
  fold (on_way ht name k). assert (B : on_way ht name k < lenN ht / 16) by (apply N.mod_lt; pose proof slots_pos; lia).
  pose proof (proj2 hash_whole) as E. unfold hash_list in E. unfold lenN at 1 in E. rewrite map_length, seq_length in E.
  unfold hash_list. rewrite nth_error_map, (nth_error_nth' _ 0%nat) by (rewrite seq_length; lia).
  rewrite seq_nth by lia. cbn [option_map]. now rewrite Nat.add_0_l, N2Nat.id.
Qed.
Lemma answer_holds name i : answers (name_hash 1 name) (name_hash 2 name) 0 (hash_entry ht i) <-> holds ht name i.
Proof.
  unfold answers, holds, slot_block, hash_entry, DELETED. cbn [he_block he_name1 he_name2 he_locale].
  split; [intros (A & B & C & _)|intros (A & B & C)]; auto.
Qed.
Lemma first_is name k e :
  first_answer (hash_list ht) (name_hash 0 name) (name_hash 1 name) (name_hash 2 name) 0 k e <->
  k < lenN ht / 16 /\ e = hash_entry ht (on_way ht name k) /\ holds ht name (on_way ht name k) /\
  forall j, j < k -> ~ holds ht name (on_way ht name j) /\ slot_block ht (on_way ht name j) <> 0xFFFFFFFF.
Proof.
  unfold first_answer. change (N.of_nat (length (hash_list ht))) with (lenN (hash_list ht)).
  rewrite (proj2 hash_whole), slot_there.
  split.
  - intros (A & B & C & D). injection B as <-. split; [exact A|]. split; [reflexivity|]. split; [now apply answer_holds|].
    intros j Hj. destruct (D j _ Hj (slot_there name j)) as [D1 D2]. split; [|exact D2]. rewrite <- answer_holds. exact D1.
  - intros (A & -> & C & D). split; [exact A|]. split; [reflexivity|]. split; [now apply answer_holds|].
    intros j e' Hj S. rewrite slot_there in S. injection S as <-. rewrite answer_holds. exact (D j Hj).
Qed.
Lemma slot_is_first name i : first_slot (fun _ => True) ht name i <->
  exists k e, i = on_way ht name k /\ first_answer (hash_list ht) (name_hash 0 name) (name_hash 1 name) (name_hash 2 name) 0 k e.
Proof.
  split.
  - intros (k & A & -> & B & _ & C). exists k, (hash_entry ht (on_way ht name k)). split; [reflexivity|].
    apply first_is. split; [exact A|]. split; [reflexivity|]. split; [exact B|]. intros j Hj. destruct (C j Hj) as [C1 C2].
    split; [|exact C2]. intros H. apply C1. now split.
  - intros (k & e & -> & H). apply first_is in H. destruct H as (A & _ & B & C). exists k. split; [exact A|]. split; [reflexivity|].
    split; [exact B|]. split; [exact I|]. intros j Hj. destruct (C j Hj) as [C1 C2]. split; [|exact C2]. intros [H _]. auto.
Qed.
Lemma first_unique name i j : first_slot (fun _ => True) ht name i -> first_slot (fun _ => True) ht name j -> i = j.
Proof.
  intros (a & _ & -> & A & _ & A') (b & _ & -> & B & _ & B'). f_equal. destruct (N.lt_trichotomy a b) as [C|[C|C]]; [|exact C|].
  - destruct (B' a C) as [D _]. exfalso. apply D. now split.
  - destruct (A' b C) as [D _]. exfalso. apply D. now split.
Qed.

Lemma looked_up name (k : N) : lenN (hash_list ht) = 2 ^ k ->
  (forall i, first_slot (fun _ => True) ht name i -> ht_find_file (hash_list ht) name 0 = Ok (Some (i, hash_entry ht i))) /\
  (has_no_file ht name -> ht_find_file (hash_list ht) name 0 = Ok None).
Proof.
  intros Hk. destruct (ht_find_lookup (hash_list ht) k name 0 Hk) as (r & -> & S).
  change HT_TABLE_OFFSET with (N.of_nat 0) in S. change HT_NAME_A with (N.of_nat 1) in S. change HT_NAME_B with (N.of_nat 2) in S.
  rewrite !hash_is in S by lia. unfold lookup_spec in S.
  destruct r as [[idx e]|].
  - destruct S as (k' & F & Ei). change (N.of_nat (length (hash_list ht))) with (lenN (hash_list ht)) in Ei.
    rewrite (proj2 hash_whole) in Ei. fold (on_way ht name k') in Ei.
    assert (S : first_slot (fun _ => True) ht name idx) by (apply slot_is_first; exists k', e; split; assumption).
    split; [|intros N; now destruct (N idx)]. intros i Hi. rewrite (first_unique name i idx Hi S).
    apply first_is in F. destruct F as (_ & -> & _). now rewrite Ei.
  - split; [|reflexivity]. intros i Hi. exfalso. apply S. apply slot_is_first in Hi. destruct Hi as (k' & e & _ & F). now exists k', e.
Qed.
Lemma looked_back name (k : N) : lenN (hash_list ht) = 2 ^ k ->
  (forall i e, ht_find_file (hash_list ht) name 0 = Ok (Some (i, e)) -> first_slot (fun _ => True) ht name i) /\
  (ht_find_file (hash_list ht) name 0 = Ok None -> has_no_file ht name).
Proof.
  intros Hk. destruct (ht_find_lookup (hash_list ht) k name 0 Hk) as (r & -> & S).
  change HT_TABLE_OFFSET with (N.of_nat 0) in S. change HT_NAME_A with (N.of_nat 1) in S. change HT_NAME_B with (N.of_nat 2) in S.
  rewrite !hash_is in S by lia. unfold lookup_spec in S. split.
  - intros i e H. apply Ok_inj in H. subst r. destruct S as (k' & F & Ei).
    change (N.of_nat (length (hash_list ht))) with (lenN (hash_list ht)) in Ei. rewrite (proj2 hash_whole) in Ei.
    apply slot_is_first. exists k', e. split; assumption.
  - intros H. apply Ok_inj in H. subst r. intros i Hi. apply S. apply slot_is_first in Hi. destruct Hi as (k' & e & _ & F). now exists k', e.
Qed.

(** ** Files *)
Lemma block_there b : 16 * b < lenN bt -> nthN (block_list bt) b = Some (block_entry bt b).
Proof.
  intros H. unfold block_list. destruct Hout as (_ & v & _ & _ & _ & (E & _) & _). rewrite nthN_seq; [now rewrite N2Nat.id|].
  rewrite (proj2 (table_length _ _ E)). rewrite N2Nat.id. lia.
Qed.

Section Opened.
Variables (a : archive) (k : N).
Hypothesis Ha : a_file a = file /\ a_off a = base /\ a_hash a = Some (hash_list ht) /\ a_block a = Some (block_list bt) /\
  a_het a = None /\ a_bet a = None /\ highs (a_hi a) /\ h_block_size (a_header a) = field file (base + 14) 2.
Hypothesis Hk : lenN (hash_list ht) = 2 ^ k.

Lemma other_found name i pos csize size flags :
  first_slot (fun _ => True) ht name i -> block_is bt hi (slot_block ht i) pos csize size flags -> base + pos < M64 ->
  find_file a name = Ok (Some (mkFI i (slot_block ht i) (base + pos) csize size flags (slot_locale ht i))).
Proof.
  intros Hf (Hb & Ep & Ec & Es & Ef) Hp. destruct Ha as (A1 & A2 & A3 & A4 & A5 & A6 & A7 & A8).
  unfold find_file, valid_het_bet. rewrite A5. unfold find_file_classic. rewrite A3, A4. cbn [of_option bind].
  rewrite (proj1 (looked_up name k Hk) i Hf). cbn [bind]. change (he_block (hash_entry ht i)) with (slot_block ht i).
  rewrite (block_there _ Hb). cbn [of_option bind]. rewrite (A7 _ _ Hb) by exact (field_lt _ _ 4).
  change (be_pos (block_entry bt (slot_block ht i))) with (field bt (16 * slot_block ht i) 4). rewrite <- Ep, A2, add64_ok by exact Hp.
  cbn [bind]. rewrite Ec, Es, Ef. reflexivity.
Qed.
Lemma other_missing name : has_no_file ht name -> find_file a name = Ok None.
Proof.
  intros Hf. destruct Ha as (A1 & A2 & A3 & A4 & A5 & A6 & A7 & A8).
  unfold find_file, valid_het_bet. rewrite A5. unfold find_file_classic. rewrite A3, A4. cbn [of_option bind].
  rewrite (proj2 (looked_up name k Hk) Hf). reflexivity.
Qed.
Lemma other_read name d : has_file L file base ht bt hi name d -> read_file L a name = Ok d.
Proof.
  intros (pos & csize & flags & (i & Hi & Hb) & Hst & H8 & Hp & Hbs & C1 & C2). pose proof Ha as (A1 & A2 & A3 & A4 & A5 & A6 & A7 & A8).
  assert (Hd : lenN d < 2 ^ 32) by (destruct Hb as (_ & _ & _ & -> & _); exact (field_lt _ _ 4)).
  assert (F : find_file a name = Ok (Some (mkFI i (slot_block ht i) (base + pos) csize (lenN d) flags (slot_locale ht i)))).
  { apply (other_found name i pos csize (lenN d) flags Hi Hb). unfold M64. lia. }
  apply (stored_read L a name _ d (sector_bytes file base) F); cbn [fi_size fi_pos fi_csize fi_flags]; try rewrite A1; try rewrite A2;
    try rewrite A8; try assumption; reflexivity.
Qed.
Lemma other_not_read name : has_no_file ht name -> read_file L a name = Err EFileNotFound.
Proof. intros H. unfold read_file. now rewrite (other_missing name H). Qed.
End Opened.

(** ** Together *)
Definition is_ours (a : archive) : Prop :=
  a_file a = file /\ a_off a = base /\ a_hash a = Some (hash_list ht) /\ a_block a = Some (block_list bt) /\
  a_het a = None /\ a_bet a = None /\ highs (a_hi a) /\ h_block_size (a_header a) = field file (base + 14) 2.
Lemma blocks_number : lenN (block_list bt) = lenN bt / 16 /\ lenN bt / 16 < 2 ^ 32.
Proof.
  destruct Hout as (_ & v & _ & _ & _ & (E & _) & _). rewrite E, (N.mul_comm 16), N.div_mul by discriminate.
  split; [|exact (field_lt _ _ 4)]. unfold block_list, lenN. rewrite map_length, seq_length, (proj2 (table_length _ _ E)). apply N2Nat.id.
Qed.

Lemma slice_head d x : slice 0 4 d = Some x -> firstn 4 d = x.
Proof.
  unfold slice. destruct (_ <=? _); [|discriminate]. change (skipn (N.to_nat 0) d) with d. change (N.to_nat 4) with 4%nat.
  intros H. congruence.
Qed.
Lemma other_parsed d n : slice 0 4 d = Some (le32 100) -> attr_unwrap L d n = Ok d.
Proof.
  intros H. unfold attr_unwrap. destruct d as [|m r]; [reflexivity|].
  assert (E : firstn 4 (m :: r) = le32 100).
  { now apply slice_head. }
  rewrite E. change (le_dec (le32 100) =? 100) with true. cbn [negb]. now rewrite andb_false_r.
Qed.

Lemma other_open_inv a : open_archive L file = Ok a -> is_ours a.
Proof.
  destruct loads as (ud & h & hl & E & Hb & Hh & _). rewrite E. unfold load_attributes. cbn [tables_read a_attrs a_block a_bet].
  assert (G : forall at_, is_ours (mkA file base ud h (Some (hash_list ht)) (Some (block_list bt)) hl None None at_)).
  { intros at_. unfold is_ours. cbn. repeat split; assumption. }
  destruct (read_file L (tables_read ud h hl) ATTRIBUTES) as [d|e|]; [| |discriminate].
  - cbn [bind]. destruct (attr_unwrap L d _) as [d'|?|]; cbn [bind]; try discriminate.
    destruct (attr_parse d' _) as [at_|?|]; cbn [bind]; try discriminate. intros H. apply Ok_inj in H. subst a. apply G.
  - destruct e; try discriminate. intros H. apply Ok_inj in H. subst a. apply (G None).
Qed.
Lemma other_opens : attributes_good L file base ht bt hi -> exists a, open_archive L file = Ok a.
Proof.
  intros Hat. destruct loads as (ud & h & hl & E & Hb & Hh & k & Hk). rewrite E. unfold load_attributes. cbn [tables_read a_attrs a_block a_bet].
  assert (G : is_ours (tables_read ud h hl)) by (unfold is_ours; cbn; repeat split; assumption).
  change ATTRIBUTES with (lit "(attributes)"). destruct Hat as [N|(d & s & Hf & H0 & H4 & Hw)].
  - rewrite (other_not_read _ k G Hk _ N). eexists. reflexivity.
  - rewrite (other_read _ k G Hk _ d Hf). cbn [bind]. rewrite other_parsed by exact H0. cbn [bind].
    destruct blocks_number as [B1 B2]. rewrite B1. destruct (attr_accepts d (lenN bt / 16) s) as (at_ & Ea); [lia|exact H0|exact H4|exact Hw|].
    rewrite Ea. cbn [bind]. eexists. reflexivity.
Qed.
Lemma other_short d : has_file L file base ht bt hi (lit "(attributes)") d -> slice 0 4 d = Some (le32 100) ->
  (forall s, slice 4 4 d = Some s -> lenN d < whole_size (le_dec s) (lenN bt / 16)) -> open_archive L file = Err EInvalidFormat.
Proof.
  intros Hf H0 Hw. destruct loads as (ud & h & hl & E & Hb & Hh & k & Hk). rewrite E. unfold load_attributes. cbn [tables_read a_attrs a_block a_bet].
  assert (G : is_ours (tables_read ud h hl)) by (unfold is_ours; cbn; repeat split; assumption).
  change ATTRIBUTES with (lit "(attributes)"). rewrite (other_read _ k G Hk _ d Hf). cbn [bind]. rewrite other_parsed by exact H0. cbn [bind].
  destruct blocks_number as [B1 B2]. rewrite B1. unfold attr_parse. destruct (N.ltb_spec (lenN d) 8) as [C|C]; [reflexivity|].
  assert (Ev : firstn 4 d = le32 100).
  { now apply slice_head. }
  rewrite take_ok by (unfold lenN in C; lia). cbn [bind]. rewrite Ev. change (le_dec (le32 100) =? EXPECTED_VERSION) with true. cbn [negb].
  rewrite take_ok by (rewrite skipn_length; unfold lenN in C; lia). cbn [bind]. rewrite attr_size_whole by lia. cbn [bind].
  assert (Es : slice 4 4 d = Some (firstn 4 (skipn 4 d))).
  { unfold slice. replace (4 + 4 <=? lenN d) with true by lia. reflexivity. }
  specialize (Hw _ Es). replace (lenN d <? _) with true by lia. reflexivity.
Qed.
(** Attributes packed once more *)
Lemma other_unwrapped x d n : unpacked_attributes L x d -> attr_unwrap L x n = Ok d.
Proof.
  intros [[H ->]|(m & c & -> & H4 & H)]; [now apply other_parsed|]. unfold attr_unwrap.
  assert (H0 : le_dec (firstn 4 (m :: c)) =? 100 = false).
  { apply N.eqb_neq. intros E. cbn [firstn le_dec] in E.
    assert (E2 : bN m mod 256 = 100 mod 256) by (rewrite <- E, (N.mul_comm 256), N.mod_add by discriminate; reflexivity).
    rewrite N.mod_small in E2 by apply bN_lt. destruct H as [[Em _]|[[Em _]|[Em _]]]; rewrite Em in E2; discriminate E2. }
  rewrite H0. replace (4 <=? lenN (m :: c)) with true by (symmetry; now apply N.leb_le). cbn [negb andb].
  assert (c <> []) by (intros ->; now apply H4). destruct c as [|y c]; [congruence|].
  destruct H as [[Em H]|[[Em H]|[Em H]]]; rewrite Em; cbn [N.eqb N.land negb andb Pos.eqb Pos.land N.b2n].
  - change (negb (N.land 2 15 =? 0)) with true. cbv iota. change (decompress L (y :: c) 2 (n * 100)) with (zlib_dec L (y :: c)). now rewrite H.
  - change (negb (N.land 8 15 =? 0)) with true. cbv iota. change (decompress L (y :: c) 8 (n * 100)) with (pk_dec L (y :: c)). now rewrite H.
  - change (negb (N.land 18 15 =? 0)) with true. cbv iota. change (decompress L (y :: c) 18 (n * 100)) with (lzma_dec L (y :: c)). now rewrite H.
Qed.

Lemma other_attributes x d s : has_file L file base ht bt hi (lit "(attributes)") x -> unpacked_attributes L x d ->
  slice 0 4 d = Some (le32 100) -> slice 4 4 d = Some s -> whole_size (le_dec s) (lenN bt / 16) <= lenN d ->
  exists a at_, open_archive L file = Ok a /\ a_attrs a = Some at_ /\ at_flags at_ = le_dec s /\ lenN (at_files at_) = lenN bt / 16 /\
    forall i f, nthN (at_files at_) i = Some f -> file_at d (le_dec s) (lenN bt / 16) i f.
Proof.
  intros Hf Hu H0 H4 Hw. destruct loads as (ud & h & hl & E & Hb & Hh & k & Hk). rewrite E. unfold load_attributes. cbn [tables_read a_attrs a_block a_bet].
  assert (G : is_ours (tables_read ud h hl)) by (unfold is_ours; cbn; repeat split; assumption).
  change ATTRIBUTES with (lit "(attributes)"). rewrite (other_read _ k G Hk _ x Hf). cbn [bind]. rewrite (other_unwrapped x d) by exact Hu. cbn [bind].
  destruct blocks_number as [B1 B2]. rewrite B1.
  assert (Hn : lenN bt / 16 < 2 ^ 59) by lia.
  destruct (attr_accepts d (lenN bt / 16) s Hn H0 H4 Hw) as (at_ & Ea). rewrite Ea. cbn [bind].
  destruct (attr_parse_total d (lenN bt / 16) Hn) as [Er|(a' & s' & Ea' & _ & _ & P1 & P2 & _ & P3 & P4)]; [congruence|].
  assert (a' = at_) by congruence. subst a'. assert (s' = s) by congruence. subst s'. rewrite P2 in P4.
  eexists. exists at_. split; [reflexivity|]. split; [reflexivity|]. split; [exact P2|]. split; [exact P3|exact P4].
Qed.
(** Neither of version 100 nor packed by a method whose number has one of the lower bits *)
Lemma other_refused x : has_file L file base ht bt hi (lit "(attributes)") x -> slice 0 4 x <> Some (le32 100) ->
  (forall m c, x = m :: c -> N.land (bN m) 15 = 0 \/ bN m = 100 \/ lenN x < 4 \/ not_unpacked L m c) -> open_archive L file = Err EInvalidFormat.
Proof.
  intros Hf H0 Hm. destruct loads as (ud & h & hl & E & Hb & Hh & k & Hk). rewrite E. unfold load_attributes. cbn [tables_read a_attrs a_block a_bet].
  assert (G : is_ours (tables_read ud h hl)) by (unfold is_ours; cbn; repeat split; assumption).
  change ATTRIBUTES with (lit "(attributes)"). rewrite (other_read _ k G Hk _ x Hf). cbn [bind].
  assert (U : forall n, attr_unwrap L x n = Ok x).
  { intros n. unfold attr_unwrap. destruct x as [|m c]; [reflexivity|]. destruct (Hm m c eq_refl) as [C|[C|[C|(e & C)]]].
    - rewrite C. change (negb (0 =? 0)) with false. now rewrite andb_false_r.
    - rewrite C. change (negb (100 =? 0x64)) with false. now rewrite andb_false_r.
    - replace (4 <=? lenN (m :: c)) with false by (symmetry; now apply N.leb_gt). reflexivity.
    - destruct (_ && _); [|reflexivity]. destruct c as [|y c]; [reflexivity|].
      destruct C as [[Em C]|[[Em C]|[Em C]]]; rewrite Em.
      + change (decompress L (y :: c) 2 (n * 100)) with (zlib_dec L (y :: c)). now rewrite C.
      + change (decompress L (y :: c) 8 (n * 100)) with (pk_dec L (y :: c)). now rewrite C.
      + change (decompress L (y :: c) 18 (n * 100)) with (lzma_dec L (y :: c)). now rewrite C. }
  rewrite U. cbn [bind]. destruct blocks_number as [B1 B2]. rewrite B1.
  destruct (attr_parse_total x (lenN bt / 16)) as [Er|(a' & s' & _ & _ & Hv & _)]; [lia|now rewrite Er|congruence].
Qed.
End Other.

Theorem other_archive L file base ht bt hi : laid_out file base ht bt hi -> lenN file < 2 ^ 63 ->
  (attributes_good L file base ht bt hi -> exists a, open_archive L file = Ok a) /\
  forall a, open_archive L file = Ok a ->
    (forall name d, has_file L file base ht bt hi name d -> read_file L a name = Ok d) /\
    (forall name, has_no_file ht name -> find_file a name = Ok None /\ read_file L a name = Err EFileNotFound) /\
    (forall name pos csize size flags, listed ht bt hi name pos csize size flags -> base + pos < 2 ^ 64 ->
       exists fi, find_file a name = Ok (Some fi) /\
         fi_pos fi = base + pos /\ fi_csize fi = csize /\ fi_size fi = size /\ fi_flags fi = flags).
Proof.
  intros Ho Hl. split; [apply other_opens; assumption|]. intros a Ea.
  pose proof (other_open_inv L file base ht bt hi Ho Hl a Ea) as G.
  destruct (loads L file base ht bt hi Ho Hl) as (_ & _ & _ & _ & _ & _ & k & Hk).
  split; [intros name d; exact (other_read L file base ht bt hi Ho Hl a k G Hk name d)|].
  split.
  - intros name N. split; [exact (other_missing file base ht bt hi Ho Hl a k G Hk name N)|exact (other_not_read L file base ht bt hi Ho Hl a k G Hk name N)].
  - intros name pos csize size flags (i & Hi & Hb) Hp. eexists. split; [exact (other_found file base ht bt hi Ho Hl a k G Hk name i pos csize size flags Hi Hb Hp)|].
    repeat split; reflexivity.
Qed.
