(** * What a hostile archive of version 3 or 4 can do. *)
From Verif Require Import Bytes BitFacts Crypto CryptoFacts Header HeaderSearch HashTable HashTableFacts
  TableMap BlockTable Compress Attributes AttributesFacts HetBet HetBetFacts Listfile Archive ArchiveFacts
  Archive34Facts SpecHostile SpecHostile34 HostileFacts.
Open Scope N_scope.

(** ** Extended tables *)
Lemma mask_chk_panics k : mask_chk k = Panic -> 64 <= k.
Proof. unfold mask_chk. destruct (N.ltb_spec k 64); [discriminate|auto]. Qed.
Lemma shr64_panics v k : shr64 v k = Panic -> 64 <= k.
Proof. unfold shr64. destruct (N.ltb_spec k 64); [discriminate|auto]. Qed.
Lemma extract_panics v o c : extract_bits v o c = Panic -> 64 <= o \/ 64 <= c.
Proof.
  unfold extract_bits. intros H. unbind H E1; [|right; now apply mask_chk_panics].
  unbind H E2. left. now apply (shr64_panics v).
Qed.

Lemma slice_within o n d : o + n <= lenN d -> exists s, slice o n d = Some s.
Proof. intros H. unfold slice. rewrite (proj2 (N.leb_le _ _) H). eauto. Qed.

Lemma het_find_panics a h name : a_het a = Some h -> het_find h name = Panic -> lookup_trap a.
Proof.
  intros Ha H. unfold het_find in H. unbind H E1.
  2:{ unfold chk32 in E1. destruct (N.ltb_spec (het_table_bytes h * 8) M32) as [|C]; [discriminate|].
      apply (lookup_size a h Ha). change (2 ^ 32) with M32. lia. }
  unfold chk32 in E1. destruct (_ <? _) in E1; [|discriminate]. apply Ok_inj in E1. subst a0.
  destruct (N.eqb_spec (het_hash_bits h) 0) as [Z|Z]; [apply (lookup_bits a h Ha); auto|].
  destruct (N.eqb_spec (het_table_bytes h * 8 / het_hash_bits h) 0) as [Z2|Z2].
  { apply (lookup_none a h Ha). rewrite N.mul_comm. apply N.div_small_iff in Z2; [exact Z2|exact Z]. }
  destruct (het_entry h _) as [e|]; [|discriminate].
  destruct (negb _); [discriminate|]. unbind H E2.
  - destruct (_ <=? _); discriminate.
  - apply (lookup_bits a h Ha). right. now apply (shr64_panics e).
Qed.

Lemma bet_get_panics b i : lenN (bet_flags b) = bet_flag_count b ->
  bet_get b i = Panic -> wide_entries b.
Proof.
  intros Hn H. unfold bet_get in H. destruct (bet_count b <=? i); [discriminate|].
  unbind H E1.
  2:{ unfold bet_entry in E1. destruct (N.ltb_spec (lenN (bet_table b)) (i * bet_entry_bits b / 8 + 8)) as [|C]; [discriminate|].
      destruct (slice_within (i * bet_entry_bits b / 8)
        (N.min (div_ceil (i * bet_entry_bits b mod 8 + bet_entry_bits b) 8) 8) (bet_table b)) as [s Es]; [lia|].
      rewrite Es in E1. unbind E1 E2. left. now apply mask_chk_panics. }
  destruct a as [e|]; [|discriminate].
  unbind H E2; [|apply extract_panics in E2; right; destruct E2; auto 10].
  unbind H E3; [|apply extract_panics in E3; right; destruct E3; auto 10].
  unbind H E4; [|apply extract_panics in E4; right; destruct E4; auto 10].
  unbind H E5; [|apply extract_panics in E5; right; destruct E5; auto 12].
  exfalso. unbind H E6. destruct (N.ltb_spec (w32 a2) (bet_flag_count b)) as [C|C]; [|discriminate].
  unfold nthN in E6. rewrite Hn, (proj2 (N.ltb_lt _ _) C) in E6.
  destruct (nth_error (bet_flags b) (N.to_nat (w32 a2))) eqn:En; [discriminate|].
  apply nth_error_None in En. unfold lenN in Hn. lia.
Qed.

(** ** Lookup *)
Record neat (a : archive) : Prop := {
  n_file : lenN (a_file a) < 2 ^ 63;
  n_off : a_off a < 2 ^ 63;
  n_hash : forall ht, a_hash a = Some ht -> exists k, lenN ht = 2 ^ k;
  n_block : forall bt, a_block a = Some bt -> Forall be_ok bt /\ lenN bt < M32;
  n_hi : forall t, a_hi a = Some t -> Forall (fun v => v < M16) t;
  n_bet : forall b, a_bet a = Some b -> bet_count b < M32 /\ lenN (bet_flags b) = bet_flag_count b }.

Lemma classic_neat a name : neat a ->
  find_file_classic a name <> Panic /\ (forall fi, find_file_classic a name = Ok (Some fi) -> found_ok a fi).
Proof.
  intros T. unfold find_file_classic.
  destruct (a_hash a) as [ht|] eqn:Eh; [|split; [discriminate|intros fi H; discriminate H]].
  destruct (a_block a) as [bt|] eqn:Hbt; [|split; [discriminate|intros fi H; discriminate H]]. cbn [of_option bind].
  destruct (n_hash a T ht Eh) as (k & Hk). destruct (n_block a T bt Hbt) as (Hok & _).
  destruct (ht_find_lookup ht k name 0 Hk) as (r & -> & _). cbn [bind].
  destruct r as [[hi e]|]; [|split; [discriminate|intros fi H; discriminate H]].
  destruct (nthN bt (he_block e)) as [b|] eqn:Eb; cbn [of_option bind]; [|split; [discriminate|intros fi H; discriminate H]].
  rewrite Forall_forall in Hok. destruct (Hok b (nthN_In _ _ _ Eb)) as (H1 & H2 & H3 & _).
  pose proof (pos_full_bound (a_hi a) (he_block e) (be_pos b) H1 (n_hi a T)) as Hp. pose proof (n_off a T) as Ho.
  rewrite add64_ok.
  2:{ change M64 with (2 ^ 64). lia. }
  cbn [bind]. split; [discriminate|]. intros fi H. injection H as <-. unfold found_ok, small. cbn [fi_pos fi_csize fi_size fi_block].
  repeat split; try assumption; [lia|]. exists bt, b. auto.
Qed.

Lemma mask_chk_ok k m : mask_chk k = Ok m -> m < 2 ^ 63.
Proof.
  unfold mask_chk. destruct (N.ltb_spec k 64) as [C|]; [|discriminate]. intros H. apply Ok_inj in H. subst m.
  assert (2 ^ k <= 2 ^ 63) by (apply N.pow_le_mono_r; lia). pose proof (N.pow_nonzero 2 k ltac:(discriminate)). lia.
Qed.
Lemma extract_ok v o c x : extract_bits v o c = Ok x -> x < 2 ^ 63.
Proof.
  unfold extract_bits. intros H. unbind H E1. unbind H E2. apply Ok_inj in H. subst x.
  eapply N.le_lt_trans; [|exact (mask_chk_ok _ _ E1)]. clear.
  apply N.ldiff_le. apply N.bits_inj. intros i. rewrite N.ldiff_spec, N.land_spec, N.bits_0.
  destruct (N.testbit a i); [apply andb_false_r|now rewrite andb_false_r].
Qed.
Lemma bet_get_ok b i bi : bet_get b i = Ok (Some bi) ->
  bi_pos bi < 2 ^ 63 /\ bi_size bi < 2 ^ 63 /\ bi_csize bi < 2 ^ 63.
Proof.
  unfold bet_get. intros H. destruct (bet_count b <=? i); [discriminate|]. unbind H E1. destruct a as [e|]; [|discriminate].
  unbind H E2. unbind H E3. unbind H E4. unbind H E5. unbind H E6. apply Ok_inj in H. injection H as <-.
  cbn [bi_pos bi_size bi_csize]. repeat split; eapply extract_ok; eassumption.
Qed.

Lemma valid_parts a h b : valid_het_bet a = Some (h, b) -> a_het a = Some h /\ a_bet a = Some b.
Proof.
  unfold valid_het_bet. destruct (a_het a), (a_bet a); try discriminate.
  destruct (_ && _); [|discriminate]. intros E. injection E as <- <-. auto.
Qed.

Lemma find_neat a name : neat a ->
  (find_file a name = Panic -> lookup_trap a) /\
  (forall fi, find_file a name = Ok (Some fi) ->
     found_ok a fi \/ (bounded fi /\ exists h b, a_het a = Some h /\ a_bet a = Some b)).
Proof.
  intros T. destruct (classic_neat a name T) as [C1 C2]. unfold find_file.
  destruct (valid_het_bet a) as [[h b]|] eqn:Ev; [|split; [congruence|auto]].
  apply valid_parts in Ev as [Eh Eb]. split.
  2:{ intros fi H. unbind H E1. unbind H E2. destruct a1 as [[i bi]|].
      - unbind H E3. apply Ok_inj in H. injection H as <-. right. split; [|eauto].
        destruct a0 as [j|]; [|discriminate]. unbind E2 E4. apply Ok_inj in E2. destruct a0 as [bj|]; [|discriminate].
        cbn [option_map] in E2. injection E2 as <- <-. apply bet_get_ok in E4 as (B1 & B2 & B3).
        unfold add64 in E3. destruct (N.ltb_spec (a_off a + bi_pos bj) M64) as [B4|]; [|discriminate].
        apply Ok_inj in E3. subst a1. unfold bounded. cbn [fi_pos fi_csize fi_size]. repeat split; assumption.
      - destruct (a_hash a), (a_block a); try discriminate H. left. auto. }
  intros H. unbind H E1; [|exact (het_find_panics a h name Eh E1)].
  unbind H E2.
  - destruct a1 as [[i bi]|].
    + unbind H E3. unfold add64 in E3. destruct (N.ltb_spec (a_off a + bi_pos bi) M64) as [|C]; [discriminate|].
      destruct a0 as [j|]; [|discriminate]. unbind E2 E4. apply Ok_inj in E2. destruct a0 as [bj|]; [|discriminate].
      cbn [option_map] in E2. injection E2 as <- <-.
      apply bet_get_ok in E4 as (B & _). pose proof (n_off a T). change M64 with (2 ^ 64) in C. lia.
    + destruct (a_hash a), (a_block a); try discriminate H. congruence.
  - destruct a0 as [j|]; [|discriminate]. unbind E2 E4.
    apply (lookup_wide a b Eb). exact (bet_get_panics b j (proj2 (n_bet a T b Eb)) E4).
Qed.

Section B.
Variable L : codecs.
Hypothesis HL : calm L.

Lemma read_neat a name : neat a -> read_file L a name = Panic ->
  lookup_trap a \/ exists fi, find_file a name = Ok (Some fi) /\
    (trap L a fi (reading_key a name fi) \/ scale_trap L a fi (reading_key a name fi)).
Proof.
  intros T H. unfold read_file in H. destruct (find_neat a name T) as [Hf Hok].
  destruct (find_file a name) as [[fi|]| |]; cbn [of_option bind] in H; try discriminate H; [|now left; apply Hf].
  right. exists fi. split; [reflexivity|]. specialize (Hok fi eq_refl).
  assert (S : bounded fi) by (destruct Hok as [Hok|Hok]; [exact (small_bounded _ (proj1 Hok))|apply Hok]).
  assert (K : (match a_het a, a_bet a with
     | Some _, Some _ => Ok (w32 (fi_size fi), fi_size fi)
     | _, _ => bt <- of_option EInvalidFormat (a_block a) ;; b <- of_option EBlockTable (nthN bt (fi_block fi)) ;;
               Ok (be_size b, be_size b)
     end) = Ok (w32 (fi_size fi), fi_size fi)).
  { destruct Hok as [(Sm & bt & b & Hb & Hn & Hs)|(_ & h & b & -> & ->)]; [|reflexivity].
    assert (W : w32 (fi_size fi) = fi_size fi) by (unfold w32; apply N.mod_small; apply Sm).
    rewrite Hb. cbn [of_option bind]. rewrite Hn. cbn [of_option bind]. rewrite Hs, W.
    destruct (a_het a), (a_bet a); reflexivity. }
  rewrite K in H. cbn [bind] in H. clear K.
  change (read_key a name fi (w32 (fi_size fi))) with (reading_key a name fi) in H.
  destruct (is_single_unit (fi_flags fi) || negb (is_compressed (fi_flags fi))) eqn:C.
  - exact (whole_panics L HL _ _ _ S C H).
  - apply orb_false_iff in C as [C1 C2]. apply negb_false_iff in C2.
    exact (sectored_panics L HL _ _ _ S (n_file a T) C2 C1 H).
Qed.

(** ** Listing *)
Lemma list_named_neat a names : neat a -> list_named a names = Panic -> lookup_trap a.
Proof.
  intros T. induction names as [|n t IH]; [discriminate|]. cbn [list_named]. intros H.
  destruct (find_neat a n T) as [Hf _]. unbind H E1; [|auto]. unbind H E2; [destruct a0; discriminate|auto].
Qed.
Lemma bet_entries_panics b n : lenN (bet_flags b) = bet_flag_count b -> forall i,
  bet_entries b n i = Panic -> wide_entries b.
Proof.
  intros Hb. induction n as [|n IH]; intros i H; [discriminate|]. cbn [bet_entries] in H.
  unbind H E1; [|exact (bet_get_panics b i Hb E1)].
  unbind H E2; [|exact (IH _ E2)]. destruct a as [bi|]; [destruct (has_flag _ _)|]; discriminate.
Qed.
Lemma list_tables_neat a k : neat a -> list_tables a k = Panic -> lookup_trap a.
Proof.
  intros T H. unfold list_tables in H. destruct (valid_het_bet a) as [[h b]|] eqn:Ev.
  - apply valid_parts in Ev as [Eh Eb]. unbind H E1.
    + destruct a0; [|discriminate]. destruct (a_hash a), (a_block a); discriminate.
    + apply (lookup_wide a b Eb). exact (bet_entries_panics b _ (proj2 (n_bet a T b Eb)) _ E1).
  - cbn [bind] in H. destruct (a_hash a), (a_block a); discriminate.
Qed.
Lemma list_neat a : neat a -> list_files L a = Panic ->
  lookup_trap a \/ exists fi, find_file a LISTFILE = Ok (Some fi) /\
    (trap L a fi (reading_key a LISTFILE fi) \/ scale_trap L a fi (reading_key a LISTFILE fi)).
Proof.
  intros T H. unfold list_files in H. destruct (find_neat a LISTFILE T) as [Hf _].
  destruct (find_file a LISTFILE) as [[fi|]| |] eqn:E; cbn [bind] in H; try discriminate H; [| |now left; apply Hf].
  - destruct (read_file L a LISTFILE) as [d| |] eqn:Er; cbn [bind] in H; [|discriminate|].
    + left. exact (list_named_neat a _ T H).
    + destruct (read_neat a LISTFILE T Er) as [K|(fi' & E' & Ht)]; [now left|right].
      rewrite E in E'. injection E' as <-. eauto.
  - left. exact (list_tables_neat a _ T H).
Qed.

(** ** Opening *)
Lemma word_at_bound d i : word_at d i < M32.
Proof. apply dec4. Qed.
Lemma bet_read_ok file o s k b : bet_read L file o s k = Ok b ->
  bet_count b < M32 /\ lenN (bet_flags b) = bet_flag_count b.
Proof.
  unfold bet_read. intros H. unbind H E1. destruct (_ <? _); [discriminate|]. cbv zeta in H.
  unbind H E2. unbind H E3. unbind H E4. apply Ok_inj in H. subst b. cbn [bet_count bet_flags bet_flag_count].
  split; [apply word_at_bound|]. unfold lenN. rewrite le_values_length. lia.
Qed.

Lemma loaded_neat file a : lenN file < 2 ^ 63 -> loaded L file a -> neat a.
Proof.
  intros Hlen (Hf & Hh & _ & Rh & Rb & Rhi & _ & Rbet).
  destruct (find_header_off _ _ _ _ Hh) as [Ho Hk]. split.
  - now rewrite Hf.
  - lia.
  - intros t E. exact (ht_read_pow _ _ _ _ (Rh t E)).
  - intros t E. destruct (bt_read_ok _ _ _ _ (Rb t E)) as [B1 B2]. split; [exact B1|]. rewrite B2. apply Hk.
  - intros t E. destruct (Rhi t E) as (p & _ & R). exact (hi_read_ok _ _ _ _ R).
  - intros b E. destruct (Rbet b E) as (p & s & _ & R). exact (bet_read_ok _ _ _ _ _ R).
Qed.

Lemma ext_read_panics sig file o size key : key <> 0 -> ext_read L sig file o size key = Panic ->
  2 ^ 62 <= size \/ exists raw m c ds, slice o size file = Some raw /\
    decrypt_table_data (skipn 12 raw) key = m :: c /\ audio (bN m) /\ decompress L c (bN m) ds = Panic.
Proof.
  intros Hk H. unfold ext_read in H. unbind H E1.
  2:{ left. unfold read_at in E1. destruct (slice o size file); [discriminate|].
      destruct (2 ^ 63 <=? o); [discriminate|]. destruct (N.leb_spec (2 ^ 63) size) as [C|C]; [eapply N.le_trans; [|exact C]; discriminate|].
      destruct (size =? 0); discriminate. }
  destruct (N.ltb_spec (lenN a) 12) as [C|C]; [discriminate|].
  destruct (N.le_gt_cases (2 ^ 62) size) as [C2|C2]; [now left|].
  right. exists a. unfold read_at in E1. destruct (slice o size file) as [s|] eqn:Es.
  2:{ destruct (2 ^ 63 <=? o); [discriminate|]. destruct (2 ^ 63 <=? size); [discriminate|].
      destruct (size =? 0); [|discriminate]. apply Ok_inj in E1. subst a. rewrite lenN_nil in C. lia. }
  apply Ok_inj in E1. subst s.
  destruct (negb _); [discriminate|]. cbv zeta in H. rewrite (proj2 (N.eqb_neq _ _) Hk) in H.
  destruct (lenN a <? _); [|discriminate].
  destruct (decrypt_table_data (skipn 12 a) key) as [|m c] eqn:Ek; [discriminate|].
  exists m, c, (le_dec (firstn 4 (skipn 8 a))). repeat split; auto. destruct (decompress_panics L HL _ _ _ H) as [A|[A|A]]; [exact A| |]; exfalso.
  - pose proof (dec4 (skipn 8 a)). change M32 with (2 ^ 32) in *. lia.
  - pose proof (slice_length _ _ _ _ Es) as Hl. assert (X : length (decrypt_table_data (skipn 12 a) key) = length (skipn 12 a)) by apply decrypt_table_data_length.
    rewrite Ek, skipn_length in X. unfold lenN in *. cbn [length] in X. lia.
Qed.
Lemma het_read_panics file o size key : het_read L file o size key = Panic -> ext_read L HET_SIG file o size key = Panic.
Proof.
  unfold het_read. intros H. unbind H E1; [exfalso|reflexivity].
  destruct (lenN a <? 32); [discriminate|].
  destruct (N.ltb_spec (lenN a) (32 + word_at a 2 + div_ceil (word_at a 4) 8)) as [C|C]; [discriminate|].
  destruct (slice_within 32 (word_at a 2) a) as [s1 E1s]; [lia|]. rewrite E1s in H.
  destruct (slice_within (32 + word_at a 2) (div_ceil (word_at a 4) 8) a) as [s2 Es]; [lia|].
  rewrite Es in H. discriminate.
Qed.
Lemma of_option_calm {A} e (x : option A) : of_option e x <> Panic.
Proof. destruct x; discriminate. Qed.
Lemma bet_read_panics file o size key : bet_read L file o size key = Panic -> ext_read L BET_SIG file o size key = Panic.
Proof.
  unfold bet_read. intros H. unbind H E1; [exfalso|reflexivity].
  destruct (_ <? _); [discriminate|]. cbv zeta in H.
  unbind H E2; [|exact (of_option_calm _ _ E2)].
  unbind H E3; [|exact (of_option_calm _ _ E3)].
  unbind H E4. exact (of_option_calm _ _ E4).
Qed.

Lemma load_ext_panics {T} off p n v size_of (rd : N -> N -> res T) :
  load_ext off p n v size_of rd = Panic ->
  exists q, p = Some q /\ ((v = V3 /\ n = 0 /\ size_of q = Panic) \/ 2 ^ 64 <= off + q \/
    exists size, rd (off + q) size = Panic /\ ((v = V3 /\ n = 0 /\ size_of q = Ok size) \/ size = n)).
Proof.
  unfold load_ext. intros H. destruct p as [q|]; [|discriminate]. exists q. split; [reflexivity|].
  destruct (q =? 0); [discriminate|]. unbind H E1.
  2:{ left. destruct v; try discriminate. destruct (N.eqb_spec n 0); [auto|discriminate]. }
  right. destruct (a =? 0); [discriminate|]. unbind H E2.
  2:{ left. unfold add64 in E2. destruct (N.ltb_spec (off + q) M64) as [|C]; [discriminate|exact C]. }
  unfold add64 in E2. destruct (_ <? _); [|discriminate]. apply Ok_inj in E2. subst a0.
  right. exists a. destruct (rd (off + q) a) eqn:R; try discriminate. split; [first [exact R|reflexivity]|].
  destruct v; try (apply Ok_inj in E1; subst a; now right).
  destruct (N.eqb_spec n 0); [now left|apply Ok_inj in E1; subst a; now right].
Qed.
Lemma load_ext_reads {T} off p n v size_of (rd : N -> N -> res T) t :
  load_ext off p n v size_of rd = Ok (Some t) -> exists q size, p = Some q /\ rd (off + q) size = Ok t.
Proof.
  unfold load_ext. intros H. destruct p as [q|]; [|discriminate]. destruct (q =? 0); [discriminate|].
  unbind H E1. destruct (a =? 0); [discriminate|]. unbind H E2.
  unfold add64 in E2. destruct (_ <? _); [|discriminate]. apply Ok_inj in E2. subst a0.
  exists q, a. split; [reflexivity|]. destruct (rd (off + q) a) eqn:R; try discriminate.
  apply Ok_inj in H. injection H as <-. reflexivity.
Qed.

Lemma sub_chk_panics a b : sub_chk a b = Panic -> a < b.
Proof. unfold sub_chk. destruct (N.ltb_spec a b); [auto|discriminate]. Qed.
Lemma sub_chk_le a b c : sub_chk a b = Ok c -> c <= a.
Proof. unfold sub_chk. destruct (N.ltb_spec a b); [discriminate|]. intros E. apply Ok_inj in E. lia. Qed.

Lemma ht_key_nz : ht_key <> 0.
Proof. assert (E : (ht_key =? 0) = false) by (vm_compute; reflexivity). now apply N.eqb_neq in E. Qed.
Lemma bt_key_nz : bt_key <> 0.
Proof. assert (E : (bt_key =? 0) = false) by (vm_compute; reflexivity). now apply N.eqb_neq in E. Qed.
Lemma ext_traps file off ud h p size sig key :
  find_header file = Ok (off, ud, h) -> In (Some p) [h_het_pos h; h_bet_pos h] -> In key [ht_key; bt_key] ->
  (2 ^ 62 <= size -> opening_trap L file) ->
  ext_read L sig file (off + p) size key = Panic -> opening_trap L file.
Proof.
  intros Hh Hp Hk Hbig H. apply ext_read_panics in H as [H|(raw & m & c & ds & H1 & H2 & H3 & H4)].
  - auto.
  - exact (opening_table L file off ud h p size raw key m c ds Hh Hp H1 Hk H2 H3 H4).
  - destruct Hk as [<-|[<-|[]]]; [exact ht_key_nz|exact bt_key_nz].
Qed.

Lemma het_load_panics file off ud h : find_header file = Ok (off, ud, h) ->
  load_ext off (h_het_pos h) (v4_het h) (h_version h) (het_table_size h) (fun o s => het_read L file o s ht_key) = Panic ->
  opening_trap L file.
Proof.
  intros Hh H. destruct (find_header_off _ _ _ _ Hh) as [_ (_ & K2 & _)].
  apply load_ext_panics in H as (q & Hq & [(V & _ & S)|[F|(size & R & S)]]).
  - apply (opening_late L file off ud h q Hh V); [rewrite Hq; now left|].
    unfold het_table_size in S. destruct (h_bet_pos h) as [b|]; [destruct (q <? b); [discriminate|]|]; now apply sub_chk_panics.
  - apply (opening_far L file off ud h q Hh); [rewrite Hq; right; now left|exact F].
  - apply het_read_panics in R. apply (ext_traps file off ud h q size HET_SIG ht_key Hh); auto.
    + rewrite Hq; now left.
    + now left.
    + intros B. destruct S as [(_ & _ & S)| ->].
      * unfold het_table_size in S. destruct (h_bet_pos h) as [b|] eqn:Eb.
        -- destruct (N.ltb_spec q b).
           ++ apply Ok_inj in S. apply (opening_huge L file off ud h b Hh); [now right|lia].
           ++ apply sub_chk_le in S. lia.
        -- apply sub_chk_le in S. lia.
      * unfold v4_het in B. destruct (h_v4 h) as [v|] eqn:Ev; [|lia].
        apply (opening_huge L file off ud h (v4_het_size v) Hh); [left; eauto|exact B].
Qed.
Lemma bet_load_panics file off ud h : find_header file = Ok (off, ud, h) ->
  load_ext off (h_bet_pos h) (v4_bet h) (h_version h) (bet_table_size h) (fun o s => bet_read L file o s bt_key) = Panic ->
  opening_trap L file.
Proof.
  intros Hh H. destruct (find_header_off _ _ _ _ Hh) as [_ (_ & K2 & _)].
  apply load_ext_panics in H as (q & Hq & [(V & _ & S)|[F|(size & R & S)]]).
  - apply (opening_late L file off ud h q Hh V); [rewrite Hq; right; now left|]. now apply sub_chk_panics.
  - apply (opening_far L file off ud h q Hh); [rewrite Hq; right; right; now left|exact F].
  - apply bet_read_panics in R. apply (ext_traps file off ud h q size BET_SIG bt_key Hh); auto.
    + rewrite Hq; right; now left.
    + right; now left.
    + intros B. destruct S as [(_ & _ & S)| ->].
      * unfold bet_table_size in S. apply sub_chk_le in S. lia.
      * unfold v4_bet in B. destruct (h_v4 h) as [v|] eqn:Ev; [|lia].
        apply (opening_huge L file off ud h (v4_bet_size v) Hh); [left; eauto|exact B].
Qed.

(** Opening: a trap, an error, or the tables and then the attributes. *)
Lemma open_steps34 file off ud h : lenN file < 2 ^ 63 -> find_header file = Ok (off, ud, h) ->
  (opening_trap L file /\ open_archive L file = Panic) \/ (exists e, open_archive L file = Err e) \/
  exists a, loaded L file a /\ a_header a = h /\ open_archive L file = load_attributes L a.
Proof.
  intros Hlen Hh. destruct (find_header_off _ _ _ _ Hh) as [Ho (K1 & K2 & K3)].
  unfold open_archive, open_with_options. rewrite Hh. cbn [bind]. unfold load_tables.
  cbn [a_header a_file a_off a_user a_hash a_block a_hi a_het a_bet a_attrs].
  match goal with |- (_ /\ bind ?X _ = _) \/ _ => set (ext := X) end.
  assert (Hext : (opening_trap L file /\ ext = Panic) \/ (exists e, ext = Err e) \/ exists het bet, ext = Ok (het, bet) /\
     (forall t, het = Some t -> exists p size, h_het_pos h = Some p /\ het_read L file (off + p) size ht_key = Ok t) /\
     (forall t, bet = Some t -> exists p size, h_bet_pos h = Some p /\ bet_read L file (off + p) size bt_key = Ok t)).
  { subst ext. destruct (version_ge (h_version h) V3).
    2:{ right; right. exists None, None. split; [reflexivity|]. split; discriminate. }
    destruct (load_ext off (h_het_pos h) (v4_het h) (h_version h) (het_table_size h) (fun o s => het_read L file o s ht_key))
      as [het|e|] eqn:E1; cbn [bind]; [|right; left; eauto|left; split; [exact (het_load_panics _ _ _ _ Hh E1)|reflexivity]].
    destruct (load_ext off (h_bet_pos h) (v4_bet h) (h_version h) (bet_table_size h) (fun o s => bet_read L file o s bt_key))
      as [bet|e|] eqn:E2; cbn [bind]; [|right; left; eauto|left; split; [exact (bet_load_panics _ _ _ _ Hh E2)|reflexivity]].
    right; right. do 2 eexists. split; [reflexivity|]. split.
    - intros t Et. destruct het as [t'|]; [|discriminate]. injection Et as ->. exact (load_ext_reads _ _ _ _ _ _ _ E1).
    - intros t Et. destruct bet as [t'|]; [|discriminate]. injection Et as ->. exact (load_ext_reads _ _ _ _ _ _ _ E2). }
  clearbody ext. destruct Hext as [(Ht & ->)|[(e & ->)|(het & bet & -> & Hhet & Hbet)]]; cbn [bind].
  { left. auto. } { right; left. eauto. }
  cbv zeta.
  match goal with |- (_ /\ bind ?X _ = _) \/ _ => set (cls := X) end.
  assert (Hcls : (exists e, cls = Err e) \/ exists ht bt, cls = Ok (ht, bt) /\
     (forall t, ht = Some t -> ht_read file (off + get_hash_table_pos h) (h_hash_count h) = Ok t) /\
     (forall t, bt = Some t -> bt_read file (off + get_block_table_pos h) (h_block_count h) = Ok t)).
  { subst cls. destruct (match valid_het_bet _ with None => _ | Some _ => _ end).
    2:{ right. exists None, None. split; [reflexivity|]. split; discriminate. }
    rewrite add64_ok by (change M64 with (2 ^ 64); lia). cbn [bind].
    pose proof (ht_read_calm file (off + get_hash_table_pos h) (h_hash_count h)) as C1.
    destruct (ht_read file (off + get_hash_table_pos h) (h_hash_count h)) as [ht|e|] eqn:R1; cbn [bind]; [|left; eauto|congruence].
    rewrite add64_ok by (change M64 with (2 ^ 64); lia). cbn [bind].
    pose proof (bt_read_calm file (off + get_block_table_pos h) (h_block_count h) K1) as C2.
    destruct (bt_read file (off + get_block_table_pos h) (h_block_count h)) as [bt|e|] eqn:R2; cbn [bind]; [|left; eauto|congruence].
    right. do 2 eexists. split; [reflexivity|]. split; intros t Et; injection Et as <-; first [assumption|reflexivity]. }
  clearbody cls. destruct Hcls as [(e & ->)|(ht & bt & -> & Hht & Hbt)]; cbn [bind]; [right; left; eauto|].
  assert (Hd : forall hi, (forall t, hi = Some t -> exists p, h_hi_pos h = Some p /\ hi_read file (off + p) (h_block_count h) = Ok t) ->
      loaded L file (mkA file off ud h ht bt hi het bet None)).
  { intros hi Hhi. unfold loaded. cbn [a_header a_file a_off a_user a_hash a_block a_hi a_het a_bet a_attrs].
    repeat (split; [solve [reflexivity|exact Hh|exact Hht|exact Hbt|exact Hhi|exact Hhet]|]). exact Hbet. }
  destruct (h_hi_pos h) as [p|] eqn:Ep.
  - destruct (N.eqb_spec p 0) as [Z|Z].
    + cbn [bind]. right; right. eexists. split; [apply (Hd None); discriminate|]. split; reflexivity.
    + destruct (N.lt_ge_cases (off + p) M64) as [S|S].
      * rewrite (add64_ok _ _ S). cbn [bind]. pose proof (hi_read_calm file (off + p) (h_block_count h) K1) as C3.
        destruct (hi_read file (off + p) (h_block_count h)) as [t|e|] eqn:R3; cbn [bind]; [|right; left; eauto|congruence].
        right; right. eexists. split; [apply (Hd (Some t)); intros t' E'; injection E' as <-; eauto|]. split; reflexivity.
      * left. split; [apply (opening_far L file off ud h p Hh); [rewrite Ep; now left|exact S]|].
        unfold add64. rewrite (proj2 (N.ltb_ge _ _) S). reflexivity.
  - cbn [bind]. right; right. eexists. split; [apply (Hd None); discriminate|]. split; reflexivity.
Qed.

Lemma attributes_panics34 file a : lenN file < 2 ^ 63 -> loaded L file a -> load_attributes L a = Panic -> opening_trap L file.
Proof.
  intros Hlen W H. pose proof (loaded_neat _ _ Hlen W) as T. unfold load_attributes in H.
  assert (Ha : a_attrs a = None) by apply W. rewrite Ha in H.
  destruct (read_file L a ATTRIBUTES) as [d|e|] eqn:Er.
  - unbind H Ec; [|destruct (a_block a); [discriminate|destruct (a_bet a); discriminate]].
    rename a0 into count.
    assert (Hc : count < M32).
    { destruct (a_block a) as [bt|] eqn:Eb.
      - apply Ok_inj in Ec. subst count. apply (n_block a T bt Eb).
      - destruct (a_bet a) as [b|] eqn:Ebt; [|discriminate]. apply Ok_inj in Ec. subst count. apply (n_bet a T b Ebt). }
    destruct (attr_unwrap L d count) as [d'|e|] eqn:Eu; cbn [bind] in H; [|discriminate|].
    + destruct (attr_parse_total d' count) as [E|(x & s & E & _)].
      * change M32 with (2 ^ 32) in Hc. eapply N.lt_trans; [exact Hc|reflexivity].
      * rewrite E in H. discriminate H.
      * rewrite E in H. discriminate H.
    + clear H. unfold attr_unwrap in Eu. destruct d as [|m c]; [discriminate|].
      destruct (_ && _); [|discriminate]. destruct (decompress L c (bN m) (count * 100)) eqn:Ed; try discriminate Eu.
      apply (opening_unwrap L file a m c _ W Er) with (2 := Ed).
      destruct (decompress_panics L HL _ _ _ Ed) as [A|[A|A]]; auto. change M32 with (2 ^ 32) in Hc. lia.
  - destruct e; discriminate H.
  - destruct (read_neat a ATTRIBUTES T Er) as [K|(fi & E & Ht)].
    + exact (opening_lookup L file a W K).
    + exact (opening_attributes L file a fi W E Ht).
Qed.

Lemma open_panics34 file : lenN file < 2 ^ 63 -> open_archive L file = Panic -> opening_trap L file.
Proof.
  intros Hlen H. destruct (find_header file) as [[[off ud] h]|e|] eqn:Hh.
  - destruct (open_steps34 _ _ _ _ Hlen Hh) as [[K _]|[(e & E)|(a & W & _ & E)]].
    + exact K.
    + congruence.
    + rewrite E in H. exact (attributes_panics34 _ _ Hlen W H).
  - exfalso. unfold open_archive, open_with_options in H. rewrite Hh in H. discriminate.
  - exfalso. exact (find_header_noPanic file Hh).
Qed.

Lemma opened_neat file a : lenN file < 2 ^ 63 -> open_archive L file = Ok a -> neat a.
Proof.
  intros Hlen H. destruct (find_header file) as [[[off ud] h]|e|] eqn:Hh.
  - destruct (open_steps34 _ _ _ _ Hlen Hh) as [[_ K]|[(e & E)|(b & W & _ & E)]]; [congruence|congruence|].
    pose proof (loaded_neat _ _ Hlen W) as T. rewrite E in H.
    apply (Archive34Facts.load_attributes_same L) in H as (x & ->). destruct T as [T1 T2 T3 T4 T5 T6]. split; assumption.
  - unfold open_archive, open_with_options in H. rewrite Hh in H. discriminate.
  - unfold open_archive, open_with_options in H. rewrite Hh in H. discriminate.
Qed.

End B.

(** ** In the words of the properties *)
Lemma opening_panics34 L file : calm L -> lenN file < 2 ^ 63 -> open_archive L file = Panic -> opening_trap L file.
Proof. intros HL. exact (open_panics34 L HL file). Qed.
Lemma lookup_panics34 L file a name : calm L -> lenN file < 2 ^ 63 -> open_archive L file = Ok a ->
  find_file a name = Panic -> lookup_trap a.
Proof. intros HL Hlen H. exact (proj1 (find_neat a name (opened_neat L HL file a Hlen H))). Qed.
Lemma reading_panics34 L file a name : calm L -> lenN file < 2 ^ 63 -> open_archive L file = Ok a ->
  read_file L a name = Panic ->
  lookup_trap a \/ exists fi, find_file a name = Ok (Some fi) /\
    (trap L a fi (reading_key a name fi) \/ scale_trap L a fi (reading_key a name fi)).
Proof. intros HL Hlen H. exact (read_neat L HL a name (opened_neat L HL file a Hlen H)). Qed.
Lemma listing_panics34 L file a : calm L -> lenN file < 2 ^ 63 -> open_archive L file = Ok a ->
  (list_all a = Panic \/ list_all_with_hashes a = Panic -> lookup_trap a) /\
  (list_files L a = Panic \/ list_with_hashes L a = Panic ->
   lookup_trap a \/ exists fi, find_file a (lit "(listfile)") = Ok (Some fi) /\
     (trap L a fi (reading_key a (lit "(listfile)") fi) \/ scale_trap L a fi (reading_key a (lit "(listfile)") fi))).
Proof.
  intros HL Hlen H. pose proof (opened_neat L HL file a Hlen H) as T. split.
  - intros [E|E]; exact (list_tables_neat a _ T E).
  - intros [E|E]; [exact (list_neat L HL a T E)|]. apply (list_neat L HL a T).
    unfold list_with_hashes in E. destruct (list_files L a); cbn [bind] in E; try discriminate. reflexivity.
Qed.
