(** * Lemmas on the memory that opening archives of all versions asks for. *)
From Verif Require Import Bytes Crypto CryptoFacts HashTable BlockTable Header Compress Listfile Attributes HetBet Archive
  SpecHostile HostileFacts InfoFacts Archive34Facts Hostile34Facts SpecErrors ErrorFacts Memory SpecMemory MemoryFacts.
Open Scope N_scope.

Section L.
Variable L : codecs.
Hypothesis HL : plain_failures L.
Variable file : bytes.

Definition low : N := N.max (2 ^ 34) (2 * lenN file).

Lemma table_len d key : lenN (if key =? 0 then d else decrypt_table_data d key) = lenN d.
Proof. destruct (key =? 0); [reflexivity|]. unfold lenN. now rewrite decrypt_table_data_length. Qed.

(** The data of an extended table *)
Lemma ext_upto sig o size key n : In n (ext_asks sig file o size key) ->
  n = size \/ n <= low.
Proof.
  unfold ext_asks, sought. destruct (2 ^ 63 <=? o); [intros []|]. intros [H|H]; [auto|right].
  revert n H. apply Forall_forall. change (upto low (after (read_at file o size) (fun data =>
    if lenN data <? 12 then [] else if negb (le_dec (firstn 4 data) =? sig) then []
    else let ds := le_dec (firstn 4 (skipn 8 data)) in let body := skipn 12 data in
         let body := if key =? 0 then body else decrypt_table_data body key in
         if lenN data <? ds + 12 then expand_asks body ds else []))).
  apply upto_after. intros data R. pose proof (read_at_fits _ _ _ _ R) as F. apply read_at_length in R.
  apply upto_if; [apply upto_nil|]. apply upto_if; [apply upto_nil|]. cbv zeta. apply upto_if; [|apply upto_nil].
  eapply upto_le; [|apply expand_upto]. rewrite table_len.
  assert (H1 : lenN (skipn 12 data) <= lenN file).
  { unfold lenN in *. rewrite skipn_length. lia. }
  assert (H2 : le_dec (firstn 4 (skipn 8 data)) < 2 ^ 32).
  { eapply N.lt_le_trans; [apply le_dec_lt|]. rewrite firstn_length. change (2 ^ 32) with (256 ^ 4).
    apply N.pow_le_mono_r; [discriminate|]. lia. }
  unfold low. clear - H1 H2. change (2 ^ 34) with (4 * 2 ^ 32). set (p := 2 ^ 32) in *. clearbody p. lia.
Qed.
Lemma ext_size sig o size key b : ext_read L sig file o size key = Ok b -> size <= lenN file.
Proof. unfold ext_read. intros H. unbind H E. exact (read_at_fits _ _ _ _ E). Qed.

Lemma stated_of h pos size_of (f : v4data -> N) p s :
  (forall q, size_of p = Ok q -> exists x, (x = get_hash_table_pos h \/ h_bet_pos h = Some x) /\ p + q = x) ->
  pos = Some p ->
  (match h_version h with V3 => if match h_v4 h with Some v => f v | None => 0 end =? 0 then size_of p else Ok (match h_v4 h with Some v => f v | None => 0 end)
   | _ => Ok (match h_v4 h with Some v => f v | None => 0 end) end = Ok s) -> s <> 0 ->
  stated_size h pos f s.
Proof.
  intros Hs -> H Z. assert (K : s = match h_v4 h with Some v => f v | None => 0 end -> stated_size h (Some p) f s).
  { intros E. destruct (h_v4 h) as [v|] eqn:V; [|congruence]. left. exists v. auto. }
  destruct (h_version h); try (apply Ok_inj in H; now apply K).
  destruct (_ =? 0); [|apply Ok_inj in H; now apply K].
  destruct (Hs s H) as (q & Hq & E). right. exists p, q. auto.
Qed.
Lemma bet_stated h p s : bet_table_size h p = Ok s -> exists q, (q = get_hash_table_pos h \/ h_bet_pos h = Some q) /\ p + s = q.
Proof.
  unfold bet_table_size, sub_chk. destruct (N.ltb_spec (get_hash_table_pos h) p); [discriminate|]. intros E. apply Ok_inj in E.
  exists (get_hash_table_pos h). split; [auto|]. lia.
Qed.
Lemma het_stated h p s : het_table_size h p = Ok s -> exists q, (q = get_hash_table_pos h \/ h_bet_pos h = Some q) /\ p + s = q.
Proof.
  unfold het_table_size. destruct (h_bet_pos h) as [b|] eqn:B.
  - destruct (N.ltb_spec p b) as [C|C].
    + intros E. apply Ok_inj in E. exists b. split; [auto|]. lia.
    + intros E. destruct (bet_stated h p s E) as (q & [Q|Q] & K); exists q; [auto|]. rewrite B in Q. auto.
  - intros E. destruct (bet_stated h p s E) as (q & [Q|Q] & K); exists q; [auto|]. rewrite B in Q. discriminate.
Qed.

Lemma load_in {T} (off : N) (h : header) (pos : option N) (f : v4data -> N) (size_of : N -> res N) (rd : N -> N -> res T) (asks : N -> N -> list N) (t : option T) n :
  (forall p q, size_of p = Ok q -> exists x, (x = get_hash_table_pos h \/ h_bet_pos h = Some x) /\ p + q = x) ->
  load_ext off pos (match h_v4 h with Some v => f v | None => 0 end) (h_version h) size_of rd = Ok t ->
  In n (load_asks off pos (match h_v4 h with Some v => f v | None => 0 end) (h_version h) size_of asks) ->
  exists o s, In n (asks o s) /\ stated_size h pos f s /\ (forall x, t = Some x -> rd o s = Ok x).
Proof.
  intros Hs. unfold load_ext, load_asks. destruct pos as [p|]; [|intros _ []]. destruct (p =? 0); [intros _ []|].
  match goal with |- bind ?X _ = _ -> _ => destruct X as [s| |] eqn:E end; cbn [bind after]; try discriminate.
  destruct (N.eqb_spec s 0) as [Z|Z]; [intros _ []|].
  destruct (add64 off p) as [o| |]; cbn [bind after]; try discriminate. intros Hr Hn.
  exists o, s. split; [exact Hn|]. split; [exact (stated_of h (Some p) size_of f p s (Hs p) eq_refl E Z)|].
  intros x ->. destruct (rd o s); [|discriminate|discriminate]. apply Ok_inj in Hr. congruence.
Qed.

Lemma het_asks_in off h het n :
  load_ext off (h_het_pos h) (v4_het h) (h_version h) (het_table_size h) (fun o s => het_read L file o s ht_key) = Ok het ->
  In n (load_asks off (h_het_pos h) (v4_het h) (h_version h) (het_table_size h) (fun o s => ext_asks HET_SIG file o s ht_key)) ->
  n <= low \/ het = None /\ stated_size h (h_het_pos h) v4_het_size n.
Proof.
  intros E Hn. destruct (load_in off h (h_het_pos h) v4_het_size _ _ _ het n (het_stated h) E Hn) as (o & s & I & S & R).
  destruct (ext_upto _ _ _ _ _ I) as [->|I']; [|auto]. destruct het as [x|]; [left|right; auto].
  specialize (R x eq_refl). unfold het_read in R. unbind R X. apply ext_size in X. unfold low. lia.
Qed.
Lemma bet_asks_in off h bet n :
  load_ext off (h_bet_pos h) (v4_bet h) (h_version h) (bet_table_size h) (fun o s => bet_read L file o s bt_key) = Ok bet ->
  In n (load_asks off (h_bet_pos h) (v4_bet h) (h_version h) (bet_table_size h) (fun o s => bet_asks L file o s bt_key)) ->
  n <= low \/ bet = None /\ (stated_size h (h_bet_pos h) v4_bet_size n \/ n <= 2 ^ 61) \/ exists b, bet = Some b /\ n <= lenN (bet_table b).
Proof.
  intros E Hn. destruct (load_in off h (h_bet_pos h) v4_bet_size _ _ _ bet n (bet_stated h) E Hn) as (o & s & I & S & R).
  unfold bet_asks in I. apply in_app_iff in I as [I|I].
  - destruct (ext_upto _ _ _ _ _ I) as [->|I']; [|auto]. destruct bet as [x|]; [left|right; left; auto].
    specialize (R x eq_refl). unfold bet_read in R. unbind R X. apply ext_size in X. unfold low. lia.
  - destruct (ext_read L BET_SIG file o s bt_key) as [body| |] eqn:X; cbn [after] in I; try contradiction.
    destruct (lenN body <? 76) eqn:Lb; [contradiction|]. cbv zeta in I.
    assert (B : forall i, word_at body i < 2 ^ 32) by (intros i; apply word_at_bound).
    destruct I as [<-|I].
    { left. pose proof (B 18%nat) as B1. unfold low. change (2 ^ 34) with (4 * 2 ^ 32). lia. }
    destruct (slice 0 (word_at body 18 * 4) (skipn 76 body)) as [fl|] eqn:S1; cbn [of_option after] in I; [|contradiction].
    destruct I as [<-|I].
    { destruct bet as [b|].
      - right; right. exists b. split; [reflexivity|]. specialize (R b eq_refl). unfold bet_read in R. rewrite X in R. cbn [bind] in R.
        rewrite Lb in R. cbv zeta in R. rewrite S1 in R. cbn [of_option bind] in R. unbind R S2. unbind R S3. apply Ok_inj in R. subst b.
        cbn [bet_table]. destruct (slice _ _ _) as [tb|] eqn:S4 in S2; [|discriminate]. cbn [of_option] in S2. apply Ok_inj in S2. subst.
        apply slice_length in S4. rewrite S4. apply N.le_refl.
      - right; left. split; [reflexivity|]. right. pose proof (B 1%nat) as B1. pose proof (B 3%nat) as B3.
        set (x := word_at body 1) in *. set (y := word_at body 3) in *. clearbody x y. clear - B1 B3.
        unfold div_ceil. assert (K : x * y + 8 - 1 < 2 ^ 61 * 8 + 8); [|].
        + assert (x * y <= 2 ^ 32 * 2 ^ 32) by (apply N.mul_le_mono; lia). change (2 ^ 61 * 8) with (2 ^ 32 * 2 ^ 32).
          set (z := 2 ^ 32 * 2 ^ 32) in *. clearbody z. lia.
        + assert ((x * y + 8 - 1) / 8 < 2 ^ 61 + 1); [|lia]. apply N.div_lt_upper_bound; [discriminate|].
          set (z := 2 ^ 61) in *. clearbody z. lia. }
    match type of I with In _ (after (of_option _ ?X) _) => destruct X as [tb|] end; cbn [of_option after] in I; [|contradiction].
    destruct I as [<-|[]]. left. pose proof (B 17%nat) as B1. unfold low. change (2 ^ 34) with (4 * 2 ^ 32).
    pose proof (N.mul_div_le (word_at body 17) 8 ltac:(discriminate)). lia.
Qed.

(** The attributes *)
Lemma attributes_in a n : a_file a = file -> a_attrs a = None -> (forall bt, a_block a = Some bt -> lenN bt * 16 <= lenN file) ->
  (exists b, load_attributes L a = Ok b) -> In n (attributes_asks L a) ->
  n <= 25 * lenN file \/ (exists b, a_bet a = Some b /\ a_block a = None /\ n <= 400 * bet_count b) \/
  exists fi d, find_file a (lit "(attributes)") = Ok (Some fi) /\ read_file L a (lit "(attributes)") = Ok d /\
    (n <= 4 * fi_size fi \/ n <= 2 * lenN d).
Proof.
  intros Hf Ha Hb (b & Hl) Hn. unfold attributes_asks in Hn. unfold load_attributes in Hl. rewrite Ha in Hn, Hl.
  change ATTRIBUTES with (lit "(attributes)") in *.
  destruct (read_file L a (lit "(attributes)")) as [d|e|] eqn:R; [| |discriminate].
  2:{ exfalso. rewrite app_nil_r in Hn. unfold read_asks in Hn.
      destruct e; try discriminate Hl. apply (read_absent L HL) in R. rewrite R in Hn. exact Hn. }
  destruct (read_success L a _ d R) as (fi & F & U & _).
  apply in_app_iff in Hn as [Hn|Hn].
  { unfold upto in U. rewrite Forall_forall in U. specialize (U _ Hn). rewrite Hf in U.
    apply N.max_le in U as [U|U]; [left; clear - U; lia|]. right; right. exists fi, d. auto. }
  cbn [after] in Hn. destruct (a_block a) as [bt|] eqn:Eb.
  - cbn [after] in Hn. pose proof (attributes_rest L bt d (lenN file) (Hb bt eq_refl)) as K. unfold upto in K.
    rewrite Forall_forall in K. specialize (K _ Hn). apply N.max_le in K as [K|K]; [auto|]. right; right. exists fi, d. auto.
  - destruct (a_bet a) as [x|] eqn:Ex; [|contradiction]. cbn [after] in Hn.
    apply in_app_iff in Hn as [Hn|Hn].
    + pose proof (unwrap_upto d (bet_count x)) as K. unfold upto in K. rewrite Forall_forall in K. specialize (K _ Hn).
      apply N.max_le in K as [K|K]; [right; right; exists fi, d; auto|]. right; left. exists x. auto.
    + assert (K : upto (48 * bet_count x) (after (attr_unwrap L d (bet_count x)) (fun d => attr_asks d (bet_count x)))).
      { apply upto_after. intros d' _. apply attr_asks_upto. }
      unfold upto in K. rewrite Forall_forall in K. specialize (K _ Hn). right; left. exists x. split; [reflexivity|]. split; [reflexivity|]. lia.
Qed.

Lemma hash_fits o n t : ht_read file o n = Ok t -> 16 * n <= lenN file.
Proof.
  clear. unfold ht_read. destruct (is_power_of_two n); [|discriminate]. destruct (slice o (n * 16) file) eqn:E; [|discriminate].
  intros _. apply slice_fits in E. lia.
Qed.
Lemma block_fits o n t : bt_read file o n = Ok t -> 16 * n <= lenN file.
Proof. clear. unfold bt_read. intros H. unbind H E. apply read_at_fits in E. lia. Qed.
Lemma high_fits o n t : hi_read file o n = Ok t -> 2 * n <= lenN file.
Proof. clear. unfold hi_read. intros H. unbind H E. apply read_at_fits in E. lia. Qed.
Lemma in_low n : n <= low -> n <= 2 ^ 34 \/ n <= 25 * lenN file.
Proof. unfold low. intros H. apply N.max_le in H as [H|H]; [auto|right; lia]. Qed.

Lemma open_in a n : open_archive L file = Ok a -> In n (open_asks L file) -> opening_request L file a n.
Proof.
  unfold open_archive, open_with_options, open_asks. destruct (find_header file) as [[[off ud] h]| |] eqn:Hh; cbn [bind after]; try discriminate.
  destruct (find_header_off _ _ _ _ Hh) as [Ho (K1 & K2 & K3)].
  unfold load_tables. cbn [a_header a_file a_off a_user a_hash a_block a_hi a_het a_bet a_attrs]. unfold extended_asks.
  intros H Hn.
  assert (Ext : exists het bet,
     (if version_ge (h_version h) V3 then
        het <- load_ext off (h_het_pos h) (v4_het h) (h_version h) (het_table_size h) (fun o s => het_read L file o s ht_key) ;;
        bet <- load_ext off (h_bet_pos h) (v4_bet h) (h_version h) (bet_table_size h) (fun o s => bet_read L file o s bt_key) ;;
        Ok (het, bet)
      else Ok (None, None)) = Ok (het, bet) /\
     (if version_ge (h_version h) V3 then
        het <- load_ext off (h_het_pos h) (v4_het h) (h_version h) (het_table_size h) (fun o s => het_read L file o s ht_key) ;;
        bet <- load_ext off (h_bet_pos h) (v4_bet h) (h_version h) (bet_table_size h) (fun o s => bet_read L file o s bt_key) ;;
        Ok (match het with Some t => Some t | None => None end, match bet with Some t => Some t | None => None end)
      else Ok (None, None)) = Ok (het, bet) /\
     (In n (if version_ge (h_version h) V3 then
         load_asks off (h_het_pos h) (v4_het h) (h_version h) (het_table_size h) (fun o s => ext_asks HET_SIG file o s ht_key) ++
         after (load_ext off (h_het_pos h) (v4_het h) (h_version h) (het_table_size h) (fun o s => het_read L file o s ht_key)) (fun _ =>
         load_asks off (h_bet_pos h) (v4_bet h) (h_version h) (bet_table_size h) (fun o s => bet_asks L file o s bt_key))
       else []) ->
      n <= low \/ (het = None /\ stated_size h (h_het_pos h) v4_het_size n) \/
      (version_ge (h_version h) V3 = true /\ bet = None /\ (stated_size h (h_bet_pos h) v4_bet_size n \/ n <= 2 ^ 61)) \/ exists b, bet = Some b /\ n <= lenN (bet_table b))).
  { destruct (version_ge (h_version h) V3); [|exists None, None; split; [reflexivity|split; [reflexivity|intros []]]].
    destruct (load_ext off (h_het_pos h) (v4_het h) (h_version h) (het_table_size h) (fun o s => het_read L file o s ht_key)) as [het| |] eqn:E1;
      cbn [bind] in *; try discriminate H.
    destruct (load_ext off (h_bet_pos h) (v4_bet h) (h_version h) (bet_table_size h) (fun o s => bet_read L file o s bt_key)) as [bet| |] eqn:E2;
      cbn [bind] in *; try discriminate H.
    exists het, bet. split; [reflexivity|]. split; [destruct het, bet; reflexivity|]. intros I. apply in_app_iff in I as [I|I].
    - destruct (het_asks_in _ _ _ _ E1 I); auto.
    - cbn [after] in I. destruct (bet_asks_in _ _ _ _ E2 I) as [?|[[? ?]|?]]; auto 10. }
  destruct Ext as (het & bet & X1 & X2 & Hext). rewrite X2 in H. rewrite X1 in Hn. cbn [bind after] in H, Hn. clear X1 X2.
  cbv zeta in H, Hn.
  set (nd := match valid_het_bet _ with None => true | Some _ => 0 <? h_hash_count h end) in *. clearbody nd.
  assert (Cls : exists ht bt,
     (if nd then ho <- add64 off (get_hash_table_pos h) ;; ht <- ht_read file ho (h_hash_count h) ;;
        bo <- add64 off (get_block_table_pos h) ;; bt <- bt_read file bo (h_block_count h) ;; Ok (Some ht, Some bt) else Ok (None, None)) = Ok (ht, bt) /\
     (forall t, bt = Some t -> lenN t * 16 <= lenN file) /\
     (In n (if nd then classic_asks file off h else []) -> n <= lenN file)).
  { destruct nd; [|exists None, None; split; [reflexivity|split; [discriminate|intros []]]]. unfold classic_asks.
    destruct (add64 off (get_hash_table_pos h)) as [ho| |]; cbn [bind after] in *; try discriminate H.
    destruct (ht_read file ho (h_hash_count h)) as [ht| |] eqn:R1; cbn [bind after] in *; try discriminate H.
    destruct (add64 off (get_block_table_pos h)) as [bo| |]; cbn [bind after] in *; try discriminate H.
    destruct (bt_read file bo (h_block_count h)) as [bt| |] eqn:R2; cbn [bind after] in *; try discriminate H.
    pose proof R1 as F1. apply hash_fits in F1. pose proof R2 as F2. apply block_fits in F2.
    exists (Some ht), (Some bt). split; [reflexivity|]. split.
    - intros t Et. injection Et as <-. destruct (bt_read_ok _ _ _ _ R2) as [_ ->]. lia.
    - assert (U : upto (lenN file) (ht_asks file ho (h_hash_count h) ++ bt_asks file bo (h_block_count h))).
      { apply upto_app.
        - unfold ht_asks. apply upto_if; [|apply upto_nil]. apply upto_sought, upto_cons; [exact F1|]. apply upto_after. intros. apply upto_cons; [exact F1|apply upto_nil].
        - unfold bt_asks. apply upto_sought, upto_cons; [exact F2|]. apply upto_after. intros. apply upto_cons; [exact F2|apply upto_nil]. }
      unfold upto in U. rewrite Forall_forall in U. specialize (U n). intros I; exact (U I). }
  destruct Cls as (ht & bt & X1 & Hbt & Hcls). rewrite X1 in H, Hn. cbn [bind after] in H, Hn. clear X1.
  assert (High : exists hi,
     match h_hi_pos h with
     | Some p => if p =? 0 then Ok None else o <- add64 off p ;; t <- hi_read file o (h_block_count h) ;; Ok (Some t)
     | None => Ok None end = Ok hi /\ (In n (high_asks off h) -> n <= lenN file)).
  { unfold high_asks. destruct (h_hi_pos h) as [p|]; [|exists None; split; [reflexivity|intros []]].
    destruct (p =? 0); [exists None; split; [reflexivity|intros []]|].
    destruct (add64 off p) as [o| |]; cbn [bind after] in *; try discriminate H.
    destruct (hi_read file o (h_block_count h)) as [t| |] eqn:R; cbn [bind] in *; try discriminate H.
    exists (Some t). split; [reflexivity|]. pose proof R as F. apply high_fits in F. unfold hi_asks, sought.
    destruct (_ <=? _); [intros []|]. intros [<-|[]]. exact F. }
  destruct High as (hi & X1 & Hhigh). rewrite X1 in H, Hn. cbn [bind after] in H, Hn. clear X1.
  set (a0 := mkA file off ud h ht bt hi het bet None) in *.
  pose proof H as Hsame. apply (Archive34Facts.load_attributes_same L) in Hsame as (x & Ea).
  assert (Q1 : a_het a = het) by (rewrite Ea; reflexivity). assert (Q2 : a_bet a = bet) by (rewrite Ea; reflexivity).
  assert (Q3 : a_header a = h) by (rewrite Ea; reflexivity). assert (Q4 : a_block a = bt) by (rewrite Ea; reflexivity).
  apply in_app_iff in Hn as [Hn|Hn].
  { destruct (Hext Hn) as [K|[[K1' K]|[(K0 & K1' & [K|K])|(b & K1' & K)]]].
    - destruct (in_low n K); [now apply request_packed|now apply request_size].
    - apply request_het; [congruence|]. now rewrite Q3.
    - apply request_bet; [congruence|]. now rewrite Q3.
    - apply request_entries; [congruence|congruence|exact K].
    - apply (request_body L file a n b); [congruence|exact K]. }
  apply in_app_iff in Hn as [Hn|Hn]; [apply request_size; specialize (Hcls Hn); lia|].
  apply in_app_iff in Hn as [Hn|Hn]; [apply request_size; specialize (Hhigh Hn); lia|].
  destruct (attributes_in a0 n eq_refl eq_refl Hbt (ex_intro _ a H) Hn) as [K|[(b & K1' & K2' & K)|(fi & d & F & R & K)]].
  - now apply request_size.
  - cbn [a0 a_bet a_block] in K1', K2'. apply (request_count L file a n b); [congruence|congruence|exact K].
  - apply (request_attributes L file a n fi d); [|  |exact K]; rewrite Ea; assumption.
Qed.
End L.

Lemma opening_requests L file a n : plain_failures L -> open_archive L file = Ok a -> In n (open_asks L file) -> opening_request L file a n.
Proof. intros HL. exact (open_in L HL file a n). Qed.
