(** * Lemmas on the memory that opening and reading ask for. *)
From Verif Require Import Bytes Crypto CryptoFacts HashTable BlockTable Header Compress Listfile Attributes HetBet Archive
  SpecHostile HostileFacts InfoFacts Archive34Facts Memory SpecMemory.
Open Scope N_scope.

Definition upto (b : N) (l : list N) : Prop := Forall (fun n => n <= b) l.
Lemma upto_nil b : upto b [].
Proof. apply Forall_nil. Qed.
Lemma upto_cons b n l : n <= b -> upto b l -> upto b (n :: l).
Proof. intros H1 H2. apply Forall_cons; assumption. Qed.
Lemma upto_app b l m : upto b l -> upto b m -> upto b (l ++ m).
Proof. intros. apply Forall_app. now split. Qed.
Lemma upto_le b c l : b <= c -> upto b l -> upto c l.
Proof. intros H. apply Forall_impl. intros; lia. Qed.
Lemma upto_after {A} b (r : res A) k : (forall x, r = Ok x -> upto b (k x)) -> upto b (after r k).
Proof. destruct r; cbn [after]; intros H; [now apply H|apply upto_nil|apply upto_nil]. Qed.
Lemma upto_sought b off l : upto b l -> upto b (sought off l).
Proof. unfold sought. destruct (_ <=? _); intros; [apply upto_nil|assumption]. Qed.
Lemma upto_if b (c : bool) l m : upto b l -> upto b m -> upto b (if c then l else m).
Proof. now destruct c. Qed.

Lemma slice_fits off len d s : slice off len d = Some s -> off + len <= lenN d.
Proof. intros H. destruct (N.le_gt_cases (off + len) (lenN d)) as [C|C]; [exact C|]. apply slice_None in C. congruence. Qed.
Lemma read_at_fits file off len s : read_at file off len = Ok s -> len <= lenN file.
Proof.
  unfold read_at. destruct (slice off len file) as [x|] eqn:E.
  - intros _. apply slice_fits in E. lia.
  - destruct (2 ^ 63 <=? off); [discriminate|]. destruct (2 ^ 63 <=? len); [discriminate|].
    destruct (N.eqb_spec len 0) as [->|]; [|discriminate]. intros _. apply N.le_0_l.
Qed.
Lemma deciphered_len raw flags key : lenN (if is_encrypted flags then decrypt_file_data raw key else raw) = lenN raw.
Proof. destruct (is_encrypted flags); [|reflexivity]. unfold lenN. now rewrite decrypt_data_length. Qed.

Lemma unpack_upto d m size : upto (N.max (2 * lenN d) (4 * size)) (unpack_asks d m size).
Proof.
  unfold unpack_asks. destruct d as [|x d]; [apply upto_nil|]. set (y := x :: d).
  assert (H1 : upto (N.max (2 * lenN y) (4 * size)) [size]) by (apply upto_cons; [clear; lia|apply upto_nil]).
  destruct (from_flags m); try exact H1; try apply upto_nil.
  apply upto_app; [|exact H1]. destruct (bit _ _); [|apply upto_if; [|apply upto_nil]];
    (apply upto_cons; [clear; lia|apply upto_nil]).
Qed.
Lemma expand_upto d size : upto (N.max (2 * lenN d) (4 * size)) (expand_asks d size).
Proof.
  unfold expand_asks. destruct d as [|m c]; [apply upto_nil|]. eapply upto_le; [|apply unpack_upto].
  unfold lenN. cbn [length]. lia.
Qed.

Section L.
Variable L : codecs.

(** ** Sectors *)
Lemma sectors_success file pos fsize ss flags key : forall offs i out d,
  read_sectors L file pos fsize ss flags key offs i out = Ok d ->
  upto (N.max (2 * lenN file) (4 * fsize)) (sector_asks L file pos fsize ss flags key offs i out).
Proof.
  induction offs as [|s r IH]; intros i out d H; [apply upto_nil|]. destruct r as [|e r]; [apply upto_nil|].
  cbn [read_sectors] in H. cbn [sector_asks]. destruct (e <? s); [discriminate|]. cbv zeta in *.
  destruct (sub_chk fsize (lenN out)) as [rem| |] eqn:E1; cbn [bind] in H; try discriminate H. cbn [after].
  destruct (add64 pos s) as [p| |] eqn:E2; cbn [bind] in H; try discriminate H. cbn [after].
  destruct (read_at file p (e - s)) as [raw| |] eqn:E3; cbn [bind] in H; try discriminate H. cbn [after].
  assert (Hrem : rem <= fsize).
  { unfold sub_chk in E1. destruct (fsize <? lenN out); [discriminate|]. apply Ok_inj in E1. subst rem. clear. lia. }
  pose proof (read_at_fits _ _ _ _ E3) as Hf. pose proof (read_at_length _ _ _ _ E3) as Hl.
  apply upto_cons; [clear - Hf; lia|]. apply upto_app.
  - apply upto_if; [|apply upto_nil]. eapply upto_le; [|apply expand_upto]. rewrite deciphered_len, Hl. clear - Hf Hrem. lia.
  - match type of H with bind ?X _ = _ => destruct X as [sec| |] eqn:E4; cbn [bind] in H; try discriminate H end.
    cbn [after]. exact (IH _ _ _ H).
Qed.
Lemma sectors_any file pos fsize ss flags key : forall offs i out, Forall (fun v => v < M32) offs ->
  upto (N.max (2 * M32) (4 * fsize)) (sector_asks L file pos fsize ss flags key offs i out).
Proof.
  induction offs as [|s r IH]; intros i out H; [apply upto_nil|]. destruct r as [|e r]; [apply upto_nil|].
  cbn [sector_asks]. destruct (e <? s); [apply upto_nil|]. cbv zeta. apply upto_after. intros rem E1.
  assert (Hrem : rem <= fsize).
  { unfold sub_chk in E1. destruct (fsize <? lenN out); [discriminate|]. apply Ok_inj in E1. subst rem. clear. lia. }
  assert (He : e < M32) by (inversion_clear H as [|? ? _ H']; now inversion_clear H').
  apply upto_after. intros p _. apply upto_cons; [clear - He; lia|]. apply upto_after. intros raw E3.
  pose proof (read_at_length _ _ _ _ E3) as Hl. apply upto_app.
  - apply upto_if; [|apply upto_nil]. eapply upto_le; [|apply expand_upto]. rewrite deciphered_len, Hl. clear - He Hrem. lia.
  - apply upto_after. intros sec _. apply IH. now inversion_clear H.
Qed.

(** ** Reading a file *)
Lemma find_block a name fi : valid_het_bet a = None -> find_file a name = Ok (Some fi) ->
  exists bt b, a_block a = Some bt /\ nthN bt (fi_block fi) = Some b /\ be_size b = fi_size fi.
Proof.
  intros V. unfold find_file. rewrite V. unfold find_file_classic. intros H.
  unbind H E1. unbind H E2. unbind H E3.
  destruct a2 as [[hi e]|]; [|discriminate]. unbind H E4. unbind H E5. injection H as <-.
  destruct (a_block a) as [bt|]; [|discriminate]. cbn in E2. injection E2 as <-.
  destruct (nthN bt (he_block e)) as [b|] eqn:E; [|discriminate]. cbn in E4. injection E4 as <-. exists bt, b. auto.
Qed.
Lemma declared_size a name fi ks : find_file a name = Ok (Some fi) ->
  match a_het a, a_bet a with
  | Some _, Some _ => Ok (w32 (fi_size fi), fi_size fi)
  | _, _ => bt <- of_option EInvalidFormat (a_block a) ;; b <- of_option EBlockTable (nthN bt (fi_block fi)) ;; Ok (be_size b, be_size b)
  end = Ok ks -> snd ks = fi_size fi.
Proof.
  intros F H.
  assert (C : (exists h b, a_het a = Some h /\ a_bet a = Some b) \/ (valid_het_bet a = None /\
    (bt <- of_option EInvalidFormat (a_block a) ;; b <- of_option EBlockTable (nthN bt (fi_block fi)) ;; Ok (be_size b, be_size b)) = Ok ks)).
  { unfold valid_het_bet. destruct (a_het a) as [h|], (a_bet a) as [b|]; eauto. }
  destruct C as [(h & b & E1 & E2)|[V E]].
  - rewrite E1, E2 in H. apply Ok_inj in H. now subst ks.
  - destruct (find_block _ _ _ V F) as (bt & b & E1 & E2 & E3). rewrite E1 in E. cbn [of_option bind] in E.
    rewrite E2 in E. cbn [of_option bind] in E. apply Ok_inj in E. now subst ks.
Qed.

Lemma read_success a name d : read_file L a name = Ok d ->
  exists fi, find_file a name = Ok (Some fi) /\
    upto (N.max (2 * lenN (a_file a)) (4 * fi_size fi)) (read_asks L a name) /\
    (is_compressed (fi_flags fi) = false -> upto (lenN (a_file a)) (read_asks L a name)).
Proof.
  unfold read_file, read_asks. intros H. destruct (find_file a name) as [r| |] eqn:F; cbn [bind] in H; try discriminate H.
  destruct r as [fi|]; [|discriminate H]. cbn [of_option bind] in H. exists fi. split; [reflexivity|]. cbn [after].
  match type of H with bind ?X _ = _ => destruct X as [ks| |] eqn:E; cbn [bind] in H; try discriminate H end.
  pose proof (declared_size _ _ _ _ F E) as S. cbn [after]. destruct ks as [k0 s0]. cbn [fst snd] in *. subst s0.
  destruct (is_single_unit (fi_flags fi) || negb (is_compressed (fi_flags fi))) eqn:W.
  - unfold read_whole_file in H. unfold whole_asks.
    destruct (read_at (a_file a) (fi_pos fi) (fi_csize fi)) as [raw| |] eqn:R; cbn [bind] in H; try discriminate H.
    cbn [after]. cbv zeta. pose proof (read_at_fits _ _ _ _ R) as Hf. pose proof (read_at_length _ _ _ _ R) as Hl. split.
    + apply upto_sought, upto_cons; [clear - Hf; lia|]. apply upto_if; [|apply upto_nil].
      eapply upto_le; [|apply expand_upto]. rewrite deciphered_len, Hl. clear - Hf. lia.
    + intros ->. apply upto_sought, upto_cons; [exact Hf|apply upto_nil].
  - apply Bool.orb_false_elim in W as [_ W]. apply Bool.negb_false_iff in W. split; [|congruence]. apply upto_sought.
    unfold read_sectored_file in H. unfold sectored_asks.
    destruct (sector_size (h_block_size (a_header a))) as [ss| |]; cbn [bind] in H; try discriminate H. cbn [after].
    destruct (ss =? 0); [discriminate|]. cbv zeta in *. set (n := div_ceil (fi_size fi) ss) in *.
    destruct (read_at (a_file a) (fi_pos fi) ((n + 1) * 4)) as [raw| |] eqn:R; cbn [bind] in H; try discriminate H.
    pose proof (read_at_fits _ _ _ _ R) as Hf. apply upto_cons; [clear - Hf; lia|]. cbn [after].
    apply upto_cons; [clear - Hf; lia|]. apply upto_app; [apply upto_if; [apply upto_cons; [clear - Hf; lia|]|]; apply upto_nil|].
    match type of H with bind ?X _ = _ => destruct X eqn:X1; cbn [bind] in H; try discriminate H end.
    cbn [after]. apply upto_cons; [clear; lia|]. exact (sectors_success _ _ _ _ _ _ _ _ _ _ H).
Qed.

Lemma div_ceil_le a b : div_ceil a b <= a.
Proof.
  unfold div_ceil. destruct (N.eq_dec b 0) as [->|Hb]; [destruct (a + 0 - 1); apply N.le_0_l|].
  destruct (N.eq_dec a 0) as [->|Ha]; [rewrite N.div_small by lia; apply N.le_0_l|].
  assert (H : (a + b - 1) / b < a + 1); [|lia]. apply N.div_lt_upper_bound; [exact Hb|]. nia.
Qed.
Lemma read_any a name : tidy a -> upto (4 * M32) (read_asks L a name).
Proof.
  intros T. unfold read_asks. apply upto_after. intros r F. destruct r as [fi|]; [|apply upto_nil].
  apply upto_after. intros ks E. pose proof (declared_size _ _ _ _ F E) as S. destruct ks as [k0 s0]. cbn [fst snd] in *. subst s0.
  destruct (find_tidy a name T) as [_ Hfi]. destruct (Hfi fi F) as [(_ & Hc & Hs) _]. clear Hfi E F. apply upto_sought, upto_if.
  - unfold whole_asks. apply upto_cons; [clear - Hc; lia|]. apply upto_after. intros raw R. cbv zeta.
    apply read_at_length in R. apply upto_if; [|apply upto_nil]. eapply upto_le; [|apply expand_upto].
    rewrite deciphered_len, R. clear - Hc Hs. lia.
  - unfold sectored_asks. apply upto_after. intros ss _. apply upto_if; [apply upto_nil|]. cbv zeta.
    pose proof (div_ceil_le (fi_size fi) ss) as Hd. set (n := div_ceil (fi_size fi) ss) in *. clearbody n.
    apply upto_cons; [clear - Hd Hs; lia|]. apply upto_after. intros raw _. apply upto_cons; [clear - Hd Hs; lia|].
    apply upto_app; [apply upto_if; [apply upto_cons; [clear - Hd Hs; lia|]|]; apply upto_nil|].
    apply upto_after. intros _ _. apply upto_cons; [clear - Hs; lia|]. eapply upto_le; [|apply sectors_any, le_values_bound].
    clear - Hs. lia.
Qed.

(** ** Attributes *)
Lemma attr_asks_upto d n : upto (48 * n) (attr_asks d n).
Proof.
  unfold attr_asks. apply upto_if; [apply upto_nil|]. apply upto_if; [apply upto_nil|]. apply upto_after. intros size _.
  apply upto_if; [apply upto_nil|]. pose proof (div_ceil_le n 8) as H.
  apply upto_cons; [clear; lia|]. repeat apply upto_app; (apply upto_if; [apply upto_cons; [clear - H; lia|]|]; apply upto_nil).
Qed.
Lemma unwrap_upto d n : upto (N.max (2 * lenN d) (400 * n)) (unwrap_asks d n).
Proof.
  unfold unwrap_asks. destruct d as [|m r]; [apply upto_nil|]. apply upto_if; [|apply upto_nil].
  eapply upto_le; [|apply unpack_upto]. unfold lenN. cbn [length]. lia.
Qed.
Lemma attributes_upto a bt : a_block a = Some bt -> a_attrs a = None ->
  attributes_asks L a = read_asks L a ATTRIBUTES ++
    after (read_file L a ATTRIBUTES) (fun d => unwrap_asks d (lenN bt) ++
      after (attr_unwrap L d (lenN bt)) (fun d => attr_asks d (lenN bt))).
Proof. intros Hb Ha. unfold attributes_asks. rewrite Ha, Hb. reflexivity. Qed.
Lemma attributes_rest (bt : list bentry) (d : bytes) c : lenN bt * 16 <= c ->
  upto (N.max (25 * c) (2 * lenN d)) (unwrap_asks d (lenN bt) ++ after (attr_unwrap L d (lenN bt)) (fun d => attr_asks d (lenN bt))).
Proof.
  intros H. apply upto_app.
  - eapply upto_le; [|apply unwrap_upto]. clear - H. lia.
  - apply upto_after. intros d' _. eapply upto_le; [|apply attr_asks_upto]. clear - H. lia.
Qed.

(** ** Opening *)
Lemma hash_count_small d h : header_read d = Ok h -> h_hash_count h < M32.
Proof.
  unfold header_read. intros H.
  repeat (match type of H with
  | bind (take_le ?k ?x) _ = _ => destruct (take_le k x) as [[? ?]| |] eqn:?; cbn [bind] in H; try discriminate H
  | (if ?c then _ else _) = _ => destruct c; try discriminate H
  | match ?x with Some _ => _ | None => _ end = _ => destruct x; try discriminate H
  | bind (v4_read ?x) _ = _ => destruct (v4_read x); cbn [bind] in H; try discriminate H
  end).
  all: apply Ok_inj in H; subst h; cbn [h_hash_count].
  all: repeat match goal with E : take_le _ _ = Ok _ |- _ => apply take_le_bound in E end.
  all: change (256 ^ 4) with M32 in *; assumption.
Qed.

Section Open.
Variables (file : bytes) (off : N) (ud : option user_data) (h : header).
Hypothesis Hlen : lenN file < 2 ^ 63.
Hypothesis Hh : find_header file = Ok (off, ud, h).
Hypothesis Hv : h_version h = V1 \/ h_version h = V2.

Lemma ht_fits o n t : ht_read file o n = Ok t -> 16 * n <= lenN file.
Proof.
  unfold ht_read. destruct (is_power_of_two n); [|discriminate]. destruct (slice o (n * 16) file) eqn:E; [|discriminate].
  intros _. apply slice_fits in E. lia.
Qed.
Lemma bt_fits o n t : bt_read file o n = Ok t -> 16 * n <= lenN file.
Proof. unfold bt_read. intros H. unbind H E. apply read_at_fits in E. lia. Qed.
Lemma hi_fits o n t : hi_read file o n = Ok t -> 2 * n <= lenN file.
Proof. unfold hi_read. intros H. unbind H E. apply read_at_fits in E. lia. Qed.

(** What is asked for, when the tables are there *)
Lemma open_split : exists rest,
  open_asks L file = classic_asks file off h ++ rest /\
  ((upto (2 * M32) rest /\ forall a, open_archive L file <> Ok a) \/
   exists a, with_tables file a /\ a_header a = h /\ open_archive L file = load_attributes L a /\
             rest = high_asks off h ++ attributes_asks L a).
Proof.
  unfold open_asks. rewrite Hh. cbn [after]. unfold extended_asks.
  replace (version_ge (h_version h) V3) with false by (destruct Hv as [-> | ->]; reflexivity).
  cbn [after app]. cbv zeta. unfold valid_het_bet. cbn [a_het a_bet].
  destruct (find_header_off _ _ _ _ Hh) as [Ho (K1 & K2 & K3)].
  assert (Hhigh : upto (2 * M32) (high_asks off h)).
  { unfold high_asks. destruct (h_hi_pos h) as [p|]; [|apply upto_nil]. apply upto_if; [apply upto_nil|].
    apply upto_after. intros o _. unfold hi_asks. apply upto_sought, upto_cons; [clear - K1; lia|apply upto_nil]. }
  eexists. split; [reflexivity|].
  assert (Eo : open_archive L file = load_tables L (mkA file off ud h None None None None None None)).
  { unfold open_archive, open_with_options. rewrite Hh. reflexivity. }
  revert Eo. unfold load_tables. cbn [a_header a_file a_off a_user a_hash a_block a_hi a_het a_bet a_attrs].
  replace (version_ge (h_version h) V3) with false by (destruct Hv as [-> | ->]; reflexivity).
  cbn [bind]. cbv zeta. unfold valid_het_bet. cbn [a_het a_bet]. intros Eo.
  rewrite add64_ok in *; [|change M64 with (2 ^ 64); lia..]. cbn [bind] in *.
  destruct (ht_read file (off + get_hash_table_pos h) (h_hash_count h)) as [ht|e|] eqn:R1; cbn [bind after] in *; [|left; (split; [apply upto_nil|intros a; rewrite Eo; discriminate])..].
  rewrite add64_ok in *; [|change M64 with (2 ^ 64); lia..]. cbn [bind] in *.
  destruct (bt_read file (off + get_block_table_pos h) (h_block_count h)) as [bt|e|] eqn:R2; cbn [bind after] in *; [|left; (split; [apply upto_nil|intros a; rewrite Eo; discriminate])..].
  assert (Hd : forall hi, match h_hi_pos h with None | Some 0 => hi = None
      | Some p => exists t, hi = Some t /\ hi_read file (off + p) (h_block_count h) = Ok t end ->
      with_tables file (mkA file off ud h (Some ht) (Some bt) hi None None None)).
  { intros hi Hhi. unfold with_tables. cbn [a_header a_file a_off a_user a_hash a_block a_hi a_het a_bet a_attrs].
    split; [reflexivity|]. split; [exact Hh|]. split; [eauto|]. split; [eauto|]. split; [|auto]. exact Hhi. }
  unfold high_asks in *. destruct (h_hi_pos h) as [p|] eqn:Ep.
  - destruct (N.eqb_spec p 0) as [Z|Z].
    + subst p. cbn [bind after app] in *. right. eexists. split; [apply (Hd None); reflexivity|]. split; [reflexivity|]. split; [exact Eo|reflexivity].
    + destruct (add64 off p) as [o| |] eqn:A; cbn [bind after] in *;
        [|left; (split; [apply upto_app; [exact Hhigh|apply upto_nil]|intros a; rewrite Eo; discriminate])..].
      destruct (hi_read file o (h_block_count h)) as [t|e|] eqn:R3; cbn [bind after] in *;
        [|left; (split; [apply upto_app; [exact Hhigh|apply upto_nil]|intros a; rewrite Eo; discriminate])..].
      right. eexists. split; [apply (Hd (Some t)); destruct p; [congruence|]|split; [reflexivity|split; [exact Eo|reflexivity]]].
      exists t. split; [reflexivity|]. unfold add64 in A. destruct (_ <? _); [|discriminate]. apply Ok_inj in A. now subst o.
  - cbn [bind after app] in *. right. eexists. split; [apply (Hd None); reflexivity|]. split; [reflexivity|]. split; [exact Eo|reflexivity].
Qed.


Lemma classic_any : upto (2 ^ 36) (classic_asks file off h).
Proof.
  destruct (find_header_off _ _ _ _ Hh) as [_ (K1 & _ & _)]. pose proof (hash_count_small _ _ (header_at _ _ _ _ Hh)) as K2.
  change M32 with (2 ^ 32) in *. unfold classic_asks. apply upto_after. intros ho _. apply upto_app.
  - unfold ht_asks. apply upto_if; [|apply upto_nil].
    apply upto_sought, upto_cons; [clear - K2; lia|]. apply upto_after. intros. apply upto_cons; [clear - K2; lia|apply upto_nil].
  - apply upto_after. intros ht _. apply upto_after. intros bo _. unfold bt_asks.
    apply upto_sought, upto_cons; [clear - K1; lia|]. apply upto_after. intros. apply upto_cons; [clear - K1; lia|apply upto_nil].
Qed.
(** The tables of an archive that has them *)
Lemma classic_there a : with_tables file a -> a_header a = h -> a_off a = off -> upto (lenN file) (classic_asks file off h ++ high_asks off h).
Proof.
  intros (_ & _ & (ht & _ & R1) & (bt & _ & R2) & R3 & _) Ha Ho. rewrite Ha, Ho in *.
  pose proof (ht_fits _ _ _ R1) as F1. pose proof (bt_fits _ _ _ R2) as F2. apply upto_app.
  - unfold classic_asks. apply upto_after. intros ho _. apply upto_app.
    + unfold ht_asks. apply upto_if; [|apply upto_nil].
      apply upto_sought, upto_cons; [exact F1|]. apply upto_after. intros. apply upto_cons; [exact F1|apply upto_nil].
    + apply upto_after. intros t _. apply upto_after. intros bo _. unfold bt_asks.
      apply upto_sought, upto_cons; [exact F2|]. apply upto_after. intros. apply upto_cons; [exact F2|apply upto_nil].
  - unfold high_asks. destruct (h_hi_pos h) as [p|]; [|apply upto_nil]. destruct (N.eqb_spec p 0) as [Z|Z]; [apply upto_nil|].
    apply upto_after. intros o _. unfold hi_asks. apply upto_sought, upto_cons; [|apply upto_nil].
    destruct p; [congruence|]. destruct R3 as (t & _ & R3). exact (hi_fits _ _ _ R3).
Qed.
Lemma block_room a bt : with_tables file a -> a_block a = Some bt -> lenN bt * 16 <= lenN file.
Proof.
  intros (_ & _ & _ & (t & Et & R) & _) E. rewrite E in Et. injection Et as <-.
  destruct (bt_read_ok _ _ _ _ R) as [_ ->]. pose proof (bt_fits _ _ _ R). lia.
Qed.
Lemma same_off a : with_tables file a -> a_off a = off.
Proof. intros (_ & W & _). rewrite Hh in W. injection W as <- _ _. reflexivity. Qed.

Lemma open_any n : In n (open_asks L file) ->
  n <= 2 ^ 36 \/ n <= 25 * lenN file \/
  exists a d, with_tables file a /\ read_file L a (lit "(attributes)") = Ok d /\ n <= 2 * lenN d.
Proof.
  destruct open_split as (rest & -> & H). intros Hn. apply in_app_iff in Hn as [Hn|Hn].
  { left. pose proof classic_any as C. unfold upto in C. rewrite Forall_forall in C. exact (C _ Hn). }
  assert (Le : 2 * M32 <= 2 ^ 36) by (vm_compute; discriminate).
  destruct H as [[H _]|(a & W & Ha & _ & ->)].
  { left. unfold upto in H. rewrite Forall_forall in H. specialize (H _ Hn). eapply N.le_trans; [exact H|exact Le]. }
  apply in_app_iff in Hn as [Hn|Hn].
  { right; left. pose proof (classic_there a W Ha (same_off a W)) as C. unfold upto in C. rewrite Forall_forall in C.
    specialize (C n (in_or_app _ _ _ (or_intror Hn))). clear - C. lia. }
  pose proof W as (_ & _ & _ & (bt & Hb & _) & _ & _ & _ & Hat).
  rewrite (attributes_upto a bt Hb Hat) in Hn. apply in_app_iff in Hn as [Hn|Hn].
  { left. pose proof (read_any a ATTRIBUTES (with_tables_tidy _ _ Hlen W)) as C. unfold upto in C. rewrite Forall_forall in C.
    specialize (C _ Hn). eapply N.le_trans; [exact C|]. vm_compute. discriminate. }
  change ATTRIBUTES with (lit "(attributes)") in *.
  destruct (read_file L a (lit "(attributes)")) as [d| |] eqn:R; cbn [after] in Hn; [|destruct Hn..].
  pose proof (attributes_rest bt d _ (block_room a bt W Hb)) as C. unfold upto in C. rewrite Forall_forall in C. specialize (C _ Hn).
  right. destruct (N.le_gt_cases n (25 * lenN file)) as [D|D]; [left; exact D|right].
  exists a, d. split; [exact W|]. split; [exact R|]. clear - C D. lia.
Qed.

Lemma open_ok a : open_archive L file = Ok a -> exists b, with_tables file b /\ find_file b = find_file a /\
  read_file L b = read_file L a /\
  open_asks L file = (classic_asks file off h ++ high_asks off h) ++ attributes_asks L b /\ upto (lenN file) (classic_asks file off h ++ high_asks off h) /\
  load_attributes L b = Ok a.
Proof.
  intros H. destruct open_split as (rest & -> & [[_ X]|(b & W & Hb & E & ->)]); [destruct (X _ H)|].
  exists b. split; [exact W|]. rewrite H in E. symmetry in E. rewrite <- app_assoc.
  pose proof (classic_there b W Hb (same_off b W)) as C.
  destruct (Archive34Facts.load_attributes_same L _ _ E) as (x & Ex). rewrite Ex at 1 2.
  split; [reflexivity|]. split; [reflexivity|]. split; [reflexivity|]. split; [exact C|exact E].
Qed.
Lemma open_without a : open_archive L file = Ok a -> find_file a (lit "(attributes)") = Ok None ->
  upto (lenN file) (open_asks L file).
Proof.
  intros H F. destruct (open_ok a H) as (b & W & Ff & Fr & -> & C & E). apply upto_app; [exact C|].
  pose proof W as (_ & _ & _ & (bt & Hb & _) & _ & _ & _ & Hat). rewrite (attributes_upto b bt Hb Hat).
  change ATTRIBUTES with (lit "(attributes)"). unfold read_asks, read_file. rewrite Ff, F. apply upto_nil.
Qed.
Lemma open_with a fi d : open_archive L file = Ok a -> find_file a (lit "(attributes)") = Ok (Some fi) ->
  read_file L a (lit "(attributes)") = Ok d ->
  upto (N.max (25 * lenN file) (N.max (4 * fi_size fi) (2 * lenN d))) (open_asks L file).
Proof.
  intros H F R. destruct (open_ok a H) as (b & W & Ff & Fr & -> & C & E). apply upto_app.
  { eapply upto_le; [|exact C]. clear. lia. }
  pose proof W as (Hf & _ & _ & (bt & Hb & _) & _ & _ & _ & Hat). rewrite (attributes_upto b bt Hb Hat).
  change ATTRIBUTES with (lit "(attributes)"). rewrite Fr, R. cbn [after]. apply upto_app.
  - rewrite <- Fr in R. destruct (read_success _ _ _ R) as (fi' & F' & U & _). rewrite Ff, F in F'. injection F' as <-.
    rewrite Hf in U. eapply upto_le; [|exact U]. clear. lia.
  - eapply upto_le; [|exact (attributes_rest bt d _ (block_room b bt W Hb))]. clear. lia.
Qed.
Lemma read_opened a name : open_archive L file = Ok a -> upto (2 ^ 34) (read_asks L a name).
Proof. intros H. exact (read_any a name (opened_tidy L file off ud h a Hlen Hh Hv H)). Qed.
End Open.
End L.

(** ** In the words of the properties *)
Lemma upto_none b l : upto b l -> none_above b l.
Proof. unfold upto, none_above. now rewrite Forall_forall. Qed.
Lemma reading_asks L a name d : read_file L a name = Ok d ->
  exists fi, find_file a name = Ok (Some fi) /\
    none_above (N.max (2 * lenN (a_file a)) (4 * fi_size fi)) (read_asks L a name) /\
    (~ compressed fi -> none_above (lenN (a_file a)) (read_asks L a name)).
Proof.
  intros H. destruct (read_success L a name d H) as (fi & F & U1 & U2). exists fi. split; [exact F|].
  split; [now apply upto_none|]. intros C. apply upto_none, U2.
  destruct (is_compressed (fi_flags fi)) eqn:E; [|reflexivity]. destruct (C (flag_compressed _ E)).
Qed.
Lemma reading_asks_any L file a name : of_version_1_or_2 file -> open_archive L file = Ok a ->
  none_above (2 ^ 34) (read_asks L a name).
Proof. intros (Hl & off & ud & h & Hh & Hv) H. apply upto_none. exact (read_opened L file off ud h Hl Hh Hv a name H). Qed.
Lemma opening_asks L file a : of_version_1_or_2 file -> open_archive L file = Ok a ->
  (find_file a (lit "(attributes)") = Ok None -> none_above (lenN file) (open_asks L file)) /\
  (forall fi d, find_file a (lit "(attributes)") = Ok (Some fi) -> read_file L a (lit "(attributes)") = Ok d ->
     none_above (N.max (25 * lenN file) (N.max (4 * fi_size fi) (2 * lenN d))) (open_asks L file)).
Proof.
  intros (Hl & off & ud & h & Hh & Hv) H. split.
  - intros F. apply upto_none. exact (open_without L file off ud h Hl Hh Hv a H F).
  - intros fi d F R. apply upto_none. exact (open_with L file off ud h Hl Hh Hv a fi d H F R).
Qed.
Lemma opening_asks_any L file n : of_version_1_or_2 file -> In n (open_asks L file) ->
  n <= 2 ^ 36 \/ n <= 25 * lenN file \/
  exists a d, with_tables file a /\ read_file L a (lit "(attributes)") = Ok d /\ n <= 2 * lenN d.
Proof. intros (Hl & off & ud & h & Hh & Hv). exact (open_any L file off ud h Hl Hh Hv n). Qed.
