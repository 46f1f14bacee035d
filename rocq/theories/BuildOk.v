(** * When building succeeds. *)
From Verif Require Import Bytes Crypto CryptoFacts SpecNames HashTable BlockTable Header Sparse Adpcm Huffman AdpcmFacts
  Compress CompressFacts SpecTables HashTableFacts TableMap Adler Listfile HetBet BitFacts HetBetFacts Builder BuilderFacts
  SpecArchive ArchiveFacts LayoutFacts SpecBuilding BuildCalm.
Open Scope N_scope.

Definition fine {A} (r : res A) : Prop := exists a, r = Ok a.

Lemma fine_ok {A} (a : A) : fine (Ok a).
Proof. now exists a. Qed.
Lemma fine_err {A} e : ~ fine (@Err A e).
Proof. intros [a H]. discriminate. Qed.
Lemma fine_bind {A B} (r : res A) (f : A -> res B) :
  fine (bind r f) <-> exists a, r = Ok a /\ fine (f a).
Proof.
  split.
  - intros [b H]. destruct r as [a| |]; cbn [bind] in H; try discriminate. exists a. split; [reflexivity|now exists b].
  - intros (a & -> & H). exact H.
Qed.
(** Past a step whose result does not matter. *)
Lemma fine_bind_any {A B} (r : res A) (f : A -> res B) (P : Prop) :
  fine r -> (forall a, r = Ok a -> (fine (f a) <-> P)) -> (fine (bind r f) <-> P).
Proof.
  intros [a E] H. rewrite fine_bind, <- (H a E). split.
  - intros (x & Hx & F). rewrite E in Hx. apply Ok_inj in Hx. now subst x.
  - intros F. exists a. now split.
Qed.
Lemma fine_bind_and {A B} (r : res A) (f : A -> res B) (P Q : Prop) :
  (fine r <-> P) -> (forall a, r = Ok a -> (fine (f a) <-> Q)) -> (fine (bind r f) <-> P /\ Q).
Proof.
  intros HP HQ. rewrite fine_bind. split.
  - intros (a & E & F). split; [apply HP; now exists a|now apply (HQ a E)].
  - intros [p q]. apply HP in p as [a E]. exists a. split; [exact E|now apply (HQ a E)].
Qed.

Lemma Forall_iff_ext {A} (P Q : A -> Prop) l : (forall x, In x l -> (P x <-> Q x)) -> (Forall P l <-> Forall Q l).
Proof.
  intros H. rewrite !Forall_forall. split; intros G x Hx; apply (H x Hx); now apply G.
Qed.

Lemma create_het_length12 names t : create_het_table names = Ok t -> 12 <= lenN t.
Proof.
  unfold create_het_table. cbv zeta. intros H.
  repeat match type of H with bind ?r _ = _ => destruct r; cbn [bind] in H; try discriminate H end.
  apply Ok_inj in H. subst t. unfold lenN. rewrite !app_length, !le32_length. lia.
Qed.
Lemma create_bet_length12 names bt t : create_bet_table names bt = Ok t -> 12 <= lenN t.
Proof.
  unfold create_bet_table. cbv zeta. intros H.
  repeat match type of H with bind ?r _ = _ => destruct r; cbn [bind] in H; try discriminate H end.
  apply Ok_inj in H. subst t. unfold lenN. rewrite !app_length, !le32_length. lia.
Qed.

Section Ok.
Variable L : codecs.
Hypothesis Hcalm : calm_encoders L.

Lemma store_form_fine d m : fine (store_form L d m) <-> m = 0 \/ (d <> [] -> fine (compress L d m)).
Proof.
  unfold store_form. destruct (N.eqb_spec m 0) as [Hm|Hm]; cbn [orb].
  { split; [now left|intros _; apply fine_ok]. }
  destruct (N.eqb_spec (lenN d) 0) as [Hd|Hd].
  { apply lenN_0 in Hd. split; [right; congruence|intros _; apply fine_ok]. }
  assert (Hne : d <> []) by (intros ->; now apply Hd).
  rewrite fine_bind. split.
  - intros (a & E & _). right. intros _. now exists a.
  - intros [|H]; [contradiction|]. destruct (H Hne) as [a E]. exists a. split; [exact E|].
    destruct (bytes_eqb a d); apply fine_ok.
Qed.

Lemma store_sectors_fine l m : fine (store_sectors L l m) <-> Forall (fun s => fine (store_form L s m)) l.
Proof.
  induction l as [|s t IH]; cbn [store_sectors]; [split; [constructor|intros _; apply fine_ok]|].
  rewrite Forall_cons_iff. apply fine_bind_and; [reflexivity|]. intros [b x] _.
  rewrite <- IH. rewrite fine_bind. split.
  - intros (a & E & _). now exists a.
  - intros [[r y] E]. exists (r, y). split; [exact E|apply fine_ok].
Qed.

Definition packable_file (c : config) (f : pending) : Prop := packable L c (pf_data f, pf_comp f).

Lemma chunks_packable c f (d := pf_data f) : 
  Forall (fun s => fine (store_form L s (pf_comp f))) (chunks (length d) (sector_bytes c) d) <->
  packable_file c f.
Proof.
  assert (H0 : 0 < sector_bytes c).
  { unfold sector_bytes. assert (2 ^ c_block_size c <> 0) by (apply N.pow_nonzero; lia). lia. }
  unfold packable_file, packable. cbn [fst snd]. fold d. rewrite Forall_forall. split.
  - intros H. destruct (N.eq_dec (pf_comp f) 0) as [|Hm]; [now left|]. right. intros s Hs.
    pose proof Hs as (_ & _ & _ & _ & Hne & _).
    apply (is_sector_chunks _ H0 (length d)) in Hs; [|reflexivity].
    apply H in Hs. apply store_form_fine in Hs as [|Hs]; [contradiction|]. now apply Hs.
  - intros H s Hs. apply store_form_fine. destruct H as [H|H]; [now left|]. right. intros _.
    apply H. now apply (is_sector_chunks _ H0 (length d)) in Hs.
Qed.

Lemma write_file_fine c ss f p :
  sector_size (c_block_size c) = Ok ss -> ss <> 0 -> fits f ->
  (fine (write_file L c ss f p) <-> packable_file c f).
Proof.
  intros Hss Hz Hf. pose proof (sector_size_ok _ _ Hss Hz) as E.
  pose proof (write_file_calm L Hcalm c ss f p Hss Hz Hf) as Hc.
  rewrite <- chunks_packable. change (sector_bytes c) with (512 * 2 ^ c_block_size c). 
  unfold write_file in *. destruct (N.leb_spec (lenN (pf_data f)) ss) as [C|C].
  - unfold write_single. rewrite fine_bind.
    assert (Hch : chunks (length (pf_data f)) (sector_bytes c) (pf_data f) =
                  match pf_data f with [] => [] | _ => [pf_data f] end).
    { rewrite <- E. destruct (pf_data f) as [|x d] eqn:Ed; [reflexivity|]. cbn [chunks length].
      rewrite N.min_r by exact C. unfold lenN. rewrite Nat2N.id, firstn_all, skipn_all.
      destruct (length d); reflexivity. }
    change (512 * 2 ^ c_block_size c) with (sector_bytes c). rewrite Hch. split.
    + intros (a & E1 & _). destruct (pf_data f) eqn:Ed; constructor; [|constructor]. now exists a.
    + intros H. assert (F : fine (store_form L (pf_data f) (pf_comp f))).
      { destruct (pf_data f) eqn:Ed; [|now inversion H]. apply store_form_fine. right. congruence. }
      destruct F as [[b x] F]. exists (b, x). split; [exact F|apply fine_ok].
  - change (512 * 2 ^ c_block_size c) with (sector_bytes c). rewrite <- E. rewrite <- store_sectors_fine.
    unfold write_multi in *. rewrite (proj2 (N.eqb_neq _ _) Hz) in *. cbv zeta in *.
    rewrite fine_bind. split; [intros (a & E1 & _); now exists a|]. intros [[st co] E1].
    exists (st, co). split; [exact E1|]. rewrite E1 in Hc. cbn [bind] in Hc.
    apply fine_bind. destruct (pf_encrypt f) eqn:Ee; [|eexists; split; [reflexivity|apply fine_ok]].
    destruct (enc_sectors _ _ _ _ _) as [x|e|] eqn:Ex.
    + exists x. split; [reflexivity|apply fine_ok].
    + exfalso. revert Ex. apply enc_sectors_no_err.
    + exfalso. apply Hc. reflexivity.
Qed.

Lemma write_files_fine c ss fs : sector_size (c_block_size c) = Ok ss -> ss <> 0 -> Forall fits fs ->
  forall p, fine (write_files L c ss fs p) <-> Forall (packable_file c) fs.
Proof.
  intros Hss Hz H. induction H as [|f fs Hf _ IH]; intros p; cbn [write_files].
  { split; [constructor|intros _; apply fine_ok]. }
  rewrite Forall_cons_iff. apply fine_bind_and; [now apply write_file_fine|]. intros [[out cs] fl] _.
  rewrite <- (IH (p + lenN out)). rewrite fine_bind. split.
  - intros (a & E & _). now exists a.
  - intros [[r y] E]. exists (r, y). split; [exact E|apply fine_ok].
Qed.

Lemma names_fine c fs : table_count c fs < 2 ^ 30 -> no_collision (map pf_name fs) ->
  exists t0, ht_new (calculate_hash_table_size (table_count c fs)) = Ok t0 /\
    (fine (add_files t0 fs 0) <-> all_distinct (map file_key fs)).
Proof.
  intros Hc Hcol. assert (Hle : lenN fs <= table_count c fs) by (unfold table_count; lia).
  destruct (builder_table_map (table_count c fs) (map file_key fs)) as (t0 & E0 & Hcase);
    [unfold lenN in *; rewrite map_length; exact Hle|exact Hc|rewrite map_map; exact Hcol|].
  exists t0. split; [exact E0|].
  rewrite add_files_all by (unfold M32; change (2 ^ 32) with 4294967296; change (2 ^ 30) with 1073741824 in Hc; lia).
  destruct Hcase as [(t & -> & Hd & _)|[-> Hd]].
  - split; [intros _; exact Hd|intros _; apply fine_ok].
  - split; [intros H; now apply fine_err in H|intros H; contradiction].
Qed.

Lemma write_header_fine p : (p_version p = V4 -> p_v4 p <> None) -> fine (write_header p).
Proof.
  intros H. unfold write_header. destruct (p_version p); try apply fine_ok.
  destruct (p_v4 p); [apply fine_ok|]. exfalso. now apply H.
Qed.

Lemma write_archive12_fine c fs : c_version c = V1 \/ c_version c = V2 ->
  c_block_size c < 55 -> table_count c fs < 2 ^ 30 -> Forall fits fs ->
  no_collision (map pf_name fs) ->
  (fine (write_archive12 L c fs) <-> Forall (packable_file c) fs /\ all_distinct (map file_key fs)).
Proof.
  intros Hv Hb Hc Hf Hcol. unfold write_archive12.
  destruct (sector_size_small _ Hb) as (ss & E & Hz). rewrite E. cbn [bind]. cbv zeta.
  destruct (names_fine c fs Hc Hcol) as (t0 & -> & Ha). cbn [bind].
  apply fine_bind_and; [now apply write_files_fine|]. intros [body es] _.
  rewrite <- Ha, fine_bind. split; [intros (a & Ea & _); now exists a|]. intros [t Et].
  exists t. split; [exact Et|]. apply fine_bind.
  destruct (write_header_fine (mkHP (c_version c) (c_block_size c)
     (header_size_of (c_version c) + lenN body + lenN (write_hash_table t) + lenN (write_block_table (map snd es)) +
      lenN match hi_written (version_ge (c_version c) V2) (map fst es) with Some w => w | None => [] end)
     (header_size_of (c_version c) + lenN body) (header_size_of (c_version c) + lenN body + lenN (write_hash_table t))
     (calculate_hash_table_size (table_count c fs)) (w32 (lenN fs))
     match hi_written (version_ge (c_version c) V2) (map fst es) with
     | Some _ => Some (header_size_of (c_version c) + lenN body + lenN (write_hash_table t) + lenN (write_block_table (map snd es)))
     | None => None end None None None)) as [h Eh].
  { cbn [p_version]. intros V. exfalso. destruct Hv; congruence. }
  exists h. split; [exact Eh|apply fine_ok].
Qed.

(** ** The tables of versions 3 and 4 *)
Lemma div_ceil_mono a b : a <= b -> div_ceil a 8 <= div_ceil b 8.
Proof. intros H. unfold div_ceil. apply N.div_le_mono; lia. Qed.

Lemma write_bit_entry_fine d i v b n : i < n -> div_ceil (n * b) 8 <= lenN d ->
  fine (write_bit_entry d i v b).
Proof.
  intros Hi Hd. pose proof (write_bit_entry_calm d i v b) as Hc. unfold write_bit_entry in *. cbv zeta in *.
  assert (Hn : i * b / 8 + div_ceil ((i * b) mod 8 + b) 8 <= lenN d).
  { etransitivity; [|exact Hd]. transitivity (div_ceil ((i + 1) * b) 8).
    - unfold div_ceil. rewrite N.mul_add_distr_r, N.mul_1_l.
      pose proof (N.div_mod (i * b) 8 ltac:(lia)) as E.
      set (q := i * b / 8) in *. set (r := (i * b) mod 8) in *. rewrite E.
      replace (8 * q + r + b + 8 - 1) with (r + b + 8 - 1 + q * 8) by lia.
      rewrite N.div_add by lia. lia.
    - apply div_ceil_mono. apply N.mul_le_mono_r. lia. }
  destruct (N.ltb_spec (lenN d) (i * b / 8 + div_ceil ((i * b) mod 8 + b) 8)) as [C|C]; [lia|].
  destruct (slice _ _ d); [apply fine_ok|congruence].
Qed.

Lemma bet_hash_fill_fine n hs : forall i d, i + lenN hs <= n -> div_ceil (n * 64) 8 <= lenN d ->
  fine (bet_hash_fill hs i d).
Proof.
  induction hs as [|h t IH]; intros i d Hi Hd; cbn [bet_hash_fill]; [apply fine_ok|].
  rewrite lenN_cons in Hi. apply fine_bind.
  destruct (write_bit_entry_fine d i h 64 n) as [x E]; [lia|exact Hd|]. exists x. split; [exact E|].
  apply IH; [lia|]. now rewrite (write_bit_entry_length _ _ _ _ _ E).
Qed.

Lemma bet_fill_fine n is_ ics ifl eb flags : is_ < 64 -> ics < 64 -> ifl < 64 ->
  forall bt, (forall e, In e bt -> In (be_flags e) flags) ->
  forall i d, i + lenN bt <= n -> div_ceil (n * eb) 8 <= lenN d ->
  fine (bet_fill bt i d flags is_ ics ifl eb).
Proof.
  intros H1 H2 H3. induction bt as [|e t IH]; intros Hin i d Hi Hd; cbn [bet_fill]; [apply fine_ok|].
  rewrite lenN_cons in Hi.
  destruct (index_of_spec (be_flags e) flags 0 (Hin e (or_introl eq_refl))) as (k & -> & _).
  unfold shl64. change (0 <? 64) with true.
  rewrite (proj2 (N.ltb_lt _ _) H1), (proj2 (N.ltb_lt _ _) H2), (proj2 (N.ltb_lt _ _) H3). cbn [bind].
  apply fine_bind.
  match goal with |- exists a, write_bit_entry _ _ ?v _ = _ /\ _ =>
    destruct (write_bit_entry_fine d i v eb n) as [x E]; [lia|exact Hd|] end.
  exists x. split; [exact E|]. apply IH; [|lia|now rewrite (write_bit_entry_length _ _ _ _ _ E)].
  intros y Hy. apply Hin. right. exact Hy.
Qed.

(** A free slot is found as long as there is one. *)
Lemma het_slot_fine used start : start < lenN used -> (exists j, nth_error used j = Some false) ->
  forall f dist, N.of_nat f + dist = lenN used ->
  (forall k, k < dist -> nthN used ((start + k) mod lenN used) = Some true) ->
  exists s, het_slot f used (lenN used) start ((start + dist) mod lenN used) = Ok s /\ s < lenN used.
Proof.
  intros Hs [j Hj].
  assert (Hjl : N.of_nat j < lenN used).
  { unfold lenN. assert (j < length used)%nat by (apply nth_error_Some; congruence). lia. }
  assert (Hall : ~ (forall k, k < lenN used -> nthN used ((start + k) mod lenN used) = Some true)).
  { intros H. specialize (H ((N.of_nat j + lenN used - start) mod lenN used)
      ltac:(apply N.mod_lt; lia)).
    rewrite N.add_mod_idemp_r in H by lia.
    replace (start + (N.of_nat j + lenN used - start)) with (N.of_nat j + 1 * lenN used) in H by lia.
    rewrite N.mod_add, N.mod_small in H by lia.
    unfold nthN in H. rewrite (proj2 (N.ltb_lt _ _) Hjl), Nat2N.id, Hj in H.
    discriminate H. }
  induction f as [|f IH]; intros dist Hf Hu; cbn [het_slot].
  { exfalso. apply Hall. intros k Hk. apply Hu. lia. }
  assert (Hc : (start + dist) mod lenN used < lenN used) by (apply N.mod_lt; lia).
  destruct (nthN used ((start + dist) mod lenN used)) as [[|]|] eqn:E.
  - cbv zeta. rewrite N.add_mod_idemp_l by lia.
    replace (start + dist + 1) with (start + (dist + 1)) by lia.
    assert (Hu' : forall k, k < dist + 1 -> nthN used ((start + k) mod lenN used) = Some true).
    { intros k Hk. destruct (N.eq_dec k dist) as [->|]; [exact E|]. apply Hu. lia. }
    destruct (N.eqb_spec ((start + (dist + 1)) mod lenN used) start) as [C|C].
    + exfalso. apply Hall. intros k Hk. apply Hu'.
      destruct (N.le_gt_cases (lenN used) (dist + 1)) as [|Hlt]; [lia|]. exfalso.
      destruct (N.lt_ge_cases (start + (dist + 1)) (lenN used)) as [D|D].
      * rewrite N.mod_small in C by exact D. lia.
      * replace (start + (dist + 1)) with (start + (dist + 1) - lenN used + 1 * lenN used) in C by lia.
        rewrite N.mod_add, N.mod_small in C by lia. lia.
    + apply IH; [lia|exact Hu'].
  - eexists. split; [reflexivity|exact Hc].
  - exfalso. unfold nthN in E. rewrite (proj2 (N.ltb_lt _ _) Hc) in E. apply nth_error_None in E.
    revert Hc E. generalize ((start + dist) mod lenN used). intros c Hc E. unfold lenN in Hc. lia.
Qed.

Fixpoint taken (l : list bool) : nat := match l with [] => 0 | b :: t => (if b then 1 else 0) + taken t end%nat.
Lemma taken_upd l : forall k, (taken (upd l k true) <= S (taken l))%nat.
Proof.
  induction l as [|b t IH]; intros [|k]; cbn [upd taken]; try (destruct b; cbn; lia); try lia.
  specialize (IH k). destruct b; lia.
Qed.
Lemma taken_free l : (taken l < length l)%nat -> exists j, nth_error l j = Some false.
Proof.
  induction l as [|b t IH]; cbn [taken length]; intros H; [lia|].
  destruct b; [|now exists O]. destruct IH as [j Hj]; [lia|]. now exists (S j).
Qed.

Lemma het_fill_fine k hbits ibits : hbits < 64 ->
  forall names i used table, lenN used = 2 ^ k -> (taken used + length names <= length used)%nat ->
  div_ceil (2 ^ k * (hbits + ibits)) 8 <= lenN table ->
  fine (het_fill names i used table (2 ^ k) hbits ibits).
Proof.
  intros Hh. assert (H0 : 0 < 2 ^ k) by (apply N.neq_0_lt_0, N.pow_nonzero; lia).
  induction names as [|n t IH]; intros i used table Hu Ht Htab; cbn [het_fill]; [apply fine_ok|]. cbv zeta.
  cbn [length] in Ht.
  set (start := N.land (jenkins_hash n) (2 ^ k - 1)).
  assert (Hs : start < 2 ^ k).
  { unfold start. replace (2 ^ k - 1) with (N.ones k) by (rewrite N.ones_equiv, N.pred_sub; reflexivity).
    rewrite N.land_ones. apply N.mod_lt. lia. }
  destruct (het_slot_fine used start ltac:(lia) (taken_free used ltac:(lia)) (length used) 0) as (s & E & Hsl).
  { unfold lenN. lia. } { intros x Hx. lia. }
  rewrite N.add_0_r, N.mod_small in E by lia. rewrite Hu in E, Hsl.
  rewrite E. cbn [bind]. unfold mask_chk, shl64. rewrite (proj2 (N.ltb_lt _ _) Hh). cbn [bind].
  apply fine_bind.
  match goal with |- exists a, write_bit_entry _ _ ?v _ = _ /\ _ =>
    destruct (write_bit_entry_fine table s v (hbits + ibits) (2 ^ k)) as [x Ex]; [exact Hsl|exact Htab|] end.
  exists x. split; [exact Ex|]. apply IH.
  - unfold lenN in *. rewrite upd_length. exact Hu.
  - rewrite upd_length. pose proof (taken_upd used (N.to_nat s)). lia.
  - now rewrite (write_bit_entry_length _ _ _ _ _ Ex).
Qed.

Lemma create_het_fine names : lenN names <= 2 ^ 17 -> fine (create_het_table names).
Proof.
  intros Hn. pose proof (create_het_calm names Hn) as Hc.
  change (2 ^ 17) with 131072 in *. assert (HM : M32 = 4294967296) by reflexivity.
  unfold create_het_table in *. cbv zeta in *.
  assert (Hw : w32 (lenN names) = lenN names) by (rewrite w32_small; lia).
  rewrite Hw in *. set (count := lenN names) in *.
  rewrite (chk32_small (count * 2)) in * by lia. cbn [bind] in *.
  unfold next_pow2_chk in *.
  assert (Hk : exists k, next_power_of_two (count * 2) = 2 ^ k /\ k <= 18 /\ count * 2 <= 2 ^ k).
  { unfold next_power_of_two. eexists. split; [reflexivity|]. split.
    - apply N.le_trans with (N.log2_up (2 ^ 18)); [apply N.log2_up_le_mono; change (2 ^ 18) with 262144; lia|].
      rewrite N.log2_up_pow2; lia.
    - destruct (N.eq_dec (count * 2) 0) as [->|]; [lia|]. destruct (N.eq_dec (count * 2) 1); [lia|].
      apply N.log2_up_spec. lia. }
  destruct Hk as (k & Ek & Hk & Hge). rewrite Ek in *.
  assert (He : 2 ^ k <= 262144) by (change 262144 with (2 ^ 18); apply N.pow_le_mono_r; lia).
  rewrite (chk32_small (2 ^ k)) in * by lia. cbn [bind] in *.
  assert (Hh : bits_needed (2 ^ k) <= 19).
  { apply bits_needed_le; [lia|]. change (2 ^ 19) with 524288. lia. }
  assert (Hi : bits_needed count <= 18).
  { apply bits_needed_le; [lia|]. change (2 ^ 18) with 262144. lia. }
  set (hb := bits_needed (2 ^ k)) in *. set (ib := bits_needed count) in *.
  assert (P1 : 2 ^ k * hb <= 262144 * 19) by (apply N.mul_le_mono; lia).
  assert (P2 : 2 ^ k * ib <= 262144 * 18) by (apply N.mul_le_mono; lia).
  assert (P3 : 2 ^ k * (hb + ib) <= 262144 * 37) by (apply N.mul_le_mono; lia).
  rewrite (chk32_small (2 ^ k * hb)) by lia. cbn [bind].
  rewrite (chk32_small (2 ^ k * (hb + ib))) by lia. cbn [bind].
  rewrite (chk32_small (2 ^ k * ib)) by lia. cbn [bind].
  pose proof (div_ceil_8_le (2 ^ k * hb)) as D1. pose proof (div_ceil_8_le (2 ^ k * ib)) as D2.
  apply fine_bind.
  destruct (het_fill_fine k hb ib ltac:(lia) names 0 (repeat false (N.to_nat (2 ^ k)))
              (zeros (div_ceil (2 ^ k * (hb + ib)) 8))) as [x Ex].
  - unfold lenN. rewrite repeat_length. lia.
  - rewrite repeat_length.
    assert (Hz : taken (repeat false (N.to_nat (2 ^ k))) = O) by (generalize (N.to_nat (2 ^ k)); clear; intros n; induction n; cbn; auto).
    rewrite Hz. assert (0 < 2 ^ k) by (apply N.neq_0_lt_0, N.pow_nonzero; lia). unfold count, lenN in Hge. lia.
  - rewrite zeros_length. lia.
  - exists x. split; [exact Ex|]. rewrite chk32_small by lia. cbn [bind]. rewrite chk32_small by lia. apply fine_ok.
Qed.

Lemma create_bet_fine names bt :
  length bt = length names -> lenN names <= 2 ^ 17 -> width3 bt < 64 ->
  fine (create_bet_table names bt).
Proof.
  intros Hlen Hn He. unfold width3 in He. change (2 ^ 17) with 131072 in *.
  assert (Hb : lenN bt = lenN names) by (unfold lenN; now rewrite Hlen).
  assert (HM : M32 = 4294967296) by reflexivity.
  unfold create_bet_table. cbv zeta.
  assert (Hw : w32 (lenN names) = lenN names) by (rewrite w32_small; lia).
  rewrite Hw. set (count := lenN names) in *.
  set (cp := bits_needed (max_of be_pos bt)) in *. set (cs := bits_needed (max_of be_size bt)) in *.
  set (cc := bits_needed (max_of be_csize bt)) in *.
  assert (Hfl : lenN (flag_array bt) <= 131072).
  { pose proof (flag_array_length bt). unfold lenN in *. lia. }
  set (cf := match flag_array bt with [] => 0 | _ => _ end).
  assert (Hcf : cf <= 18).
  { unfold cf. destruct (flag_array bt) as [|x l]; [lia|]. apply bits_needed_le; [lia|].
    change (2 ^ 18) with 262144. lia. }
  assert (Hprod : count * (cp + cs + cc + cf) <= 131072 * 81) by (apply N.mul_le_mono; lia).
  rewrite chk32_small by lia. cbn [bind].
  rewrite (chk32_small (count * 64)) by lia. cbn [bind].
  pose proof (div_ceil_8_le (count * (cp + cs + cc + cf))) as D1.
  pose proof (div_ceil_8_le (count * 64)) as D2.
  apply fine_bind.
  destruct (bet_fill_fine count cp (cp + cs) (cp + cs + cc) (cp + cs + cc + cf) (flag_array bt)
     ltac:(lia) ltac:(lia) ltac:(lia) bt (flag_array_in bt) 0
     (zeros (div_ceil (count * (cp + cs + cc + cf)) 8))) as [x Ex]; [lia|rewrite zeros_length; lia|].
  exists x. split; [exact Ex|]. rewrite (chk32_small (lenN (flag_array bt) * 4)) by lia. cbn [bind].
  rewrite chk32_small by lia. cbn [bind]. rewrite chk32_small by lia. cbn [bind].
  apply fine_bind.
  destruct (bet_hash_fill_fine count (map jenkins_hash names) 0 (zeros (div_ceil (count * 64) 8))) as [y Ey].
  { unfold count, lenN. rewrite map_length. lia. } { rewrite zeros_length. lia. }
  exists y. split; [exact Ey|apply fine_ok].
Qed.

Lemma write_ext_fine cmp m d key : 12 <= lenN d -> (cmp = true -> forall x, fine (compress L x m)) ->
  fine (write_ext_table L cmp m d key).
Proof.
  intros Hd Hm. unfold write_ext_table. destruct (N.ltb_spec (lenN d) 12) as [|_]; [lia|].
  cbv zeta. apply fine_bind. destruct cmp.
  - destruct (Hm eq_refl (skipn 12 d)) as [x E]. exists (Nb m :: x). rewrite E. split; [reflexivity|apply fine_ok].
  - eexists. split; [reflexivity|apply fine_ok].
Qed.

Variable md5 : bytes -> bytes.

Lemma write_archive34_fine_at c fs : c_version c = V3 \/ c_version c = V4 ->
  c_block_size c < 55 -> lenN fs <= 2 ^ 17 -> Forall fits fs ->
  (forall ss body es, sector_size (c_block_size c) = Ok ss -> ss <> 0 ->
     write_files L c ss fs (header_size_of (c_version c)) = Ok (body, es) ->
     length es = length fs /\ width3 (map snd es) < 64) -> no_collision (map pf_name fs) ->
  (c_ctables c = true -> forall x, fine (compress L x (c_tmethod c))) ->
  (fine (write_archive34 L md5 c fs) <-> Forall (packable_file c) fs /\ all_distinct (map file_key fs)).
Proof.
  intros Hv Hb Hn Hf Hwid Hcol Hm. unfold write_archive34.
  destruct (sector_size_small _ Hb) as (ss & E & Hz). rewrite E. cbn [bind]. cbv zeta.
  apply fine_bind_and; [now apply write_files_fine|]. intros [body es] W.
  destruct (Hwid ss body es E Hz W) as [Hl He].
  assert (Hn17 : lenN (map pf_name fs) <= 2 ^ 17) by (unfold lenN in *; rewrite map_length; exact Hn).
  apply fine_bind_any; [now apply create_het_fine|]. intros het Eh.
  apply fine_bind_any.
  { apply write_ext_fine; [|exact Hm]. exact (create_het_length12 _ _ Eh). }
  intros hetb _. apply fine_bind_any.
  { apply create_bet_fine; [rewrite !map_length; congruence|exact Hn17|exact He]. }
  intros bet Eb. apply fine_bind_any.
  { apply write_ext_fine; [|exact Hm]. exact (create_bet_length12 _ _ _ Eb). }
  intros betb _.
  destruct (names_fine c fs) as (t0 & -> & Ha).
  { unfold table_count. change (2 ^ 30) with 1073741824. change (2 ^ 17) with 131072 in Hn. destruct (c_listfile c); lia. }
  { exact Hcol. }
  cbn [bind]. rewrite <- Ha, fine_bind. split; [intros (a & Ea & _); now exists a|]. intros [t Et].
  exists t. split; [exact Et|]. apply fine_bind.
  match goal with |- exists a, write_header ?p = _ /\ _ => destruct (write_header_fine p) as [h Eh'] end.
  { cbn [p_version p_v4]. intros V. rewrite V. discriminate. }
  exists h. split; [exact Eh'|apply fine_ok].
Qed.

Lemma narrow_fits fs : narrow (map pf_data fs) -> Forall fits fs.
Proof.
  intros Hnar. destruct (narrow_rooms fs Hnar) as [Hn Hr].
  apply Forall_forall. intros f Hf _. clear - Hf Hr. induction fs as [|g t IH]; [destruct Hf|].
  unfold rooms in Hr. cbn [map total_room fold_right] in Hr. change (fold_right _ _ _) with (rooms t) in Hr.
  destruct Hf as [->|Hf]; [unfold room in Hr; lia|]. apply IH; [lia|exact Hf].
Qed.

Lemma write_archive34_fine c fs : c_version c = V3 \/ c_version c = V4 ->
  c_block_size c < 55 -> narrow (map pf_data fs) -> no_collision (map pf_name fs) ->
  (c_ctables c = true -> forall x, fine (compress L x (c_tmethod c))) ->
  (fine (write_archive34 L md5 c fs) <-> Forall (packable_file c) fs /\ all_distinct (map file_key fs)).
Proof.
  intros Hv Hb Hnar Hcol Hm. apply write_archive34_fine_at; [exact Hv|exact Hb| |now apply narrow_fits| |exact Hcol|exact Hm].
  - exact (proj1 (narrow_rooms fs Hnar)).
  - intros ss body es E Hz. now apply write_files_room with (c := c).
Qed.

Lemma prepared_keys c files : map file_key (prepare_listfile c files) = all_names c files.
Proof.
  unfold all_names, prepare_listfile. destruct (c_listfile c); rewrite ?map_app, ?app_nil_r; reflexivity.
Qed.
Lemma prepared_stored c files :
  Forall (packable_file c) (prepare_listfile c files) <-> Forall (packable L c) (all_stored c files).
Proof.
  assert (H : map (fun f => (pf_data f, pf_comp f)) (prepare_listfile c files) = all_stored c files).
  { unfold all_stored, prepare_listfile. destruct (c_listfile c); rewrite ?map_app, ?app_nil_r; reflexivity. }
  rewrite <- H, Forall_map. reflexivity.
Qed.

Lemma build_fine12 c files : c_version c = V1 \/ c_version c = V2 ->
  c_block_size c < 55 -> lenN files < 2 ^ 30 - 2 ->
  (forall f, In f files -> pf_encrypt f = true -> lenN (pf_data f) <= 4000000000) ->
  no_collision (lit "(listfile)" :: map pf_name files) ->
  ((exists arc, build L md5 c files = Ok arc) <->
   Forall (packable L c) (all_stored c files) /\ all_distinct (all_names c files)).
Proof.
  intros Hv Hb Hn Hf Hcol. unfold build.
  replace (version_ge (c_version c) V3) with false by (destruct Hv as [-> | ->]; reflexivity).
  rewrite <- prepared_stored, <- prepared_keys. apply write_archive12_fine.
  - exact Hv.
  - exact Hb.
  - now apply prepare_count.
  - apply fits_prepared. apply Forall_forall. exact Hf.
  - eapply no_collision_incl; [apply prepare_names|exact Hcol].
Qed.

Lemma build_fine34 c files : c_version c = V3 \/ c_version c = V4 ->
  c_block_size c < 55 -> narrow (all_contents c files) ->
  (c_ctables c = true -> forall d, exists r, compress L d (c_tmethod c) = Ok r) ->
  no_collision (lit "(listfile)" :: map pf_name files) ->
  ((exists arc, build L md5 c files = Ok arc) <->
   Forall (packable L c) (all_stored c files) /\ all_distinct (all_names c files)).
Proof.
  intros Hv Hb Hr Hm Hcol. unfold build.
  replace (version_ge (c_version c) V3) with true by (destruct Hv as [-> | ->]; reflexivity).
  rewrite <- prepared_stored, <- prepared_keys. apply write_archive34_fine.
  - exact Hv.
  - exact Hb.
  - now rewrite data_prepared.
  - eapply no_collision_incl; [apply prepare_names|exact Hcol].
  - exact Hm.
Qed.
End Ok.

(** ** The methods *)
Lemma compress_fine L d m : fine (compress L d m) <-> fine (compress_internal L d m).
Proof.
  unfold compress. rewrite fine_bind. split; [intros (a & E & _); now exists a|].
  intros [a E]. exists a. split; [exact E|]. destruct (_ <=? _); apply fine_ok.
Qed.

Lemma open_methods_fine L m d : willing_encoders L -> In m open_methods -> exists r, compress L d m = Ok r.
Proof.
  intros (Hz & Hb & Hl & Hp) Hm. change (fine (compress L d m)). apply compress_fine.
  destruct Hm as [<-|[<-|[<-|[<-|[<-|[<-|[]]]]]]].
  - apply fine_ok.
  - apply Hz.
  - apply Hb.
  - apply Hl.
  - change (fine (pk_compress L d)). destruct d; [apply fine_ok|apply Hp].
  - apply fine_ok.
Qed.
Lemma closed_methods_err L m d : In m closed_methods -> d <> [] -> exists e, compress L d m = Err e.
Proof.
  intros Hm Hd. destruct d as [|b t]; [contradiction|].
  destruct Hm as [<-|[<-|[]]]; eexists; reflexivity.
Qed.

Lemma adpcm_fine d cc : (1 <= cc <= 2)%nat ->
  (fine (adpcm_compress d 5 cc) <-> lenN d mod (2 * N.of_nat cc) = 0).
Proof.
  intros Hcc. split.
  - intros [a H]. unfold adpcm_compress, adpcm_encode in H.
    destruct ((cc =? 0) || (2 <? cc))%nat; [discriminate|].
    destruct (negb (lenN d mod 2 =? 0)) eqn:E2; [discriminate|].
    assert (H2 : lenN d mod 2 = 0) by (destruct (N.eqb_spec (lenN d mod 2) 0); [assumption|discriminate]).
    apply N.mod_divides in H2 as [k Hk]; [|lia].
    assert (Hn : (length d = 2 * N.to_nat k)%nat) by (unfold lenN in Hk; lia).
    destruct (samples_pairs _ _ Hn) as (F & Hl & _).
    destruct (samples_of d) as [|s t] eqn:Es.
    { cbn [length] in Hl. replace (lenN d) with 0 by lia. apply N.mod_0_l. lia. }
    rewrite Hl in H.
    destruct (Nat.eqb_spec (N.to_nat k mod cc) 0) as [C|C]; cbn [negb] in H; [|discriminate].
    apply Nat.mod_divides in C as [q Hq]; [|lia].
    rewrite Hk. replace k with (N.of_nat cc * N.of_nat q) by lia.
    apply N.mod_divides; [lia|]. exists (N.of_nat q). lia.
  - intros H. unfold adpcm_compress. destruct (adpcm_encode_total d 5 cc) as (o & p & ->); [lia|exact Hcc|exact H|].
    apply fine_ok.
Qed.

Lemma adpcm_mono_fine L d : (exists r, compress L d ADPCM_MONO = Ok r) <-> lenN d mod 2 = 0.
Proof.
  change (fine (compress L d ADPCM_MONO) <-> lenN d mod (2 * N.of_nat 1) = 0).
  rewrite compress_fine, <- adpcm_fine by lia. reflexivity.
Qed.
Lemma adpcm_stereo_fine L d : (exists r, compress L d ADPCM_STEREO = Ok r) <-> lenN d mod 4 = 0.
Proof.
  change (fine (compress L d ADPCM_STEREO) <-> lenN d mod (2 * N.of_nat 2) = 0).
  rewrite compress_fine, <- adpcm_fine by lia. reflexivity.
Qed.

Lemma packable_open L c x : willing_encoders L -> In (snd x) open_methods -> packable L c x.
Proof. intros HL Hm. right. intros s _. now apply open_methods_fine. Qed.

(** The list itself has to suit the default method. *)
Lemma adpcm_list_refuted L md5 v : 
  build L md5 (mkCfg v 3 LGenerate ADPCM_MONO false false 0)
    [mkPF (lit "abcd") (lit "a.wav") ADPCM_MONO false false 0] = Err ECompression.
Proof. destruct v; vm_compute; reflexivity. Qed.
Lemma adpcm_no_list L md5 v : exists arc,
  build L md5 (mkCfg v 3 LNone ADPCM_MONO false false 0)
    [mkPF (lit "abcd") (lit "a.wav") ADPCM_MONO false false 0] = Ok arc.
Proof. destruct v; eexists; vm_compute; reflexivity. Qed.
