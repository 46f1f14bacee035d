(** * Facts about the digests of version 4 archives. *)
From Verif Require Import Bytes Crypto CryptoFacts SpecNames HashTable BlockTable Header HeaderFacts SpecHeader
  HeaderSearch Compress SpecTables HashTableFacts HetBet HetBetFacts Builder Listfile Attributes Archive ReadFacts OpenFacts
  SpecArchive SpecArchive34 Open34Facts ArchiveFacts Archive34Facts Signature Info SpecDigest.
Open Scope N_scope.

Lemma slice_part file off len : off + len <= lenN file -> slice off len file = Some (part file off len).
Proof. intros H. unfold slice, part. replace (off + len <=? lenN file) with true by lia. reflexivity. Qed.

Lemma part_mid a b c off len : off = lenN a -> len = lenN b -> part (a ++ b ++ c) off len = b.
Proof.
  intros -> ->. unfold part, lenN. rewrite !Nat2N.id, skipn_app_exact by reflexivity.
  now rewrite firstn_app_exact.
Qed.

Lemma from_skipn file off : from file off = skipn (N.to_nat off) file.
Proof.
  unfold from. destruct (N.leb_spec off (lenN file)) as [H|H]; [reflexivity|].
  symmetry. apply skipn_all2. unfold lenN in H. lia.
Qed.

Lemma bytes_eqb_iff x y : bytes_eqb x y = true <-> x = y.
Proof. split; [apply bytes_eqb_eq|]. intros ->. apply bytes_eqb_refl. Qed.

(** The digest of the header lies behind the digested part. *)
Lemma take_split k d b r : Header.take k d = Ok (b, r) -> d = b ++ r /\ lenN b = k.
Proof.
  unfold Header.take. destruct (N.leb_spec k (lenN d)) as [H|H]; [|discriminate]. intros E.
  apply Ok_inj in E. injection E as <- <-. split; [symmetry; apply firstn_skipn|].
  unfold lenN in *. rewrite firstn_length. lia.
Qed.
Lemma take_le_split k d v r : take_le k d = Ok (v, r) -> exists b, d = b ++ r /\ lenN b = k.
Proof.
  unfold take_le. destruct (Header.take k d) as [[b r']| |] eqn:E; cbn [bind]; try discriminate.
  intros H. apply Ok_inj in H. injection H as _ ->. exists b. eapply take_split; eauto.
Qed.

Ltac step H := match type of H with
  | context [bind (take_le ?k ?d) _] =>
      let E := fresh "E" in
      destruct (take_le k d) as [[? ?]| |] eqn:E; cbn [bind] in H; try discriminate H;
      apply take_le_split in E as (? & ? & ?)
  | context [bind (Header.take ?k ?d) _] =>
      let E := fresh "E" in
      destruct (Header.take k d) as [[? ?]| |] eqn:E; cbn [bind] in H; try discriminate H;
      apply take_split in E as (? & ?)
  end.

Lemma v4_read_split d v : v4_read d = Ok v ->
  exists x r, d = x ++ v4_md5_header v ++ r /\ lenN x = 124 /\ lenN (v4_md5_header v) = 16.
Proof.
  intros H. unfold v4_read in H. repeat step H. apply Ok_inj in H. subst v. cbn [v4_md5_header]. subst.
  match goal with |- exists x r, ?d = x ++ ?m ++ r /\ _ =>
    match d with ?a1 ++ ?a2 ++ ?a3 ++ ?a4 ++ ?a5 ++ ?a6 ++ ?a7 ++ ?a8 ++ ?a9 ++ ?a10 ++ ?a11 ++ m ++ ?r =>
      exists (a1 ++ a2 ++ a3 ++ a4 ++ a5 ++ a6 ++ a7 ++ a8 ++ a9 ++ a10 ++ a11), r end end.
  split; [rewrite <- !app_assoc; reflexivity|]. rewrite !lenN_app. lia.
Qed.

Lemma header_md5_place d h v : header_read d = Ok h -> h_v4 h = Some v ->
  exists x r, d = x ++ v4_md5_header v ++ r /\ lenN x = 192 /\ lenN (v4_md5_header v) = 16.
Proof.
  intros H Hv. unfold header_read in H. step H. destruct (negb _) in H; [discriminate|].
  do 8 step H.
  destruct (version_of_raw _) as [ver|]; [|discriminate].
  destruct (_ <? _) in H; [discriminate|].
  destruct (version_ge ver V2) eqn:E2; cbn [negb] in H.
  2:{ apply Ok_inj in H. subst h. discriminate. }
  do 3 step H. destruct (version_ge ver V3) eqn:E3; cbn [negb] in H.
  2:{ apply Ok_inj in H. subst h. discriminate. }
  do 3 step H. destruct (version_ge ver V4) eqn:E4; cbn [negb] in H.
  2:{ apply Ok_inj in H. subst h. discriminate. }
  destruct (v4_read _) as [v'| |] eqn:EV in H; cbn [bind] in H; try discriminate.
  apply Ok_inj in H. subst h. cbn [h_v4] in Hv. injection Hv as ->.
  apply v4_read_split in EV as (xx & rr & EE & Lxx & Lm). subst.
  match goal with |- exists x r, ?d = x ++ ?m ++ r /\ _ =>
    match d with ?a1 ++ ?a2 ++ ?a3 ++ ?a4 ++ ?a5 ++ ?a6 ++ ?a7 ++ ?a8 ++ ?a9 ++ ?b1 ++ ?b2 ++ ?b3 ++ ?b4 ++ ?b5 ++ ?b6 ++ ?b7 ++ m ++ ?r =>
      exists (a1 ++ a2 ++ a3 ++ a4 ++ a5 ++ a6 ++ a7 ++ a8 ++ a9 ++ b1 ++ b2 ++ b3 ++ b4 ++ b5 ++ b6 ++ b7), r end end.
  split; [rewrite <- !app_assoc; reflexivity|]. rewrite !lenN_app. lia.
Qed.

Section I.
Variable L : codecs.
Variable md5 : bytes -> bytes.

Lemma check_table_part a expected off size :
  a_off a + off + size <= lenN (a_file a) -> lenN (a_file a) < 2 ^ 63 ->
  exists b, check_table md5 a expected off size = Ok b /\
    (size = 0 -> b = true) /\
    (size <> 0 -> b = bytes_eqb (md5 (part (a_file a) (a_off a + off) size)) expected).
Proof.
  intros H H63. unfold check_table. destruct (N.eqb_spec size 0) as [->|Hs].
  - exists true. split; [reflexivity|]. split; [reflexivity|congruence].
  - rewrite add64_ok.
    2:{ unfold M64. change (2^64) with 18446744073709551616. change (2 ^ 63) with 9223372036854775808 in H63. lia. }
    cbn [bind]. rewrite (read_at_slice _ _ _ _ (slice_part _ _ _ H)). cbn [bind].
    eexists. split; [reflexivity|]. split; [congruence|reflexivity].
Qed.

(** Whether a flag is raised depends on the digest of the region only. *)
Lemma flags34 h ss c fs arc bt hi pre post a :
  laid_out34 L md5 h ss c fs arc bt hi -> c_version c = V4 ->
  a_header a = h -> a_off a = lenN pre -> lenN (a_file a) = lenN (pre ++ arc ++ post) ->
  lenN (pre ++ arc ++ post) < 2 ^ 63 ->
  let f := pre ++ arc ++ post in
  let g := a_file a in
  exists s, validate_v4 md5 a = Ok (Some s) /\
    let same off len := md5 (part g (lenN pre + off) len) = md5 (part f (lenN pre + off) len) in
    (ms_hash s = true <-> same (get_hash_table_pos h) (16 * h_hash_count h)) /\
    (ms_block s = true <-> same (get_block_table_pos h) (16 * h_block_count h)) /\
    (forall p, h_hi_pos h = Some p -> (p = 0 -> ms_hi s = true) /\
       (p <> 0 -> (ms_hi s = true <-> same p (2 * h_block_count h)))) /\
    (exists p q, h_het_pos h = Some p /\ h_bet_pos h = Some q /\
       (ms_het s = true <-> same p (q - p)) /\
       (ms_bet s = true <-> same q (get_hash_table_pos h - q))) /\
    (ms_header s = true <-> same 0 192).
Proof.
  intros HL Hv Hh Hoff Hlen H63 f g.
  destruct HL as (hdr & body & es & hetb & betb & htab & btab & hib & Earc & Lhdr & Hsz & Hver & _ & _ & _ &
    Hhet & Hbet & Hhp & Hbp & G1 & G2 & Lht & Hh0 & Lbt & Hbc & Hhi & Hv4 & _).
  rewrite Hv in Hv4, Lhdr. cbn [header_size_of] in Lhdr.
  destruct Hv4 as (v & Ev & S1 & S2 & S3 & S4 & S5 & M1 & M2 & M3 & M4 & M5 & M6).
  assert (Lf : lenN f = lenN pre + (208 + (lenN body + (lenN hetb + (lenN betb + (lenN htab + (lenN btab + lenN hib))))) + lenN post)).
  { unfold f. rewrite Earc, !lenN_app. rewrite Lhdr. lia. }
  rewrite Hhp, Hbp, Hhet, Hbet. rewrite Lhdr in *.
  assert (Pa : part f (lenN pre + (208 + lenN body)) (lenN hetb) = hetb).
  { unfold f. rewrite Earc. replace (pre ++ (hdr ++ body ++ hetb ++ betb ++ htab ++ btab ++ hib) ++ post)
      with ((pre ++ hdr ++ body) ++ hetb ++ (betb ++ htab ++ btab ++ hib ++ post)) by (rewrite <- !app_assoc; reflexivity).
    apply part_mid; [rewrite !lenN_app; lia|reflexivity]. }
  assert (Pb : part f (lenN pre + (208 + lenN body + lenN hetb)) (lenN betb) = betb).
  { unfold f. rewrite Earc. replace (pre ++ (hdr ++ body ++ hetb ++ betb ++ htab ++ btab ++ hib) ++ post)
      with ((pre ++ hdr ++ body ++ hetb) ++ betb ++ (htab ++ btab ++ hib ++ post)) by (rewrite <- !app_assoc; reflexivity).
    apply part_mid; [rewrite !lenN_app; lia|reflexivity]. }
  assert (Pc : part f (lenN pre + (208 + lenN body + lenN hetb + lenN betb)) (lenN htab) = htab).
  { unfold f. rewrite Earc. replace (pre ++ (hdr ++ body ++ hetb ++ betb ++ htab ++ btab ++ hib) ++ post)
      with ((pre ++ hdr ++ body ++ hetb ++ betb) ++ htab ++ (btab ++ hib ++ post)) by (rewrite <- !app_assoc; reflexivity).
    apply part_mid; [rewrite !lenN_app; lia|reflexivity]. }
  assert (Pd : part f (lenN pre + (208 + lenN body + lenN hetb + lenN betb + lenN htab)) (lenN btab) = btab).
  { unfold f. rewrite Earc. replace (pre ++ (hdr ++ body ++ hetb ++ betb ++ htab ++ btab ++ hib) ++ post)
      with ((pre ++ hdr ++ body ++ hetb ++ betb ++ htab) ++ btab ++ (hib ++ post)) by (rewrite <- !app_assoc; reflexivity).
    apply part_mid; [rewrite !lenN_app; lia|reflexivity]. }
  assert (Pe : part f (lenN pre + (208 + lenN body + lenN hetb + lenN betb + lenN htab + lenN btab)) (lenN hib) = hib).
  { unfold f. rewrite Earc. replace (pre ++ (hdr ++ body ++ hetb ++ betb ++ htab ++ btab ++ hib) ++ post)
      with ((pre ++ hdr ++ body ++ hetb ++ betb ++ htab ++ btab) ++ hib ++ post) by (rewrite <- !app_assoc; reflexivity).
    apply part_mid; [rewrite !lenN_app; lia|reflexivity]. }
  assert (Ph : part f (lenN pre + 0) 192 = firstn 192 hdr).
  { unfold f. rewrite Earc, N.add_0_r.
    rewrite <- (firstn_skipn 192 hdr) at 1. rewrite <- !app_assoc.
    apply part_mid; [reflexivity|]. unfold lenN in *. rewrite firstn_length. lia. }
  unfold validate_v4. rewrite Hh, Ev.
  replace (0 <? h_hash_count h) with true by lia.
  rewrite Hhp, Hbp, Hhet, Hbet, S1, S2, S3, S4, S5.
  assert (Hin : forall off size, off + size <= 208 + (lenN body + (lenN hetb + (lenN betb + (lenN htab + (lenN btab + lenN hib))))) ->
     a_off a + off + size <= lenN (a_file a)).
  { intros off size Hx. rewrite Hoff, Hlen. fold f. rewrite Lf. lia. }
  assert (H63' : lenN (a_file a) < 2 ^ 63) by (rewrite Hlen; exact H63).
  (* hash table *)
  destruct (check_table_part a (v4_md5_hash v) (208 + lenN body + lenN hetb + lenN betb) (lenN htab)) as (b1 & E1 & _ & F1);
    [apply Hin; lia|exact H63'|].
  rewrite E1. cbn [bind]. specialize (F1 ltac:(lia)).
  (* block table *)
  assert (HB : exists b2, (if 0 <? h_block_count h
             then check_table md5 a (v4_md5_block v) (208 + lenN body + lenN hetb + lenN betb + lenN htab) (lenN btab) else Ok true) = Ok b2 /\
      (b2 = true <-> md5 (part (a_file a) (lenN pre + (208 + lenN body + lenN hetb + lenN betb + lenN htab)) (lenN btab)) = md5 btab)).
  { destruct (check_table_part a (v4_md5_block v) (208 + lenN body + lenN hetb + lenN betb + lenN htab) (lenN btab)) as (b2 & E2 & F2 & F2');
      [apply Hin; lia|exact H63'|].
    assert (Hz : lenN btab = 0 -> part (a_file a) (lenN pre + (208 + lenN body + lenN hetb + lenN betb + lenN htab)) (lenN btab) = btab).
    { intros Hz. rewrite Hz. apply lenN_0 in Hz. rewrite Hz. reflexivity. }
    destruct (N.ltb_spec 0 (h_block_count h)) as [C|C].
    - exists b2. split; [exact E2|]. rewrite (F2' ltac:(lia)), bytes_eqb_iff, M1, Hoff. reflexivity.
    - exists true. split; [reflexivity|]. rewrite Hz by lia. tauto. }
  destruct HB as (b2 & E2 & F2). rewrite E2. cbn [bind].
  (* high words *)
  assert (HC : exists b3, check_optional md5 a (v4_md5_hi v) (h_hi_pos h) (2 * lenN fs) = Ok b3 /\
     (forall p, h_hi_pos h = Some p -> (p = 0 -> b3 = true) /\
       (p <> 0 -> p = 208 + lenN body + lenN hetb + lenN betb + lenN htab + lenN btab /\ lenN hib = 2 * lenN fs /\
          (b3 = true <-> md5 (part (a_file a) (lenN pre + p) (2 * lenN fs)) = md5 hib)))).
  { destruct hi as [hiw|].
    - destruct Hhi as (Hp & Lhi & Hne). rewrite Hp, Hbp. cbn [check_optional].
      replace (_ =? 0) with false by lia.
      destruct (check_table_part a (v4_md5_hi v) (208 + lenN body + lenN hetb + lenN betb + lenN htab + lenN btab) (2 * lenN fs))
        as (b3 & E3 & F3 & F3'); [apply Hin; lia|exact H63'|].
      assert (Hn0 : 2 * lenN fs <> 0) by (destruct fs; [congruence|rewrite lenN_cons; lia]).
      exists b3. split; [exact E3|]. intros p Ep. injection Ep as <-. split; [intros; lia|]. intros _.
      split; [reflexivity|]. split; [exact Lhi|]. rewrite (F3' Hn0), bytes_eqb_iff, M3, Hoff; [reflexivity|].
      intros ->. change (lenN (@nil byte)) with 0 in Lhi. lia.
    - destruct Hhi as (Hp & Eh). rewrite Hp. cbn [check_optional N.eqb]. exists true. split; [reflexivity|].
      intros p Ep. injection Ep as <-. split; [reflexivity|congruence]. }
  destruct HC as (b3 & E3 & F3). rewrite E3. cbn [bind].
  (* HET and BET *)
  unfold check_optional. replace (208 + lenN body =? 0) with false by lia.
  replace (208 + lenN body + lenN hetb =? 0) with false by lia.
  destruct (check_table_part a (v4_md5_het v) (208 + lenN body) (lenN hetb)) as (b4 & E4 & _ & F4);
    [apply Hin; lia|exact H63'|].
  rewrite E4. cbn [bind]. specialize (F4 ltac:(lia)).
  destruct (check_table_part a (v4_md5_bet v) (208 + lenN body + lenN hetb) (lenN betb)) as (b5 & E5 & _ & F5);
    [apply Hin; lia|exact H63'|].
  rewrite E5. cbn [bind]. specialize (F5 ltac:(lia)).
  rewrite (read_at_slice _ _ _ _ (slice_part (a_file a) (a_off a) 192 ltac:(pose proof (Hin 0 192 ltac:(lia)); lia))).
  cbn [bind]. eexists. split; [reflexivity|]. cbv zeta. cbn [ms_hash ms_block ms_hi ms_het ms_bet ms_header].
  unfold g. rewrite <- Lht, <- Lbt. rewrite Pc, Pd, Ph.
  split; [rewrite F1, bytes_eqb_iff, M2, Hoff; reflexivity|].
  split; [exact F2|].
  split.
  { intros p Ep. destruct (F3 p Ep) as [A1 A2]. split; [exact A1|]. intros Hp. destruct (A2 Hp) as (-> & B2 & B3).
    rewrite Hbc, <- B2, Pe, B2. exact B3. }
  split.
  { eexists. eexists. split; [reflexivity|]. split; [reflexivity|].
    replace (208 + lenN body + lenN hetb - (208 + lenN body)) with (lenN hetb) by lia.
    replace (208 + lenN body + lenN hetb + lenN betb - (208 + lenN body + lenN hetb)) with (lenN betb) by lia.
    rewrite Pa, Pb. rewrite F4, F5, !bytes_eqb_iff, M4, M5, Hoff. split; reflexivity. }
  rewrite bytes_eqb_iff, M6, Hoff, N.add_0_r. reflexivity.
Qed.

(** ** Files opened *)
Lemma load_tables_same a b : load_tables L a = Ok b ->
  a_file b = a_file a /\ a_off b = a_off a /\ a_header b = a_header a.
Proof.
  unfold load_tables. intros H.
  do 3 match type of H with bind ?X _ = Ok _ => destruct X as [[? ?]| |] + destruct X as [?| |]; cbn [bind] in H; try discriminate end.
  apply load_attributes_same in H as (x & ->). repeat split.
Qed.

Lemma opened_find g a : opened L g a ->
  a_file a = g /\ exists ud, find_header g = Ok (a_off a, ud, a_header a).
Proof.
  intros [H|H]; unfold open_archive, open_with_options in H;
    destruct (find_header g) as [[[off ud] h]| |]; cbn [bind] in H; try discriminate.
  - apply load_tables_same in H as (H1 & H2 & H3). cbn [a_file a_off a_header] in *.
    split; [exact H1|]. exists ud. now rewrite H2, H3.
  - apply Ok_inj in H. subst a. split; [reflexivity|]. exists ud. reflexivity.
Qed.

Lemma deferred_opens g off ud h : find_header g = Ok (off, ud, h) -> exists a, open_with_options L g false = Ok a.
Proof. intros H. unfold open_with_options. rewrite H. cbn [bind]. eauto. Qed.

(** ** What is reported *)
Lemma built_header34 c files arc pre post g :
  built34_at L md5 c files arc pre post -> c_version c = V4 ->
  let f := pre ++ arc ++ post in
  reached_at g (lenN pre) -> part g (lenN pre) 208 = part f (lenN pre) 208 ->
  exists h ss bt hi ud, laid_out34 L md5 h ss c (prepare_listfile c files) arc bt hi /\
    find_header g = Ok (lenN pre, ud, h).
Proof.
  intros HB Hv f (kk & Hp & Hl) Hsame.
  destruct (built34_tables L md5 _ _ _ _ _ HB) as (a0 & ss & bt & he & be & _ & _ & _ & _ & _ & _ & _ & _ & _ & _ & _ & _ & HL).
  exists (a_header a0), ss, bt, (a_hi a0).
  destruct (find_header_found _ _ _ Hp Hl) as (ud & Hh & _). exists ud. split; [exact HL|].
  rewrite Hh. destruct HL as (hdr & body & es & hetb & betb & htab & btab & hib & Earc & Lhdr & HL).
  do 17 apply proj2 in HL. rewrite Hv in Lhdr. cbn [header_size_of] in Lhdr.
  assert (E : part f (lenN pre) 208 = hdr).
  { unfold f. rewrite Earc, <- !app_assoc. now apply part_mid. }
  rewrite E in Hsame. unfold part in Hsame.
  assert (E2 : from g (lenN pre) = hdr ++ skipn 208 (skipn (N.to_nat (lenN pre)) g)).
  { rewrite from_skipn, <- Hsame. symmetry. apply (firstn_skipn 208). }
  rewrite E2. match type of HL with _ /\ ?X => destruct HL as [_ HL] | _ => idtac end.
  rewrite HL. reflexivity.
Qed.

Lemma digests_tell c files arc pre post g :
  built34_at L md5 c files arc pre post -> c_version c = V4 ->
  let f := pre ++ arc ++ post in
  lenN g = lenN f -> reached_at g (lenN pre) -> part g (lenN pre) 208 = part f (lenN pre) 208 ->
  (exists a, open_with_options L g false = Ok a) /\
  forall a, opened L g a -> exists s, validate_v4 md5 a = Ok (Some s) /\
    forall d, flag s d = true <->
      md5 (region_bytes g (lenN pre) (a_header a) d) = md5 (region_bytes f (lenN pre) (a_header a) d).
Proof.
  intros HB Hv f Hlen Hr Hsame.
  destruct (built_header34 _ _ _ _ _ g HB Hv Hr Hsame) as (h & ss & bt & hi & ud & HL & Hh).
  split; [eapply deferred_opens; exact Hh|]. intros a Ha.
  destruct (opened_find _ _ Ha) as (Ef & ud' & Hh'). rewrite Hh in Hh'. apply Ok_inj in Hh'.
  injection Hh' as E1 _ E2.
  destruct HB as (_ & _ & _ & _ & _ & _ & _ & H63 & _).
  destruct (flags34 _ _ _ _ _ _ _ pre post a HL Hv (eq_sym E2) (eq_sym E1)) as (s & Es & F1 & F2 & F3 & F4 & F5).
  { rewrite Ef. exact Hlen. }
  { exact H63. }
  exists s. split; [exact Es|]. rewrite <- E2. rewrite Ef in *.
  destruct F4 as (p & q & Ep & Eq & F4 & F4').
  assert (exists w, h_hi_pos h = Some w) as (w & Ew).
  { destruct HL as (hdr & body & es & hetb & betb & htab & btab & hib & HL). do 17 apply proj2 in HL.
    destruct HL as (HL & _). destruct hi; destruct HL as (HL & _); eauto. }
  intros d. unfold region_bytes, region, flag. rewrite Ep, Eq, Ew. destruct d; cbn [fst snd]; auto.
  destruct (F3 w Ew) as [A B]. destruct (N.eqb_spec w 0) as [E0|E0]; cbn [fst snd].
  - rewrite (A E0). split; reflexivity.
  - exact (B E0).
Qed.

Lemma built_digests_valid c files arc pre post a :
  built34_at L md5 c files arc pre post -> c_version c = V4 ->
  opened L (pre ++ arc ++ post) a ->
  exists s, validate_v4 md5 a = Ok (Some s) /\ forall d, flag s d = true.
Proof.
  intros HB Hv Ha. pose proof HB as (_ & _ & _ & _ & _ & _ & _ & _ & Hr).
  destruct (digests_tell c files arc pre post _ HB Hv eq_refl Hr eq_refl) as (_ & H).
  destruct (H a Ha) as (s & Es & Hs). exists s. split; [exact Es|]. intros d. now apply Hs.
Qed.

Lemma header_at g off ud h : find_header g = Ok (off, ud, h) -> header_read (from g off) = Ok h.
Proof.
  unfold find_header. generalize (S (S (length g / 512))). generalize 0.
  intros o n. revert o. induction n as [|n IH]; intros o H; [discriminate|].
  rewrite find_header_loop_round in H. destruct (N.leb_spec (lenN g) o) as [C|C]; [discriminate|].
  destruct (round_cases g o C) as [(_ & E)|[(pos & u & _ & E & _)|(_ & _ & E)]]; rewrite E in H; [now apply (IH _ H)| |discriminate].
  destruct (header_read (from g pos)) as [h'| |] eqn:Er; cbn [bind] in H; try discriminate.
  apply Ok_inj in H. injection H as -> -> ->. exact Er.
Qed.

Lemma header_digest_tells g a s :
  opened L g a -> validate_v4 md5 a = Ok (Some s) ->
  (flag s DHeader = true <-> md5 (part g (a_off a) 192) = part g (a_off a + 192) 16).
Proof.
  intros Ha Hs. destruct (opened_find _ _ Ha) as (Ef & ud & Hh). apply header_at in Hh.
  unfold validate_v4 in Hs. destruct (h_v4 (a_header a)) as [v|] eqn:Ev; [|discriminate].
  destruct (header_md5_place _ _ _ Hh Ev) as (x & r & E & Lx & Lm).
  assert (Hoff : from g (a_off a) = skipn (N.to_nat (a_off a)) g) by apply from_skipn.
  assert (Hle : a_off a + 208 <= lenN g).
  { assert (Hx : lenN (from g (a_off a)) >= 208) by (rewrite E, !lenN_app; lia).
    rewrite Hoff in Hx. unfold lenN in *. rewrite skipn_length in Hx. lia. }
  assert (P1 : part g (a_off a) 192 = x).
  { unfold part. rewrite <- Hoff, E. apply firstn_app_exact. unfold lenN in Lx. lia. }
  assert (P2 : part g (a_off a + 192) 16 = v4_md5_header v).
  { rewrite <- (firstn_skipn (N.to_nat (a_off a)) g). rewrite <- Hoff, E.
    rewrite app_assoc. apply part_mid; [|now symmetry].
    rewrite lenN_app, Lx. f_equal. unfold lenN in *. rewrite firstn_length. lia. }
  repeat match type of Hs with
  | bind ?X _ = Ok _ => destruct X eqn:?; cbn [bind] in Hs; try discriminate Hs
  end.
  apply Ok_inj in Hs. injection Hs as <-. cbn [flag ms_header].
  rewrite bytes_eqb_iff. rewrite P2.
  match goal with H : read_at _ _ 192 = Ok _ |- _ =>
    rewrite Ef, (read_at_slice _ _ _ _ (slice_part g (a_off a) 192 ltac:(lia))) in H; apply Ok_inj in H; subst end.
  reflexivity.
Qed.

Lemma info_digests sha1 rd a i :
  get_info L md5 sha1 rd a = Ok i -> validate_v4 md5 a = Ok (i_md5 i).
Proof.
  unfold get_info. intros H.
  match type of H with bind ?X _ = Ok _ => destruct X as [b| |] eqn:E; cbn [bind] in H; try discriminate end.
  assert (S3 : a_file b = a_file a /\ a_off b = a_off a /\ a_header b = a_header a).
  { destruct (a_hash a), (a_het a); try (apply Ok_inj in E; subst b; auto). now apply load_tables_same. }
  destruct S3 as (S1 & S2 & S3).
  assert (V : validate_v4 md5 b = validate_v4 md5 a).
  { unfold validate_v4, check_optional, check_table. now rewrite S1, S2, S3. }
  repeat match type of H with
  | bind ?X _ = Ok _ => destruct X eqn:?; cbn [bind] in H; try discriminate H
  end.
  apply Ok_inj in H. subst i. cbn [i_md5]. now rewrite <- V.
Qed.

End I.
