(** * The header search meets its specification. *)
From Verif Require Import Bytes HashTableFacts Header HeaderFacts SpecHeader.
Open Scope N_scope.

Lemma take_from k file off : 0 < k ->
  take k (from file off) =
  match slice off k file with Some b => Ok (b, from file (off + k)) | None => Err EIo end.
Proof.
  intros Hk. unfold take, from, slice.
  destruct (N.leb_spec off (lenN file)) as [H|H].
  - assert (L : lenN (skipn (N.to_nat off) file) = lenN file - off).
    { unfold lenN in *. rewrite skipn_length. lia. }
    rewrite L. destruct (N.leb_spec (off + k) (lenN file)) as [H2|H2].
    + replace (k <=? lenN file - off) with true by (symmetry; apply N.leb_le; lia).
      rewrite skipn_skipn. do 3 f_equal. lia.
    + replace (k <=? lenN file - off) with false by (symmetry; apply N.leb_gt; lia). reflexivity.
  - replace (off + k <=? lenN file) with false by (symmetry; apply N.leb_gt; lia).
    replace (k <=? lenN []) with false; [reflexivity|].
    symmetry. apply N.leb_gt. rewrite lenN_nil. lia.
Qed.

Lemma take_le_from k file off : 0 < k ->
  take_le k (from file off) =
  match slice off k file with Some b => Ok (le_dec b, from file (off + k)) | None => Err EIo end.
Proof.
  intros Hk. unfold take_le. rewrite take_from by exact Hk. destruct (slice off k file); reflexivity.
Qed.

Lemma dec_archive b : lenN b = 4 -> le_dec b = MPQ_HEADER_SIGNATURE <-> b = archive_magic.
Proof.
  intros L. split; [|intros ->; reflexivity].
  intros H. rewrite <- (le_enc_dec b), H.
  replace (length b) with 4%nat by (unfold lenN in L; lia). reflexivity.
Qed.
Lemma dec_user b : lenN b = 4 -> le_dec b = MPQ_USERDATA_SIGNATURE <-> b = user_magic.
Proof.
  intros L. split; [|intros ->; reflexivity].
  intros H. rewrite <- (le_enc_dec b), H.
  replace (length b) with 4%nat by (unfold lenN in L; lia). reflexivity.
Qed.

(** What one round of the search does. *)
Inductive round := RStop (r : res (N * option user_data * header)) | RNext.

Definition one_round (file : bytes) (offset : N) : round :=
  match take_le 4 (from file offset) with
  | Ok (sig, d) =>
      if sig =? MPQ_HEADER_SIGNATURE then
        RStop (h <- header_read (from file offset) ;; Ok (offset, None, h))
      else if sig =? MPQ_USERDATA_SIGNATURE then
        match (' (us, d) <- take_le 4 d ;; ' (ho, d) <- take_le 4 d ;;
               ' (uh, d) <- take_le 4 d ;; Ok (mkUD us ho uh)) with
        | Ok ud =>
            if offset + ud_offset ud <? lenN file then
              match take_le 4 (from file (offset + ud_offset ud)) with
              | Ok (sig2, _) =>
                  if sig2 =? MPQ_HEADER_SIGNATURE then
                    RStop (h <- header_read (from file (offset + ud_offset ud)) ;;
                           Ok (offset + ud_offset ud, Some ud, h))
                  else RNext
              | Err e => RStop (Err e)
              | Panic => RStop Panic
              end
            else RNext
        | Err e => RStop (Err e)
        | Panic => RStop Panic
        end
      else RNext
  | _ => RNext
  end.

Lemma find_header_loop_round f file offset :
  find_header_loop (S f) file offset =
  if lenN file <=? offset then Err EInvalidFormat
  else match one_round file offset with
       | RStop r => r
       | RNext => find_header_loop f file (offset + HEADER_ALIGNMENT)
       end.
Proof.
  cbn [find_header_loop]. unfold one_round.
  destruct (lenN file <=? offset); [reflexivity|].
  destruct (take_le 4 (from file offset)) as [[sig d]| |]; [|reflexivity|reflexivity].
  destruct (sig =? MPQ_HEADER_SIGNATURE); [reflexivity|].
  destruct (sig =? MPQ_USERDATA_SIGNATURE); [|reflexivity].
  destruct (take_le 4 d) as [[us d1]| |]; cbn [bind]; [|reflexivity|reflexivity].
  destruct (take_le 4 d1) as [[ho d2]| |]; cbn [bind]; [|reflexivity|reflexivity].
  destruct (take_le 4 d2) as [[uh d3]| |]; cbn [bind ud_offset]; [|reflexivity|reflexivity].
  destruct (offset + ho <? lenN file); [|reflexivity].
  destruct (take_le 4 (from file (offset + ho))) as [[sig2 d4]| |]; cbn [bind]; [|reflexivity|reflexivity].
  destruct (sig2 =? MPQ_HEADER_SIGNATURE); reflexivity.
Qed.

Lemma archive_user_distinct : archive_magic <> user_magic.
Proof. intros H. assert (K := f_equal (fun l => nth 3 l x00) H). discriminate. Qed.

(** The round in terms of the specification. *)
Lemma round_cases file off : off < lenN file ->
  (passes file off /\ one_round file off = RNext) \/
  (exists pos ud, leads_to file off pos /\
     one_round file off = RStop (h <- header_read (from file pos) ;; Ok (pos, ud, h)) /\
     (ud = None <-> magic_at file off archive_magic)) \/
  (~ passes file off /\ (forall pos, ~ leads_to file off pos) /\ one_round file off = RStop (Err EIo)).
Proof.
  intros Hoff. unfold one_round. rewrite take_le_from by lia.
  destruct (slice off 4 file) as [b|] eqn:Eb.
  2:{ left. split; [|reflexivity]. split.
      - unfold magic_at. rewrite Eb. discriminate.
      - unfold magic_at. rewrite Eb. discriminate. }
  pose proof (slice_length _ _ _ _ Eb) as Lb.
  destruct (N.eqb_spec (le_dec b) MPQ_HEADER_SIGNATURE) as [E|E].
  { apply dec_archive in E; [|exact Lb]. subst b. right; left.
    exists off, None. split; [left; split; [exact Eb|reflexivity]|].
    split; [reflexivity|]. split; auto. }
  assert (Na : ~ magic_at file off archive_magic).
  { unfold magic_at. rewrite Eb. intros K. injection K as ->. apply E. reflexivity. }
  destruct (N.eqb_spec (le_dec b) MPQ_USERDATA_SIGNATURE) as [E2|E2].
  2:{ left. split; [|reflexivity]. split; [exact Na|].
      unfold magic_at. rewrite Eb. intros K. injection K as ->. exfalso. apply E2. reflexivity. }
  apply dec_user in E2; [|exact Lb]. subst b.
  rewrite take_le_from by lia.
  replace (off + 4 + 4) with (off + 8) by lia.
  destruct (slice (off + 4) 4 file) as [b1|] eqn:E1; cbn [bind].
  2:{ apply slice_None in E1. right; right. repeat split.
      - intros [_ H]. destruct (H Eb) as (dist & (_ & H16 & _) & _). lia.
      - intros pos [[H _]|(dist & (_ & H16 & _) & _)]; [contradiction|lia]. }
  rewrite take_le_from by lia.
  replace (off + 8 + 4) with (off + 12) by lia.
  destruct (slice (off + 8) 4 file) as [b2|] eqn:E2; cbn [bind].
  2:{ apply slice_None in E2. right; right. repeat split.
      - intros [_ H]. destruct (H Eb) as (dist & (_ & H16 & _) & _). lia.
      - intros pos [[H _]|(dist & (_ & H16 & _) & _)]; [contradiction|lia]. }
  rewrite take_le_from by lia.
  destruct (slice (off + 12) 4 file) as [b3|] eqn:E3; cbn [bind ud_offset].
  2:{ apply slice_None in E3. right; right. repeat split.
      - intros [_ H]. destruct (H Eb) as (dist & (_ & H16 & _) & _). lia.
      - intros pos [[H _]|(dist & (_ & H16 & _) & _)]; [contradiction|lia]. }
  assert (H16 : off + 16 <= lenN file).
  { destruct (N.le_gt_cases (off + 16) (lenN file)) as [H|H]; [exact H|].
    assert (slice (off + 12) 4 file = None) by (apply slice_None; lia). congruence. }
  set (dist := le_dec b2).
  assert (Hub : forall d', user_block file off d' <-> d' = dist).
  { intros d'. split.
    - intros (_ & _ & b' & Hb' & ->). rewrite E2 in Hb'. injection Hb' as <-. reflexivity.
    - intros ->. split; [exact Eb|]. split; [exact H16|]. exists b2. auto. }
  destruct (N.ltb_spec (off + dist) (lenN file)) as [Hd|Hd].
  2:{ left. split; [|reflexivity]. split; [exact Na|]. intros _. exists dist.
      split; [now apply Hub|]. left; exact Hd. }
  rewrite take_le_from by lia.
  destruct (slice (off + dist) 4 file) as [b4|] eqn:E4.
  2:{ right; right. split; [|split; [|reflexivity]].
      - intros [_ H]. destruct (H Eb) as (d' & Hu & [Hl|(b' & Hb' & _)]).
        + apply Hub in Hu. subst d'. lia.
        + apply Hub in Hu. subst d'. congruence.
      - intros pos [[H _]|(d' & Hu & -> & Hm)]; [contradiction|].
        apply Hub in Hu. subst d'. unfold magic_at in Hm. congruence. }
  pose proof (slice_length _ _ _ _ E4) as L4.
  destruct (N.eqb_spec (le_dec b4) MPQ_HEADER_SIGNATURE) as [E5|E5].
  - apply dec_archive in E5; [|exact L4]. subst b4. right; left.
    exists (off + dist), (Some (mkUD (le_dec b1) dist (le_dec b3))).
    split; [right; exists dist; split; [now apply Hub|split; [reflexivity|exact E4]]|].
    split; [reflexivity|]. split; [discriminate|contradiction].
  - left. split; [|reflexivity]. split; [exact Na|]. intros _. exists dist.
    split; [now apply Hub|]. right. exists b4. split; [exact E4|].
    intros ->. apply E5. reflexivity.
Qed.

Lemma take_le_noPanic k d : take_le k d <> Panic.
Proof. unfold take_le, take. destruct (k <=? lenN d); discriminate. Qed.
Lemma take_noPanic k d : take k d <> Panic.
Proof. unfold take. destruct (k <=? lenN d); discriminate. Qed.

Lemma v4_read_noPanic d : v4_read d <> Panic.
Proof.
  unfold v4_read.
  repeat match goal with
  | |- context [take_le ?k ?d] =>
      let E := fresh in destruct (take_le k d) as [[? ?]| |] eqn:E; cbn [bind];
        [|discriminate|exfalso; exact (take_le_noPanic _ _ E)]; clear E
  | |- context [take ?k ?d] =>
      let E := fresh in destruct (take k d) as [[? ?]| |] eqn:E; cbn [bind];
        [|discriminate|exfalso; exact (take_noPanic _ _ E)]; clear E
  end. discriminate.
Qed.

Lemma header_read_noPanic d : header_read d <> Panic.
Proof.
  unfold header_read.
  repeat match goal with
  | |- context [take_le ?k ?d] =>
      let E := fresh in destruct (take_le k d) as [[? ?]| |] eqn:E; cbn [bind];
        [|discriminate|exfalso; exact (take_le_noPanic _ _ E)]; clear E
  | |- context [if ?c then _ else _] => destruct c; try discriminate
  | |- context [match version_of_raw ?v with _ => _ end] =>
      destruct (version_of_raw v); [|discriminate]
  end.
  destruct (v4_read _) eqn:E; cbn [bind]; try discriminate. exfalso. exact (v4_read_noPanic _ E).
Qed.

Lemma hdr_step {A} (r : res A) {B} (f : A -> B) : r <> Panic -> bind r (fun a => Ok (f a)) <> Panic.
Proof. destruct r; cbn; congruence. Qed.

Lemma loop_noPanic fuel : forall file off,
  lenN file <= off + 512 * N.of_nat fuel -> (0 < fuel)%nat ->
  find_header_loop (S fuel) file off <> Panic.
Proof.
  induction fuel as [|fuel IH]; intros file off Hf Hp; [lia|].
  rewrite find_header_loop_round.
  destruct (N.leb_spec (lenN file) off); [discriminate|].
  destruct (round_cases file off H) as [[_ ->]|[(pos & ud & _ & -> & _)|(_ & _ & ->)]].
  - destruct fuel as [|fuel].
    + rewrite find_header_loop_round. unfold HEADER_ALIGNMENT.
      replace (lenN file <=? off + 512) with true by (symmetry; apply N.leb_le; lia). discriminate.
    + apply IH; [unfold HEADER_ALIGNMENT; lia|lia].
  - apply hdr_step, header_read_noPanic.
  - discriminate.
Qed.

Lemma fuel_enough (file : bytes) : lenN file <= 512 * N.of_nat (S (length file / 512)).
Proof.
  pose proof (Nat.div_mod (length file) 512 ltac:(lia)) as D.
  pose proof (Nat.mod_upper_bound (length file) 512 ltac:(lia)).
  set (q := (length file / 512)%nat) in *. clearbody q. unfold lenN. lia.
Qed.

Lemma find_header_noPanic file : find_header file <> Panic.
Proof.
  unfold find_header. apply loop_noPanic; [|lia].
  rewrite N.add_0_l. apply fuel_enough.
Qed.

(** Enough fuel is as good as any. *)
Lemma loop_fuel f1 : forall f2 file off,
  find_header_loop f1 file off <> Panic -> (f1 <= f2)%nat ->
  find_header_loop f2 file off = find_header_loop f1 file off.
Proof.
  induction f1 as [|f1 IH]; intros f2 file off H Hle; [cbn in H; congruence|].
  destruct f2 as [|f2]; [lia|]. rewrite !find_header_loop_round in *.
  destruct (lenN file <=? off); [reflexivity|].
  destruct (one_round file off); [reflexivity|]. apply IH; [exact H|lia].
Qed.

Lemma loop_skip file : forall k fuel off,
  (forall j, (j < k)%nat -> off + 512 * N.of_nat j < lenN file /\ passes file (off + 512 * N.of_nat j)) ->
  find_header_loop (k + fuel) file off = find_header_loop fuel file (off + 512 * N.of_nat k).
Proof.
  induction k as [|k IH]; intros fuel off H.
  - cbn [Nat.add]. f_equal. lia.
  - cbn [Nat.add]. rewrite find_header_loop_round.
    destruct (H 0%nat ltac:(lia)) as [H0 P0].
    replace (off + 512 * N.of_nat 0) with off in * by lia.
    replace (lenN file <=? off) with false by (symmetry; apply N.leb_gt; lia).
    destruct (round_cases file off H0) as [[_ ->]|[(pos & ud & HL & _)|(Hn & _)]].
    + rewrite IH.
      * f_equal. unfold HEADER_ALIGNMENT. lia.
      * intros j Hj. destruct (H (S j) ltac:(lia)) as [H1 H2].
        replace (off + HEADER_ALIGNMENT + 512 * N.of_nat j) with (off + 512 * N.of_nat (S j))
          by (unfold HEADER_ALIGNMENT; lia). auto.
    + exfalso. destruct P0 as [P1 P2].
      destruct HL as [[HL _]|(dist & Hu & -> & Hm)]; [contradiction|].
      destruct (P2 (proj1 Hu)) as (d' & Hu' & Hr).
      assert (d' = dist) as ->.
      { destruct Hu as (_ & _ & b & Hb & ->). destruct Hu' as (_ & _ & b' & Hb' & ->). congruence. }
      destruct Hr as [Hr|(b & Hb & Hne)].
      * unfold magic_at, slice in Hm.
        destruct (N.leb_spec (off + dist + 4) (lenN file)); [lia|discriminate].
      * unfold magic_at in Hm. congruence.
    + contradiction.
Qed.

Lemma boundary_index (file : bytes) k : 512 * N.of_nat k < lenN file -> (k <= length file / 512)%nat.
Proof.
  intros H. apply Nat.div_le_lower_bound; [lia|]. unfold lenN in H. lia.
Qed.

Lemma leads_off file off pos : leads_to file off pos -> off < lenN file.
Proof.
  assert (K : forall m, magic_at file off m -> off < lenN file).
  { unfold magic_at, slice. intros m. destruct (N.leb_spec (off + 4) (lenN file)); [lia|discriminate]. }
  intros [[H _]|(d & (H & _) & _)]; exact (K _ H).
Qed.

Lemma find_header_found file k pos :
  (forall j, (j < k)%nat -> passes file (512 * N.of_nat j)) ->
  leads_to file (512 * N.of_nat k) pos ->
  exists ud, find_header file = (h <- header_read (from file pos) ;; Ok (pos, ud, h)) /\
    (ud = None <-> magic_at file (512 * N.of_nat k) archive_magic).
Proof.
  intros Hb HL. pose proof (leads_off _ _ _ HL) as Hoff.
  pose proof (boundary_index file k Hoff) as Hk.
  unfold find_header.
  replace (S (S (length file / 512))) with (k + S (S (length file / 512 - k)))%nat by lia.
  rewrite loop_skip.
  2:{ intros j Hj. rewrite N.add_0_l. split; [lia|]. auto. }
  rewrite N.add_0_l, find_header_loop_round.
  replace (lenN file <=? 512 * N.of_nat k) with false by (symmetry; apply N.leb_gt; lia).
  assert (Hnp : ~ passes file (512 * N.of_nat k)).
  { intros [P1 P2]. destruct HL as [[HL _]|(dist & Hu & -> & Hm)]; [contradiction|].
      destruct (P2 (proj1 Hu)) as (d' & Hu' & Hr).
      assert (d' = dist) as ->.
      { destruct Hu as (_ & _ & b & Hb2 & ->). destruct Hu' as (_ & _ & b' & Hb' & ->). congruence. }
      destruct Hr as [Hr|(b & Hb2 & Hne)].
      * unfold magic_at, slice in Hm.
        destruct (N.leb_spec (512 * N.of_nat k + dist + 4) (lenN file)); [lia|discriminate].
      * unfold magic_at in Hm. congruence. }
  destruct (round_cases file _ Hoff) as [[P _]|[(pos' & ud & HL' & -> & Hud)|(_ & Hn & _)]].
  - contradiction.
  - assert (pos' = pos) as ->.
    { destruct HL as [[M1 ->]|(d1 & U1 & -> & _)]; destruct HL' as [[M2 ->]|(d2 & U2 & -> & _)].
      - reflexivity.
      - exfalso. destruct U2 as (U2 & _). unfold magic_at in *. apply archive_user_distinct. congruence.
      - exfalso. destruct U1 as (U1 & _). unfold magic_at in *. apply archive_user_distinct. congruence.
      - destruct U1 as (_ & _ & b1 & B1 & ->). destruct U2 as (_ & _ & b2 & B2 & ->). congruence. }
    exists ud. split; [reflexivity|exact Hud].
  - exfalso. exact (Hn pos HL).
Qed.

Lemma find_header_none file :
  (forall j, 512 * N.of_nat j < lenN file -> passes file (512 * N.of_nat j)) ->
  find_header file = Err EInvalidFormat.
Proof.
  intros Hb. unfold find_header.
  (* the number of boundaries inside the file *)
  set (k := ((length file + 511) / 512)%nat).
  assert (Hk : (k <= S (length file / 512))%nat).
  { apply Nat.lt_succ_r. unfold k. apply Nat.div_lt_upper_bound; [lia|].
    pose proof (Nat.div_mod (length file) 512 ltac:(lia)).
    pose proof (Nat.mod_upper_bound (length file) 512 ltac:(lia)). lia. }
  replace (S (S (length file / 512))) with (k + S (S (length file / 512) - k))%nat by lia.
  rewrite loop_skip.
  - rewrite find_header_loop_round, N.add_0_l.
    replace (lenN file <=? 512 * N.of_nat k) with true; [reflexivity|].
    symmetry. apply N.leb_le. unfold k, lenN.
    pose proof (Nat.div_mod (length file + 511) 512 ltac:(lia)).
    pose proof (Nat.mod_upper_bound (length file + 511) 512 ltac:(lia)). lia.
  - intros j Hj. rewrite N.add_0_l.
    assert (512 * N.of_nat j < lenN file).
    { unfold lenN. unfold k in Hj.
      assert (512 * (S j) <= length file + 511)%nat.
      { pose proof (Nat.div_mod (length file + 511) 512 ltac:(lia)) as D.
        set (q := ((length file + 511) / 512)%nat) in *. clearbody q. lia. }
      lia. }
    auto.
Qed.

(** Conversely, whatever the search returns was found like that. *)
Lemma loop_result fuel : forall file off pos ud h,
  find_header_loop fuel file off = Ok (pos, ud, h) ->
  exists k, (forall j, (j < k)%nat -> passes file (off + 512 * N.of_nat j)) /\
    leads_to file (off + 512 * N.of_nat k) pos /\ header_read (from file pos) = Ok h.
Proof.
  induction fuel as [|fuel IH]; intros file off pos ud h H; [discriminate|].
  rewrite find_header_loop_round in H.
  destruct (N.leb_spec (lenN file) off) as [|Hoff]; [discriminate|].
  destruct (round_cases file off Hoff) as [[P E]|[(p & u & HL & E & _)|(_ & _ & E)]];
    rewrite E in H; clear E.
  - destruct (IH _ _ _ _ _ H) as (k & H1 & H2 & H3).
    exists (S k). split; [|split; [|exact H3]].
    + intros [|j] Hj.
      * replace (off + 512 * N.of_nat 0) with off by lia. exact P.
      * replace (off + 512 * N.of_nat (S j)) with (off + HEADER_ALIGNMENT + 512 * N.of_nat j)
          by (unfold HEADER_ALIGNMENT; lia). apply H1. lia.
    + replace (off + 512 * N.of_nat (S k)) with (off + HEADER_ALIGNMENT + 512 * N.of_nat k)
        by (unfold HEADER_ALIGNMENT; lia). exact H2.
  - destruct (header_read (from file p)) eqn:E; cbn [bind] in H; try discriminate.
    injection H as <- <- <-. exists 0%nat. split; [intros; lia|].
    replace (off + 512 * N.of_nat 0) with off by lia. auto.
  - discriminate.
Qed.

Lemma find_header_result file pos ud h :
  find_header file = Ok (pos, ud, h) ->
  exists k, (forall j, (j < k)%nat -> passes file (512 * N.of_nat j)) /\
    leads_to file (512 * N.of_nat k) pos /\ header_read (from file pos) = Ok h.
Proof.
  intros H. apply loop_result in H as (k & H). exists k. setoid_rewrite N.add_0_l in H. exact H.
Qed.

(** ** Leading data *)
Definition shift_found (n : N) (r : res (N * option user_data * header)) :=
  match r with
  | Ok (pos, ud, h) => Ok (n + pos, ud, h)
  | Err e => Err e
  | Panic => Panic
  end.

Lemma from_shift pre file off : from (pre ++ file) (lenN pre + off) = from file off.
Proof.
  unfold from. rewrite lenN_app.
  destruct (N.leb_spec off (lenN file)).
  - replace (lenN pre + off <=? lenN pre + lenN file) with true by (symmetry; apply N.leb_le; lia).
    replace (N.to_nat (lenN pre + off)) with (length pre + N.to_nat off)%nat by (unfold lenN; lia).
    now apply skipn_add_app.
  - replace (lenN pre + off <=? lenN pre + lenN file) with false by (symmetry; apply N.leb_gt; lia).
    reflexivity.
Qed.

Lemma one_round_shift pre file off :
  one_round (pre ++ file) (lenN pre + off) =
  match one_round file off with RStop r => RStop (shift_found (lenN pre) r) | RNext => RNext end.
Proof.
  unfold one_round. rewrite from_shift.
  destruct (take_le 4 (from file off)) as [[sig d]| |]; [|reflexivity|reflexivity].
  destruct (sig =? MPQ_HEADER_SIGNATURE).
  { destruct (header_read (from file off)); reflexivity. }
  destruct (sig =? MPQ_USERDATA_SIGNATURE); [|reflexivity].
  match goal with |- match ?x with _ => _ end = _ => destruct x as [ud| |]; [|reflexivity|reflexivity] end.
  rewrite <- N.add_assoc, lenN_app, from_shift.
  replace (lenN pre + (off + ud_offset ud) <? lenN pre + lenN file)
    with (off + ud_offset ud <? lenN file)
    by (destruct (N.ltb_spec (off + ud_offset ud) (lenN file)); symmetry;
        [apply N.ltb_lt|apply N.ltb_ge]; lia).
  destruct (off + ud_offset ud <? lenN file); [|reflexivity].
  destruct (take_le 4 (from file (off + ud_offset ud))) as [[s2 d2]| |]; [|reflexivity|reflexivity].
  destruct (s2 =? MPQ_HEADER_SIGNATURE); [|reflexivity].
  destruct (header_read (from file (off + ud_offset ud))); reflexivity.
Qed.

Lemma loop_shift fuel : forall pre file off,
  find_header_loop fuel (pre ++ file) (lenN pre + off) =
  shift_found (lenN pre) (find_header_loop fuel file off).
Proof.
  induction fuel as [|fuel IH]; intros pre file off; [reflexivity|].
  rewrite !find_header_loop_round, one_round_shift, lenN_app.
  replace (lenN pre + lenN file <=? lenN pre + off) with (lenN file <=? off)
    by (destruct (N.leb_spec (lenN file) off); symmetry; [apply N.leb_le|apply N.leb_gt]; lia).
  destruct (lenN file <=? off); [reflexivity|].
  destruct (one_round file off); [reflexivity|].
  rewrite <- N.add_assoc. apply IH.
Qed.

Lemma find_header_leading pre file k :
  lenN pre = 512 * N.of_nat k ->
  (forall j, (j < k)%nat -> ~ magic_at (pre ++ file) (512 * N.of_nat j) archive_magic /\
                            ~ magic_at (pre ++ file) (512 * N.of_nat j) user_magic) ->
  find_header (pre ++ file) = shift_found (lenN pre) (find_header file).
Proof.
  intros Hp Hb. unfold find_header at 1.
  assert (Hl : (length (pre ++ file) / 512 = k + length file / 512)%nat).
  { rewrite app_length. replace (length pre) with (k * 512)%nat by (unfold lenN in Hp; lia).
    apply Nat.div_add_l. lia. }
  rewrite Hl. replace (S (S (k + length file / 512))) with (k + S (S (length file / 512)))%nat by lia.
  rewrite loop_skip.
  - rewrite N.add_0_l, <- Hp. rewrite <- (N.add_0_r (lenN pre)) at 1. apply loop_shift.
  - intros j Hj. rewrite N.add_0_l, lenN_app. split; [lia|].
    destruct (Hb j Hj) as [H1 H2]. split; [exact H1|]. intros K; contradiction.
Qed.

(** A file with an archive at boundary 512 and, at boundary 0, a user-data block
    pointing at the last three bytes of the file. *)
Definition dangling_file : bytes :=
  user_magic ++ le32 0 ++ le32 541 ++ le32 0 ++ zeros 496 ++
  match write_header (mkHP V1 3 32 0 0 0 0 None None None None) with Ok w => w | _ => [] end.

Lemma dangling_pointer :
  (forall pos, ~ leads_to dangling_file 0 pos) /\
  leads_to dangling_file 512 512 /\
  (exists h, header_read (from dangling_file 512) = Ok h) /\
  find_header dangling_file = Err EIo.
Proof.
  split.
  { intros pos [[H _]|(d & (_ & _ & b & Hb & ->) & -> & Hm)].
    - vm_compute in H. discriminate.
    - assert (E : slice (0 + 8) 4 dangling_file = Some (le32 541)) by (vm_compute; reflexivity).
      rewrite E in Hb. injection Hb as <-.
      assert (E2 : slice (0 + le_dec (le32 541)) 4 dangling_file = None) by (vm_compute; reflexivity).
      unfold magic_at in Hm. rewrite E2 in Hm. discriminate. }
  split; [left; split; [vm_compute; reflexivity|reflexivity]|].
  split; [eexists; vm_compute; reflexivity|].
  vm_compute. reflexivity.
Qed.
