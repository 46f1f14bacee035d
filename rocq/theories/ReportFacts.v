(** * What inspection reports. *)
From Coq Require Import Lia.
From Verif Require Import Bytes Crypto HashTable BlockTable Header HeaderFacts SpecHeader HeaderSearch Compress HetBet Builder Listfile Attributes Archive
  Archive34Facts Signature Info InfoFacts InfoLoad SpecDigest SpecFields HeaderFields SpecAnon SpecCliList CliList CliListFacts ListAllFacts
  SpecStored StoredFacts InfoReport SpecReport.
Open Scope N_scope.

Lemma slice_part p n d s : slice p n d = Some s -> part d p n = s.
Proof. unfold slice, part. destruct (_ <=? _); [|discriminate]. now intros [= <-]. Qed.

Lemma encrypted_bit f : is_encrypted f = true <-> N.testbit f 16 = true.
Proof. unfold is_encrypted. change FLAG_ENCRYPTED with (2 ^ 16). rewrite on_flag. reflexivity. Qed.

(** ** The user data block *)
Lemma round_user file off pos ud h : off < lenN file -> one_round file off = RStop (Ok (pos, ud, h)) ->
  (magic_at file off archive_magic /\ pos = off /\ ud = None) \/
  (exists dist, user_block file off dist /\ pos = off + dist /\
     option_map (fun u => (ud_hsize u, ud_size u)) ud = Some (field file (off + 12) 4, field file (off + 4) 4)).
Proof.
  intros Hoff. unfold one_round. rewrite take_le_from by lia.
  destruct (slice off 4 file) as [b|] eqn:Eb; [|discriminate]. pose proof (slice_length _ _ _ _ Eb) as Lb.
  destruct (N.eqb_spec (le_dec b) MPQ_HEADER_SIGNATURE) as [E|E].
  { apply dec_archive in E; [|exact Lb]. subst b. destruct (header_read _); cbn [bind]; try discriminate.
    intros H. injection H as <- <- <-. left. repeat split. exact Eb. }
  destruct (N.eqb_spec (le_dec b) MPQ_USERDATA_SIGNATURE) as [E2|E2]; [|discriminate].
  apply dec_user in E2; [|exact Lb]. subst b.
  rewrite take_le_from by lia. replace (off + 4 + 4) with (off + 8) by lia.
  destruct (slice (off + 4) 4 file) as [b1|] eqn:E1; cbn [bind]; [|discriminate].
  rewrite take_le_from by lia. replace (off + 8 + 4) with (off + 12) by lia.
  destruct (slice (off + 8) 4 file) as [b2|] eqn:E2; cbn [bind]; [|discriminate].
  rewrite take_le_from by lia.
  destruct (slice (off + 12) 4 file) as [b3|] eqn:E3; cbn [bind ud_offset]; [|discriminate].
  assert (H16 : off + 16 <= lenN file).
  { destruct (N.le_gt_cases (off + 16) (lenN file)) as [H|H]; [exact H|].
    assert (slice (off + 12) 4 file = None) by (apply slice_None; lia). congruence. }
  destruct (_ <? _); [|discriminate]. destruct (take_le _ _) as [[s2 ?]| |]; try discriminate.
  destruct (_ =? _); [|discriminate]. destruct (header_read _); cbn [bind]; try discriminate.
  intros H. injection H as <- <- <-. right. exists (le_dec b2). split; [split; [exact Eb|]; split; [exact H16|]; now exists b2|].
  split; [reflexivity|]. cbn [option_map ud_hsize ud_size]. unfold field. now rewrite (slice_part _ _ _ _ E1), (slice_part _ _ _ _ E3).
Qed.
Lemma loop_user fuel : forall file off pos ud h, find_header_loop fuel file off = Ok (pos, ud, h) ->
  exists k, (forall j, (j < k)%nat -> passes file (off + 512 * N.of_nat j)) /\
  let b := off + 512 * N.of_nat k in
  (magic_at file b archive_magic /\ pos = b /\ ud = None) \/
  (exists dist, user_block file b dist /\ pos = b + dist /\
     option_map (fun u => (ud_hsize u, ud_size u)) ud = Some (field file (b + 12) 4, field file (b + 4) 4)).
Proof.
  induction fuel as [|fuel IH]; intros file off pos ud h H; [discriminate|].
  rewrite find_header_loop_round in H. destruct (N.leb_spec (lenN file) off) as [|Hoff]; [discriminate|].
  destruct (one_round file off) as [r|] eqn:E.
  - subst r. exists 0%nat. split; [intros; lia|]. cbv zeta. replace (off + 512 * N.of_nat 0) with off by lia.
    now apply (round_user file off pos ud h).
  - assert (P : passes file off).
    { destruct (round_cases file off Hoff) as [[P _]|[(p & u & _ & E' & _)|(_ & _ & E')]]; [exact P|congruence|congruence]. }
    destruct (IH _ _ _ _ _ H) as (k & H1 & H2). exists (S k). split.
    + intros [|j] Hj.
      * replace (off + 512 * N.of_nat 0) with off by lia. exact P.
      * replace (off + 512 * N.of_nat (S j)) with (off + HEADER_ALIGNMENT + 512 * N.of_nat j)
          by (unfold HEADER_ALIGNMENT; lia). apply H1. lia.
    + replace (off + 512 * N.of_nat (S k)) with (off + HEADER_ALIGNMENT + 512 * N.of_nat k)
        by (unfold HEADER_ALIGNMENT; lia). exact H2.
Qed.

Section Report.
Variable L : codecs.
Variable md5 sha1 : bytes -> bytes.
Variable rd : N -> N -> N.

Lemma load_tables_kept a b : load_tables L a = Ok b ->
  a_file b = a_file a /\ a_off b = a_off a /\ a_header b = a_header a /\ a_user b = a_user a /\
  (a_hash a = None -> a_hash b = None -> h_hash_count (a_header a) = 0) /\
  (a_hi b = None -> match h_hi_pos (a_header a) with Some p => p = 0 | None => True end).
Proof.
  unfold load_tables. intros H.
  destruct (if version_ge _ _ then _ else _) as [[het bet]| |]; cbn [bind] in H; try discriminate.
  destruct (match valid_het_bet _ with None => true | Some _ => _ end) eqn:Ev.
  - destruct (add64 _ _) as [o| |]; cbn [bind] in H; try discriminate.
    destruct (ht_read _ _ _) as [ht| |]; cbn [bind] in H; try discriminate.
    destruct (add64 _ (get_block_table_pos _)) as [o'| |]; cbn [bind] in H; try discriminate.
    destruct (bt_read _ _ _) as [bt| |]; cbn [bind] in H; try discriminate.
    destruct (match h_hi_pos _ with Some _ => _ | None => _ end) as [hi| |] eqn:Eh; cbn [bind] in H; try discriminate.
    apply load_attributes_same in H as (x & ->). cbn. repeat split; try discriminate.
    intros ->. destruct (h_hi_pos _) as [p|]; [|exact I]. destruct (N.eqb_spec p 0); [assumption|].
    destruct (add64 _ _); cbn [bind] in Eh; try discriminate. destruct (hi_read _ _ _); cbn [bind] in Eh; discriminate.
  - cbn [bind] in H.
    destruct (match h_hi_pos _ with Some _ => _ | None => _ end) as [hi| |] eqn:Eh; cbn [bind] in H; try discriminate.
    apply load_attributes_same in H as (x & ->). cbn. repeat split.
    + intros _ _. destruct (valid_het_bet _); [|discriminate]. apply N.ltb_ge in Ev. lia.
    + intros ->. destruct (h_hi_pos _) as [p|]; [|exact I]. destruct (N.eqb_spec p 0); [assumption|].
      destruct (add64 _ _); cbn [bind] in Eh; try discriminate. destruct (hi_read _ _ _); cbn [bind] in Eh; discriminate.
Qed.

Lemma info_tells a v i : a_header a = header_in (from (a_file a) (a_off a)) v -> a_hash a <> None \/ a_het a <> None ->
  get_info L md5 sha1 rd a = Ok i -> told (a_file a) a v i.
Proof.
  intros Eh Hl. unfold get_info.
  assert (H : match a_hash a with None => match a_het a with None => load_tables L a | _ => Ok a end | _ => Ok a end = Ok a).
  { destruct (a_hash a); [reflexivity|]. destruct (a_het a); [reflexivity|]. destruct Hl as [E|E]; now elim E. }
  rewrite H. cbn [bind]. clear H.
  destruct (find_file a LISTFILE) as [lf| |] eqn:E1; cbn [bind]; try discriminate.
  destruct (find_file a SIGNATURE) as [sg| |] eqn:E2; cbn [bind]; try discriminate.
  destruct (match a_attrs a with Some _ => _ | None => _ end) as [at0| |] eqn:E3; cbn [bind]; try discriminate.
  destruct (match sg with Some _ => _ | None => _ end) as [st| |] eqn:E4; cbn [bind]; try discriminate.
  destruct (validate_v4 md5 a) as [m| |] eqn:E5; cbn [bind]; try discriminate.
  destruct (sector_size _) as [ss| |] eqn:E6; cbn [bind]; try discriminate.
  intros H. apply Ok_inj in H. subst i.
  assert (F : forall p n, field (from (a_file a) (a_off a)) p n = at_ (a_file a) a p n) by (intros; apply field_from).
  unfold told. cbn [i_version i_sector_size i_file_count i_max_count i_encrypted i_has_listfile i_has_signature i_has_attributes i_signature i_md5].
  split; [now rewrite Eh|].
  split.
  { unfold sector_size in E6. destruct (_ <? 64); [|discriminate]. apply Ok_inj in E6. subst ss. rewrite Eh. cbn [header_in h_block_size].
    rewrite F, N.shiftl_mul_pow2. reflexivity. }
  split; [reflexivity|].
  split; [rewrite Eh; cbn [header_in h_hash_count]; now rewrite F|].
  split.
  { destruct (a_block a) as [bt|]; [|split; [discriminate|intros (? & ? & ? & _); discriminate]].
    rewrite existsb_exists. split.
    - intros (e & He & K). exists bt, e. split; [reflexivity|]. split; [exact He|]. now apply encrypted_bit.
    - intros (bt' & e & [= <-] & He & K). exists e. split; [exact He|]. now apply encrypted_bit. }
  split; [unfold there; change (lit "(listfile)") with LISTFILE; rewrite E1; destruct lf; split; intros K; try discriminate; try reflexivity; [eauto|now destruct K]|].
  split; [unfold there; change (lit "(signature)") with SIGNATURE; rewrite E2; destruct sg; split; intros K; try discriminate; try reflexivity; [eauto|now destruct K]|].
  split.
  { destruct (a_attrs a); [apply Ok_inj in E3; subst at0; split; [left; discriminate|reflexivity]|].
    change (lit "(attributes)") with ATTRIBUTES. unfold there.
    destruct (find_file a ATTRIBUTES) as [fa| |]; cbn [bind] in E3; try discriminate. apply Ok_inj in E3. subst at0.
    destruct fa; split; intros K; try discriminate; try reflexivity; [right; eauto|]. destruct K as [K|[? K]]; [now elim K|discriminate]. }
  split.
  { destruct sg; [discriminate|]. intros _. apply Ok_inj in E4. congruence. }
  unfold validate_v4 in E5. rewrite Eh in E5. destruct v; cbn [header_in h_v4] in E5.
  1,2,3: apply Ok_inj in E5; subst m; split; [intros K; now elim K|discriminate].
  repeat match type of E5 with bind ?X _ = Ok _ => destruct X; cbn [bind] in E5; try discriminate end.
  apply Ok_inj in E5. subst m. split; [reflexivity|discriminate].
Qed.

Lemma het_size_is h p s : het_table_size h p = Ok s ->
  p + s = if p <? match h_bet_pos h with Some b => b | None => 0 end
          then match h_bet_pos h with Some b => b | None => 0 end else get_hash_table_pos h.
Proof.
  unfold het_table_size, sub_chk. destruct (h_bet_pos h) as [b|].
  - destruct (N.ltb_spec p b) as [C|C].
    + intros H. apply Ok_inj in H. subst s. lia.
    + destruct (N.ltb_spec (get_hash_table_pos h) p) as [D|D]; [discriminate|]. intros E. apply Ok_inj in E. subst s. lia.
  - destruct (N.ltb_spec p 0); [lia|]. destruct (N.ltb_spec (get_hash_table_pos h) p) as [D|D]; [discriminate|]. intros E. apply Ok_inj in E. subst s. lia.
Qed.
Lemma bet_size_is h p s : bet_table_size h p = Ok s -> p + s = get_hash_table_pos h.
Proof.
  unfold bet_table_size, sub_chk. destruct (N.ltb_spec (get_hash_table_pos h) p) as [D|D]; [discriminate|]. intros E. apply Ok_inj in E. subst s. lia.
Qed.

Lemma report_loaded a : a_hash a <> None \/ a_het a <> None ->
  match a_hash a, a_het a with None, None => load_tables L a | _, _ => Ok a end = Ok a.
Proof.
  intros Hl. destruct (a_hash a); [reflexivity|]. destruct (a_het a); [reflexivity|]. destruct Hl as [E|E]; now elim E.
Qed.

Lemma report_tells file a r : open_archive L file = Ok a -> get_report L md5 sha1 rd a = Ok r ->
  exists v, begins_with_header (skipn (N.to_nat (a_off a)) file) v /\
    r_file_size r = lenN file /\ r_offset r = a_off a /\ told file a v (r_info r) /\
    r_hash r = hash_info file a v /\ block_info file a v (r_block r) /\ r_hi r = hi_info file a v /\
    extended_info file a v 60 92 (het_next file a v) het_max (a_het a) (r_het r) /\
    extended_info file a v 52 100 (fun _ => hash_at file a v) bet_count (a_bet a) (r_bet r) /\
    user_info file a (r_user r).
Proof.
  intros Ho Hr.
  assert (U : exists ud, find_header file = Ok (a_off a, ud, a_header a) /\ a_user a = ud /\ a_file a = file /\
            (a_hash a <> None \/ a_het a <> None) /\
            (a_hash a = None -> h_hash_count (a_header a) = 0) /\
            (a_hi a = None -> match h_hi_pos (a_header a) with Some p => p = 0 | None => True end)).
  { unfold open_archive, open_with_options in Ho. destruct (find_header file) as [[[off ud] h]| |]; cbn [bind] in Ho; try discriminate.
    pose proof (load_tables_loaded L _ _ Ho) as Hl. apply load_tables_kept in Ho as (K1 & K2 & K3 & K4 & K5 & K6). cbn in K1, K2, K3, K4, K5, K6.
    exists ud. rewrite K2, K3. split; [reflexivity|]. split; [exact K4|]. split; [exact K1|]. split; [exact Hl|]. split; [now apply K5|exact K6]. }
  destruct U as (ud & Hf & Eu & Ef & Hl & Hh & Hi). subst ud.
  pose proof (header_at _ _ _ _ Hf) as Hd. apply header_read_fields in Hd as (v & Hb & Eh).
  exists v. split; [now rewrite <- from_skipn|].
  unfold get_report in Hr. rewrite (report_loaded a Hl) in Hr. cbn [bind] in Hr.
  destruct (get_info L md5 sha1 rd a) as [i| |] eqn:Ei; cbn [bind] in Hr; try discriminate.
  assert (T : told file a v i) by (rewrite <- Ef; apply info_tells; [now rewrite Ef|exact Hl|exact Ei]).
  destruct (ext_info _ _ _ _ het_max _) as [het| |] eqn:Ehet; cbn [bind] in Hr; try discriminate.
  destruct (ext_info _ _ _ _ bet_count _) as [bet| |] eqn:Ebet; cbn [bind] in Hr; try discriminate.
  apply Ok_inj in Hr. subst r. cbn [r_file_size r_offset r_info r_hash r_block r_hi r_het r_bet r_user].
  assert (F : forall p n, field (from file (a_off a)) p n = at_ file a p n) by (intros; apply field_from).
  assert (Lt : forall p, at_ file a p 4 < 2 ^ 32) by (intros p; apply (field_lt file (a_off a + p) 4)).
  assert (HP : get_hash_table_pos (a_header a) = hash_at file a v).
  { unfold get_hash_table_pos, hash_at, upper. rewrite Eh. destruct v; cbn [header_in h_hash_pos_hi h_hash_pos]; rewrite ?F;
      try (now rewrite pos_of_halves by apply Lt). lia. }
  assert (BP : get_block_table_pos (a_header a) = upper file a v 42 + at_ file a 20 4).
  { unfold get_block_table_pos, upper. rewrite Eh. destruct v; cbn [header_in h_block_pos_hi h_block_pos]; rewrite ?F;
      try (now rewrite pos_of_halves by apply Lt). lia. }
  assert (HC : h_hash_count (a_header a) = at_ file a 24 4) by (rewrite Eh; cbn [header_in h_hash_count]; apply F).
  assert (BC : h_block_count (a_header a) = at_ file a 28 4) by (rewrite Eh; cbn [header_in h_block_count]; apply F).
  split; [now rewrite Ef|]. split; [reflexivity|]. split; [exact T|].
  split.
  { unfold hash_info. rewrite HP, HC. f_equal.
    - unfold in_v4. rewrite Eh. destruct v; cbn [header_in h_v4 option_map v4_hash_size]; rewrite ?F; reflexivity.
    - destruct (a_hash a); [reflexivity|]. cbn [none_in]. rewrite <- HC, Hh by reflexivity. reflexivity. }
  split.
  { unfold block_info. cbn [ti_size ti_offset ti_csize ti_failed]. rewrite BP, BC. split; [reflexivity|]. split; [reflexivity|]. split.
    - unfold in_v4. rewrite Eh. destruct v; cbn [header_in h_v4 option_map v4_block_size]; rewrite ?F; reflexivity.
    - destruct (a_block a); cbn [none_in andb]; [split; [discriminate|intros [K _]; discriminate]|].
      rewrite N.ltb_lt. split; [intros K; split; [reflexivity|lia]|intros [_ K]; lia]. }
  split.
  { unfold hi_info, in_v4. rewrite Eh in Hi |- *.
    destruct v; cbn [header_in h_hi_pos h_v4 option_map v4_hi_size h_block_count] in Hi |- *; rewrite ?F in Hi; rewrite ?F; [reflexivity|..].
    all: destruct (N.eqb_spec (at_ file a 32 8) 0) as [Z|Z]; [reflexivity|].
    all: destruct (a_hi a); [reflexivity|]; now specialize (Hi eq_refl). }
  split; [|split].
  - unfold extended_info, ext_info in *. rewrite Eh in Ehet.
    destruct v; cbn [header_in h_het_pos h_version h_v4 option_map v4_het_size] in Ehet; [now apply Ok_inj in Ehet|now apply Ok_inj in Ehet|..].
    all: rewrite ?F in Ehet; split; intros Z; [rewrite Z in Ehet; cbn in Ehet; now apply Ok_inj in Ehet|].
    all: apply N.eqb_neq in Z; rewrite Z in Ehet.
    + rewrite <- Eh in Ehet. destruct (het_table_size _ _) as [s| |] eqn:Es; cbn [bind] in Ehet; try discriminate.
      * apply Ok_inj in Ehet. exists s. split; [rewrite <- Ehet; now destruct (a_het a)|].
        apply het_size_is in Es. rewrite HP in Es. rewrite Eh in Es. cbn [header_in h_bet_pos] in Es. rewrite F in Es. exact Es.
      * unfold het_table_size, sub_chk in Es. repeat match type of Es with context [match ?x with _ => _ end] => destruct x end; discriminate.
    + cbn [bind] in Ehet. apply Ok_inj in Ehet. exists (at_ file a 92 8). split; [rewrite <- Ehet; now destruct (a_het a)|reflexivity].
  - unfold extended_info, ext_info in *. rewrite Eh in Ebet.
    destruct v; cbn [header_in h_bet_pos h_version h_v4 option_map v4_bet_size] in Ebet; [now apply Ok_inj in Ebet|now apply Ok_inj in Ebet|..].
    all: rewrite ?F in Ebet; split; intros Z; [rewrite Z in Ebet; cbn in Ebet; now apply Ok_inj in Ebet|].
    all: apply N.eqb_neq in Z; rewrite Z in Ebet.
    + rewrite <- Eh in Ebet. destruct (bet_table_size _ _) as [s| |] eqn:Es; cbn [bind] in Ebet; try discriminate.
      * apply Ok_inj in Ebet. exists s. split; [rewrite <- Ebet; now destruct (a_bet a)|].
        apply bet_size_is in Es. now rewrite HP in Es.
      * unfold bet_table_size, sub_chk in Es. destruct (_ <? _); discriminate.
    + cbn [bind] in Ebet. apply Ok_inj in Ebet. exists (at_ file a 100 8). split; [rewrite <- Ebet; now destruct (a_bet a)|reflexivity].
  - unfold find_header in Hf. apply loop_user in Hf as (k & P & Q). exists k. setoid_rewrite N.add_0_l in P.
    split; [exact P|]. cbv zeta in Q. rewrite N.add_0_l in Q. destruct Q as [(Q1 & Q2 & Q3)|(dist & Q1 & Q2 & Q3)].
    + left. rewrite Q3. auto.
    + right. exists dist. auto.
Qed.

Lemma ext_sized {T} off pos v (size_of : N -> res N) (f : N -> N -> res T) x n y (entries : T -> N) t h :
  load_ext off pos n v size_of f = Ok x -> h_version h = v -> (v = V3 -> n = 0) ->
  match size_of y with Err _ => False | _ => True end -> pos = Some y ->
  exists z, ext_info h pos (match v with V4 => Some n | _ => None end) size_of entries t = Ok z.
Proof.
  intros H Ev En Es ->. unfold load_ext in H. unfold ext_info. rewrite Ev. destruct (y =? 0); [now exists None|].
  destruct v; cbn [bind]; try (eexists; reflexivity). rewrite (En eq_refl) in H. cbn [N.eqb] in H.
  destruct (size_of y); cbn [bind] in *; [eexists; reflexivity|contradiction|discriminate].
Qed.

Lemma report_there file a i : open_archive L file = Ok a -> get_info L md5 sha1 rd a = Ok i ->
  exists r, get_report L md5 sha1 rd a = Ok r /\ r_info r = i.
Proof.
  intros Ho Hi. unfold get_report.
  assert (U : (a_hash a <> None \/ a_het a <> None) /\ exists off ud v,
              a_header a = header_in (from file off) v /\ load_tables L (mkA file off ud (a_header a) None None None None None None) = Ok a).
  { unfold open_archive, open_with_options in Ho. destruct (find_header file) as [[[off ud] h]| |] eqn:Hf; cbn [bind] in Ho; try discriminate.
    split; [exact (load_tables_loaded L _ _ Ho)|]. pose proof Ho as K. apply load_tables_kept in K as (_ & _ & K & _). cbn in K.
    apply header_at in Hf. apply header_read_fields in Hf as (v & _ & Eh). exists off, ud, v. rewrite K. split; [exact Eh|exact Ho]. }
  destruct U as (Hl & off & ud & v & Eh & Ht). rewrite (report_loaded a Hl). cbn [bind]. rewrite Hi. cbn [bind].
  unfold load_tables in Ht. cbn [a_header a_file a_off a_user a_hash a_block a_hi a_het a_bet a_attrs] in Ht.
  assert (N1 : forall p, match het_table_size (a_header a) p with Err _ => False | _ => True end).
  { intros p. unfold het_table_size, sub_chk. destruct (h_bet_pos _) as [b|]; [destruct (p <? b); [exact I|]|]; destruct (_ <? p); exact I. }
  assert (N2 : forall p, match bet_table_size (a_header a) p with Err _ => False | _ => True end).
  { intros p. unfold bet_table_size, sub_chk. destruct (get_hash_table_pos (a_header a) <? p); exact I. }
  assert (G : (exists z, ext_info (a_header a) (h_het_pos (a_header a)) (option_map v4_het_size (h_v4 (a_header a))) (het_table_size (a_header a))
                          het_max (a_het a) = Ok z) /\
              (exists z, ext_info (a_header a) (h_bet_pos (a_header a)) (option_map v4_bet_size (h_v4 (a_header a))) (bet_table_size (a_header a))
                          bet_count (a_bet a) = Ok z)).
  { assert (Ev : h_version (a_header a) = v) by (rewrite Eh; reflexivity).
    destruct v.
    1, 2: rewrite Eh; split; exists None; reflexivity.
    all: rewrite Ev in Ht; cbn [version_ge version_raw N.leb N.compare] in Ht;
      change (version_ge V3 V3) with true in Ht; change (version_ge V4 V3) with true in Ht; cbv iota in Ht.
    all: destruct (load_ext off (h_het_pos _) _ _ _ _) as [x| |] eqn:E1; cbn [bind] in Ht; try discriminate.
    all: destruct (load_ext off (h_bet_pos _) _ _ _ _) as [y| |] eqn:E2; cbn [bind] in Ht; try discriminate.
    all: split.
    - destruct (ext_sized _ _ _ _ _ _ _ (field (from file off) 60 8) het_max (a_het a) (a_header a) E1 Ev) as [z Hz];
        [intros _; unfold v4_het; rewrite Eh; reflexivity|apply N1|rewrite Eh; reflexivity|].
      exists z. rewrite <- Hz. f_equal. rewrite Eh. reflexivity.
    - destruct (ext_sized _ _ _ _ _ _ _ (field (from file off) 52 8) bet_count (a_bet a) (a_header a) E2 Ev) as [z Hz];
        [intros _; unfold v4_bet; rewrite Eh; reflexivity|apply N2|rewrite Eh; reflexivity|].
      exists z. rewrite <- Hz. f_equal. rewrite Eh. reflexivity.
    - destruct (ext_sized _ _ _ _ _ _ _ (field (from file off) 60 8) het_max (a_het a) (a_header a) E1 Ev) as [z Hz];
        [discriminate|apply N1|rewrite Eh; reflexivity|].
      exists z. rewrite <- Hz. f_equal. unfold v4_het. rewrite Eh. reflexivity.
    - destruct (ext_sized _ _ _ _ _ _ _ (field (from file off) 52 8) bet_count (a_bet a) (a_header a) E2 Ev) as [z Hz];
        [discriminate|apply N2|rewrite Eh; reflexivity|].
      exists z. rewrite <- Hz. f_equal. unfold v4_bet. rewrite Eh. reflexivity. }
  destruct G as ((z1 & G1) & (z2 & G2)). rewrite G1. cbn [bind]. rewrite G2. cbn [bind]. eexists. split; reflexivity.
Qed.

Lemma deferred_report file a : open_with_options L file false = Ok a ->
  get_report L md5 sha1 rd a = (b <- open_archive L file ;; get_report L md5 sha1 rd b).
Proof.
  unfold open_archive, open_with_options. destruct (find_header file) as [[[off ud] h]| |]; cbn [bind]; try discriminate.
  intros H. apply Ok_inj in H. subst a. unfold get_report at 1. cbn [a_hash a_het].
  destruct (load_tables L _) as [b| |] eqn:E; cbn [bind]; try reflexivity.
  apply load_tables_loaded in E. unfold get_report. rewrite (report_loaded b E). reflexivity.
Qed.
End Report.

(** ** Printing *)
Lemma decimal_shown n : n < 2 ^ 64 -> shown n (decimal n).
Proof.
  intros H. destruct (dec_digits_ok 19 n []) as (d & D1 & D2 & D3 & D4 & D5 & D6).
  { eapply N.lt_trans; [exact H|]. vm_compute. reflexivity. }
  unfold decimal. change (dec_digits 20 n []) with (dec_digits (S 19) n []). rewrite D1, app_nil_r.
  split; [exact D2|]. split; [exact D3|]. split; [exact D4|]. intros Z. destruct (N.eq_dec n 0) as [E|E]; [now apply D5|].
  now elim (D6 E).
Qed.
Lemma shown_plain n t : shown n t -> csv_plain t.
Proof.
  intros (D & _) b Hb. rewrite Forall_forall in D. specialize (D b Hb). unfold digit in D.
  repeat split; intros ->; vm_compute in D; destruct D as [D1 D2]; (now elim D1) || (now elim D2).
Qed.

Definition rows_of (rows : list (bytes * bytes)) : list (list bytes) := map (fun kv => [fst kv; snd kv]) rows.
Definition text_of (rows : list (bytes * bytes)) : bytes := concat (map (fun kv => line (fst kv ++ lit "," ++ snd kv)) rows).
Lemma rows_csv rows : Forall (fun kv => csv_plain (fst kv)) rows ->
  (csv_text (rows_of rows) (text_of rows) <-> Forall (fun kv => csv_plain (snd kv)) rows).
Proof.
  intros K. split.
  - intros H. apply text_length in H as [_ H].
    assert (E : length (text_of rows) = text_size (rows_of rows)).
    { clear. induction rows as [|[k v] t IH]; [reflexivity|]. unfold text_of, rows_of in *. cbn [map concat text_size fold_right record_size fst snd].
      fold (text_size (map (fun kv : bytes * bytes => [fst kv; snd kv]) t)). rewrite app_length, IH. unfold line.
      rewrite !app_length. change (length (lit ",")) with 1%nat. cbn [length]. lia. }
    specialize (H E). unfold rows_of in H. rewrite Forall_map in H. eapply Forall_impl; [|exact H]. intros [k v] F.
    inversion F as [|? ? _ F']; subst. now inversion F'.
  - intros P. induction rows as [|[k v] t IH]; [constructor|]. inversion K as [|? ? K1 K2]; inversion P as [|? ? P1 P2]; subst.
    cbn [fst snd] in K1, P1. change (rows_of ((k, v) :: t)) with ([k; v] :: rows_of t).
    change (text_of ((k, v) :: t)) with (((k ++ [","%byte] ++ v) ++ ["010"%byte]) ++ text_of t). rewrite <- (app_assoc (k ++ _)).
    apply text_lf; [|apply IH; assumption]. apply record_more; [now apply field_plain|]. apply record_last. now apply field_plain.
Qed.

Lemma report_csv path r : r_file_size r < 2 ^ 64 -> r_offset r < 2 ^ 64 -> i_file_count (r_info r) < 2 ^ 64 ->
  i_max_count (r_info r) < 2 ^ 64 -> i_sector_size (r_info r) < 2 ^ 64 ->
  exists size off ver files max sector sig,
    shown (r_file_size r) size /\ shown (r_offset r) off /\ shown (version_number (i_version (r_info r))) ver /\
    shown (i_file_count (r_info r)) files /\ shown (i_max_count (r_info r)) max /\ shown (i_sector_size (r_info r)) sector /\
    sig = status_word (i_signature (r_info r)) /\
    (csv_text [[lit "property"; lit "value"]; [lit "path"; path]; [lit "file_size"; size]; [lit "archive_offset"; off];
               [lit "format_version"; ver]; [lit "file_count"; files]; [lit "max_file_count"; max]; [lit "sector_size"; sector];
               [lit "is_encrypted"; yes_no (i_encrypted (r_info r))]; [lit "has_signature"; yes_no (i_has_signature (r_info r))];
               [lit "signature_status"; sig]; [lit "has_attributes"; yes_no (i_has_attributes (r_info r))];
               [lit "has_listfile"; yes_no (i_has_listfile (r_info r))]]
       (print_info_csv path r) <-> csv_plain path).
Proof.
  intros H1 H2 H3 H4 H5.
  pose proof (decimal_shown _ H1) as S1. pose proof (decimal_shown _ H2) as S2. pose proof (decimal_shown _ H3) as S3.
  pose proof (decimal_shown _ H4) as S4. pose proof (decimal_shown _ H5) as S5.
  assert (Sv : shown (version_shown (i_version (r_info r))) (decimal (version_shown (i_version (r_info r))))).
  { apply decimal_shown. destruct (i_version _); reflexivity. }
  exists (decimal (r_file_size r)), (decimal (r_offset r)), (decimal (version_shown (i_version (r_info r)))), (decimal (i_file_count (r_info r))),
    (decimal (i_max_count (r_info r))), (decimal (i_sector_size (r_info r))), (status_text (i_signature (r_info r))).
  split; [exact S1|]. split; [exact S2|]. split; [exact Sv|]. split; [exact S3|]. split; [exact S4|]. split; [exact S5|].
  split; [reflexivity|].
  set (rows := [(lit "property", lit "value"); (lit "path", path); (lit "file_size", decimal (r_file_size r));
    (lit "archive_offset", decimal (r_offset r)); (lit "format_version", decimal (version_shown (i_version (r_info r))));
    (lit "file_count", decimal (i_file_count (r_info r))); (lit "max_file_count", decimal (i_max_count (r_info r)));
    (lit "sector_size", decimal (i_sector_size (r_info r))); (lit "is_encrypted", truth (i_encrypted (r_info r)));
    (lit "has_signature", truth (i_has_signature (r_info r))); (lit "signature_status", status_text (i_signature (r_info r)));
    (lit "has_attributes", truth (i_has_attributes (r_info r))); (lit "has_listfile", truth (i_has_listfile (r_info r)))]).
  assert (E : print_info_csv path r = text_of rows).
  { unfold print_info_csv, text_of, rows. cbn [map concat fst snd]. rewrite app_nil_r. reflexivity. }
  rewrite E. change (csv_text (rows_of rows) (text_of rows) <-> csv_plain path).
  rewrite rows_csv by (unfold rows; repeat (apply Forall_cons; [apply csv_plainb; reflexivity|]); apply Forall_nil).
  assert (Tr : forall b, csv_plain (truth b)) by (intros []; apply csv_plainb; reflexivity).
  assert (St : csv_plain (status_text (i_signature (r_info r)))) by (destruct (i_signature _); apply csv_plainb; reflexivity).
  split.
  - intros F. unfold rows in F. inversion F as [|? ? _ F']; subst. now inversion F'.
  - intros P. unfold rows.
    apply Forall_cons; [apply csv_plainb; reflexivity|].
    apply Forall_cons; [exact P|].
    apply Forall_cons; [exact (shown_plain _ _ S1)|].
    apply Forall_cons; [exact (shown_plain _ _ S2)|].
    apply Forall_cons; [exact (shown_plain _ _ Sv)|].
    apply Forall_cons; [exact (shown_plain _ _ S3)|].
    apply Forall_cons; [exact (shown_plain _ _ S4)|].
    apply Forall_cons; [exact (shown_plain _ _ S5)|].
    apply Forall_cons; [apply Tr|].
    apply Forall_cons; [apply Tr|].
    apply Forall_cons; [exact St|].
    apply Forall_cons; [apply Tr|].
    apply Forall_cons; [apply Tr|].
    apply Forall_nil.
Qed.

(** ** The signature in a report *)
Lemma signature_told L md5 sha1 rd file a : open_archive L file = Ok a -> there a (lit "(signature)") ->
  (forall i, get_info L md5 sha1 rd a = Ok i ->
     (forall s, verify_signature L md5 sha1 rd weak_public_key strong_public_key a = Ok s -> i_signature i = s) /\
     (forall e, verify_signature L md5 sha1 rd weak_public_key strong_public_key a = Err e -> i_signature i = WeakInvalid)) /\
  (forall e, get_info L md5 sha1 rd a = Err e ->
     find_file a (lit "(listfile)") = Err e \/ find_file a (lit "(attributes)") = Err e \/ validate_v4 md5 a = Err e).
Proof.
  intros Ho (fi & Hfi).
  assert (El : (match a_hash a, a_het a with None, None => load_tables L a | _, _ => Ok a end) = Ok a).
  { assert (K : a_hash a <> None \/ a_het a <> None).
    { unfold open_archive, open_with_options in Ho. destruct (find_header file) as [[[off ud] h]|e|]; cbn [bind] in Ho; try discriminate.
      exact (load_tables_loaded L _ _ Ho). }
    destruct (a_hash a); [reflexivity|]. destruct (a_het a); [reflexivity|]. destruct K; congruence. }
  unfold get_info. rewrite El. cbn [bind]. cbv zeta.
  change LISTFILE with (lit "(listfile)"). change SIGNATURE with (lit "(signature)"). change ATTRIBUTES with (lit "(attributes)").
  destruct (find_file a (lit "(listfile)")) as [lf|e1|]; cbn [bind]; [|split; [intros; discriminate|intros e H; left; congruence]|split; intros; discriminate].
  rewrite Hfi. cbn [bind].
  destruct (match a_attrs a with Some _ => Ok true | None => _ end) as [at_|e1|] eqn:Ea; cbn [bind].
  2:{ split; [intros; discriminate|]. intros e H. right. left. destruct (a_attrs a); [discriminate|].
      destruct (find_file a (lit "(attributes)")); cbn [bind] in Ea; congruence. }
  2:{ split; intros; discriminate. }
  destruct (verify_signature L md5 sha1 rd weak_public_key strong_public_key a) as [s|e1|]; cbn [bind].
  3:{ split; intros; discriminate. }
  all: destruct (validate_v4 md5 a) as [m|e2|] eqn:Ev; cbn [bind];
    [|split; [intros; discriminate|intros e H; right; right; congruence]|split; intros; discriminate];
    unfold sector_size; destruct (h_block_size (a_header a) <? 64); cbn [bind]; split; try (intros; discriminate);
    intros i H; injection H as <-; cbn [i_signature]; split; intros; congruence.
Qed.
