(** * Facts about opening the version 3 and 4 archives the builder wrote. *)
From Verif Require Import Bytes Crypto CryptoFacts SpecNames NameFacts HashTable BlockTable Header
  HeaderFacts SpecHeader HeaderSearch Compress SpecTables HashTableFacts TableMap SpecCompress CompressFacts
  Adler Listfile HetBet SpecBits BitFacts HetBetFacts Builder BuilderFacts Attributes Archive ReadFacts OpenFacts.
Open Scope N_scope.

(** ** The digest of the header *)
Definition with_v4 (p : hparams) (v : v4data) : hparams :=
  mkHP (p_version p) (p_block_size p) (p_archive_size p) (p_hash_pos p) (p_block_pos p)
       (p_hash_count p) (p_block_count p) (p_hi_pos p) (p_het_pos p) (p_bet_pos p) (Some v).
Definition with_md5 (v : v4data) (m : bytes) : v4data :=
  mkV4 (v4_hash_size v) (v4_block_size v) (v4_hi_size v) (v4_het_size v) (v4_bet_size v) (v4_chunk v)
       (v4_md5_block v) (v4_md5_hash v) (v4_md5_hi v) (v4_md5_bet v) (v4_md5_het v) m.

Lemma header_patched p v w m :
  p_version p = V4 -> p_v4 p = Some v -> v4_ok v -> lenN m = 16 -> write_header p = Ok w ->
  write_header (with_v4 p (with_md5 v m)) = Ok (firstn 192 w ++ m) /\
  firstn 192 (firstn 192 w ++ m) = firstn 192 w /\ length (firstn 192 w) = 192%nat.
Proof.
  intros Hv Hp Hok Hm Hw.
  assert (Hl : length w = 208%nat).
  { pose proof (write_header_length p w) as H. rewrite Hp, Hv in H. specialize (H Hok Hw).
    cbn [header_size_of] in H. unfold lenN in H. lia. }
  unfold write_header in *. cbn [with_v4 p_version p_v4]. rewrite Hv in *. rewrite Hp in Hw.
  apply Ok_inj in Hw.
  set (x := header_v1_bytes p ++ header_v2_bytes p ++ header_v3_bytes p ++
     le64 (v4_hash_size v) ++ le64 (v4_block_size v) ++ le64 (v4_hi_size v)
  ++ le64 (v4_het_size v) ++ le64 (v4_bet_size v) ++ le32 (v4_chunk v)
  ++ v4_md5_block v ++ v4_md5_hash v ++ v4_md5_hi v ++ v4_md5_bet v ++ v4_md5_het v).
  assert (Ew : w = x ++ v4_md5_header v).
  { rewrite <- Hw. unfold x, v4_bytes. rewrite <- !app_assoc. reflexivity. }
  assert (Hx : length x = 192%nat).
  { rewrite Ew, app_length in Hl. destruct Hok as (_ & _ & _ & _ & _ & _ & _ & _ & _ & _ & _ & H).
    unfold lenN in H. lia. }
  assert (E1 : firstn 192 w = x) by (rewrite Ew, <- Hx; apply firstn_app_exact; reflexivity).
  rewrite E1. split; [|split; [rewrite <- Hx; apply firstn_app_exact; reflexivity|exact Hx]].
  f_equal. unfold x, v4_bytes, with_md5, header_v1_bytes, header_v2_bytes, header_v3_bytes.
  cbn [with_v4 p_version p_block_size p_archive_size p_hash_pos p_block_pos p_hash_count p_block_count
       p_hi_pos p_het_pos p_bet_pos v4_hash_size v4_block_size v4_hi_size v4_het_size v4_bet_size v4_chunk
       v4_md5_block v4_md5_hash v4_md5_hi v4_md5_bet v4_md5_het v4_md5_header].
  rewrite Hv. rewrite <- !app_assoc. reflexivity.
Qed.


Section O34.
Variable L : codecs.
Variable md5 : bytes -> bytes.

(** Where everything is. *)
Definition laid_out34 (h : header) (ss : N) (c : config) (fs : list pending) (arc : bytes)
    (bt : list bentry) (hi : option (list N)) : Prop :=
  exists hdr body es hetb betb htab btab hib,
    arc = hdr ++ body ++ hetb ++ betb ++ htab ++ btab ++ hib /\
    lenN hdr = header_size_of (c_version c) /\ h_size h = lenN hdr /\
    h_version h = c_version c /\
    bt = map snd es /\
    (forall i p b, nth_error es i = Some (p, b) -> pos_full hi (N.of_nat i) (pos_low p) = p) /\
    write_files L c ss fs (h_size h) = Ok (body, es) /\
    h_het_pos h = Some (lenN hdr + lenN body) /\
    h_bet_pos h = Some (lenN hdr + lenN body + lenN hetb) /\
    get_hash_table_pos h = lenN hdr + lenN body + lenN hetb + lenN betb /\
    get_block_table_pos h = lenN hdr + lenN body + lenN hetb + lenN betb + lenN htab /\
    12 <= lenN hetb /\ 12 <= lenN betb /\
    lenN htab = 16 * h_hash_count h /\ 0 < h_hash_count h /\
    lenN btab = 16 * h_block_count h /\ h_block_count h = lenN fs /\
    match hi with
    | None => h_hi_pos h = Some 0 /\ hib = []
    | Some _ => h_hi_pos h = Some (get_block_table_pos h + lenN btab) /\ lenN hib = 2 * lenN fs /\ fs <> []
    end /\
    match c_version c with
    | V4 => exists v, h_v4 h = Some v /\
        v4_hash_size v = lenN htab /\ v4_block_size v = lenN btab /\ v4_hi_size v = 2 * lenN fs /\
        v4_het_size v = lenN hetb /\ v4_bet_size v = lenN betb /\
        v4_md5_block v = md5 btab /\ v4_md5_hash v = md5 htab /\
        (hib <> [] -> v4_md5_hi v = md5 hib) /\
        v4_md5_bet v = md5 betb /\ v4_md5_het v = md5 hetb /\
        v4_md5_header v = md5 (firstn 192 hdr)
    | _ => h_v4 h = None
    end /\
    forall rest, header_read (hdr ++ rest) = Ok h.

Lemma write_ext_table_ge m d key out :
  write_ext_table L false m d key = Ok out -> 12 <= lenN out.
Proof.
  unfold write_ext_table. destruct (N.ltb_spec (lenN d) 12) as [|H]; [discriminate|]. cbn [bind].
  intros E. apply Ok_inj in E. subst out. rewrite lenN_app. unfold lenN in *. rewrite firstn_length.
  lia.
Qed.

Lemma write_archive34_open c fs arc pre post ud :
  write_archive34 L md5 c fs = Ok arc -> version_ge (c_version c) V3 = true -> c_ctables c = false ->
  (c_version c = V4 -> forall x, lenN (md5 x) = 16) ->
  c_block_size c < M16 -> Forall (fun f => pf_locale f < M16) fs ->
  table_count c fs < 2 ^ 30 -> pos_fits (c_version c) (lenN arc) ->
  lenN (pre ++ arc ++ post) < 2 ^ 63 ->
  find_header (pre ++ arc ++ post) =
    (h <- header_read (from (pre ++ arc ++ post) (lenN pre)) ;; Ok (lenN pre, ud, h)) ->
  exists h ss t bt hi he be, sector_size (c_block_size c) = Ok ss /\
    let a := mkA (pre ++ arc ++ post) (lenN pre) ud h (Some t) (Some bt) hi (Some he) (Some be) None in
    open_archive L (pre ++ arc ++ post) = load_attributes L a /\ describes L a c ss fs /\
    (het_is he (lenN fs) /\ het_rows he (map pf_name fs)) /\ bet_is be bt /\ Forall be_ok bt /\
    laid_out34 h ss c fs arc bt hi.
Proof.
  intros W Hv Hct Hmd Hbs Hloc Hcnt Hfit H63 Hh.
  unfold write_archive34 in W. rewrite Hct in W.
  destruct (sector_size (c_block_size c)) as [ss| |] eqn:Ess; cbn [bind] in W; try discriminate.
  destruct (write_files L c ss fs (header_size_of (c_version c))) as [[body es]| |] eqn:Ef;
    cbn [bind] in W; try discriminate.
  destruct (create_het_table (map pf_name fs)) as [hd0| |] eqn:Ehet; cbn [bind] in W; try discriminate.
  destruct (write_ext_table L false (c_tmethod c) hd0 ht_key) as [hetb| |] eqn:Ehw; cbn [bind] in W; try discriminate.
  destruct (create_bet_table (map pf_name fs) (map snd es)) as [bd0| |] eqn:Ebet; cbn [bind] in W; try discriminate.
  destruct (write_ext_table L false (c_tmethod c) bd0 bt_key) as [betb| |] eqn:Ebw; cbn [bind] in W; try discriminate.
  set (hcount := calculate_hash_table_size (table_count c fs)) in *.
  destruct (ht_new hcount) as [t0| |] eqn:Et0; cbn [bind] in W; try discriminate.
  destruct (add_files t0 fs 0) as [t| |] eqn:Et; cbn [bind] in W; try discriminate.
  assert (Hle : lenN fs <= table_count c fs) by (unfold table_count; lia).
  assert (H32 : 0 + lenN fs <= M32).
  { change (2 ^ 30) with 1073741824 in Hcnt. unfold M32. change (2 ^ 32) with 4294967296. lia. }
  assert (H32' : lenN fs < M32).
  { change (2 ^ 30) with 1073741824 in Hcnt. unfold M32. change (2 ^ 32) with 4294967296. lia. }
  rewrite add_files_all in Et by exact H32.
  destruct (builder_inv (table_count c fs) (map file_key fs) t0 t) as (k & Hk32 & Hhc & Htk & Hlt & Inv & Hmax);
    [rewrite map_lenN; exact Hle|exact Hcnt|exact Et0|exact Et|].
  rewrite map_length in Hlt. rewrite map_lenN in Hmax. fold hcount in Hhc.
  assert (Hok : Forall he_ok t).
  { apply (add_all_ok (map file_key fs) t0 0 t); [exact (ht_new_ok _ _ Et0)| |rewrite map_lenN; exact H32|exact Et].
    apply Forall_forall. intros x Hx. apply in_map_iff in Hx as (f & <- & Hf).
    rewrite Forall_forall in Hloc. exact (Hloc f Hf). }
  destruct (write_files_layout _ _ _ _ _ _ _ Ef) as [Hes Hlay].
  pose proof (write_files_entries _ _ _ _ _ _ _ Ef) as Hbok.
  pose proof (write_ext_table_ge _ _ _ _ Ehw) as Hge1.
  pose proof (write_ext_table_ge _ _ _ _ Ebw) as Hge2.
  set (htab := write_hash_table t) in *. set (btab := write_block_table (map snd es)) in *.
  set (h0 := header_size_of (c_version c)) in *.
  assert (Hh0 : 32 <= h0) by (unfold h0; destruct (c_version c); cbn; lia).
  set (het_pos := h0 + lenN body) in *. set (bet_pos := het_pos + lenN hetb) in *.
  set (hash_pos := bet_pos + lenN betb) in *. set (block_pos := hash_pos + lenN htab) in *.
  set (hi := hi_written true (map fst es)) in *.
  set (hib := match hi with Some w => w | None => @nil byte end) in *.
  set (hi_pos := match hi with Some _ => Some (block_pos + lenN btab) | None => None end) in *.
  set (size := block_pos + lenN btab + lenN hib) in *.
  cbv zeta in W.
  set (v40 := match c_version c with V4 => _ | _ => None end) in W.
  set (P0 := mkHP _ _ _ _ _ _ _ _ _ _ _) in W.
  destruct (write_header P0) as [hdr0| |] eqn:Eh0; cbn [bind] in W; try discriminate.
  set (hdr := match c_version c with V4 => firstn 192 hdr0 ++ md5 (firstn 192 hdr0) | _ => hdr0 end) in W.
  apply Ok_inj in W.
  assert (Hhcl : lenN htab = 16 * hcount).
  { unfold htab. rewrite Hhc, <- Htk. unfold lenN. rewrite write_hash_table_length. lia. }
  assert (Hlb : lenN btab = 16 * lenN fs).
  { unfold btab, lenN. rewrite write_block_table_length, map_length, Hes. lia. }
  assert (Hsz : lenN arc = lenN hdr + lenN body + lenN hetb + lenN betb + lenN htab + lenN btab + lenN hib).
  { rewrite <- W, !lenN_app. lia. }
  assert (H63' : lenN hdr + lenN body + lenN hetb + lenN betb + lenN htab + lenN btab + lenN hib + lenN pre < 2 ^ 63).
  { rewrite !lenN_app in H63. lia. }
  assert (Hv40 : match v40 with Some v => v4_ok v | None => True end).
  { unfold v40. destruct (c_version c) eqn:Ec; try exact I.
    specialize (Hmd eq_refl). assert (Hm : lenN (match hi with Some w => md5 w | None => repeat x00 16 end) = 16)
      by (destruct hi; [apply Hmd|reflexivity]).
    unfold v4_ok. cbn [v4_hash_size v4_block_size v4_hi_size v4_het_size v4_bet_size v4_chunk
          v4_md5_block v4_md5_hash v4_md5_hi v4_md5_bet v4_md5_het v4_md5_header].
    rewrite !Hmd.
    assert (Hb : hcount * 16 < M64 /\ lenN fs * 16 < M64 /\ lenN fs * 2 < M64 /\ lenN hetb < M64 /\ lenN betb < M64).
    { change M64 with 18446744073709551616.
      clear - H63' Hhcl Hlb Hcnt Hle.
      change (2 ^ 63) with 9223372036854775808 in *. change (2 ^ 30) with 1073741824 in *. lia. }
    destruct Hb as (B1 & B2 & B3 & B4 & B5).
    repeat (split; [first [assumption|exact Hm|reflexivity]|]). reflexivity. }
  assert (Hlen_h0 : lenN hdr0 = h0) by (apply (write_header_length P0 hdr0); [exact Hv40|exact Eh0]).
  (* the header as it is in the file *)
  assert (HP : exists v4, write_header (mkHP (c_version c) (c_block_size c) size hash_pos block_pos hcount
                            (w32 (lenN fs)) hi_pos (Some het_pos) (Some bet_pos) v4) = Ok hdr /\
     match v4 with Some v => v4_ok v | None => True end /\
     match c_version c with
     | V4 => exists v, v40 = Some v /\ v4 = Some (with_md5 v (md5 (firstn 192 hdr)))
     | _ => v4 = None
     end).
  { destruct (c_version c) eqn:Ec; try discriminate Hv.
    - exists None. split; [exact Eh0|]. split; [exact I|reflexivity].
    - specialize (Hmd eq_refl). unfold v40 in *.
      eassert (HH : _) by (apply (header_patched P0 _ hdr0 (md5 (firstn 192 hdr0)) eq_refl eq_refl Hv40 (Hmd _) Eh0)).
      destruct HH as (E1 & E2 & E3). unfold hdr.
      eexists. split; [exact E1|]. split.
      + destruct Hv40 as (G1 & G2 & G3 & G4 & G5 & G6 & G7 & G8 & G9 & G10 & G11 & G12).
        unfold v4_ok, with_md5. cbn [v4_hash_size v4_block_size v4_hi_size v4_het_size v4_bet_size v4_chunk
          v4_md5_block v4_md5_hash v4_md5_hi v4_md5_bet v4_md5_het v4_md5_header] in *.
        repeat (split; [assumption|]). apply Hmd.
      + eexists. split; [reflexivity|]. rewrite E2. reflexivity. }
  destruct HP as (v4 & Eh & Hv4ok & Hv4).
  set (P := mkHP _ _ _ _ _ _ _ _ _ _ _) in Eh.
  assert (Hlen_h : lenN hdr = h0).
  { apply (write_header_length P hdr); [exact Hv4ok|exact Eh]. }
  assert (Harc : lenN arc = size).
  { rewrite Hsz, Hlen_h. unfold size, block_pos, hash_pos, bet_pos, het_pos. lia. }
  assert (Hsz63 : size + lenN pre < 2 ^ 63) by (clear - H63' Harc Hsz; lia).
  assert (Hpok : hp_ok P).
  { unfold hp_ok, P; cbn [p_block_size p_archive_size p_hash_count p_block_count p_hi_pos p_het_pos p_bet_pos p_v4].
    split; [exact Hbs|].
    assert (Hor : or0 hi_pos <= size) by (unfold hi_pos; destruct hi; cbn [or0]; unfold size; lia).
    assert (Hx1 : het_pos <= size) by (unfold size, block_pos, hash_pos, bet_pos; lia).
    assert (Hx2 : bet_pos <= size) by (unfold size, block_pos, hash_pos; lia).
    assert (Hlt64 : forall x, x <= size -> x < M64).
    { clear - Hsz63. intros x Hx. unfold M64. change (2^64) with 18446744073709551616.
      change (2^63) with 9223372036854775808 in *. lia. }
    split; [apply Hlt64; lia|].
    split; [rewrite Hhc; change M32 with (2 ^ 32); apply N.pow_lt_mono_r; lia|].
    split; [apply w32_lt|].
    split; [apply Hlt64; exact Hor|].
    split; [apply Hlt64; exact Hx1|]. split; [apply Hlt64; exact Hx2|exact Hv4ok]. }
  (* the header *)
  unfold from in Hh.
  replace (lenN pre <=? lenN (pre ++ arc ++ post)) with true in Hh by (rewrite lenN_app; lia).
  unfold lenN in Hh at 1. rewrite Nat2N.id, skipn_app_exact in Hh by reflexivity.
  destruct (header_round_trip P hdr ((body ++ hetb ++ betb ++ htab ++ btab ++ hib) ++ post) Hpok Eh)
    as (h & Hr & _ & Hver & Hhsz & Hhbs & Hhcnt & Hbcnt & Hhp & Hbp & _ & Hhi & Hhb & Hh4).
  assert (Hh3 : c_version c = V3 -> h_v4 h = None).
  { intros Ec. pose proof (header_read_write P hdr ((body ++ hetb ++ betb ++ htab ++ btab ++ hib) ++ post) Hpok Eh) as HH.
    rewrite HH in Hr. apply Ok_inj in Hr. rewrite <- Hr. unfold header_of. cbn [h_v4 P p_version]. rewrite Ec. reflexivity. }
  assert (Hany : forall rest, header_read (hdr ++ rest) = Ok h).
  { intros rest. rewrite (header_read_write P hdr rest Hpok Eh).
    rewrite (header_read_write P hdr _ Hpok Eh) in Hr. exact Hr. }
  rewrite app_assoc, W in Hr. rewrite Hr in Hh. cbn [bind] in Hh.
  cbn [P p_version p_block_size p_hash_count p_block_count p_hash_pos p_block_pos p_hi_pos p_het_pos p_bet_pos p_v4 or0] in *.
  assert (Hv2 : version_ge (c_version c) V2 = true) by (destruct (c_version c); [discriminate Hv|discriminate Hv|reflexivity|reflexivity]).
  specialize (Hhi Hv2). destruct (Hhb Hv) as [Hbetp Hhetp].
  assert (Hfp : forall x, x <= lenN arc -> pos_fits (c_version c) x).
  { intros x Hx. unfold pos_fits in *. eapply N.le_lt_trans; eassumption. }
  rewrite Harc in Hfp.
  assert (Hhps : hash_pos <= size) by (unfold size, block_pos; lia).
  assert (Hbps : block_pos <= size) by (unfold size; lia).
  specialize (Hhp (Hfp _ Hhps)). specialize (Hbp (Hfp _ Hbps)).
  (* positions *)
  assert (Hfit48 : lenN arc < 2 ^ 48).
  { unfold pos_fits in Hfit. rewrite Hv2 in Hfit. exact Hfit. }
  assert (HF48 : Forall (fun p => p < 2 ^ 48) (map fst es)).
  { apply Forall_forall. intros p Hp. apply in_map_iff in Hp as (e & <- & He).
    pose proof (write_files_body _ _ _ _ _ _ _ Ef) as HB. rewrite Forall_forall in HB.
    specialize (HB e He). fold h0 in HB. clear - HB Hsz Hlen_h Hfit48.
    change (2 ^ 48) with 281474976710656 in *. lia. }
  assert (Hfa : pre ++ arc ++ post = (pre ++ hdr ++ body) ++ hetb ++ (betb ++ htab ++ btab ++ hib ++ post))
    by (rewrite <- W, <- !app_assoc; reflexivity).
  assert (Hfb : pre ++ arc ++ post = (pre ++ hdr ++ body ++ hetb) ++ betb ++ (htab ++ btab ++ hib ++ post))
    by (rewrite <- W, <- !app_assoc; reflexivity).
  assert (Hfile : pre ++ arc ++ post = (pre ++ hdr ++ body ++ hetb ++ betb) ++ htab ++ (btab ++ hib ++ post))
    by (rewrite <- W, <- !app_assoc; reflexivity).
  assert (Hfile2 : pre ++ arc ++ post = (pre ++ hdr ++ body ++ hetb ++ betb ++ htab) ++ btab ++ (hib ++ post))
    by (rewrite <- W, <- !app_assoc; reflexivity).
  assert (Hfile3 : pre ++ arc ++ post = (pre ++ hdr ++ body ++ hetb ++ betb ++ htab ++ btab) ++ hib ++ post)
    by (rewrite <- W, <- !app_assoc; reflexivity).
  assert (Hsa : slice (lenN pre + het_pos) (lenN hetb) (pre ++ arc ++ post) = Some hetb).
  { rewrite Hfa. replace (lenN pre + het_pos) with (lenN (pre ++ hdr ++ body))
      by (rewrite !lenN_app, Hlen_h; unfold het_pos; lia). apply slice_mid. }
  assert (Hsb : slice (lenN pre + bet_pos) (lenN betb) (pre ++ arc ++ post) = Some betb).
  { rewrite Hfb. replace (lenN pre + bet_pos) with (lenN (pre ++ hdr ++ body ++ hetb))
      by (rewrite !lenN_app, Hlen_h; unfold bet_pos, het_pos; lia). apply slice_mid. }
  destruct (het_written L _ _ _ _ _ _ Ehet Ehw Hsa) as (he & Hrhe & Hhe); [rewrite map_lenN; exact H32'|].
  rewrite map_lenN in Hhe.
  destruct (bet_written L _ _ _ _ _ _ _ Ebet Ebw Hsb) as (be & Hrbe & Hbe);
    [rewrite !map_lenN; unfold lenN; now rewrite Hes|rewrite map_lenN; exact H32'|exact Hbok|].
  assert (Hrd1 : ht_read (pre ++ arc ++ post) (lenN pre + hash_pos) hcount = Ok t).
  { rewrite Hfile. replace (lenN pre + hash_pos) with (lenN (pre ++ hdr ++ body ++ hetb ++ betb))
      by (rewrite !lenN_app, Hlen_h; unfold hash_pos, bet_pos, het_pos; lia).
    rewrite Hhc, <- Htk. eapply hash_table_round_trip; eauto. }
  assert (Hrd2 : bt_read (pre ++ arc ++ post) (lenN pre + block_pos) (lenN fs) = Ok (map snd es)).
  { rewrite Hfile2. replace (lenN pre + block_pos) with (lenN (pre ++ hdr ++ body ++ hetb ++ betb ++ htab))
      by (rewrite !lenN_app, Hlen_h; unfold block_pos, hash_pos, bet_pos, het_pos; lia).
    replace (lenN fs) with (lenN (map snd es)) by (rewrite map_lenN; unfold lenN; now rewrite Hes).
    apply block_table_round_trip. exact Hbok. }
  assert (Hw : w32 (lenN fs) = lenN fs) by (apply w32_small; exact H32').
  assert (Hadd : forall x, x <= size -> add64 (lenN pre) x = Ok (lenN pre + x)).
  { intros x Hx. apply add64_ok. clear - Hx Hsz63. unfold M64. change (2^64) with 18446744073709551616.
    change (2^63) with 9223372036854775808 in *. lia. }
  (* the high words *)
  assert (Hhi' : exists hio,
     (match h_hi_pos h with
         | Some p => if p =? 0 then Ok None
                     else o <- add64 (lenN pre) p ;; t <- hi_read (pre ++ arc ++ post) o (h_block_count h) ;; Ok (Some t)
         | None => Ok None
         end) = Ok hio /\
     (forall i p, nthN (map fst es) i = Some p -> pos_full hio i (pos_low p) = p) /\
     match hio with
     | None => h_hi_pos h = Some 0 /\ hib = []
     | Some _ => h_hi_pos h = Some (block_pos + lenN btab) /\ lenN hib = 2 * lenN fs /\ fs <> []
     end).
  { rewrite Hhi. unfold hi_pos.
      destruct hi as [w|] eqn:Ehi; unfold hi in Ehi.
      + cbn [or0]. replace (block_pos + lenN btab =? 0) with false.
        2:{ symmetry. apply N.eqb_neq. unfold block_pos, hash_pos, bet_pos. clear - Hge1. lia. }
        rewrite Hadd by (unfold size; lia).
        cbn [bind]. rewrite Hbcnt, Hw.
        assert (HN : lenN fs = lenN (map fst es)) by (rewrite map_lenN; unfold lenN; now rewrite Hes).
        destruct (map fst es) as [|p0 ps] eqn:Em.
        { unfold hi_written in Ehi. cbn in Ehi. discriminate. }
        rewrite <- Em in *.
        assert (H0 : nthN (map fst es) 0 = Some p0) by (rewrite Em; reflexivity).
        pose proof (hi_positions (pre ++ hdr ++ body ++ hetb ++ betb ++ htab ++ btab) post (map fst es) 0 p0 HF48 H0) as HH.
        rewrite Ehi in HH. destruct HH as (th & Hth & _).
        exists (Some th). split; [|split].
        * rewrite Hfile3. unfold hib.
          replace (lenN pre + (block_pos + lenN btab)) with (lenN (pre ++ hdr ++ body ++ hetb ++ betb ++ htab ++ btab))
            by (rewrite !lenN_app, Hlen_h; unfold block_pos, hash_pos, bet_pos, het_pos; lia).
          rewrite HN, Hth. reflexivity.
        * intros i p Hi.
          pose proof (hi_positions (pre ++ hdr ++ body ++ hetb ++ betb ++ htab ++ btab) post (map fst es) i p HF48 Hi) as HH.
          rewrite Ehi in HH. destruct HH as (th' & Hth' & Hpf).
          rewrite Hth in Hth'. apply Ok_inj in Hth'. subst th'. exact Hpf.
        * split; [reflexivity|]. split.
          { unfold hib. rewrite HN.
            unfold hi_written in Ehi. destruct (_ && _) in Ehi; [|discriminate]. injection Ehi as <-.
            unfold lenN. rewrite write_hi_length, map_length. lia. }
          { intros ->. rewrite Em in HN. cbn in HN. discriminate HN. }
      + cbn [or0]. exists None. split; [reflexivity|]. split.
        * intros i p Hi. pose proof (hi_positions [] [] (map fst es) i p HF48 Hi) as HH.
          rewrite Ehi in HH. exact HH.
        * split; reflexivity. }
  destruct Hhi' as (hio & Hhio & Hpf & Hhil).
  exists h, ss, t, (map snd es), hio, he, be. split; [reflexivity|]. cbv zeta. split.
  - unfold open_archive, open_with_options. rewrite Hh. cbn [bind].
    unfold load_tables. cbn [a_header a_file a_off a_het a_bet a_hash a_block a_hi a_user a_attrs].
    rewrite Hver, Hv.
    assert (El1 : load_ext (lenN pre) (h_het_pos h) (v4_het h) (c_version c) (het_table_size h)
              (fun o s => het_read L (pre ++ arc ++ post) o s ht_key) = Ok (Some he)).
    { unfold load_ext. rewrite Hhetp. replace (het_pos =? 0) with false by (unfold het_pos; clear - Hh0; lia).
      assert (Es : match c_version c with
                   | V3 => if v4_het h =? 0 then het_table_size h het_pos else Ok (v4_het h)
                   | _ => Ok (v4_het h)
                   end = Ok (lenN hetb)).
      { destruct (c_version c) eqn:Ec; try discriminate Hv.
        - unfold v4_het. rewrite (Hh3 eq_refl). cbn [N.eqb]. unfold het_table_size. rewrite Hbetp.
          replace (het_pos <? bet_pos) with true by (unfold bet_pos; clear - Hge1; lia).
          unfold bet_pos. rewrite (N.add_comm het_pos), N.add_sub. reflexivity.
        - destruct Hv4 as (v & Hv0 & ->). unfold v4_het. rewrite (Hh4 eq_refl).
          unfold v40 in Hv0. injection Hv0 as <-. reflexivity. }
      rewrite Es. cbn [bind]. replace (lenN hetb =? 0) with false by (clear - Hge1; lia).
      rewrite Hadd by (unfold size, block_pos, hash_pos, bet_pos; clear; lia). cbn [bind].
      rewrite Hrhe. reflexivity. }
    assert (El2 : load_ext (lenN pre) (h_bet_pos h) (v4_bet h) (c_version c) (bet_table_size h)
              (fun o s => bet_read L (pre ++ arc ++ post) o s bt_key) = Ok (Some be)).
    { unfold load_ext. rewrite Hbetp. replace (bet_pos =? 0) with false by (unfold bet_pos, het_pos; clear - Hh0; lia).
      assert (Es : match c_version c with
                   | V3 => if v4_bet h =? 0 then bet_table_size h bet_pos else Ok (v4_bet h)
                   | _ => Ok (v4_bet h)
                   end = Ok (lenN betb)).
      { destruct (c_version c) eqn:Ec; try discriminate Hv.
        - unfold v4_bet. rewrite (Hh3 eq_refl). cbn [N.eqb]. unfold bet_table_size, sub_chk. rewrite Hhp.
          replace (hash_pos <? bet_pos) with false by (unfold hash_pos; clear - Hge2; lia).
          unfold hash_pos. rewrite (N.add_comm bet_pos), N.add_sub. reflexivity.
        - destruct Hv4 as (v & Hv0 & ->). unfold v4_bet. rewrite (Hh4 eq_refl).
          unfold v40 in Hv0. injection Hv0 as <-. reflexivity. }
      rewrite Es. cbn [bind]. replace (lenN betb =? 0) with false by (clear - Hge2; lia).
      rewrite Hadd by (unfold size, block_pos, hash_pos; clear; lia). cbn [bind].
      rewrite Hrbe. reflexivity. }
    rewrite El1, El2. cbn [bind].
    assert (Hc : match valid_het_bet (mkA (pre ++ arc ++ post) (lenN pre) ud h None None None (Some he) (Some be) None)
                 with None => true | Some _ => 0 <? h_hash_count h end = true).
    { destruct (valid_het_bet _); [|reflexivity]. rewrite Hhcnt, Hhc. apply N.ltb_lt.
      apply N.neq_0_lt_0, N.pow_nonzero. lia. }
    rewrite Hc. rewrite Hhp, Hhcnt, Hbp, Hbcnt, Hw.
    rewrite Hadd by exact Hhps. cbn [bind]. rewrite Hrd1. cbn [bind].
    rewrite Hadd by exact Hbps. cbn [bind]. rewrite Hrd2. cbn [bind].
    rewrite Hbcnt, Hw in Hhio. rewrite Hhio. reflexivity.
  - split; [|split; [exact Hhe|split; [exact Hbe|split; [exact Hbok|]]]].
  { exists t, k, (map snd es). cbn [a_hash a_block a_header a_off a_file a_hi].
    split; [reflexivity|]. split; [reflexivity|]. split; [exact Htk|]. split; [exact Inv|].
    split; [exact Hlt|]. split; [exact Hmax|]. split; [rewrite Hhbs; exact Ess|].
    intros i f Hf. destruct (Hlay i f Hf) as (p & out & cs & fl & x & y & Wf & Hne & Hb & Hp).
    exists p, out, cs, fl. split; [exact Wf|].
    assert (Hsl : pre ++ arc ++ post = (pre ++ hdr ++ x) ++ out ++ (y ++ hetb ++ betb ++ htab ++ btab ++ hib ++ post)).
    { rewrite <- W, Hb. rewrite <- !app_assoc. reflexivity. }
    assert (Hpp : lenN pre + p = lenN (pre ++ hdr ++ x)) by (rewrite !lenN_app, Hlen_h; lia).
    split; [rewrite Hsl, Hpp; apply slice_mid|].
    split; [rewrite nth_error_map, Hne; reflexivity|].
    split.
    + apply Hpf. rewrite nthN_of_nat, nth_error_map, Hne. reflexivity.
    + rewrite Hpp. rewrite Hsl in H63. rewrite lenN_app in H63. rewrite (lenN_app out) in H63.
      clear - H63. unfold M64. change (2^64) with 18446744073709551616.
      change (2^63) with 9223372036854775808 in H63. lia. }
  { exists hdr, body, es, hetb, betb, htab, btab, hib. rewrite Hhp, Hbp, Hhcnt, Hbcnt, Hw, Hhetp, Hbetp.
    unfold het_pos, bet_pos, hash_pos, block_pos in *. rewrite Hlen_h.
    assert (Hs : h_size h = h0) by (rewrite Hhsz; exact Hlen_h). rewrite Hs.
    split; [symmetry; exact W|]. split; [reflexivity|]. split; [reflexivity|]. split; [exact Hver|].
    split; [reflexivity|].
    split; [intros i p b Hi; apply Hpf; rewrite nthN_of_nat, nth_error_map, Hi; reflexivity|].
    split; [exact Ef|]. split; [reflexivity|]. split; [reflexivity|]. split; [reflexivity|].
    split; [reflexivity|]. split; [exact Hge1|]. split; [exact Hge2|]. split; [exact Hhcl|].
    split; [rewrite Hhc; apply N.neq_0_lt_0, N.pow_nonzero; lia|].
    split; [exact Hlb|]. split; [reflexivity|]. split; [exact Hhil|]. split; [|exact Hany].
    destruct (c_version c) eqn:Ec; try discriminate Hv; [exact (Hh3 eq_refl)|].
    destruct Hv4 as (v & Hv0 & Ev4). unfold v40 in Hv0. injection Hv0 as <-.
    rewrite (Hh4 eq_refl), Ev4. eexists. split; [reflexivity|].
    unfold with_md5. cbn [v4_hash_size v4_block_size v4_hi_size v4_het_size v4_bet_size v4_chunk
          v4_md5_block v4_md5_hash v4_md5_hi v4_md5_bet v4_md5_het v4_md5_header].
    split; [clear - Hhcl; lia|]. split; [clear - Hlb; lia|]. split; [clear; lia|].
    split; [reflexivity|]. split; [reflexivity|]. split; [reflexivity|]. split; [reflexivity|].
    split; [|split; [reflexivity|split; reflexivity]].
    unfold hib. destruct hi; [reflexivity|congruence]. }
Qed.

End O34.
