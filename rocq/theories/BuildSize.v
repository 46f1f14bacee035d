(** * How large a built archive is, and that it is found at the start of a file. *)
From Verif Require Import Bytes Crypto CryptoFacts SpecNames HashTable BlockTable Header SpecHeader HeaderFacts
  Compress SpecTables HashTableFacts TableMap Adler Listfile HetBet HetBetFacts Builder BuilderFacts
  SpecArchive ArchiveFacts LayoutFacts OpenFacts SpecBuilding BuildCalm DemoArchive.
Open Scope N_scope.

Section Size.
Variable L : codecs.
Variable md5 : bytes -> bytes.

Lemma write_files_body c ss fs : sector_size (c_block_size c) = Ok ss -> ss <> 0 ->
  Forall (fun f => lenN (pf_data f) <= 4000000000) fs ->
  forall p body es, write_files L c ss fs p = Ok (body, es) -> lenN body <= rooms fs /\ length es = length fs.
Proof.
  intros Hss Hz. induction fs as [|f fs IH]; intros Hr p body es H; cbn [write_files] in H.
  - apply Ok_inj in H. injection H as <- <-. split; [vm_compute; discriminate|reflexivity].
  - destruct (write_file L c ss f p) as [[[out csize] flags]| |] eqn:E; cbn [bind] in H; try discriminate.
    destruct (write_files L c ss fs (p + lenN out)) as [[rest es']| |] eqn:F; cbn [bind] in H; try discriminate.
    apply Ok_inj in H. injection H as <- <-. inversion Hr as [|? ? Hf Hfs]; subst.
    assert (Er : rooms (f :: fs) = room (pf_data f) + rooms fs) by reflexivity. rewrite Er.
    destruct (write_file_room_big L c ss f p out csize flags Hss Hz Hf E) as [R _].
    destruct (IH Hfs _ _ _ F) as [I1 I2]. rewrite lenN_app. cbn [length]. split; lia.
Qed.
Lemma rooms_each n fs : rooms fs <= n -> Forall (fun f => lenN (pf_data f) <= n) fs.
Proof.
  induction fs as [|f fs IH]; intros H; [constructor|].
  assert (Er : rooms (f :: fs) = room (pf_data f) + rooms fs) by reflexivity. rewrite Er in H. unfold room in H.
  constructor; [lia|apply IH; lia].
Qed.

Lemma table_bytes c fs t0 t : table_count c fs < 2 ^ 30 ->
  ht_new (calculate_hash_table_size (table_count c fs)) = Ok t0 -> add_files t0 fs 0 = Ok t ->
  lenN (write_hash_table t) <= 64 * table_count c fs + 256.
Proof.
  intros Hc E0 Et. change (2 ^ 30) with 1073741824 in Hc.
  assert (Hle : lenN fs <= table_count c fs) by (unfold table_count; lia).
  rewrite add_files_all in Et by (unfold M32; change (2 ^ 32) with 4294967296; lia).
  destruct (builder_inv (table_count c fs) (map file_key fs) t0 t) as (k & Hk32 & Hhc & Htk & _).
  { rewrite map_lenN. exact Hle. } { change (2 ^ 30) with 1073741824. lia. } { exact E0. } { exact Et. }
  unfold calculate_hash_table_size, next_power_of_two in Hhc.
  assert (Hk : 2 ^ k <= 4 * table_count c fs + 16).
  { rewrite <- Hhc. rewrite w32_small by (unfold M32; change (2 ^ 32) with 4294967296; lia).
    destruct (N.le_gt_cases (table_count c fs * 2) 16) as [C|C].
    - rewrite N.max_r by exact C. change (2 ^ N.log2_up 16) with 16. lia.
    - rewrite N.max_l by lia. pose proof (N.log2_up_spec (table_count c fs * 2) ltac:(lia)) as [Hs _].
      assert (Hp : 2 ^ N.log2_up (table_count c fs * 2) = 2 * 2 ^ N.pred (N.log2_up (table_count c fs * 2))).
      { rewrite <- N.pow_succ_r'. f_equal. rewrite N.succ_pred; [reflexivity|].
        intros X. rewrite X in Hs. assert (0 < N.log2_up (table_count c fs * 2)) by (apply N.log2_up_pos; lia). lia. }
      lia. }
  unfold lenN in *. rewrite write_hash_table_length. lia.
Qed.

Lemma hi_bytes b ps : lenN match hi_written b ps with Some w => w | None => [] end <= 2 * lenN ps.
Proof.
  unfold hi_written. destruct (b && _); [|change (lenN (@nil byte)) with 0; lia].
  unfold lenN. rewrite write_hi_length, map_length. lia.
Qed.

Lemma rooms_small c fs : narrow (map pf_data fs) -> lenN fs <= 131072 /\ table_count c fs <= 2 ^ 19.
Proof.
  intros H. destruct (narrow_rooms fs H) as [Hn Hr]. split; [exact Hn|].
  unfold table_count. change (2 ^ 19) with 524288. destruct (c_listfile c); lia.
Qed.

Lemma write_archive12_size c fs arc : version_ge (c_version c) V3 = false ->
  c_block_size c < 55 -> Forall (fun f => lenN (pf_data f) <= 4000000000) fs -> table_count c fs < 2 ^ 30 ->
  write_archive12 L c fs = Ok arc ->
  lenN arc <= 208 + rooms fs + (64 * table_count c fs + 256) + 18 * lenN fs.
Proof.
  intros Hv Hb Hr Hc H.
  unfold write_archive12 in H. destruct (sector_size_small _ Hb) as (ss & E & Hz). rewrite E in H. cbn [bind] in H.
  cbv zeta in H.
  destruct (ht_new _) as [t0| |] eqn:E0; cbn [bind] in H; try discriminate.
  destruct (write_files _ _ _ _ _) as [[body es]| |] eqn:Ew; cbn [bind] in H; try discriminate.
  destruct (add_files _ _ _) as [t| |] eqn:Et; cbn [bind] in H; try discriminate.
  set (P := mkHP _ _ _ _ _ _ _ _ _ _ _) in H.
  destruct (write_header P) as [hdr| |] eqn:Eh; cbn [bind] in H; try discriminate.
  apply Ok_inj in H. subst arc.
  pose proof (write_header_length P hdr I Eh) as Lh. cbn [P p_version] in Lh.
  destruct (write_files_body c ss fs E Hz Hr _ _ _ Ew) as [Lb Le].
  pose proof (table_bytes c fs t0 t Hc E0 Et) as Lt.
  pose proof (hi_bytes (version_ge (c_version c) V2) (map fst es)) as Li. rewrite map_lenN in Li.
  assert (Lbt : lenN (write_block_table (map snd es)) = 16 * lenN es).
  { unfold lenN. rewrite write_block_table_length, map_length. lia. }
  assert (Les : lenN es = lenN fs) by (unfold lenN; now rewrite Le).
  assert (Hh : header_size_of (c_version c) <= 208) by (destruct (c_version c); vm_compute; discriminate).
  rewrite !lenN_app, Lh, Lbt. rewrite Les in *. clear - Lb Lt Li Hh.
  match goal with |- _ + (_ + (_ + (_ + ?z))) <= _ => change (z <= 2 * lenN fs) in Li; generalize dependent z end.
  intros z Li. lia.
Qed.

Lemma create_het_size names t : lenN names <= 131072 -> create_het_table names = Ok t ->
  lenN t <= 44 + 262144 * 55.
Proof.
  intros Hn H. assert (HM : M32 = 4294967296) by reflexivity. unfold create_het_table in H. cbv zeta in H.
  assert (Hw : w32 (lenN names) = lenN names) by (rewrite w32_small; lia). rewrite Hw in H.
  set (count := lenN names) in *. rewrite (chk32_small (count * 2)) in H by lia. cbn [bind] in H.
  unfold next_pow2_chk in H.
  assert (Hk : exists k, next_power_of_two (count * 2) = 2 ^ k /\ k <= 18).
  { unfold next_power_of_two. eexists. split; [reflexivity|].
    apply N.le_trans with (N.log2_up (2 ^ 18)); [apply N.log2_up_le_mono; change (2 ^ 18) with 262144; lia|].
    rewrite N.log2_up_pow2; lia. }
  destruct Hk as (k & Ek & Hk). rewrite Ek in H.
  assert (He : 2 ^ k <= 262144) by (change 262144 with (2 ^ 18); apply N.pow_le_mono_r; lia).
  rewrite (chk32_small (2 ^ k)) in H by lia. cbn [bind] in H.
  assert (Hh : bits_needed (2 ^ k) <= 19) by (apply bits_needed_le; [lia|change (2 ^ 19) with 524288; lia]).
  assert (Hi : bits_needed count <= 18) by (apply bits_needed_le; [lia|change (2 ^ 18) with 262144; lia]).
  set (hb := bits_needed (2 ^ k)) in *. set (ib := bits_needed count) in *.
  assert (P1 : 2 ^ k * hb <= 262144 * 19) by (apply N.mul_le_mono; lia).
  assert (P2 : 2 ^ k * ib <= 262144 * 18) by (apply N.mul_le_mono; lia).
  assert (P3 : 2 ^ k * (hb + ib) <= 262144 * 37) by (apply N.mul_le_mono; lia).
  rewrite (chk32_small (2 ^ k * hb)) in H by lia. cbn [bind] in H.
  rewrite (chk32_small (2 ^ k * (hb + ib))) in H by lia. cbn [bind] in H.
  rewrite (chk32_small (2 ^ k * ib)) in H by lia. cbn [bind] in H.
  pose proof (div_ceil_8_le (2 ^ k * (hb + ib))) as D1. pose proof (div_ceil_8_le (2 ^ k * ib)) as D2.
  destruct (het_fill _ _ _ _ _ _ _) as [tab| |] eqn:Ef; cbn [bind] in H; try discriminate.
  apply het_fill_length in Ef. rewrite zeros_length in Ef.
  destruct (chk32 _) as [ds| |] in H; cbn [bind] in H; try discriminate.
  destruct (chk32 _) as [ts| |] in H; cbn [bind] in H; try discriminate.
  apply Ok_inj in H. subst t. rewrite !lenN_app, zeros_length, Ef. unfold lenN. rewrite !le32_length. lia.
Qed.

Lemma create_bet_size names bt t : lenN names <= 131072 -> lenN bt <= 131072 ->
  width3 bt < 64 -> create_bet_table names bt = Ok t -> lenN t <= 88 + 131072 * 149.
Proof.
  intros Hn Hbt He H. unfold width3 in He. assert (HM : M32 = 4294967296) by reflexivity. unfold create_bet_table in H. cbv zeta in H.
  assert (Hw : w32 (lenN names) = lenN names) by (rewrite w32_small; lia). rewrite Hw in H.
  set (count := lenN names) in *.
  set (cp := bits_needed (max_of be_pos bt)) in *. set (cs := bits_needed (max_of be_size bt)) in *.
  set (cc := bits_needed (max_of be_csize bt)) in *.
  assert (Hfl : lenN (flag_array bt) <= 131072).
  { pose proof (flag_array_length bt). unfold lenN in *. lia. }
  set (cf := match flag_array bt with [] => 0 | _ => _ end) in *.
  assert (Hcf : cf <= 18).
  { unfold cf. destruct (flag_array bt) as [|x l]; [lia|]. apply bits_needed_le; [lia|].
    change (2 ^ 18) with 262144. lia. }
  assert (Hprod : count * (cp + cs + cc + cf) <= 131072 * 81) by (apply N.mul_le_mono; lia).
  rewrite (chk32_small (count * (cp + cs + cc + cf))) in H by lia. cbn [bind] in H.
  rewrite (chk32_small (count * 64)) in H by lia. cbn [bind] in H.
  pose proof (div_ceil_8_le (count * (cp + cs + cc + cf))) as D1. pose proof (div_ceil_8_le (count * 64)) as D2.
  destruct (bet_fill _ _ _ _ _ _ _ _) as [tab| |] eqn:Ef; cbn [bind] in H; try discriminate.
  apply bet_fill_length in Ef. rewrite zeros_length in Ef.
  do 3 (destruct (chk32 _) in H; cbn [bind] in H; try discriminate).
  destruct (bet_hash_fill _ _ _) as [hs| |] eqn:Eh; cbn [bind] in H; try discriminate.
  apply bet_hash_fill_length in Eh. rewrite zeros_length in Eh.
  apply Ok_inj in H. subst t. rewrite !lenN_app, Ef, Eh.
  assert (Hm : forall l, lenN (concat (map le32 l)) = 4 * lenN l).
  { clear. intros l. induction l as [|x l IH]; [reflexivity|]. cbn [map concat]. rewrite lenN_app, IH, lenN_cons.
    unfold lenN at 1. rewrite le32_length. lia. }
  rewrite !Hm. unfold lenN at 1 2 3. rewrite !le32_length. 
  match goal with |- context[lenN (?a :: ?b)] => change (lenN (a :: b)) with 19 end. lia.
Qed.

Lemma write_ext_size m d key o : write_ext_table L false m d key = Ok o -> lenN o <= lenN d.
Proof.
  unfold write_ext_table. destruct (_ <? _); [discriminate|]. cbv zeta. cbn [bind]. intros H. apply Ok_inj in H. subst o.
  unfold lenN. rewrite app_length, encrypt_data_length, <- app_length, firstn_skipn. lia.
Qed.

Lemma write_archive34_size c fs arc : c_version c = V3 \/ c_version c = V4 -> c_ctables c = false ->
  (forall x, lenN (md5 x) = 16) ->
  c_block_size c < 55 -> narrow (map pf_data fs) -> write_archive34 L md5 c fs = Ok arc -> lenN arc < 2 ^ 32.
Proof.
  intros Hv Hct Hmd Hb Hnar H. destruct (rooms_small c fs Hnar) as [Hn Hc]. destruct (narrow_rooms fs Hnar) as [_ Hr].
  unfold write_archive34 in H. destruct (sector_size_small _ Hb) as (ss & E & Hz). rewrite E in H. cbn [bind] in H.
  cbv zeta in H. rewrite Hct in H.
  destruct (write_files _ _ _ _ _) as [[body es]| |] eqn:Ew; cbn [bind] in H; try discriminate.
  destruct (create_het_table _) as [het| |] eqn:Ehe; cbn [bind] in H; try discriminate.
  destruct (write_ext_table L false _ het _) as [hetb| |] eqn:Ehw; cbn [bind] in H; try discriminate.
  destruct (create_bet_table _ _) as [bet| |] eqn:Ebe; cbn [bind] in H; try discriminate.
  destruct (write_ext_table L false _ bet _) as [betb| |] eqn:Ebw; cbn [bind] in H; try discriminate.
  destruct (ht_new _) as [t0| |] eqn:E0; cbn [bind] in H; try discriminate.
  destruct (add_files _ _ _) as [t| |] eqn:Et; cbn [bind] in H; try discriminate.
  set (v4 := match c_version c with V4 => _ | _ => None end) in H.
  set (P := mkHP _ _ _ _ _ _ _ _ _ _ _) in H.
  destruct (write_header P) as [hdr| |] eqn:Eh; cbn [bind] in H; try discriminate.
  apply Ok_inj in H. subst arc.
  assert (Lh : lenN match c_version c with V4 => firstn 192 hdr ++ md5 (firstn 192 hdr) | _ => hdr end <= 208).
  { destruct Hv as [Ev|Ev].
    - rewrite Ev. assert (lenN hdr = header_size_of (p_version P)) as ->.
      { apply write_header_length; [|exact Eh]. unfold P, v4. cbn [p_v4]. rewrite Ev. exact I. }
      unfold P. cbn [p_version]. rewrite Ev. vm_compute. discriminate.
    - rewrite Ev. rewrite lenN_app, Hmd. unfold lenN. rewrite firstn_length. lia. }
  destruct (write_files_body c ss fs E Hz) with (2 := Ew) as [Lb Le].
  { apply rooms_each. lia. }
  destruct (write_files_room L c ss fs body es E Hz Hnar Ew) as [_ He].
  assert (Les : lenN es = lenN fs) by (unfold lenN; now rewrite Le).
  change (2 ^ 19) with 524288 in Hc.
  pose proof (table_bytes c fs t0 t ltac:(change (2 ^ 30) with 1073741824; lia) E0 Et) as Lt.
  pose proof (hi_bytes true (map fst es)) as Li. rewrite map_lenN in Li.
  assert (Lbt : lenN (write_block_table (map snd es)) = 16 * lenN es).
  { unfold lenN. rewrite write_block_table_length, map_length. lia. }
  apply create_het_size in Ehe; [|rewrite map_lenN; lia].
  apply create_bet_size in Ebe; [|rewrite map_lenN; lia|rewrite map_lenN, Les; lia|exact He].
  apply write_ext_size in Ehw. apply write_ext_size in Ebw.
  rewrite !lenN_app, Lbt, Les in *. change (2 ^ 32) with 4294967296.
  clear - Lb Lt Li Lh Hn Hr Hc Ehe Ebe Ehw Ebw.
  match goal with |- ?y + (_ + (_ + (_ + (_ + (_ + ?z))))) < _ =>
    change (z <= 2 * lenN fs) in Li; change (y <= 208) in Lh; generalize dependent z; generalize dependent y end.
  intros y Ly z Li. lia.
Qed.

Lemma reached_start34 c files arc post :
  version_ge (c_version c) V3 = true -> build L md5 c files = Ok arc -> reached_at (arc ++ post) 0.
Proof.
  intros Hv H. exists O. split; [intros j Hj; lia|].
  unfold build in H. rewrite Hv in H. unfold write_archive34 in H.
  destruct (sector_size _) as [ss| |]; cbn [bind] in H; try discriminate.
  destruct (write_files _ _ _ _ _) as [[body es]| |] eqn:Ew; cbn [bind] in H; try discriminate.
  cbv zeta in H.
  destruct (create_het_table _) as [het| |] eqn:Ehe; cbn [bind] in H; try discriminate.
  destruct (write_ext_table _ _ _ het _) as [hetb| |] eqn:Ehw; cbn [bind] in H; try discriminate.
  destruct (create_bet_table _ _) as [bet| |] eqn:Ebe; cbn [bind] in H; try discriminate.
  destruct (write_ext_table _ _ _ bet _) as [betb| |] eqn:Ebw; cbn [bind] in H; try discriminate.
  destruct (ht_new _) as [t0| |] eqn:E0; cbn [bind] in H; try discriminate.
  destruct (add_files _ _ _) as [t| |] eqn:Et; cbn [bind] in H; try discriminate.
  set (P := mkHP _ _ _ _ _ _ _ _ _ _ _) in H.
  destruct (write_header P) as [hdr| |] eqn:E; cbn [bind] in H; try discriminate.
  apply Ok_inj in H. subst arc.
  assert (G : exists r, match c_version c with V4 => firstn 192 hdr ++ md5 (firstn 192 hdr) | _ => hdr end
                        = archive_magic ++ r).
  { unfold write_header in E. cbn [P p_version] in E.
    destruct (c_version c); try discriminate Hv.
    - apply Ok_inj in E; subst hdr; unfold header_v1_bytes; rewrite <- ?app_assoc;
      change (le32 MPQ_HEADER_SIGNATURE) with archive_magic; eexists; reflexivity.
    - cbn [p_v4] in E. apply Ok_inj in E; subst hdr; unfold header_v1_bytes; rewrite <- ?app_assoc;
      change (le32 MPQ_HEADER_SIGNATURE) with archive_magic.
      rewrite (firstn_app 192 archive_magic). rewrite firstn_all2 by (vm_compute; lia).
      rewrite <- app_assoc. eexists. reflexivity. }
  destruct G as [r G]. left. split; [|reflexivity]. unfold magic_at.
  match goal with |- slice _ _ ((?h ++ _) ++ _) = _ => change h with
    (match c_version c with V4 => firstn 192 hdr ++ md5 (firstn 192 hdr) | _ => hdr end) end.
  rewrite G, <- !app_assoc.
  change (512 * N.of_nat 0) with (lenN (@nil byte)). change 4 with (lenN archive_magic).
  match goal with |- slice _ _ (archive_magic ++ ?x) = _ => exact (slice_mid [] archive_magic x) end.
Qed.
End Size.
