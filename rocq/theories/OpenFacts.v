(** * Facts about opening what the builder wrote, and finding its files. *)
From Verif Require Import Bytes Crypto CryptoFacts SpecNames NameFacts HashTable BlockTable Header
  HeaderFacts SpecHeader HeaderSearch Compress SpecTables HashTableFacts TableMap SpecCompress CompressFacts
  Adler Listfile HetBet Builder BuilderFacts Attributes Archive ReadFacts.
Open Scope N_scope.

(** ** The hash table the builder makes *)
Lemma builder_inv count files t0 t :
  lenN files <= count -> count < 2 ^ 30 ->
  ht_new (calculate_hash_table_size count) = Ok t0 -> add_all t0 files 0 = Ok t ->
  exists k, k < 32 /\ calculate_hash_table_size count = 2 ^ k /\ lenN t = 2 ^ k /\
    (length files < length t)%nat /\ table_inv t (map item_of files) /\ lenN files <= DELETED.
Proof.
  intros Hle Hc Hn Ha.
  destruct (hash_table_size_bound count Hc) as (k & Hk & Hk32 & Hge & H16).
  exists k. split; [exact Hk32|]. split; [exact Hk|].
  unfold ht_new in Hn. destruct (is_power_of_two _); [|discriminate].
  apply Ok_inj in Hn. subst t0. rewrite Hk in Ha.
  set (t0 := repeat he_empty (N.to_nat (2 ^ k))) in *.
  assert (L0 : length t0 = N.to_nat (2 ^ k)) by (unfold t0; apply repeat_length).
  assert (Ht : lenN t0 = 2 ^ k) by (unfold lenN; rewrite L0; lia).
  assert (Hl : (length files < length t0)%nat).
  { rewrite L0. unfold lenN in Hle. lia. }
  assert (Hmax : lenN files <= DELETED).
  { transitivity count; [exact Hle|]. unfold DELETED. change (2^30) with 1073741824 in Hc. lia. }
  destruct (add_all_hashes files t0 k [] Ht (ht_new_inv _) Hl Hmax) as [(t' & Ha' & Hlt & Inv)|[Ha' _]].
  - change (lenN (@nil key)) with 0 in Ha'. rewrite Ha in Ha'. apply Ok_inj in Ha'. subst t'.
    split; [unfold lenN; rewrite Hlt; exact Ht|]. split; [lia|]. split; [exact Inv|exact Hmax].
  - change (lenN (@nil key)) with 0 in Ha'. rewrite Ha in Ha'. discriminate.
Qed.

Lemma he_empty_ok : he_ok he_empty.
Proof. vm_compute. auto 10. Qed.

Lemma Forall_upd {A} (P : A -> Prop) l i x : Forall P l -> P x -> Forall P (upd l i x).
Proof.
  intros H Hx. revert i. induction H as [|y l Hy H IH]; intros [|i]; cbn [upd]; auto.
Qed.

Lemma add_loop_ok fuel t a b loc blk i t' :
  Forall he_ok t -> a < M32 -> b < M32 -> loc < M16 -> blk < M32 ->
  add_loop fuel t a b loc blk i = Ok t' -> Forall he_ok t'.
Proof.
  intros Ht Ha Hb Hl Hk. revert i. induction fuel as [|f IH]; intros i H; cbn [add_loop] in H; [discriminate|].
  destruct (nthN t i) as [e|]; [|discriminate].
  destruct (is_empty e).
  - apply Ok_inj in H. subst t'. apply Forall_upd; [exact Ht|].
    unfold he_ok. cbn. unfold M16 in *. repeat split; auto; lia.
  - destruct (_ && _) in H; [discriminate|]. eapply IH; eauto.
Qed.

Lemma add_all_ok files : forall t m t',
  Forall he_ok t -> Forall (fun x => snd x < M16) files -> m + lenN files <= M32 ->
  add_all t files m = Ok t' -> Forall he_ok t'.
Proof.
  induction files as [|[n l] files IH]; intros t m t' Ht Hl Hm H; cbn [add_all] in H.
  - apply Ok_inj in H. now subst.
  - rewrite lenN_cons in Hm. apply Forall_cons_iff in Hl as [Hl Hf].
    destruct (add_to_hash_table t n m l) as [u| |] eqn:E; cbn [bind] in H; try discriminate.
    apply (IH _ _ _) in H; auto; [|lia].
    unfold add_to_hash_table in E. destruct (lenN t =? 0); [discriminate|].
    eapply add_loop_ok in E; eauto using hash_string_lt. lia.
Qed.

Lemma ht_new_ok n t0 : ht_new n = Ok t0 -> Forall he_ok t0.
Proof.
  unfold ht_new. destruct (is_power_of_two _); [|discriminate]. intros H. apply Ok_inj in H. subst t0.
  apply Forall_forall. intros e He. apply repeat_spec in He. subst e. apply he_empty_ok.
Qed.

Lemma map_lenN {A B} (f : A -> B) l : lenN (map f l) = lenN l.
Proof. unfold lenN. now rewrite map_length. Qed.

Lemma nthN_of_nat {A} (l : list A) i : nthN l (N.of_nat i) = nth_error l i.
Proof.
  unfold nthN, lenN. destruct (N.ltb_spec (N.of_nat i) (N.of_nat (length l))) as [H|H].
  - now rewrite Nat2N.id.
  - symmetry. apply nth_error_None. lia.
Qed.

(** ** What an opened archive should know about the files written *)
Section O.
Variable L : codecs.

Definition describes (a : archive) (c : config) (ss : N) (fs : list pending) : Prop :=
  exists t k bt,
    a_hash a = Some t /\ a_block a = Some bt /\ lenN t = 2 ^ k /\
    table_inv t (map item_of (map file_key fs)) /\ (length fs < length t)%nat /\
    lenN fs <= DELETED /\ sector_size (h_block_size (a_header a)) = Ok ss /\
    forall i f, nth_error fs i = Some f ->
      exists p out csize flags,
        write_file L c ss f p = Ok (out, csize, flags) /\
        slice (a_off a + p) (lenN out) (a_file a) = Some out /\
        nth_error bt i = Some (block_entry f p csize flags) /\
        pos_full (a_hi a) (N.of_nat i) (pos_low p) = p /\
        a_off a + p + lenN out < M64.

Lemma be_ok_entry f p csize flags : flags < M32 -> be_ok (block_entry f p csize flags).
Proof.
  intros H. unfold be_ok, block_entry, pos_low; cbn. repeat split; try apply w32_lt.
  apply lor_lt32; [exact H|reflexivity].
Qed.

Lemma flag_if_lt b x : x < M32 -> flag_if b x < M32.
Proof. intros H. destruct b; [exact H|reflexivity]. Qed.

Lemma write_file_flags c ss f p out csize flags :
  write_file L c ss f p = Ok (out, csize, flags) -> flags < M32.
Proof.
  unfold write_file. destruct (_ <=? _); intros H.
  - unfold write_single in H. destruct (store_form L _ _) as [[b x]| |]; cbn [bind] in H; try discriminate.
    apply Ok_inj in H. injection H as _ _ <-.
    repeat (apply lor_lt32 || apply flag_if_lt); reflexivity.
  - unfold write_multi in H. destruct (ss =? 0); [discriminate|].
    destruct (store_sectors L _ _) as [[b x]| |]; cbn [bind] in H; try discriminate.
    destruct (if pf_encrypt f then _ else _) as [dd| |]; cbn [bind] in H; try discriminate.
    apply Ok_inj in H. injection H as _ _ <-.
    repeat (apply lor_lt32 || apply flag_if_lt); reflexivity.
Qed.

Lemma write_files_entries c ss fs pos body es :
  write_files L c ss fs pos = Ok (body, es) -> Forall be_ok (map snd es).
Proof.
  intros H. destruct (write_files_layout _ _ _ _ _ _ _ H) as [H1 H2].
  apply Forall_forall. intros e He. apply in_map_iff in He as ([p e'] & <- & He).
  apply In_nth_error in He as [i Hi].
  destruct (nth_error fs i) as [f|] eqn:Hf.
  - destruct (H2 i f Hf) as (p' & o & cs & fl & a & b & W & N1 & _).
    rewrite Hi in N1. injection N1 as -> ->. cbn [snd]. apply be_ok_entry.
    now apply write_file_flags in W.
  - exfalso. apply nth_error_None in Hf. assert (i < length es)%nat by (apply nth_error_Some; congruence). lia.
Qed.

(** Looking a name up in the classic tables gives the file the map of names
    gives. *)
Lemma find_classic_ok a c ss fs name :
  describes a c ss fs -> no_collision (name :: map pf_name fs) ->
  exists r, map_lookup (map file_key fs) (name, 0) r /\
  match r with
  | None => find_file_classic a name = Ok None
  | Some m => exists f p out csize flags s,
      nth_error fs (N.to_nat m) = Some f /\ name_equiv name (pf_name f) /\
      write_file L c ss f p = Ok (out, csize, flags) /\
      slice (a_off a + p) (lenN out) (a_file a) = Some out /\
      a_off a + p + lenN out < M64 /\
      (forall bt, a_block a = Some bt -> nthN bt m = Some (block_entry f p csize flags)) /\
      find_file_classic a name =
        Ok (Some (mkFI s m (a_off a + p) (w32 csize) (w32 (lenN (pf_data f)))
                       (N.lor flags FLAG_EXISTS) (pf_locale f)))
  end.
Proof.
  intros (t & k & bt & Hh & Hb & Ht & Inv & Hlen & Hmax & Hss & Hfiles) Hcol.
  destruct (ht_find_map t k (map file_key fs) (name, 0)) as (r & Hf & Hm & Hloc).
  - exact Ht.
  - exact Inv.
  - rewrite map_lenN. exact Hmax.
  - rewrite map_length. exact Hlen.
  - rewrite map_map. exact Hcol.
  - exists (option_map (fun p => he_block (snd p)) r). split; [exact Hm|].
    unfold find_file_classic. rewrite Hh, Hb. cbn [of_option bind].
    cbn [fst snd] in Hf. rewrite Hf. cbn [bind].
    destruct r as [[s e]|]; cbn [option_map snd]; [|reflexivity].
    destruct (Hloc s e eq_refl) as (x & Hx & Hlx).
    cbn [map_lookup option_map snd] in Hm. destruct Hm as (x' & Hx' & [Hk _] & _).
    rewrite Hx in Hx'. injection Hx' as <-.
    rewrite nth_error_map in Hx. destruct (nth_error fs (N.to_nat (he_block e))) as [f|] eqn:Ef;
      [|discriminate]. injection Hx as <-. cbn [fst snd file_key] in *.
    destruct (Hfiles _ _ Ef) as (p & out & csize & flags & W & Hsl & Hnb & Hpos & H64).
    exists f, p, out, csize, flags, s.
    assert (HN : nthN bt (he_block e) = Some (block_entry f p csize flags)).
    { rewrite <- (N2Nat.id (he_block e)), nthN_of_nat. exact Hnb. }
    split; [reflexivity|]. split; [exact Hk|]. split; [exact W|]. split; [exact Hsl|].
    split; [exact H64|]. split; [intros bt' Hbt'; congruence|].
    rewrite HN. cbn [of_option bind block_entry be_pos be_csize be_size be_flags].
    rewrite N2Nat.id in Hpos. rewrite Hpos. rewrite add64_ok by lia. cbn [bind].
    rewrite Hlx. reflexivity.
Qed.

(** Conditions on a file under which it comes back. *)
Definition file_safe (ss : N) (f : pending) : Prop :=
  let d := pf_data f in
  let secs := chunks (length d) ss d in
  pf_comp f < 256 /\
  if lenN d <=? ss then lenN d < M32 /\ undoes L (pf_comp f) d
  else lenN d + 8 * (div_ceil (lenN d) ss + 1) < M32 /\
       Forall (sector_safe L (pf_comp f)) secs /\
       exists s r, In s secs /\ s <> [] /\ pf_comp f <> 0 /\ compress L s (pf_comp f) = Ok r /\ r <> s.

Lemma store_sectors_flag m secs : forall stored x s r,
  store_sectors L secs m = Ok (stored, x) -> In s secs -> s <> [] -> m <> 0 ->
  compress L s m = Ok r -> r <> s -> x = true.
Proof.
  induction secs as [|s0 t IH]; intros stored x s r H Hin Hs Hm Hc Hr; [contradiction|].
  cbn [store_sectors] in H.
  destruct (store_form L s0 m) as [[b y]| |] eqn:E; cbn [bind] in H; try discriminate.
  destruct (store_sectors L t m) as [[u z]| |] eqn:F; cbn [bind] in H; try discriminate.
  apply Ok_inj in H. injection H as _ <-. destruct Hin as [->|Hin].
  - unfold store_form in E. replace (m =? 0) with false in E by lia.
    destruct s as [|b0 s]; [congruence|].
    replace (lenN (b0 :: s) =? 0) with false in E by (unfold lenN; cbn; lia).
    cbn [orb] in E. rewrite Hc in E. cbn [bind] in E.
    destruct (bytes_eqb r (b0 :: s)) eqn:B; [apply bytes_eqb_eq in B; congruence|].
    apply Ok_inj in E. injection E as _ <-. reflexivity.
  - rewrite (IH _ _ _ _ eq_refl Hin Hs Hm Hc Hr). apply orb_true_r.
Qed.

Lemma read_file_ok a c ss fs name m f p out csize flags s :
  describes a c ss fs ->
  find_file a name =
     Ok (Some (mkFI s m (a_off a + p) (w32 csize) (w32 (lenN (pf_data f)))
                       (N.lor flags FLAG_EXISTS) (pf_locale f))) ->
  (forall bt, a_block a = Some bt -> nthN bt m = Some (block_entry f p csize flags)) ->
  name_equiv name (pf_name f) ->
  write_file L c ss f p = Ok (out, csize, flags) ->
  slice (a_off a + p) (lenN out) (a_file a) = Some out ->
  a_off a + p + lenN out < M64 ->
  file_safe ss f ->
  read_file L a name = Ok (pf_data f).
Proof.
  intros Hd Hf Hbt Hn W Hs H64 Hsafe.
  destruct Hd as (t & k & bt & Hh & Hb & _ & _ & _ & _ & Hss & _).
  unfold read_file. rewrite Hf. cbn [of_option bind]. set (fi := mkFI _ _ _ _ _ _ _).
  assert (Hsz : (match a_het a, a_bet a with
     | Some _, Some _ => Ok (w32 (fi_size fi), fi_size fi)
     | _, _ =>
         bt <- of_option EInvalidFormat (a_block a) ;;
         b <- of_option EBlockTable (nthN bt (fi_block fi)) ;;
         Ok (be_size b, be_size b)
     end) = Ok (w32 (lenN (pf_data f)), w32 (lenN (pf_data f)))).
  { assert (G : (bt <- of_option EInvalidFormat (a_block a) ;;
         b <- of_option EBlockTable (nthN bt (fi_block fi)) ;;
         Ok (be_size b, be_size b)) = Ok (w32 (lenN (pf_data f)), w32 (lenN (pf_data f)))).
    { rewrite Hb. cbn [of_option bind fi fi_block]. rewrite (Hbt bt Hb). reflexivity. }
    destruct (a_het a), (a_bet a); try exact G. cbn [fi fi_size].
    rewrite (w32_small (w32 _)) by apply w32_lt. reflexivity. }
  rewrite Hsz. cbn [bind].
  unfold file_safe in Hsafe. destruct Hsafe as [Hc Hsafe]. unfold write_file in W.
  destruct (lenN (pf_data f) <=? ss).
  - destruct Hsafe as [Hl Hu].
    destruct (read_single L c f p out csize flags a name fi) as [G1 G2]; auto.
    rewrite G1. exact G2.
  - destruct Hsafe as (Hl & Hse & (s0 & r0 & Hin & Hne & Hc0 & Hco & Hr0)).
    assert (Hcomp : is_compressed flags = true).
    { unfold write_multi in W. destruct (ss =? 0); [discriminate|].
      destruct (store_sectors L _ _) as [[st x]| |] eqn:E; cbn [bind] in W; try discriminate.
      destruct (if pf_encrypt f then _ else _) as [dd| |]; cbn [bind] in W; try discriminate.
      apply Ok_inj in W. injection W as _ _ <-.
      rewrite (store_sectors_flag _ _ _ _ _ _ E Hin Hne Hc0 Hco Hr0).
      destruct (c_crcs c), (pf_encrypt f), (pf_fix f); reflexivity. }
    destruct (read_multi L c f p out csize flags a name fi ss) as (G1 & G2 & G3); auto.
    rewrite G1, G2. exact G3.
Qed.

(** Where everything is. *)
Definition laid_out (h : header) (ss : N) (c : config) (fs : list pending) (arc : bytes)
    (bt : list bentry) (hi : option (list N)) : Prop :=
  exists body es, bt = map snd es /\
    (forall i p b, nth_error es i = Some (p, b) -> pos_full hi (N.of_nat i) (pos_low p) = p) /\
    write_files L c ss fs (h_size h) = Ok (body, es) /\ h_size h = header_size_of (c_version c) /\
    get_hash_table_pos h = h_size h + lenN body /\
    get_block_table_pos h = get_hash_table_pos h + 16 * h_hash_count h /\
    h_block_count h = lenN fs /\ h_version h = c_version c /\
    (exists k, h_hash_count h = 2 ^ k /\ lenN fs < 2 ^ k) /\
    match hi with
    | None => (h_hi_pos h = None \/ h_hi_pos h = Some 0) /\
              lenN arc = get_block_table_pos h + 16 * h_block_count h
    | Some _ => h_hi_pos h = Some (get_block_table_pos h + 16 * h_block_count h) /\
                lenN arc = get_block_table_pos h + 16 * h_block_count h + 2 * h_block_count h
    end.

(** ** Opening a version 1 or 2 archive *)

Lemma write_archive12_open c fs arc pre post ud :
  write_archive12 L c fs = Ok arc -> version_ge (c_version c) V3 = false ->
  c_block_size c < M16 -> Forall (fun f => pf_locale f < M16) fs ->
  table_count c fs < 2 ^ 30 -> pos_fits (c_version c) (lenN arc) ->
  lenN (pre ++ arc ++ post) < 2 ^ 63 ->
  find_header (pre ++ arc ++ post) =
    (h <- header_read (from (pre ++ arc ++ post) (lenN pre)) ;; Ok (lenN pre, ud, h)) ->
  exists h ss t bt hi, sector_size (c_block_size c) = Ok ss /\
    let a := mkA (pre ++ arc ++ post) (lenN pre) ud h (Some t) (Some bt) hi None None None in
    open_archive L (pre ++ arc ++ post) = load_attributes L a /\ describes a c ss fs /\
    laid_out h ss c fs arc bt hi.
Proof.
  intros W Hv Hbs Hloc Hcnt Hfit H63 Hh.
  unfold write_archive12 in W.
  destruct (sector_size (c_block_size c)) as [ss| |] eqn:Ess; cbn [bind] in W; try discriminate.
  set (hcount := calculate_hash_table_size (table_count c fs)) in *.
  destruct (ht_new hcount) as [t0| |] eqn:Et0; cbn [bind] in W; try discriminate.
  destruct (write_files L c ss fs (header_size_of (c_version c))) as [[body es]| |] eqn:Ef;
    cbn [bind] in W; try discriminate.
  destruct (add_files t0 fs 0) as [t| |] eqn:Et; cbn [bind] in W; try discriminate.
  assert (Hle : lenN fs <= table_count c fs) by (unfold table_count; lia).
  assert (H32 : 0 + lenN fs <= M32).
  { change (2 ^ 30) with 1073741824 in Hcnt. unfold M32. change (2 ^ 32) with 4294967296. lia. }
  rewrite add_files_all in Et by exact H32.
  destruct (builder_inv (table_count c fs) (map file_key fs) t0 t) as (k & Hk32 & Hhc & Htk & Hlt & Inv & Hmax);
    [rewrite map_lenN; exact Hle|exact Hcnt|exact Et0|exact Et|].
  rewrite map_length in Hlt. rewrite map_lenN in Hmax. fold hcount in Hhc.
  assert (Hok : Forall he_ok t).
  { apply (add_all_ok (map file_key fs) t0 0 t); [exact (ht_new_ok _ _ Et0)| |rewrite map_lenN; exact H32|exact Et].
    apply Forall_forall. intros x Hx. apply in_map_iff in Hx as (f & <- & Hf).
    rewrite Forall_forall in Hloc. exact (Hloc f Hf). }
  destruct (write_files_layout _ _ _ _ _ _ _ Ef) as [Hes Hlay].
  pose proof (write_files_entries _ _ _ _ _ _ Ef) as Hbok.
  set (htab := write_hash_table t) in *. set (btab := write_block_table (map snd es)) in *.
  set (h0 := header_size_of (c_version c)) in *.
  set (hash_pos := h0 + lenN body) in *. set (block_pos := hash_pos + lenN htab) in *.
  set (hi := hi_written (version_ge (c_version c) V2) (map fst es)) in *.
  set (hib := match hi with Some w => w | None => @nil byte end) in *.
  set (hi_pos := match hi with Some _ => Some (block_pos + lenN btab) | None => None end) in *.
  set (size := block_pos + lenN btab + lenN hib) in *.
  set (P := mkHP _ _ _ _ _ _ _ _ _ _ _) in W.
  destruct (write_header P) as [hdr| |] eqn:Eh; cbn [bind] in W; try discriminate.
  apply Ok_inj in W.
  assert (Hlen_h : lenN hdr = h0).
  { apply (write_header_length P hdr); [exact I|exact Eh]. }
  assert (Harc : lenN arc = size).
  { rewrite <- W, !lenN_app, Hlen_h. unfold size, block_pos, hash_pos. lia. }
  rewrite !lenN_app in H63.
  assert (Hsz63 : size < 2 ^ 63) by lia.
  assert (Hpok : hp_ok P).
  { unfold hp_ok, P; cbn. split; [exact Hbs|].
    split; [rewrite Hhc in *; unfold M64; change (2^64) with 18446744073709551616; change (2^63) with 9223372036854775808 in *; lia|].
    split; [rewrite Hhc; change M32 with (2 ^ 32); apply N.pow_lt_mono_r; lia|].
    split; [apply w32_lt|].
    split; [|split; [reflexivity|split; [reflexivity|exact I]]].
    assert (Hor : or0 hi_pos <= size) by (unfold hi_pos; destruct hi; cbn [or0]; unfold size; lia).
    unfold opt_lt, M64; change (2^64) with 18446744073709551616; change (2^63) with 9223372036854775808 in *. lia. }
  (* the header *)
  unfold from in Hh.
  replace (lenN pre <=? lenN (pre ++ arc ++ post)) with true in Hh by (rewrite lenN_app; lia).
  unfold lenN in Hh at 1. rewrite Nat2N.id, skipn_app_exact in Hh by reflexivity.
  destruct (header_round_trip P hdr ((body ++ htab ++ btab ++ hib) ++ post) Hpok Eh)
    as (h & Hr & _ & Hver & Hhsz & Hhbs & Hhcnt & Hbcnt & Hhp & Hbp & _ & Hhi & _).
  rewrite app_assoc, W in Hr. rewrite Hr in Hh. cbn [bind] in Hh.
  cbn [P p_version p_block_size p_hash_count p_block_count p_hash_pos p_block_pos p_hi_pos] in *.
  assert (Hfp : forall x, x <= lenN arc -> pos_fits (c_version c) x).
  { intros x Hx. unfold pos_fits in *. eapply N.le_lt_trans; eassumption. }
  rewrite Harc in Hfp. 
  assert (Hhps : hash_pos <= size) by (unfold size, block_pos; lia).
  assert (Hbps : block_pos <= size) by (unfold size; lia).
  specialize (Hhp (Hfp _ Hhps)). specialize (Hbp (Hfp _ Hbps)).
  (* positions *)
  assert (HF48 : Forall (fun p => p < 2 ^ 48) (map fst es)).
  { apply Forall_forall. intros p Hp. apply in_map_iff in Hp as (e & <- & He).
    pose proof (write_files_body _ _ _ _ _ _ _ Ef) as HB. rewrite Forall_forall in HB.
    specialize (HB e He). unfold pos_fits in Hfit. rewrite Harc in Hfit. fold h0 in HB.
    destruct (version_ge (c_version c) V2); unfold size, block_pos, hash_pos in *;
      change (2 ^ 48) with 281474976710656 in *; change (2 ^ 32) with 4294967296 in *; lia. }
  assert (Hfile : pre ++ arc ++ post = (pre ++ hdr ++ body) ++ htab ++ (btab ++ hib ++ post)).
  { rewrite <- W. rewrite <- !app_assoc. reflexivity. }
  assert (Hfile2 : pre ++ arc ++ post = (pre ++ hdr ++ body ++ htab) ++ btab ++ (hib ++ post)).
  { rewrite <- W. rewrite <- !app_assoc. reflexivity. }
  assert (Hfile3 : pre ++ arc ++ post = (pre ++ hdr ++ body ++ htab ++ btab) ++ hib ++ post).
  { rewrite <- W. rewrite <- !app_assoc. reflexivity. }
  assert (Hrd1 : ht_read (pre ++ arc ++ post) (lenN pre + hash_pos) hcount = Ok t).
  { rewrite Hfile. replace (lenN pre + hash_pos) with (lenN (pre ++ hdr ++ body))
      by (rewrite !lenN_app, Hlen_h; unfold hash_pos; lia).
    rewrite Hhc, <- Htk. eapply hash_table_round_trip; eauto. }
  assert (Hrd2 : bt_read (pre ++ arc ++ post) (lenN pre + block_pos) (lenN fs) = Ok (map snd es)).
  { rewrite Hfile2. replace (lenN pre + block_pos) with (lenN (pre ++ hdr ++ body ++ htab))
      by (rewrite !lenN_app, Hlen_h; unfold block_pos, hash_pos; lia).
    replace (lenN fs) with (lenN (map snd es)) by (rewrite map_lenN; unfold lenN; now rewrite Hes).
    apply block_table_round_trip. exact Hbok. }
  assert (Hw : w32 (lenN fs) = lenN fs).
  { apply w32_small. change (2 ^ 30) with 1073741824 in Hcnt. unfold M32. change (2 ^ 32) with 4294967296. lia. }
  (* the high words *)
  assert (Hhi' : exists hio,
     (match h_hi_pos h with
         | Some p => if p =? 0 then Ok None
                     else o <- add64 (lenN pre) p ;; t <- hi_read (pre ++ arc ++ post) o (h_block_count h) ;; Ok (Some t)
         | None => Ok None
         end) = Ok hio /\
     (forall i p, nthN (map fst es) i = Some p -> pos_full hio i (pos_low p) = p) /\
     match hio with
     | None => (h_hi_pos h = None \/ h_hi_pos h = Some 0) /\ lenN hib = 0
     | Some _ => h_hi_pos h = Some (block_pos + lenN btab) /\ lenN hib = 2 * lenN fs
     end).
  { destruct (version_ge (c_version c) V2) eqn:E2.
    - rewrite Hhi by reflexivity. unfold hi_pos.
      destruct hi as [w|] eqn:Ehi; unfold hi in Ehi.
      + cbn [or0]. replace (block_pos + lenN btab =? 0) with false.
        2:{ symmetry. apply N.eqb_neq. unfold block_pos, hash_pos, h0, header_size_of. destruct (c_version c); lia. }
        rewrite add64_ok.
        2:{ unfold M64. unfold size in *. change (2^64) with 18446744073709551616.
            change (2^63) with 9223372036854775808 in *. lia. }
        cbn [bind]. rewrite Hbcnt, Hw.
        assert (HN : lenN fs = lenN (map fst es)) by (rewrite map_lenN; unfold lenN; now rewrite Hes).
        destruct (map fst es) as [|p0 ps] eqn:Em.
        { unfold hi_written in Ehi. cbn in Ehi. discriminate. }
        rewrite <- Em in *.
        assert (H0 : nthN (map fst es) 0 = Some p0) by (rewrite Em; reflexivity).
        pose proof (hi_positions (pre ++ hdr ++ body ++ htab ++ btab) post (map fst es) 0 p0 HF48 H0) as HH.
        rewrite Ehi in HH. destruct HH as (th & Hth & _).
        exists (Some th). split; [|split].
        * rewrite Hfile3. unfold hib.
          replace (lenN pre + (block_pos + lenN btab)) with (lenN (pre ++ hdr ++ body ++ htab ++ btab))
            by (rewrite !lenN_app, Hlen_h; unfold block_pos, hash_pos; lia).
          rewrite HN, Hth. reflexivity.
        * intros i p Hi.
          pose proof (hi_positions (pre ++ hdr ++ body ++ htab ++ btab) post (map fst es) i p HF48 Hi) as HH.
          rewrite Ehi in HH. destruct HH as (th' & Hth' & Hpf).
          rewrite Hth in Hth'. apply Ok_inj in Hth'. subst th'. exact Hpf.
        * split; [reflexivity|]. unfold hib. rewrite HN.
          unfold hi_written in Ehi. destruct (_ && _) in Ehi; [|discriminate]. injection Ehi as <-.
          unfold lenN. rewrite write_hi_length, map_length. lia.
      + cbn [or0]. exists None. split; [reflexivity|]. split.
        * intros i p Hi. pose proof (hi_positions [] [] (map fst es) i p HF48 Hi) as HH.
          rewrite Ehi in HH. exact HH.
        * split; [right; reflexivity|reflexivity].
    - assert (h_hi_pos h = None) as ->.
      { pose proof (header_read_write P hdr ((body ++ htab ++ btab ++ hib) ++ post) Hpok Eh) as HH.
        rewrite app_assoc, W in HH. rewrite HH in Hr. apply Ok_inj in Hr. rewrite <- Hr.
        unfold header_of. cbn [h_hi_pos P p_version]. rewrite E2. reflexivity. }
      exists None. split; [reflexivity|].
      split; [|split; [left; reflexivity|unfold hib, hi, hi_written; reflexivity]].
      intros i p Hi. cbn [pos_full]. apply w32_small.
      unfold nthN in Hi. destruct (_ <? _); [|discriminate]. apply nth_error_In in Hi.
      apply in_map_iff in Hi as (e & <- & He).
      pose proof (write_files_body _ _ _ _ _ _ _ Ef) as HB. rewrite Forall_forall in HB.
      specialize (HB e He). unfold pos_fits in Hfit. rewrite Harc, E2 in Hfit. fold h0 in HB.
      change M32 with (2 ^ 32). unfold size, block_pos, hash_pos in *. lia. }
  destruct Hhi' as (hio & Hhio & Hpf & Hhil).
  exists h, ss, t, (map snd es), hio. split; [reflexivity|]. cbv zeta. split.
  - unfold open_archive, open_with_options. rewrite Hh. cbn [bind].
    unfold load_tables. cbn [a_header a_file a_off a_het a_bet a_hash a_block a_hi a_user a_attrs].
    rewrite Hver, Hv. cbn [bind]. unfold valid_het_bet. cbn [a_het].
    rewrite Hhp, Hhcnt, Hbp, Hbcnt, Hw.
    rewrite add64_ok by (unfold M64; unfold size, block_pos in *; change (2^64) with 18446744073709551616;
            change (2^63) with 9223372036854775808 in *; lia).
    cbn [bind]. rewrite Hrd1. cbn [bind].
    rewrite add64_ok by (unfold M64; unfold size in *; change (2^64) with 18446744073709551616;
            change (2^63) with 9223372036854775808 in *; lia).
    cbn [bind]. rewrite Hrd2. cbn [bind]. rewrite Hbcnt, Hw in Hhio. rewrite Hhio. reflexivity.
  - split.
  { exists t, k, (map snd es). cbn [a_hash a_block a_header a_off a_file a_hi].
    split; [reflexivity|]. split; [reflexivity|]. split; [exact Htk|]. split; [exact Inv|].
    split; [exact Hlt|]. split; [exact Hmax|]. split; [rewrite Hhbs; exact Ess|].
    intros i f Hf. destruct (Hlay i f Hf) as (p & out & cs & fl & x & y & Wf & Hne & Hb & Hp).
    exists p, out, cs, fl. split; [exact Wf|].
    assert (Hsl : pre ++ arc ++ post = (pre ++ hdr ++ x) ++ out ++ (y ++ htab ++ btab ++ hib ++ post)).
    { rewrite <- W, Hb. rewrite <- !app_assoc. reflexivity. }
    assert (Hpp : lenN pre + p = lenN (pre ++ hdr ++ x)) by (rewrite !lenN_app, Hlen_h; lia).
    split; [rewrite Hsl, Hpp; apply slice_mid|].
    split; [rewrite nth_error_map, Hne; reflexivity|].
    split.
    + apply Hpf. rewrite nthN_of_nat, nth_error_map, Hne. reflexivity.
    + rewrite Hpp. assert (lenN (pre ++ arc ++ post) < 2 ^ 63) as HL by (rewrite !lenN_app; lia).
      rewrite Hsl in HL. rewrite lenN_app in HL. rewrite (lenN_app out) in HL.
      unfold M64. change (2^64) with 18446744073709551616.
      change (2^63) with 9223372036854775808 in HL. lia. }
  { exists body, es. split; [reflexivity|].
    split; [intros i p b Hi; apply Hpf; rewrite nthN_of_nat, nth_error_map, Hi; reflexivity|].
    assert (Hs : h_size h = h0) by (rewrite Hhsz; exact Hlen_h).
    assert (Hlt' : lenN htab = 16 * hcount).
    { unfold htab. rewrite Hhc, <- Htk. unfold lenN. rewrite write_hash_table_length. lia. }
    assert (Hlb : lenN btab = 16 * lenN fs).
    { unfold btab, lenN. rewrite write_block_table_length, map_length, Hes. lia. }
    rewrite Hs, Hhp, Hbp, Hhcnt, Hbcnt, Hw. split; [exact Ef|]. split; [reflexivity|].
    split; [reflexivity|]. split; [unfold block_pos; lia|]. split; [reflexivity|].
    split; [exact Hver|].
    split; [exists k; split; [exact Hhc|]; rewrite <- Htk; unfold lenN; lia|].
    rewrite Harc. unfold size. rewrite <- Hlb.
    destruct hio; destruct Hhil as [Hl1 Hl2]; (split; [exact Hl1|]); lia. }
Qed.

End O.
