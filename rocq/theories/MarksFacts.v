(** * What an archive tells about how a file is stored: proofs. *)
From Verif Require Import Bytes Crypto SpecNames HashTable BlockTable Header Compress SpecCompress SpecTables Listfile
  CompressFacts Builder BuilderFacts HetBet Attributes Archive ReadFacts OpenFacts SpecArchive ArchiveFacts SpecArchive34
  Archive34Facts SpecConform SpecMarks.
Open Scope N_scope.

Section T.
Variable L : codecs.
Variable md5 : bytes -> bytes.

(** The flags the builder gives, with the five things they tell *)
Definition marks (comp enc fixk single crc : bool) : N :=
  N.lor (N.lor (N.lor (N.lor (flag_if single FLAG_SINGLE_UNIT) (flag_if crc FLAG_SECTOR_CRC)) (flag_if comp FLAG_COMPRESS))
    (N.lor (flag_if enc FLAG_ENCRYPTED) (flag_if fixk FLAG_FIX_KEY))) FLAG_EXISTS.

Lemma marks_tell comp enc fixk single crc : let m := marks comp enc fixk single crc in
  is_encrypted m = enc /\ has_fix_key m = fixk /\ is_single_unit m = single /\ has_sector_crc m = crc /\
  is_compressed m = comp.
Proof. destruct comp, enc, fixk, single, crc; vm_compute; auto. Qed.

Lemma testbit_flag b k i : N.testbit (flag_if b (2 ^ k)) i = true -> i = k.
Proof.
  unfold flag_if. destruct b; [|rewrite N.bits_0; discriminate].
  rewrite N.pow2_bits_eqb. intros H. apply N.eqb_eq in H. congruence.
Qed.
Lemma marks_only comp enc fixk single crc : nothing_else (marks comp enc fixk single crc).
Proof.
  split; [destruct comp, enc, fixk, single, crc; reflexivity|].
  intros i. unfold marks. rewrite !N.lor_spec.
  change FLAG_SINGLE_UNIT with (2 ^ 24). change FLAG_SECTOR_CRC with (2 ^ 26). change FLAG_COMPRESS with (2 ^ 9).
  change FLAG_ENCRYPTED with (2 ^ 16). change FLAG_FIX_KEY with (2 ^ 17).
  change FLAG_EXISTS with (flag_if true (2 ^ 31)).
  intros H. repeat (apply orb_prop in H as [H|H]); apply testbit_flag in H; subst i; cbn [In]; tauto.
Qed.

Lemma form_flag m s b x : store_form L s m = Ok (b, x) ->
  (x = true <-> m <> 0 /\ s <> [] /\ shrinks L m s).
Proof.
  unfold store_form. destruct (N.eqb_spec m 0) as [->|Hm]; cbn [orb].
  { intros H. apply Ok_inj in H. injection H as _ <-. split; [discriminate|]. intros [C _]. now elim C. }
  destruct (N.eqb_spec (lenN s) 0) as [E|E].
  { intros H. apply Ok_inj in H. injection H as _ <-. split; [discriminate|]. intros (_ & C & _).
    apply lenN_0 in E. contradiction. }
  destruct (compress L s m) as [r| |] eqn:Ec; cbn [bind]; try discriminate.
  assert (Hs : s <> []) by (intros ->; now elim E).
  destruct (bytes_eqb r s) eqn:Eb; intros H; apply Ok_inj in H; injection H as _ <-.
  - split; [discriminate|]. intros (_ & _ & r' & Hr & Hne). apply bytes_eqb_eq in Eb. congruence.
  - split; [intros _|reflexivity]. split; [exact Hm|]. split; [exact Hs|]. exists r. split; [exact Ec|].
    intros ->. assert (bytes_eqb s s = true) by (apply bytes_eqb_eq; reflexivity). congruence.
Qed.

Lemma sectors_flag m secs : forall stored x, store_sectors L secs m = Ok (stored, x) ->
  (x = true <-> exists s, In s secs /\ m <> 0 /\ s <> [] /\ shrinks L m s).
Proof.
  induction secs as [|s0 t IH]; intros stored x H; cbn [store_sectors] in H.
  - apply Ok_inj in H. injection H as _ <-. split; [discriminate|]. intros (s & [] & _).
  - destruct (store_form L s0 m) as [[b y]| |] eqn:E; cbn [bind] in H; try discriminate.
    destruct (store_sectors L t m) as [[u z]| |] eqn:F; cbn [bind] in H; try discriminate.
    apply Ok_inj in H. injection H as _ <-. specialize (IH _ _ eq_refl). apply form_flag in E.
    rewrite orb_true_iff, E, IH. split.
    + intros [K|(s & Hs & K)]; [exists s0|exists s]; cbn [In]; auto.
    + intros (s & [<-|Hs] & K); [left|right; exists s]; auto.
Qed.

Lemma written_marks c ss f p out csize flags :
  sector_size (c_block_size c) = Ok ss -> write_file L c ss f p = Ok (out, csize, flags) ->
  exists comp single, N.lor flags FLAG_EXISTS = marks comp (pf_encrypt f) (pf_encrypt f && pf_fix f) single (c_crcs c) /\
    (single = true <-> lenN (pf_data f) <= sector_bytes c) /\ (comp = true <-> helped L c f).
Proof.
  intros Hss W. unfold write_file in W.
  destruct (N.leb_spec (lenN (pf_data f)) ss) as [C|C].
  - assert (Hs : lenN (pf_data f) <= sector_bytes c).
    { destruct (N.eq_dec ss 0) as [->|Hz]; [lia|]. apply sector_size_ok in Hss; [|exact Hz]. lia. }
    unfold write_single in W.
    destruct (store_form L (pf_data f) (pf_comp f)) as [[body x]| |] eqn:E; cbn [bind] in W; try discriminate.
    apply Ok_inj in W. injection W as _ _ <-. exists x, true. split.
    { destruct x, (pf_encrypt f), (pf_fix f), (c_crcs c); reflexivity. }
    split; [split; auto|]. rewrite (form_flag _ _ _ _ E). unfold helped, unit_of. split.
    + intros (K1 & K2 & K3). split; [exact K1|]. exists (pf_data f). auto.
    + intros (K1 & s & K2 & [[_ ->]|[K _]] & K3); [auto|lia].
  - unfold write_multi in W. destruct (N.eqb_spec ss 0) as [Ez|Ez]; [discriminate|].
    apply sector_size_ok in Hss; [|exact Ez].
    destruct (store_sectors L (chunks (length (pf_data f)) ss (pf_data f)) (pf_comp f)) as [[st x]| |] eqn:E;
      cbn [bind] in W; try discriminate.
    match type of W with bind ?X _ = _ => destruct X as [d'| |] eqn:Ed end; cbn [bind] in W; try discriminate.
    apply Ok_inj in W. injection W as _ _ <-. exists x, false. split.
    { destruct x, (pf_encrypt f), (pf_fix f), (c_crcs c); reflexivity. }
    split; [split; [discriminate|lia]|]. rewrite (sectors_flag _ _ _ _ E). unfold helped, unit_of. split.
    + intros (s & Hi & K1 & K2 & K3). split; [exact K1|]. exists s. split; [exact K2|]. split; [|exact K3].
      right. split; [lia|]. apply is_sector_chunks in Hi; [|lia|lia]. congruence.
    + intros (K1 & s & K2 & [[K _]|[_ K]] & K3); [lia|]. exists s. split; [|auto].
      apply is_sector_chunks; [lia|lia|]. congruence.
Qed.

Lemma found_told a c ss fs name f :
  describes L a c ss fs -> sector_size (c_block_size c) = Ok ss -> find_file a name = find_file_classic a name ->
  no_collision (map pf_name fs) -> means fs name f ->
  exists fi, find_file a name = Ok (Some fi) /\ told L c f fi /\ nothing_else (fi_flags fi).
Proof.
  intros Hd Hss Hf Hcol Hm.
  destruct (built_find_gen L md5 a c ss fs name f Hd Hf Hcol Hm) as (i & p & out & cs & fl & s & H1 & H2 & H3 & H4 & H5 & H6 & H7).
  eexists. split; [exact H7|]. cbn [fi_flags].
  destruct (written_marks c ss f p out cs fl Hss H3) as (comp & single & E & Es & Ec).
  rewrite E. split; [|apply marks_only].
  unfold told, flags_told. cbn [fi_flags fi_size fi_locale].
  destruct (marks_tell comp (pf_encrypt f) (pf_encrypt f && pf_fix f) single (c_crcs c)) as (T1 & T2 & T3 & T4 & T5).
  rewrite T1, T2, T3, T4, T5. auto 10.
Qed.

Lemma told12 c files arc pre post :
  built_at L md5 c files arc pre post ->
  no_collision (LISTFILE :: map pf_name files) ->
  hashes_apart ATTRIBUTES (LISTFILE :: map pf_name files) ->
  exists a, open_archive L (pre ++ arc ++ post) = Ok a /\
    forall name f, means (prepare_listfile c files) name f ->
      exists fi, find_file a name = Ok (Some fi) /\ told L c f fi /\ nothing_else (fi_flags fi).
Proof.
  intros Hb Hcol Ha.
  destruct (built_open L md5 c files arc pre post Hb Ha) as (a & ss & Ho & Hss & Hd & Hhet & _).
  exists a. split; [exact Ho|]. intros name f Hm. apply (found_told a c ss (prepare_listfile c files)); [exact Hd|exact Hss| | |exact Hm].
  - now apply find_is_classic.
  - eapply no_collision_incl; [apply prepare_names|exact Hcol].
Qed.

Lemma told34 c files arc pre post :
  built34_at L md5 c files arc pre post -> entry_count c files <= 4 ->
  no_collision (LISTFILE :: map pf_name files) ->
  hashes_apart ATTRIBUTES (LISTFILE :: map pf_name files) ->
  exists a, open_archive L (pre ++ arc ++ post) = Ok a /\
    forall name f, means (prepare_listfile c files) name f ->
      exists fi, find_file a name = Ok (Some fi) /\ told L c f fi /\ nothing_else (fi_flags fi).
Proof.
  intros HB H4 Hcol Hap.
  destruct (find34 L md5 c files arc pre post HB) as (a & ss & Ho & Hss & Hd & Hat & Hf & Hoff & Hsm & _).
  rewrite (entry_count_prepare md5) in Hsm. specialize (Hsm H4).
  exists a. split.
  - rewrite Ho. unfold load_attributes. rewrite Hat. unfold read_file.
    assert (E : find_file a ATTRIBUTES = Ok None).
    { rewrite Hsm. eapply (find_classic_absent L); [exact Hd|]. intros x Hx. apply Hap. now apply (prepare_names c files). }
    rewrite E. reflexivity.
  - intros name f Hm. apply (found_told a c ss (prepare_listfile c files)); [exact Hd|exact Hss|apply Hsm| |exact Hm].
    eapply no_collision_incl; [apply prepare_names|exact Hcol].
Qed.

(** The list file the builder adds *)
Lemma listfile_means c files : c_listfile c <> LNone ->
  (forall f, In f files -> ~ name_equiv LISTFILE (pf_name f)) ->
  exists g, means (prepare_listfile c files) LISTFILE g /\ pf_encrypt g = false /\ pf_comp g = c_default c /\
    pf_locale g = 0.
Proof.
  intros Hl Hno. unfold prepare_listfile. destruct (c_listfile c); [| |now elim Hl].
  all: eexists; split; [exists files, []; split; [reflexivity|]; split; [apply name_equiv_refl|exact Hno]|].
  all: cbn [pf_encrypt pf_comp pf_locale]; auto.
Qed.

Lemma told_listfile c files arc pre post :
  built_at L md5 c files arc pre post ->
  no_collision (LISTFILE :: map pf_name files) ->
  hashes_apart ATTRIBUTES (LISTFILE :: map pf_name files) ->
  c_listfile c <> LNone -> (forall f, In f files -> ~ name_equiv LISTFILE (pf_name f)) ->
  exists a fi, open_archive L (pre ++ arc ++ post) = Ok a /\ find_file a LISTFILE = Ok (Some fi) /\
    is_encrypted (fi_flags fi) = false /\ has_fix_key (fi_flags fi) = false /\
    has_sector_crc (fi_flags fi) = c_crcs c /\ fi_locale fi = 0 /\
    (c_default c = 0 -> is_compressed (fi_flags fi) = false).
Proof.
  intros Hb Hcol Ha Hl Hno. destruct (listfile_means c files Hl Hno) as (g & Hm & G1 & G2 & G3).
  destruct (told12 c files arc pre post Hb Hcol Ha) as (a & Ho & H).
  destruct (H _ _ Hm) as (fi & Hf & ((T1 & T2 & _ & T4 & T5) & _ & T7) & _).
  exists a, fi. split; [exact Ho|]. split; [exact Hf|]. rewrite T1, T2, T4, T7, G1, G3.
  repeat (split; [reflexivity|]). intros H0. destruct (is_compressed (fi_flags fi)); [|reflexivity].
  destruct (proj1 T5 eq_refl) as [C _]. congruence.
Qed.

Lemma told_files12 c files arc pre post :
  built_at L md5 c files arc pre post ->
  no_collision (LISTFILE :: map pf_name files) ->
  hashes_apart ATTRIBUTES (LISTFILE :: map pf_name files) ->
  exists a, open_archive L (pre ++ arc ++ post) = Ok a /\
    forall name f, means files name f ->
      exists fi, find_file a name = Ok (Some fi) /\ told L c f fi /\ nothing_else (fi_flags fi).
Proof.
  intros Hb Hcol Ha. destruct (told12 c files arc pre post Hb Hcol Ha) as (a & Ho & H).
  exists a. split; [exact Ho|]. intros name f Hm. apply H. now apply means_prepare.
Qed.
(** Entries of a listing *)
Lemma named_found a names : forall es x, list_named a names = Ok es -> In x es ->
  exists fi, find_file a (fe_name x) = Ok (Some fi) /\ fe_size x = fi_size fi /\ fe_flags x = fi_flags fi.
Proof.
  induction names as [|n t IH]; intros es x H Hx; cbn [list_named] in H.
  - apply Ok_inj in H. subst es. destruct Hx.
  - destruct (find_file a n) as [r| |] eqn:E; cbn [bind] in H; try discriminate.
    destruct (list_named a t) as [rest| |]; cbn [bind] in H; try discriminate.
    destruct r as [fi|]; apply Ok_inj in H; subst es; [destruct Hx as [<-|Hx]|].
    + exists fi. cbn [fe_name fe_size fe_flags]. auto.
    + now apply (IH rest).
    + now apply (IH rest).
Qed.
Lemma told_listed c files arc pre post a es :
  built_at L md5 c files arc pre post ->
  no_collision (LISTFILE :: map pf_name files) ->
  hashes_apart ATTRIBUTES (LISTFILE :: map pf_name files) ->
  open_archive L (pre ++ arc ++ post) = Ok a -> find_file a LISTFILE <> Ok None -> list_files L a = Ok es ->
  forall x f, In x es -> means files (fe_name x) f ->
    flags_told L c f (fe_flags x) /\ nothing_else (fe_flags x) /\ fe_size x = lenN (pf_data f) mod 2 ^ 32.
Proof.
  intros Hb Hcol Ha Ho Hl He x f Hx Hm.
  destruct (told12 c files arc pre post Hb Hcol Ha) as (a' & Ho' & H).
  rewrite Ho in Ho'. apply Ok_inj in Ho'. subst a'.
  destruct (H _ _ (means_prepare c files _ _ Hm)) as (fi & Hf & (T & Ts & _) & Tn).
  unfold list_files in He. destruct (find_file a LISTFILE) as [[li|]| |]; cbn [bind] in He; try discriminate; [|now elim Hl].
  destruct (read_file L a LISTFILE) as [d| |]; cbn [bind] in He; try discriminate.
  destruct (named_found a _ es x He Hx) as (fj & Hj & E1 & E2).
  rewrite Hf in Hj. apply Ok_inj in Hj. injection Hj as <-. rewrite E1, E2. auto.
Qed.

Lemma told_files34 c files arc pre post :
  built34_at L md5 c files arc pre post -> entry_count c files <= 4 ->
  no_collision (LISTFILE :: map pf_name files) ->
  hashes_apart ATTRIBUTES (LISTFILE :: map pf_name files) ->
  exists a, open_archive L (pre ++ arc ++ post) = Ok a /\
    forall name f, means files name f ->
      exists fi, find_file a name = Ok (Some fi) /\ told L c f fi /\ nothing_else (fi_flags fi).
Proof.
  intros Hb H4 Hcol Ha. destruct (told34 c files arc pre post Hb H4 Hcol Ha) as (a & Ho & H).
  exists a. split; [exact Ho|]. intros name f Hm. apply H. now apply means_prepare.
Qed.

Lemma pointed_told c a f fi : points_to L c a f fi ->
  flags_told L c f (fi_flags fi) /\ nothing_else (fi_flags fi) /\ fi_size fi = lenN (pf_data f) mod 2 ^ 32.
Proof.
  intros (ss & p & out & cs & fl & Hss & W & _ & _ & Hsz & _ & Hfl).
  destruct (written_marks c ss f p out cs fl Hss W) as (comp & single & E & Es & Ec).
  rewrite Hfl, E, Hsz. split; [|split; [apply marks_only|reflexivity]].
  destruct (marks_tell comp (pf_encrypt f) (pf_encrypt f && pf_fix f) single (c_crcs c)) as (T1 & T2 & T3 & T4 & T5).
  unfold flags_told. rewrite T1, T2, T3, T4, T5. auto 10.
Qed.
Lemma told_or_first c files arc pre post a :
  built34_at L md5 c files arc pre post ->
  no_collision (LISTFILE :: map pf_name files) ->
  open_archive L (pre ++ arc ++ post) = Ok a ->
  forall name f, means files name f ->
    find_file a name = Panic \/
    exists fi g, find_file a name = Ok (Some fi) /\ (g = f \/ hd_error files = Some g) /\
      flags_told L c g (fi_flags fi) /\ nothing_else (fi_flags fi) /\ fi_size fi = lenN (pf_data g) mod 2 ^ 32.
Proof.
  intros HB Hcol Ho name f Hm.
  destruct (right_or_first L md5 c files arc pre post a HB Hcol Ho) as [H _].
  destruct (H name f Hm) as [P|(fi & Hf & [P|(f0 & H0 & P)])]; [now left| |]; right; exists fi.
  - exists f. split; [exact Hf|]. split; [now left|]. now apply (pointed_told c a).
  - exists f0. split; [exact Hf|]. split; [now right|]. now apply (pointed_told c a).
Qed.
Lemma listed_or_first c files arc pre post a es :
  built34_at L md5 c files arc pre post ->
  no_collision (LISTFILE :: map pf_name files) ->
  open_archive L (pre ++ arc ++ post) = Ok a -> find_file a LISTFILE <> Ok None -> list_files L a = Ok es ->
  forall x f, In x es -> means files (fe_name x) f ->
    exists g, (g = f \/ hd_error files = Some g) /\
      flags_told L c g (fe_flags x) /\ nothing_else (fe_flags x) /\ fe_size x = lenN (pf_data g) mod 2 ^ 32.
Proof.
  intros Hb Hcol Ho Hl He x f Hx Hm.
  unfold list_files in He. destruct (find_file a LISTFILE) as [[li|]| |]; cbn [bind] in He; try discriminate; [|now elim Hl].
  destruct (read_file L a LISTFILE) as [d| |]; cbn [bind] in He; try discriminate.
  destruct (named_found a _ es x He Hx) as (fj & Hj & E1 & E2).
  destruct (told_or_first c files arc pre post a Hb Hcol Ho _ _ Hm) as [P|(fi & g & Hf & Hg & T)]; [congruence|].
  rewrite Hf in Hj. apply Ok_inj in Hj. injection Hj as <-. exists g. rewrite E1, E2. auto.
Qed.
End T.
