(** * What inspection says about a built archive. *)
From Verif Require Import Bytes Crypto SpecNames NameFacts HashTable BlockTable Header SpecHeader Compress
  SpecCompress SpecTables Listfile Builder BuilderFacts Attributes Archive OpenFacts
  SpecArchive ArchiveFacts ListingFacts Signature Info InfoFacts CliBuilt.
Open Scope N_scope.

Section I.
Variable L : codecs.
Variable md5 sha1 : bytes -> bytes.
Variable rd : N -> N -> N.

Lemma flags_encrypted c ss f p out cs fl :
  write_file L c ss f p = Ok (out, cs, fl) -> is_encrypted (N.lor fl FLAG_EXISTS) = pf_encrypt f.
Proof.
  unfold write_file. intros H.
  assert (G : exists b1 b2 b4 b5,
    fl = N.lor (N.lor (N.lor (N.lor (flag_if b5 FLAG_SINGLE_UNIT) (flag_if b1 FLAG_SECTOR_CRC)) (flag_if b2 FLAG_COMPRESS))
              (flag_if (pf_encrypt f) FLAG_ENCRYPTED)) (flag_if b4 FLAG_FIX_KEY)).
  { destruct (lenN (pf_data f) <=? ss).
    - unfold write_single in H. destruct (store_form L (pf_data f) (pf_comp f)) as [(body, b)| |]; try discriminate.
      cbn [bind] in H. apply Ok_inj in H. injection H as _ _ <-.
      exists (c_crcs c), b, (pf_encrypt f && pf_fix f), true. reflexivity.
    - unfold write_multi in H. destruct (ss =? 0); try discriminate.
      destruct (store_sectors L _ _) as [(st, b)| |]; try discriminate. cbn [bind] in H.
      match type of H with bind ?x _ = _ => destruct x as [d'| |]; try discriminate end.
      cbn [bind] in H. apply Ok_inj in H. injection H as _ _ <-.
      exists (c_crcs c), b, (pf_encrypt f && pf_fix f), false. reflexivity. }
  destruct G as (b1 & b2 & b4 & b5 & ->). destruct b1, b2, b4, b5, (pf_encrypt f); vm_compute; reflexivity.
Qed.

Lemma write_files_blocks c ss fs : forall pos body es, write_files L c ss fs pos = Ok (body, es) ->
  Forall2 (fun f b => be_size b = w32 (lenN (pf_data f)) /\ is_encrypted (be_flags b) = pf_encrypt f) fs (map snd es).
Proof.
  induction fs as [|f t IH]; intros pos body es H; cbn [write_files] in H.
  - apply Ok_inj in H. injection H as <- <-. constructor.
  - destruct (write_file L c ss f pos) as [[[out cs] fl]| |] eqn:W; cbn [bind] in H; try discriminate.
    destruct (write_files L c ss t _) as [[rest es']| |] eqn:E; cbn [bind] in H; try discriminate.
    apply Ok_inj in H. injection H as <- <-. cbn [map snd]. constructor; [|eapply IH; eauto].
    split; [reflexivity|]. cbn [block_entry be_flags]. eapply flags_encrypted; eauto.
Qed.

Definition has_bytes (f : pending) : bool := negb (lenN (pf_data f) =? 0).
Lemma blocks_count fs bt :
  Forall2 (fun f b => be_size b = w32 (lenN (pf_data f)) /\ is_encrypted (be_flags b) = pf_encrypt f) fs bt ->
  (forall f, In f fs -> lenN (pf_data f) < 2 ^ 32) ->
  lenN (filter (fun e => negb (be_size e =? 0)) bt) = lenN (filter has_bytes fs).
Proof.
  induction 1 as [|f b fs bt [H _] _ IH]; intros Hs; [reflexivity|]. cbn [filter]. rewrite H.
  rewrite w32_small by (apply Hs; now left). unfold has_bytes at 1.
  destruct (negb _); [rewrite !lenN_cons|]; rewrite IH by (intros; apply Hs; now right); reflexivity.
Qed.
Lemma blocks_encrypted fs bt :
  Forall2 (fun f b => be_size b = w32 (lenN (pf_data f)) /\ is_encrypted (be_flags b) = pf_encrypt f) fs bt ->
  existsb (fun e => is_encrypted (be_flags e)) bt = existsb pf_encrypt fs.
Proof. induction 1 as [|f b fs bt [_ H] _ IH]; [reflexivity|]. cbn [existsb]. now rewrite H, IH. Qed.

Lemma built_info c files arc pre post :
  built_at L md5 c files arc pre post ->
  no_collision (LISTFILE :: map pf_name files) ->
  hashes_apart ATTRIBUTES (LISTFILE :: map pf_name files) ->
  hashes_apart SIGNATURE (LISTFILE :: map pf_name files) ->
  exists a i, open_archive L (pre ++ arc ++ post) = Ok a /\ get_info L md5 sha1 rd a = Ok i /\
    i_version i = c_version c /\ i_sector_size i = (512 * 2 ^ c_block_size c) mod 2 ^ 64 /\
    (exists k, i_max_count i = 2 ^ k /\ lenN files < 2 ^ k) /\
    (i_encrypted i = true <-> exists f, In f files /\ pf_encrypt f = true) /\
    (i_has_listfile i = true <->
       c_listfile c <> LNone \/ exists f, In f files /\ name_equiv LISTFILE (pf_name f)) /\
    i_has_signature i = false /\ i_signature i = SigNone /\ i_has_attributes i = false /\ i_md5 i = None /\
    ((forall f, In f files -> lenN (pf_data f) < 2 ^ 32) ->
     match c_listfile c with
     | LGenerate => lenN (listfile_content (map pf_name files)) < 2 ^ 32
     | LExternal d => lenN d < 2 ^ 32
     | LNone => True
     end ->
     i_file_count i = lenN (filter (fun f => negb (lenN (pf_data f) =? 0)) files) +
       match c_listfile c with LNone | LExternal [] => 0 | _ => 1 end).
Proof.
  intros Hb Hcol Ha Hs.
  destruct (built_open_all L md5 c files arc pre post Hb Ha)
    as (a & ss & Ho & Hss & Hd & Hhet & Hf & Hoff & bt & Hbt & Hlay & Hbet & Hat).
  pose proof (no_collision_incl _ _ (prepare_names c files) Hcol) as Hcol'.
  pose proof Hb as (Hv & (Hbs & Hc & Ht) & _).
  destruct Hd as (t & k & bt' & Ht1 & Hb1 & Hk & Inv & Hlt & Hdel & Hsec & Hnth).
  assert (Hd : describes L a c ss (prepare_listfile c files)) by (exists t, k, bt'; auto 10).
  rewrite Hbt in Hb1. injection Hb1 as <-.
  assert (Hv4 : h_v4 (a_header a) = None).
  { destruct (opened_find L (pre ++ arc ++ post) a) as (_ & ud & Hh); [left; exact Ho|].
    apply header_at in Hh. apply (short_header_plain md5 sha1 rd _ _ Hh).
    destruct Hlay as (body & es & _ & _ & _ & Hsz & _). rewrite Hsz. destruct Hv as [-> | ->]; reflexivity. }
  destruct Hlay as (body & es & Ebt & _ & Hw & _ & _ & _ & _ & Hver & (k' & Hk1 & Hk2) & _).
  pose proof (write_files_blocks _ _ _ _ _ _ Hw) as Hbl. rewrite <- Ebt in Hbl.
  destruct (built_absent L md5 c files arc pre post Hb Ha) as (a' & Ho' & Habs).
  rewrite Ho in Ho'. apply Ok_inj in Ho'. subst a'.
  assert (Hlist : exists r, find_file a LISTFILE = Ok r /\
    (r <> None <-> c_listfile c <> LNone \/ exists f, In f files /\ name_equiv LISTFILE (pf_name f))).
  { assert (Hmay : (exists f, In f (prepare_listfile c files) /\ name_equiv LISTFILE (pf_name f)) <->
                   (c_listfile c <> LNone \/ exists f, In f files /\ name_equiv LISTFILE (pf_name f))).
    { unfold prepare_listfile. destruct (c_listfile c) eqn:El.
      - split.
        + intros _. left. discriminate.
        + intros _. eexists. split; [apply in_or_app; right; left; reflexivity|apply name_equiv_refl].
      - split.
        + intros _. left. discriminate.
        + intros _. eexists. split; [apply in_or_app; right; left; reflexivity|apply name_equiv_refl].
      - split; [intros H; right; exact H|]. intros [H|H]; [contradiction|exact H]. }
    destruct (List.Exists_dec (fun f => name_equiv LISTFILE (pf_name f)) (prepare_listfile c files)) as [E|E].
    { intros x. destruct (name_equiv_dec LISTFILE (pf_name x)); auto. }
    - apply Exists_exists in E.
      assert (exists f, means (prepare_listfile c files) LISTFILE f) as (f & Hm).
      { clear - E. induction (prepare_listfile c files) as [|g l IH]; [destruct E as (f & [] & _)|].
        destruct (name_equiv_dec LISTFILE (pf_name g)) as [Eg|Eg].
        - exists g, [], l. split; [reflexivity|]. split; [exact Eg|]. intros x [].
        - destruct IH as (f & l1 & l2 & El & E1 & E2).
          + destruct E as (f & [<-|Hin] & Hf); [contradiction|]. exists f. auto.
          + exists f, (g :: l1), l2. split; [now rewrite El|]. split; [exact E1|].
            intros x [<-|Hx]; [exact Eg|now apply E2]. }
      destruct (built_find L md5 a c ss _ LISTFILE f Hd Hhet Hcol' Hm) as (i' & p' & out' & cs' & fl' & s' & G).
      destruct G as (_ & _ & _ & _ & _ & _ & G). eexists. split; [exact G|].
      split; [intros _; apply Hmay; exact E|discriminate].
    - exists None. split.
      + rewrite find_is_classic by exact Hhet. eapply find_classic_absent; [exact Hd|].
        intros x Hx [E1 E2]. apply E. apply in_map_iff in Hx as (f & <- & Hin). apply Exists_exists. exists f.
        split; [exact Hin|]. apply Hcol; [left; reflexivity| |congruence|congruence].
        apply (prepare_names c files). now apply in_map.
      + split; [congruence|]. intros H. apply Hmay in H. exfalso. apply E. apply Exists_exists. exact H. }
  destruct Hlist as (r & Hr & Hr').
  exists a. eexists. split; [exact Ho|]. split.
  { unfold get_info. rewrite Ht1. cbn [bind]. rewrite Hr. cbn [bind].
    rewrite (proj1 (Habs SIGNATURE Hs)). cbn [bind]. rewrite Hat, (proj1 (Habs ATTRIBUTES Ha)). cbn [bind].
    unfold validate_v4. rewrite Hv4. cbn [bind]. rewrite Hsec. cbn [bind]. reflexivity. }
  cbn [i_version i_sector_size i_max_count i_encrypted i_has_listfile i_has_signature i_signature i_has_attributes
       i_md5 i_file_count].
  rewrite Hhet, Hbet, Hbt. split; [exact Hver|].
  split.
  { unfold sector_size in Hss. destruct (_ <? _) eqn:C in Hss; [|discriminate]. apply Ok_inj in Hss.
    rewrite <- Hss. rewrite N.shiftl_mul_pow2. reflexivity. }
  split.
  { exists k'. split; [exact Hk1|]. assert (lenN files <= lenN (prepare_listfile c files)); [|lia].
    unfold prepare_listfile. destruct (c_listfile c); rewrite ?lenN_app; lia. }
  split.
  { rewrite (blocks_encrypted _ _ Hbl). unfold prepare_listfile.
    assert (G : existsb pf_encrypt files = true <-> exists f, In f files /\ pf_encrypt f = true) by apply existsb_exists.
    destruct (c_listfile c); rewrite ?existsb_app; cbn [existsb pf_encrypt]; rewrite ?orb_false_r; exact G. }
  split. { rewrite <- Hr'. destruct r; split; congruence. }
  split; [reflexivity|]. split; [reflexivity|]. split; [reflexivity|]. split; [reflexivity|].
  intros Hall Hlf. rewrite (blocks_count _ _ Hbl).
  - unfold prepare_listfile. destruct (c_listfile c) as [|d|]; rewrite ?filter_app, ?lenN_app; fold has_bytes.
    + f_equal. cbn [filter]. unfold has_bytes at 1. cbn [pf_data].
      replace (lenN (listfile_content (map pf_name files)) =? 0) with false; [reflexivity|].
      symmetry. apply N.eqb_neq. unfold listfile_content. rewrite !lenN_app. change (lenN LISTFILE) with 10. lia.
    + f_equal. cbn [filter]. unfold has_bytes at 1. cbn [pf_data]. destruct d; reflexivity.
    + rewrite N.add_0_r. reflexivity.
  - intros f Hf'. unfold prepare_listfile in Hf'. destruct (c_listfile c) as [|d|].
    + apply in_app_or in Hf' as [Hf'|[<-|[]]]; [now apply Hall|exact Hlf].
    + apply in_app_or in Hf' as [Hf'|[<-|[]]]; [now apply Hall|exact Hlf].
    + now apply Hall.
Qed.
End I.
