(** * The layout of version 3 and 4 archives. *)
From Verif Require Import Bytes Crypto CryptoFacts HashTable BlockTable Header
  Compress HashTableFacts TableMap Adler Listfile HetBet HetBetFacts Builder BuilderFacts Attributes Archive
  ReadFacts OpenFacts SpecArchive SpecArchive34 Open34Facts ArchiveFacts Archive34Facts LayoutFacts.
Open Scope N_scope.

Section Lay34.
Variable L : codecs.
Variable md5 : bytes -> bytes.

Lemma built34_layout c files arc pre post a :
  built34_at L md5 c files arc pre post -> open_archive L (pre ++ arc ++ post) = Ok a ->
  exists bt rs het bet, a_block a = Some bt /\
    let h := a_header a in
    h_het_pos h = Some het /\ h_bet_pos h = Some bet /\
    (forall v, h_v4 h = Some v -> v4_het_size v = bet - het /\ v4_bet_size v = get_hash_table_pos h - bet) /\
    let all := (0, h_size h) :: rs ++
               (het, bet - het) :: (bet, get_hash_table_pos h - bet) ::
               (get_hash_table_pos h, 16 * h_hash_count h) ::
               (get_block_table_pos h, 16 * h_block_count h) ::
               match a_hi a with
               | Some _ => match h_hi_pos h with Some p => [(p, 2 * h_block_count h)] | None => [] end
               | None => []
               end in
    back_to_back 0 all (lenN arc) /\ pairwise_apart all /\ Forall (inside (lenN arc)) all /\
    entry_count c files = lenN rs /\
    forall i f, nth_error (prepare_listfile c files) i = Some f ->
      exists b n, nth_error bt i = Some b /\
        nth_error rs i = Some (pos_full (a_hi a) (N.of_nat i) (be_pos b), n) /\
        (lenN (pf_data f) <= 4000000000 -> n = be_csize b + checksum_bytes c f).
Proof.
  intros Hb Ho.
  destruct (built34_tables L md5 _ _ _ _ _ Hb) as (a0 & ss & bt & he & be & E & Hss & _ & _ & _ & _ & Hbt & _ & _ & _ & _ & _ & HL).
  rewrite E in Ho. apply load_attributes_same in Ho as (x & ->).
  cbn [with_attrs a_block a_header a_hi].
  destruct HL as (hdr & body & es & hetb & betb & htab & btab & hib & -> & Lhdr & Hs & Hver & -> & Hpf & Hw &
    Hhet & Hbet & Hhp & Hbp & _ & _ & Lht & _ & Lbt & Hbc & Hhi & Hv4 & _).
  destruct (write_files_ranges _ _ _ _ _ _ _ Hw) as (rs & Hch & Hlen & Hrs).
  set (h := a_header a0) in *.
  exists (map snd es), rs, (lenN hdr + lenN body), (lenN hdr + lenN body + lenN hetb). split; [exact Hbt|].
  cbv zeta. split; [exact Hhet|]. split; [exact Hbet|]. split.
  { intros v Ev. destruct (c_version c); rewrite Ev in Hv4; try discriminate.
    destruct Hv4 as (v' & E' & _ & _ & _ & S4 & S5 & _). injection E' as <-. rewrite S4, S5, Hhp. lia. }
  match goal with |- back_to_back 0 ?all _ /\ _ => set (ALL := all) end.
  assert (HB : back_to_back 0 ALL (lenN (hdr ++ body ++ hetb ++ betb ++ htab ++ btab ++ hib))).
  { unfold ALL. cbn [back_to_back fst snd]. split; [reflexivity|]. rewrite N.add_0_l.
    apply (chained_app rs _ (h_size h + lenN body)); [exact Hch|]. rewrite !lenN_app.
    cbn [back_to_back fst snd]. rewrite Hs, Hhp, Hbp.
    split; [lia|]. split; [lia|]. split; [lia|]. split; [lia|].
    destruct (a_hi a0).
    - destruct Hhi as (-> & Lhi & _). cbn [back_to_back fst snd]. rewrite Hbp, Hbc. split; lia.
    - destruct Hhi as (_ & ->). cbn [back_to_back]. change (lenN (@nil byte)) with 0. lia. }
  split; [exact HB|]. split; [exact (chained_apart _ _ _ HB)|]. split.
  { apply chained_le in HB as [_ HB]. eapply Forall_impl; [|exact HB]. cbn. intros r Hr. unfold inside. lia. }
  split; [rewrite <- (entry_count_prepare md5 c files); unfold lenN; f_equal; symmetry; exact Hlen|].
  intros i f Hf. destruct (Hrs i f Hf) as (p & out & csize & flags & R1 & R2 & R3).
  exists (block_entry f p csize flags), (lenN out). split; [rewrite nth_error_map, R2; reflexivity|].
  cbn [be_pos be_csize block_entry]. rewrite (Hpf _ _ _ R2). split; [exact R1|].
  intros Hl. destruct (write_file_size L _ _ _ _ _ _ _ Hss Hl R3) as [Hc ->].
  now rewrite w32_small.
Qed.

End Lay34.
