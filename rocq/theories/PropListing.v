(** * C37 for archives listed without names. *)
From Coq Require Import Sorting.Sorted.
From Verif Require Import Bytes HashTable BlockTable HetBet Header Compress ToyCodec Builder Archive SpecArchive SpecArchive34
  SpecAnon SpecCliList ListAllFacts Cli CliFacts DemoArchive Demo34 DemoCli DemoCli34.
Open Scope N_scope.

(** Without a list file and without extended tables the listing has one line for
    every hash slot that refers to an existing block, named after the slot. *)
Theorem C37_listing_by_slot : forall (L : codecs) (a : archive) (ht : list hentry) (bt : list bentry),
  find_file a special_listfile = Ok None -> a_het a = None \/ a_bet a = None ->
  a_hash a = Some ht -> a_block a = Some bt -> lenN ht <= 2 ^ 64 ->
  exists l idx, list_files L a = Ok l /\ StronglySorted N.lt idx /\
    (forall i, In i idx <-> is_file_slot ht bt i) /\ Forall2 (slot_row ht bt) idx l.
Proof. exact list_slots. Qed.
Print Assumptions C37_listing_by_slot.

(** The complete listing (with or without hashes) has one line for every block
    that exists and is referred to, sorted by name. *)
Theorem C37_listing_by_block : forall (a : archive) (ht : list hentry) (bt : list bentry),
  a_het a = None \/ a_bet a = None -> a_hash a = Some ht -> a_block a = Some bt ->
  forall hashes : bool, exists l idx, (if hashes then list_all_with_hashes a else list_all a) = Ok l /\
    in_order fe_name l /\ NoDup idx /\ (forall i, In i idx <-> is_file ht bt i) /\
    Forall2 (block_row hashes ht bt) idx l.
Proof. exact list_blocks. Qed.
Print Assumptions C37_listing_by_block.

(** With extended tables that give any file, each of the listings has one line
    for every entry they give, named after its number. *)
Theorem C37_listing_by_entry : forall (L : codecs) (a : archive) (h : het) (b : bet) (r : res (list fentry)),
  a_het a = Some h -> a_bet a = Some b -> 0 < het_max h -> bet_count b < 2 ^ 32 ->
  (exists i bi, i < bet_count b /\ bet_get b i = Ok (Some bi) /\ exists_flag (bi_flags bi)) ->
  forall l, (r = list_all a \/ r = list_all_with_hashes a \/ find_file a special_listfile = Ok None /\ r = list_files L a) ->
  r = Ok l ->
  exists idx, StronglySorted N.lt idx /\
    (forall i, In i idx <-> i < bet_count b /\ exists bi, bet_get b i = Ok (Some bi) /\ exists_flag (bi_flags bi)) /\
    Forall2 (bet_row b) idx l.
Proof. exact list_bet. Qed.
Print Assumptions C37_listing_by_entry.

(** "All files" is not all: of the three files of a new archive of version 4 the
    complete listing shows one (the others are past what the reader can decode of
    the table, and the classic tables are not asked as soon as one is found). *)
Theorem C37_all_files_refuted :
  exists c files arc a l, build toy no_md5 c files = Ok arc /\ open_archive toy arc = Ok a /\ list_all a = Ok l /\
    length l = 1%nat /\ length files = 2%nat /\
    forall f, In f files -> exists fi, find_file a (pf_name f) = Ok (Some fi).
Proof.
  exists cfg4, (create_files cfg4 walk_demo), walk4_arc.
  destruct (open_archive toy walk4_arc) as [a| |] eqn:E; [|vm_compute in E; discriminate..].
  exists a. destruct (list_all a) as [l| |] eqn:El.
  - exists l. split; [vm_compute; reflexivity|]. split; [reflexivity|]. split; [reflexivity|].
    vm_compute in E. injection E as <-. vm_compute in El. injection El as <-. split; [reflexivity|]. split; [reflexivity|].
    intros f Hf. repeat (destruct Hf as [<-|Hf]; [eexists; vm_compute; reflexivity|]). destruct Hf.
  - exfalso. vm_compute in E. injection E as <-. vm_compute in El. discriminate.
  - exfalso. vm_compute in E. injection E as <-. vm_compute in El. discriminate.
Qed.
Print Assumptions C37_all_files_refuted.

(** ** Examples *)
(** Eight slots: four are free, two refer to the same block, one to a block that
    does not exist. *)
Definition free_slot := mkHE 0xFFFFFFFF 0xFFFFFFFF 0xFFFF 0xFFFF 0xFFFFFFFF.
Definition lone : archive :=
  mkA [] 0 None (mkHeader 32 300 V1 3 32 160 8 3 None None None None None None None)
    (Some [mkHE 11 12 0 0 2; free_slot; mkHE 21 22 0 0 0; mkHE 31 32 0 0 2; free_slot; mkHE 41 42 0 0 1; free_slot; free_slot])
    (Some [mkBE 0 5 7 0x80000000; mkBE 0 1 1 0; mkBE 9 20 30 0x80010000]) None None None None.
Example C37_by_slot_example :
  find_file lone special_listfile = Ok None /\
  (forall L, list_files L lone = Ok
    [mkFE (lit "file_00000000.dat") 30 20 0x80010000 None; mkFE (lit "file_00000002.dat") 7 5 0x80000000 None;
     mkFE (lit "file_00000003.dat") 30 20 0x80010000 None]) /\
  exists l idx, list_files toy lone = Ok l /\ StronglySorted N.lt idx /\
    (forall i, In i idx <-> is_file_slot (match a_hash lone with Some t => t | None => [] end)
                              (match a_block lone with Some t => t | None => [] end) i) /\
    Forall2 (slot_row (match a_hash lone with Some t => t | None => [] end)
                      (match a_block lone with Some t => t | None => [] end)) idx l.
Proof.
  split; [vm_compute; reflexivity|]. split; [intros L; vm_compute; reflexivity|].
  apply (C37_listing_by_slot toy lone); [vm_compute; reflexivity|now left|reflexivity|reflexivity|vm_compute; discriminate].
Qed.
Example C37_by_block_example :
  list_all_with_hashes lone = Ok
    [mkFE (lit "file_00000000.dat") 7 5 0x80000000 (Some (21, 22));
     mkFE (lit "file_00000002.dat") 30 20 0x80010000 (Some (11, 12))] /\
  exists l idx, list_all_with_hashes lone = Ok l /\ in_order fe_name l /\ NoDup idx /\
    (forall i, In i idx <-> is_file (match a_hash lone with Some t => t | None => [] end)
                              (match a_block lone with Some t => t | None => [] end) i) /\
    Forall2 (block_row true (match a_hash lone with Some t => t | None => [] end)
                      (match a_block lone with Some t => t | None => [] end)) idx l.
Proof.
  split; [vm_compute; reflexivity|].
  apply (C37_listing_by_block lone _ _ (or_introl eq_refl) eq_refl eq_refl true).
Qed.
Example C37_by_entry_example :
  exists a h b, open_archive toy walk4_arc = Ok a /\ a_het a = Some h /\ a_bet a = Some b /\ 0 < het_max h /\ bet_count b = 3 /\
    (exists bi, bet_get b 0 = Ok (Some bi) /\ exists_flag (bi_flags bi)) /\
    list_all a = Ok [mkFE (lit "file_00000000.dat") 7 7 0x81000000 None].
Proof.
  destruct (open_archive toy walk4_arc) as [a| |] eqn:E; [|vm_compute in E; discriminate..].
  vm_compute in E. injection E as <-. eexists _, _, _. split; [reflexivity|]. split; [reflexivity|]. split; [reflexivity|].
  split; [vm_compute; reflexivity|]. split; [reflexivity|]. split; [|vm_compute; reflexivity].
  eexists. split; [vm_compute; reflexivity|vm_compute; reflexivity].
Qed.
