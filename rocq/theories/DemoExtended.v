(** * An archive of version 3 that another tool could have written: four files, found by
    extended tables alone. *)
From Verif Require Import Bytes Crypto HashTable BlockTable Header Compress SpecCompress SpecStored ToyCodec Adler Listfile
  HetBet SpecBits SpecCipher Attributes Archive DemoStored SpecExtended ExtendedFacts.
Open Scope N_scope.

Definition ext_names : list bytes := [lit "a.txt"; lit "b.txt"; lit "c.txt"; lit "e.txt"].
Definition ext_content : bytes := lit "AAAABBBBCCCCEEEE".
Definition ext_name_words : list N := [64; 4; 16; 8; 128; 0; 8; 16].
(** One byte of hash, and the number of the file, in each of sixteen places *)
Definition ext_name_table : bytes :=
  map Nb [64; 0; 0; 115; 4; 0; 118; 0; 0; 0; 0; 0; 0; 0; 0; 0].
Definition ext_numbers : bytes := map Nb [2; 0; 0; 1; 3; 0; 0; 0; 0; 0; 0; 0; 0; 0; 0; 0].
Definition ext_name_body : bytes := bytes_of_words ext_name_words ++ ext_name_table ++ ext_numbers.

Definition ext_block_words : list N := [96; 4; 16; 32; 0; 8; 16; 24; 32; 8; 8; 8; 8; 0; 0; 0; 0; 0; 1].
Definition ext_flags : list N := [0x81000000].
Definition ext_block_table : bytes := map Nb [68; 4; 4; 0; 72; 4; 4; 0; 76; 4; 4; 0; 80; 4; 4; 0].
Definition ext_block_body : bytes := bytes_of_words ext_block_words ++ bytes_of_words ext_flags ++ ext_block_table.

Definition ext_stored (sig key : N) (body : bytes) : bytes :=
  le32 sig ++ le32 1 ++ le32 (lenN body) ++ cipher key body.
Definition ext_het : bytes := Eval vm_compute in ext_stored 0x1A544548 ht_key ext_name_body.
Definition ext_bet : bytes := Eval vm_compute in ext_stored 0x1A544542 bt_key ext_block_body.
Definition ext_params : hparams :=
  mkHP V3 0 (84 + lenN ext_het + lenN ext_bet) (84 + lenN ext_het + lenN ext_bet) (84 + lenN ext_het + lenN ext_bet) 0 0
    None (Some 84) (Some (84 + lenN ext_het)) None.
Definition ext_file : bytes := Eval vm_compute in
  header_v1_bytes ext_params ++ header_v2_bytes ext_params ++ header_v3_bytes ext_params ++ ext_content ++ ext_het ++ ext_bet.
Definition ext_arc : archive := Eval vm_compute in open_foreign ext_file.

Lemma ext_opens : open_archive toy ext_file = Ok ext_arc.
Proof. vm_compute. reflexivity. Qed.
Lemma ext_enciphered key d : enciphered false key d (cipher key d).
Proof.
  unfold cipher. pose proof (words_of_bytes_spec d) as S. destruct (words_of_bytes d) as [ws r].
  destruct S as (S1 & S2 & S3 & S4). exists ws, r. repeat split; auto. discriminate.
Qed.
Lemma ext_is_stored sig key body : table_stored toy sig key (ext_stored sig key body) body.
Proof. exists (le32 1), body, (cipher key body). split; [reflexivity|]. split; [reflexivity|]. split; [apply ext_enciphered|now left]. Qed.
Lemma ext_het_stored : table_stored toy 0x1A544548 ht_key ext_het ext_name_body.
Proof. replace ext_het with (ext_stored 0x1A544548 ht_key ext_name_body) by (vm_compute; reflexivity). apply ext_is_stored. Qed.
Lemma ext_bet_stored : table_stored toy 0x1A544542 bt_key ext_bet ext_block_body.
Proof. replace ext_bet with (ext_stored 0x1A544542 bt_key ext_block_body) by (vm_compute; reflexivity). apply ext_is_stored. Qed.
Lemma ext_het_there : slice 84 (lenN ext_het) ext_file = Some ext_het.
Proof. vm_compute. reflexivity. Qed.
Lemma ext_bet_there : slice (84 + lenN ext_het) (lenN ext_bet) ext_file = Some ext_bet.
Proof. vm_compute. reflexivity. Qed.
Lemma ext_name_layout : name_layout ext_name_body ext_name_words ext_name_table ext_numbers.
Proof. split; [reflexivity|]. split; [repeat constructor|]. split; [reflexivity|]. split; [reflexivity|discriminate]. Qed.
Lemma ext_block_layout : block_layout ext_block_body ext_block_words ext_flags ext_block_table [].
Proof.
  split; [reflexivity|]. split; [repeat constructor|]. split; [repeat constructor|]. split; [now rewrite app_nil_r|].
  split; [reflexivity|]. split; [reflexivity|]. split; [discriminate|reflexivity].
Qed.
Lemma spells_check d at_ w v :
  (v <? 2 ^ w) && forallb (fun j => Bool.eqb (bit_of d (at_ + N.of_nat j)) (N.testbit v (N.of_nat j))) (seq 0 (N.to_nat w)) = true ->
  spells d at_ w v.
Proof.
  intros H. apply andb_prop in H. destruct H as [H1 H2]. split; [now apply N.ltb_lt|]. intros j Hj.
  rewrite forallb_forall in H2. specialize (H2 (N.to_nat j)). rewrite N2Nat.id in H2.
  apply Bool.eqb_prop, H2, in_seq. lia.
Qed.
Lemma ext_entries i c : nth_error (map Nb [68; 72; 76; 80]) i = Some c ->
  block_entry_is ext_block_words ext_flags ext_block_table (N.of_nat i) (bN c) 4 4 0x81000000.
Proof.
  intros H. do 4 (destruct i as [|i]; [cbn [nth_error map] in H; injection H as <-; split; [reflexivity|];
    do 3 (split; [split; [discriminate|apply spells_check; vm_compute; reflexivity]|]);
    exists 0; split; [split; [discriminate|apply spells_check; vm_compute; reflexivity]|reflexivity]|]).
  destruct i; discriminate.
Qed.
Lemma ext_numbered i name : nth_error ext_names i = Some name -> numbered ext_name_words ext_name_table ext_numbers name (N.of_nat i).
Proof.
  intros H. do 4 (destruct i as [|i]; [cbn [nth_error ext_names] in H; injection H as <-; split; apply spells_check; vm_compute; reflexivity|]).
  destruct i; discriminate.
Qed.

(** Three entries of 61 bits; the second says that its file has 49156 bytes. *)
Definition cut_words : list N := [119; 3; 16; 61; 1; 45; 29; 0; 61; 28; 16; 16; 1; 0; 0; 0; 0; 0; 1].
Definition cut_table : bytes := map Nb [160; 1; 0; 128; 0; 128; 0; 0; 53; 0; 0; 16; 0; 16; 0; 195; 6; 0; 0; 2; 0; 2; 0].
Definition cut_body : bytes := bytes_of_words cut_words ++ bytes_of_words ext_flags ++ cut_table.
Definition cut_bet : bytes := Eval vm_compute in ext_stored 0x1A544542 bt_key cut_body.
Lemma cut_stored : table_stored toy 0x1A544542 bt_key cut_bet cut_body.
Proof. replace cut_bet with (ext_stored 0x1A544542 bt_key cut_body) by (vm_compute; reflexivity). apply ext_is_stored. Qed.
Lemma cut_layout : block_layout cut_body cut_words ext_flags cut_table [].
Proof.
  split; [reflexivity|]. split; [repeat constructor|]. split; [repeat constructor|]. split; [now rewrite app_nil_r|].
  split; [reflexivity|]. split; [reflexivity|]. split; [discriminate|reflexivity].
Qed.
Lemma cut_entry : block_entry_is cut_words ext_flags cut_table 1 212 49156 4 0x81000000.
Proof.
  split; [reflexivity|]. do 3 (split; [split; [discriminate|apply spells_check; vm_compute; reflexivity]|]).
  exists 0; split; [split; [discriminate|apply spells_check; vm_compute; reflexivity]|reflexivity].
Qed.

Definition cut_b : bet := Eval vm_compute in
  mkBet 119 3 16 61 1 45 29 0 61 28 16 16 1 0 0 0 0 0 1 ext_flags cut_table [].
Lemma cut_read : exists L stored body key ws flags table hashes i pos size csize fl b size',
  table_stored L 0x1A544542 key stored body /\ block_layout body ws flags table hashes /\
  block_entry_is ws flags table i pos size csize fl /\
  bet_read L stored 0 (lenN stored) key = Ok b /\ bet_get b i = Ok (Some (mkBI pos size' csize fl)) /\ size' <> size.
Proof.
  exists toy, cut_bet, cut_body, bt_key, cut_words, ext_flags, cut_table, [], 1, 212, 49156, 4, 0x81000000, cut_b, 4.
  split; [exact cut_stored|]. split; [exact cut_layout|]. split; [exact cut_entry|].
  split; [vm_compute; reflexivity|]. split; [vm_compute; reflexivity|discriminate].
Qed.

Definition ext_b : bet := Eval vm_compute in
  mkBet 96 4 16 32 0 8 16 24 32 8 8 8 8 0 0 0 0 0 1 ext_flags ext_block_table [].
Lemma last_lost : exists L stored body key ws flags table hashes i pos size csize fl b,
  table_stored L 0x1A544542 key stored body /\ block_layout body ws flags table hashes /\
  block_entry_is ws flags table i pos size csize fl /\
  bet_read L stored 0 (lenN stored) key = Ok b /\ bet_get b i = Ok None.
Proof.
  exists toy, ext_bet, ext_block_body, bt_key, ext_block_words, ext_flags, ext_block_table, [], 3, 80, 4, 4, 0x81000000, ext_b.
  split; [exact ext_bet_stored|]. split; [exact ext_block_layout|]. split; [exact (ext_entries 3 (Nb 80) eq_refl)|].
  split; vm_compute; reflexivity.
Qed.

Definition ext_h : het := Eval vm_compute in match a_het ext_arc with Some h => h | None => mkHet 0 0 0 0 0 0 0 0 [] [] end.
Lemma wrong_file : exists L a h b stored body off key ws table numbers stored' body' off' key' ws' flags' table' hashes' i name pos size csize fl d,
  open_archive L (a_file a) = Ok a /\ a_het a = Some h /\ a_bet a = Some b /\
  table_stored L 0x1A544548 key stored body /\ slice off (lenN stored) (a_file a) = Some stored /\ name_layout body ws table numbers /\
  table_stored L 0x1A544542 key' stored' body' /\ slice off' (lenN stored') (a_file a) = Some stored' /\ block_layout body' ws' flags' table' hashes' /\
  het_read L (a_file a) off (lenN stored) key = Ok h /\ bet_read L (a_file a) off' (lenN stored') key' = Ok b /\
  numbered ws table numbers name i /\ block_entry_is ws' flags' table' i pos size csize fl /\
  stored_as L true (a_file a) (a_off a) (512 * 2 ^ h_block_size (a_header a)) name (a_off a + pos) csize fl d /\ size = lenN d /\
  exists d', read_file L a name = Ok d' /\ d' <> d.
Proof.
  exists toy, ext_arc, ext_h, ext_b, ext_het, ext_name_body, 84, ht_key, ext_name_words, ext_name_table, ext_numbers,
    ext_bet, ext_block_body, (84 + lenN ext_het), bt_key, ext_block_words, ext_flags, ext_block_table, [], 1, (lit "b.txt"),
    72, 4, 4, 0x81000000, (lit "BBBB").
  split; [exact ext_opens|]. split; [vm_compute; reflexivity|]. split; [vm_compute; reflexivity|].
  split; [exact ext_het_stored|]. split; [exact ext_het_there|]. split; [exact ext_name_layout|].
  split; [exact ext_bet_stored|]. split; [exact ext_bet_there|]. split; [exact ext_block_layout|].
  split; [vm_compute; reflexivity|]. split; [vm_compute; reflexivity|].
  split; [exact (ext_numbered 1 (lit "b.txt") eq_refl)|]. split; [exact (ext_entries 1 (Nb 72) eq_refl)|].
  split.
  { exists (lit "BBBB"), (lit "BBBB"). split; [vm_compute; reflexivity|]. split; [cbv; reflexivity|]. split; [now left|]. intros H. vm_compute in H. discriminate. }
  split; [reflexivity|]. exists (lit "AAAA"). split; [vm_compute; reflexivity|discriminate].
Qed.

Lemma ext_slot : slot_of ext_name_words (lit "b.txt") = 3.
Proof. vm_compute. reflexivity. Qed.
