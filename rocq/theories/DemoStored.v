(** * Archives that another tool could have written: one file each. *)
From Verif Require Import Bytes Crypto HashTable BlockTable Header Compress SpecCompress ToyCodec Adler Listfile HetBet
  Attributes Archive SpecStored StoredFacts.
Open Scope N_scope.

Definition foreign_name : bytes := lit "Dir\a.txt".
Definition foreign_hash : list hentry :=
  upd (repeat he_empty 4) (N.to_nat (hash_string foreign_name 0 mod 4))
    (mkHE (hash_string foreign_name 1) (hash_string foreign_name 2) 0 0 0).
(** Header, data, hash table, block table *)
Definition foreign (data : bytes) (csize size flags : N) : bytes :=
  header_v1_bytes (mkHP V1 0 (32 + lenN data + 80) (32 + lenN data) (32 + lenN data + 64) 4 1 None None None None)
  ++ data ++ write_hash_table foreign_hash ++ write_block_table [mkBE 32 csize size flags].

Definition no_archive : archive :=
  mkA [] 0 None (mkHeader 0 0 V1 0 0 0 0 0 None None None None None None None) None None None None None None.
Definition open_foreign (file : bytes) : archive := match open_archive toy file with Ok a => a | _ => no_archive end.
Definition no_info : finfo := mkFI 0 0 0 0 0 0 0.
Definition foreign_info (a : archive) : finfo := match find_file a foreign_name with Ok (Some fi) => fi | _ => no_info end.

(** The words of some bytes, enciphered; the rest as it is *)
Definition cipher (key : N) (d : bytes) : bytes :=
  let '(ws, r) := words_of_bytes d in bytes_of_words (encrypt_block ws key) ++ r.
Lemma cipher_kept whole flags key d : on flags 16 = true -> (whole = true -> snd (words_of_bytes d) = []) ->
  kept whole flags key d (cipher key d).
Proof.
  intros H Hw. unfold kept, cipher. rewrite H. pose proof (words_of_bytes_spec d) as S.
  destruct (words_of_bytes d) as [ws r]. destruct S as (S1 & S2 & S3 & S4). exists ws, r. repeat split; auto.
Qed.

(** ** Two sectors, compressed and encrypted with an altered key *)
Definition two_flags : N := 0x80030200.
Definition two_data : bytes := repeat "a"%byte 512 ++ repeat "b"%byte 100.
Definition two_key : N := Eval vm_compute in file_key foreign_name two_flags 32 612.
Definition two_second : bytes := [x02; x00; Nb 100; "b"%byte].
Definition two_stored : bytes :=
  cipher ((two_key + (2 ^ 32 - 1)) mod 2 ^ 32) (bytes_of_words [12; 524; 528])
  ++ cipher two_key (repeat "a"%byte 512) ++ cipher ((two_key + 1) mod 2 ^ 32) two_second.
Definition two_file : bytes := Eval vm_compute in foreign two_stored 528 612 two_flags.
Definition two_arc : archive := Eval vm_compute in open_foreign two_file.
Definition two_info : finfo := Eval vm_compute in foreign_info two_arc.

Lemma two_opens : open_archive toy two_file = Ok two_arc.
Proof. vm_compute. reflexivity. Qed.
Lemma two_found : find_file two_arc foreign_name = Ok (Some two_info).
Proof. vm_compute. reflexivity. Qed.
Lemma two_stored_as : stored_as toy true (a_file two_arc) (a_off two_arc) 512 foreign_name (fi_pos two_info) (fi_csize two_info)
  (fi_flags two_info) two_data.
Proof.
  change (fi_flags two_info) with two_flags. change (fi_pos two_info) with 32. change (a_off two_arc) with 0.
  unfold stored_as. replace (file_key foreign_name two_flags (32 - 0) (lenN two_data)) with two_key by (vm_compute; reflexivity).
  change (in_sectors (piece toy two_flags) true (a_file two_arc) 32 two_flags two_key 512 two_data).
  exists [repeat "a"%byte 512; repeat "b"%byte 100], [12; 524; 528],
    (cipher ((two_key + (2 ^ 32 - 1)) mod 2 ^ 32) (bytes_of_words [12; 524; 528])).
  split.
  { exists (repeat "b"%byte 100). split; [reflexivity|]. split; [discriminate|]. split; [left; reflexivity|].
    exists []. split; [now rewrite app_nil_r|]. split; [discriminate|]. split; [right; split; reflexivity|reflexivity]. }
  split; [reflexivity|]. split; [repeat constructor|].
  split; [vm_compute; reflexivity|]. split; [apply cipher_kept; [reflexivity|intros _; vm_compute; reflexivity]|].
  intros [|[|i]] s E; [| |destruct i; discriminate]; cbn [nth_error] in E; injection E as <-.
  - exists 12, 524, (repeat "a"%byte 512), (cipher ((two_key + 0) mod 2 ^ 32) (repeat "a"%byte 512)).
    split; [reflexivity|]. split; [reflexivity|]. split; [discriminate|]. split; [vm_compute; reflexivity|].
    split; [apply cipher_kept; [reflexivity|intros _; vm_compute; reflexivity]|]. left. reflexivity.
  - exists 524, 528, two_second, (cipher ((two_key + 1) mod 2 ^ 32) two_second).
    split; [reflexivity|]. split; [reflexivity|]. split; [discriminate|]. split; [vm_compute; reflexivity|].
    split; [apply cipher_kept; [reflexivity|intros _; vm_compute; reflexivity]|]. right. split; [vm_compute; reflexivity|].
    left. split; [reflexivity|]. exists x02, [x00; Nb 100; "b"%byte]. split; [reflexivity|].
    split; [discriminate|]. left. split; vm_compute; reflexivity.
Qed.

(** ** Imploded *)
Definition imp_flags : N := 0x81000100.
Definition imp_data : bytes := repeat "a"%byte 40.
Definition imp_stream : bytes := [x00; Nb 40; "a"%byte].
Definition imp_file : bytes := Eval vm_compute in foreign imp_stream 3 40 imp_flags.
Definition imp_arc : archive := Eval vm_compute in open_foreign imp_file.
Definition imp_info : finfo := Eval vm_compute in foreign_info imp_arc.
Lemma imp_imploded : imploded toy (a_file imp_arc) 512 (fi_pos imp_info) (fi_csize imp_info) (fi_flags imp_info) imp_data.
Proof.
  change (fi_flags imp_info) with imp_flags.
  split; [reflexivity|]. split; [reflexivity|]. split; [reflexivity|]. split; [reflexivity|].
  exists imp_stream, imp_stream. split; [vm_compute; reflexivity|]. split; [reflexivity|].
  split; [|discriminate]. split; [reflexivity|]. split; [reflexivity|]. eexists. split; [reflexivity|discriminate].
Qed.

(** ** A file of one sector, not compressed, encrypted *)
Definition row_flags : N := 0x80010000.
Definition row_key : N := Eval vm_compute in hash_string foreign_name 3.
Definition tail_data : bytes := lit "seven_b".
Definition tail_file : bytes := Eval vm_compute in foreign (cipher row_key tail_data) 7 7 row_flags.
Definition tail_arc : archive := Eval vm_compute in open_foreign tail_file.
Definition tail_info : finfo := Eval vm_compute in foreign_info tail_arc.
Lemma tail_stored : stored_as toy false (a_file tail_arc) (a_off tail_arc) 512 foreign_name (fi_pos tail_info)
  (fi_csize tail_info) (fi_flags tail_info) tail_data.
Proof.
  change (fi_flags tail_info) with row_flags. change (fi_pos tail_info) with 32. change (a_off tail_arc) with 0.
  unfold stored_as. replace (file_key foreign_name row_flags (32 - 0) (lenN tail_data)) with row_key by (vm_compute; reflexivity).
  change (in_a_row false (a_file tail_arc) 32 row_flags (fi_csize tail_info) row_key 512 tail_data).
  split; [reflexivity|]. exists [tail_data]. split.
  { exists []. split; [reflexivity|]. split; [discriminate|]. split; [right; split; reflexivity|reflexivity]. }
  intros [|i] s E; [|destruct i; discriminate]. cbn in E. injection E as <-.
  exists (cipher row_key tail_data). split; [vm_compute; reflexivity|].
  replace ((row_key + N.of_nat 0) mod 2 ^ 32) with row_key by (vm_compute; reflexivity).
  apply cipher_kept; [reflexivity|discriminate].
Qed.

(** ** Two sectors, not compressed, encrypted *)
Definition row_data : bytes := repeat "a"%byte 512 ++ lit "last".
Definition row_file : bytes :=
  Eval vm_compute in foreign (cipher row_key (repeat "a"%byte 512) ++ cipher ((row_key + 1) mod 2 ^ 32) (lit "last")) 516 516 row_flags.
Definition row_arc : archive := Eval vm_compute in open_foreign row_file.
Definition row_info : finfo := Eval vm_compute in foreign_info row_arc.
Lemma row_stored : stored_as toy true (a_file row_arc) (a_off row_arc) 512 foreign_name (fi_pos row_info)
  (fi_csize row_info) (fi_flags row_info) row_data.
Proof.
  change (fi_flags row_info) with row_flags. change (fi_pos row_info) with 32. change (a_off row_arc) with 0.
  unfold stored_as. replace (file_key foreign_name row_flags (32 - 0) (lenN row_data)) with row_key by (vm_compute; reflexivity).
  change (in_a_row true (a_file row_arc) 32 row_flags (fi_csize row_info) row_key 512 row_data).
  split; [reflexivity|]. exists [repeat "a"%byte 512; lit "last"]. split.
  { exists (lit "last"). split; [reflexivity|]. split; [discriminate|]. split; [left; reflexivity|].
    exists []. split; [reflexivity|]. split; [discriminate|]. split; [right; split; reflexivity|reflexivity]. }
  intros [|[|i]] s E; [| |destruct i; discriminate]; cbn [nth_error] in E; injection E as <-.
  - exists (cipher row_key (repeat "a"%byte 512)). split; [vm_compute; reflexivity|].
    replace ((row_key + N.of_nat 0) mod 2 ^ 32) with row_key by (vm_compute; reflexivity).
    apply cipher_kept; [reflexivity|intros _; vm_compute; reflexivity].
  - exists (cipher ((row_key + 1) mod 2 ^ 32) (lit "last")). split; [vm_compute; reflexivity|].
    apply cipher_kept; [reflexivity|intros _; vm_compute; reflexivity].
Qed.

(** ** Marked as compressed, but compression did not help *)
Definition raw_flags : N := 0x81000200.
Definition raw_data : bytes := lit "abcd".
Definition raw_file : bytes := Eval vm_compute in foreign raw_data 4 4 raw_flags.
Definition raw_arc : archive := Eval vm_compute in open_foreign raw_file.
Definition raw_info : finfo := Eval vm_compute in foreign_info raw_arc.
Lemma raw_stored : stored_as toy true (a_file raw_arc) (a_off raw_arc) 512 foreign_name (fi_pos raw_info)
  (fi_csize raw_info) (fi_flags raw_info) raw_data.
Proof.
  change (fi_flags raw_info) with raw_flags.
  change (in_one_piece (piece toy raw_flags) true (a_file raw_arc) 32 raw_flags 4
            (file_key foreign_name raw_flags (32 - a_off raw_arc) (lenN raw_data)) raw_data).
  exists raw_data, raw_data. split; [vm_compute; reflexivity|]. split; [reflexivity|]. split; [left; reflexivity|discriminate].
Qed.

Lemma tail_lost : read_file toy tail_arc foreign_name <> Ok tail_data.
Proof. vm_compute. discriminate. Qed.
Lemma row_lost : read_file toy row_arc foreign_name <> Ok row_data.
Proof. vm_compute. discriminate. Qed.
Lemma raw_lost : read_file toy raw_arc foreign_name <> Ok raw_data.
Proof. vm_compute. discriminate. Qed.
Lemma tail_opens : open_archive toy tail_file = Ok tail_arc.
Proof. vm_compute. reflexivity. Qed.
Lemma tail_found : find_file tail_arc foreign_name = Ok (Some tail_info).
Proof. vm_compute. reflexivity. Qed.
Lemma row_opens : open_archive toy row_file = Ok row_arc.
Proof. vm_compute. reflexivity. Qed.
Lemma row_found : find_file row_arc foreign_name = Ok (Some row_info).
Proof. vm_compute. reflexivity. Qed.
Lemma raw_opens : open_archive toy raw_file = Ok raw_arc.
Proof. vm_compute. reflexivity. Qed.
Lemma raw_found : find_file raw_arc foreign_name = Ok (Some raw_info).
Proof. vm_compute. reflexivity. Qed.

(** Five equal bytes, with the second head; with the first one they are four. *)
Lemma head_lost : exists L h c s, lossless L /\ In h heads /\ pk_enc L s = Ok (h ++ c) /\ decompress L c 0x04 (lenN s) <> Ok s.
Proof.
  exists toy, [x00; x05], ["a"%byte], (repeat "a"%byte 5). split; [exact toy_lossless|]. split; [right; left; reflexivity|].
  split; [vm_compute; reflexivity|]. vm_compute. discriminate.
Qed.
