(** * Archives whose inspection is misleading. *)
From Verif Require DemoHostile.
From Verif Require Import Bytes Crypto HashTable BlockTable Header Compress SpecCompress ToyCodec HetBet Listfile Attributes Archive Signature Info SpecHeader
  InfoReport SpecReport DemoArchive Demo34 DemoStored DemoExtended DemoOther.
Open Scope N_scope.

Definition every_read (_ n : N) : N := n.

(** ** The archive of [DemoExtended] with its files encrypted *)
Definition sealed_block_body : bytes := bytes_of_words ext_block_words ++ bytes_of_words [0x81010000] ++ ext_block_table.
Definition sealed_bet : bytes := Eval vm_compute in ext_stored 0x1A544542 bt_key sealed_block_body.
Definition sealed_file : bytes := Eval vm_compute in
  header_v1_bytes ext_params ++ header_v2_bytes ext_params ++ header_v3_bytes ext_params ++
  cipher (hash_string (lit "a.txt") 3) (lit "AAAA") ++ cipher (hash_string (lit "b.txt") 3) (lit "BBBB") ++
  cipher (hash_string (lit "c.txt") 3) (lit "CCCC") ++ cipher (hash_string (lit "e.txt") 3) (lit "EEEE") ++ ext_het ++ sealed_bet.
Definition sealed_arc : archive := Eval vm_compute in open_foreign sealed_file.
Lemma sealed_opens : open_archive toy sealed_file = Ok sealed_arc.
Proof. vm_compute. reflexivity. Qed.
Definition sealed_report : report := Eval vm_compute in
  match get_report toy toy_md5 toy_md5 every_read sealed_arc with
  | Ok r => r
  | _ => mkReport 0 0 (mkInfo V1 0 0 0 false false SigNone false false None) (mkTI None 0 None false) (mkTI None 0 None false) None None None None
  end.
Lemma sealed_told : get_report toy toy_md5 toy_md5 every_read sealed_arc = Ok sealed_report.
Proof. vm_compute. reflexivity. Qed.
Lemma sealed_unsaid : exists L file a r name fi d, lossless L /\ open_archive L file = Ok a /\
  find_file a name = Ok (Some fi) /\ N.testbit (fi_flags fi) 16 = true /\ read_file L a name = Ok d /\ lenN d = 4 /\
  (forall md5 sha1 rd, get_report L md5 sha1 rd a = Ok r) /\ i_encrypted (r_info r) = false.
Proof.
  exists toy, sealed_file, sealed_arc, sealed_report, (lit "a.txt"),
    (mkFI 0 0 68 4 4 0x81010000 0), (lit "AAAA").
  split; [exact toy_lossless|]. split; [exact sealed_opens|]. split; [vm_compute; reflexivity|]. split; [reflexivity|].
  split; [vm_compute; reflexivity|]. split; [reflexivity|]. split; [intros; vm_compute; reflexivity|reflexivity].
Qed.

(** ** One file, and the block of a file that was deleted *)
Definition del_ht : bytes := Eval vm_compute in slot (lit "a.txt") 0 0 ++ slot (lit "b.txt") 0 0xFFFFFFFE ++ unused ++ unused.
Definition del_bt : bytes := Eval vm_compute in block 32 6 6 0x81000000 ++ block 38 5 5 0x01000000.
Definition del_file : bytes := Eval vm_compute in
  archive_magic ++ le32 32 ++ le32 139 ++ le16 0 ++ le16 0 ++ le32 43 ++ le32 107 ++ le32 4 ++ le32 2 ++
  lit "Hallo!" ++ lit "Hello" ++ cipher hash_key del_ht ++ cipher block_key del_bt.
Definition del_arc : archive := Eval vm_compute in open_foreign del_file.
Lemma del_opens : open_archive toy del_file = Ok del_arc.
Proof. vm_compute. reflexivity. Qed.
Definition del_report : report := Eval vm_compute in
  match get_report toy toy_md5 toy_md5 every_read del_arc with
  | Ok r => r
  | _ => mkReport 0 0 (mkInfo V1 0 0 0 false false SigNone false false None) (mkTI None 0 None false) (mkTI None 0 None false) None None None None
  end.
Lemma del_counted : exists L file a r ht bt, lossless L /\ open_archive L file = Ok a /\ a_hash a = Some ht /\ a_block a = Some bt /\
  lenN (filter (fun e => N.testbit (be_flags e) 31) bt) = 1 /\ lenN (filter (fun e => he_block e <? lenN bt) ht) = 1 /\
  (forall md5 sha1 rd, get_report L md5 sha1 rd a = Ok r) /\ i_file_count (r_info r) = 2.
Proof.
  exists toy, del_file, del_arc, del_report, (match a_hash del_arc with Some t => t | None => [] end), (match a_block del_arc with Some t => t | None => [] end).
  split; [exact toy_lossless|]. split; [exact del_opens|]. split; [reflexivity|]. split; [reflexivity|].
  split; [vm_compute; reflexivity|]. split; [vm_compute; reflexivity|]. split; [intros; vm_compute; reflexivity|reflexivity].
Qed.

(** ** Version 2 behind a user data block, and version 4 *)
Definition o_arc : archive := Eval vm_compute in open_foreign o_file.
Lemma o_opens : open_archive toy o_file = Ok o_arc.
Proof. vm_compute. reflexivity. Qed.
Definition o_report : report :=
  mkReport 706 512 (mkInfo V2 3 4 512 true false SigNone true false None)
    (mkTI (Some 4) 76 None false) (mkTI (Some 3) 140 None false) None None (Some (mkTI (Some 3) 188 None false)) (Some (16, 16)).
Lemma o_told : get_report toy toy_md5 toy_md5 every_read o_arc = Ok o_report.
Proof. vm_compute. reflexivity. Qed.
Definition four_opened : archive := Eval vm_compute in open_foreign four_file.
Lemma four_opens : open_archive toy four_file = Ok four_opened.
Proof. vm_compute. reflexivity. Qed.

(** A signature that cannot be unpacked *)
Definition odd_signature : bytes := DemoHostile.crafted (lit "(signature)") 3 0x81000200 9 20 (map Nb [2; 9; 7; 8; 9; 1; 2; 3; 4]).
Lemma odd_signature_told : exists a, open_archive toy odd_signature = Ok a /\ there a (lit "(signature)") /\
  verify_signature toy toy_md5 toy_md5 every_read weak_public_key strong_public_key a = Err ECompression /\
  exists i, get_info toy toy_md5 toy_md5 every_read a = Ok i /\ i_has_signature i = true /\ i_signature i = WeakInvalid.
Proof.
  eexists. split; [vm_compute; reflexivity|]. split; [eexists; vm_compute; reflexivity|]. split; [vm_compute; reflexivity|].
  eexists. split; [vm_compute; reflexivity|]. split; reflexivity.
Qed.
