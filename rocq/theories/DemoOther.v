(** * Archives with classic tables that another tool could have written. *)
From Coq Require Import Lia.
From Verif Require Import Bytes Crypto HashTable Header SpecHeader SpecDigest SpecFields SpecCipher CipherFacts Compress SpecCompress ToyCodec
  SpecStored SpecAttributes Adler Listfile HetBet Attributes Archive StoredFacts DemoStored SpecOther OtherFacts.
Open Scope N_scope.

Definition slot (name : bytes) (locale block : N) : bytes :=
  le32 (hash_string name 1) ++ le32 (hash_string name 2) ++ le16 locale ++ le16 0 ++ le32 block.
Definition unused : bytes := zeros 12 ++ repeat xff 4.
Definition block (pos csize size flags : N) : bytes := le32 pos ++ le32 csize ++ le32 size ++ le32 flags.
Definition hash_key : N := Eval vm_compute in name_hash 3 (lit "(hash table)").
Definition block_key : N := Eval vm_compute in name_hash 3 (lit "(block table)").

Lemma ciphered key d : snd (words_of_bytes d) = [] -> enciphered true key d (cipher key d).
Proof. intros H. exact (cipher_kept true 0x10000 key d eq_refl (fun _ => H)). Qed.

(** ** Version 2 behind a user data block, three files: one encrypted, one packed, and
    attributes.  The table of names is full, and the first file was once deleted. *)
Definition o_ht : bytes := Eval vm_compute in
  slot (lit "a.txt") 0 0xFFFFFFFE ++ slot (lit "a.txt") 0x407 0 ++ slot (lit "b.txt") 0 1 ++ slot (lit "(attributes)") 0 2.
Definition o_bt : bytes := Eval vm_compute in
  block 44 8 8 0x81010000 ++ block 52 4 100 0x81000200 ++ block 56 20 20 0x81000000.
Definition o_hi : bytes := zeros 6.
Definition o_attrs : bytes := Eval vm_compute in le32 100 ++ le32 1 ++ zeros 12.
Definition o_b : bytes := Eval vm_compute in repeat "b"%byte 100.
Definition o_file : bytes := Eval vm_compute in
  user_magic ++ le32 16 ++ le32 512 ++ le32 16 ++ zeros 496 ++
  archive_magic ++ le32 44 ++ le32 194 ++ le16 1 ++ le16 0 ++ le32 76 ++ le32 140 ++ le32 4 ++ le32 3 ++ le64 188 ++ le16 0 ++ le16 0 ++
  cipher (hash_string (lit "a.txt") 3) (lit "hello a!") ++ [x02; x00; Nb 100; "b"%byte] ++ o_attrs ++
  cipher hash_key o_ht ++ cipher block_key o_bt ++ o_hi.

Lemma o_laid_out : laid_out o_file 512 o_ht o_bt o_hi.
Proof.
  split.
  { exists 0%nat. split; [intros j Hj; lia|]. right. exists 512. split.
    - split; [vm_compute; reflexivity|]. split; [vm_compute; discriminate|]. eexists. split; vm_compute; reflexivity.
    - split; [reflexivity|vm_compute; reflexivity]. }
  exists V2. split; [repeat split; vm_compute; (reflexivity || discriminate)|]. cbv zeta.
  split; [exists 2; vm_compute; reflexivity|].
  split.
  { split; [vm_compute; reflexivity|]. exists (cipher hash_key o_ht). split; [vm_compute; reflexivity|].
    replace (name_hash 3 (lit "(hash table)")) with hash_key by (vm_compute; reflexivity). apply ciphered. vm_compute. reflexivity. }
  split.
  { split; [vm_compute; reflexivity|]. exists (cipher block_key o_bt). split; [vm_compute; reflexivity|].
    replace (name_hash 3 (lit "(block table)")) with block_key by (vm_compute; reflexivity). apply ciphered. vm_compute. reflexivity. }
  split; [|exact I]. replace (field o_file (512 + 32) 8) with 188 by (vm_compute; reflexivity). vm_compute. reflexivity.
Qed.
Lemma o_slot name i e : ht_find_file (hash_list o_ht) name 0 = Ok (Some (i, e)) -> first_slot (fun _ => True) o_ht name i.
Proof. apply (proj1 (looked_back o_file 512 o_ht o_bt o_hi o_laid_out eq_refl name 2 eq_refl)). Qed.
Lemma o_no_slot name : ht_find_file (hash_list o_ht) name 0 = Ok None -> has_no_file o_ht name.
Proof. apply (proj2 (looked_back o_file 512 o_ht o_bt o_hi o_laid_out eq_refl name 2 eq_refl)). Qed.

Lemma o_has_a : has_file toy o_file 512 o_ht o_bt o_hi (lit "a.txt") (lit "hello a!").
Proof.
  exists 44, 8, 0x81010000. split.
  { exists 1. split; [apply (o_slot _ 1 (hash_entry o_ht 1)); vm_compute; reflexivity|]. repeat split; vm_compute; reflexivity. }
  split.
  { exists (lit "hello a!"), (cipher (hash_string (lit "a.txt") 3) (lit "hello a!")). split; [vm_compute; reflexivity|].
    split; [apply cipher_kept; [reflexivity|intros _; vm_compute; reflexivity]|]. split; [left; reflexivity|discriminate]. }
  split; [reflexivity|]. split; [vm_compute; discriminate|]. split; [vm_compute; reflexivity|]. split; discriminate.
Qed.
Lemma o_has_b : has_file toy o_file 512 o_ht o_bt o_hi (lit "b.txt") o_b.
Proof.
  exists 52, 4, 0x81000200. split.
  { exists 2. split; [apply (o_slot _ 2 (hash_entry o_ht 2)); vm_compute; reflexivity|]. repeat split; vm_compute; reflexivity. }
  split.
  { exists [x02; x00; Nb 100; "b"%byte], [x02; x00; Nb 100; "b"%byte]. split; [vm_compute; reflexivity|].
    split; [reflexivity|]. split; [|discriminate]. right. split; [vm_compute; reflexivity|]. left. split; [reflexivity|].
    exists x02, [x00; Nb 100; "b"%byte]. split; [reflexivity|]. split; [discriminate|]. left. split; [reflexivity|vm_compute; reflexivity]. }
  split; [reflexivity|]. split; [vm_compute; discriminate|]. split; [vm_compute; reflexivity|]. split; [vm_compute; reflexivity|discriminate].
Qed.
Lemma o_has_attrs : has_file toy o_file 512 o_ht o_bt o_hi (lit "(attributes)") o_attrs.
Proof.
  exists 56, 20, 0x81000000. split.
  { exists 3. split; [apply (o_slot _ 3 (hash_entry o_ht 3)); vm_compute; reflexivity|]. repeat split; vm_compute; reflexivity. }
  split.
  { exists o_attrs, o_attrs. split; [vm_compute; reflexivity|]. split; [reflexivity|]. split; [left; reflexivity|discriminate]. }
  split; [reflexivity|]. split; [vm_compute; discriminate|]. split; [vm_compute; reflexivity|]. split; discriminate.
Qed.
Lemma o_attributes : attributes_good toy o_file 512 o_ht o_bt o_hi.
Proof.
  right. exists o_attrs, (le32 1). split; [exact o_has_attrs|]. split; [vm_compute; reflexivity|]. split; [vm_compute; reflexivity|].
  vm_compute. discriminate.
Qed.

(** ** Two languages: German first, neutral second *)
Definition g_ht : bytes := Eval vm_compute in slot (lit "a.txt") 0x407 0 ++ slot (lit "a.txt") 0 1 ++ unused ++ unused.
Definition g_bt : bytes := Eval vm_compute in block 32 6 6 0x81000000 ++ block 38 5 5 0x81000000.
Definition g_file : bytes := Eval vm_compute in
  archive_magic ++ le32 32 ++ le32 139 ++ le16 0 ++ le16 0 ++ le32 43 ++ le32 107 ++ le32 4 ++ le32 2 ++
  lit "Hallo!" ++ lit "Hello" ++ cipher hash_key g_ht ++ cipher block_key g_bt.
Lemma g_laid_out : laid_out g_file 0 g_ht g_bt [].
Proof.
  split.
  { exists 0%nat. split; [intros j Hj; lia|]. left. split; [vm_compute; reflexivity|reflexivity]. }
  exists V1. split; [repeat split; vm_compute; (reflexivity || discriminate)|]. cbv zeta.
  split; [exists 2; vm_compute; reflexivity|].
  split.
  { split; [vm_compute; reflexivity|]. exists (cipher hash_key g_ht). split; [vm_compute; reflexivity|].
    replace (name_hash 3 (lit "(hash table)")) with hash_key by (vm_compute; reflexivity). apply ciphered. vm_compute. reflexivity. }
  split.
  { split; [vm_compute; reflexivity|]. exists (cipher block_key g_bt). split; [vm_compute; reflexivity|].
    replace (name_hash 3 (lit "(block table)")) with block_key by (vm_compute; reflexivity). apply ciphered. vm_compute. reflexivity. }
  split; [reflexivity|exact I].
Qed.
Definition g_arc : archive := Eval vm_compute in open_foreign g_file.
Lemma g_opens : open_archive toy g_file = Ok g_arc.
Proof. vm_compute. reflexivity. Qed.
Lemma g_way k : k < 4 -> on_way g_ht (lit "a.txt") k = k.
Proof.
  intros H. unfold on_way. replace (name_hash 0 (lit "a.txt")) with (hash_string (lit "a.txt") 0) by exact (hash_is 0 _ ltac:(lia)).
  assert (C : k = 0 \/ k = 1 \/ k = 2 \/ k = 3) by lia. destruct C as [->|[->|[->| ->]]]; vm_compute; reflexivity.
Qed.
Lemma g_neutral : listed_neutral g_ht g_bt [] (lit "a.txt") 38 5 5 0x81000000.
Proof.
  exists 1. split; [|repeat split; vm_compute; reflexivity].
  exists 1. split; [vm_compute; reflexivity|]. split; [symmetry; apply g_way; reflexivity|].
  split; [split; [|split]|split; [vm_compute; reflexivity|]].
  - transitivity (hash_string (lit "a.txt") 1); [vm_compute; reflexivity|exact (hash_is 1 _ ltac:(lia))].
  - transitivity (hash_string (lit "a.txt") 2); [vm_compute; reflexivity|exact (hash_is 2 _ ltac:(lia))].
  - vm_compute. reflexivity.
  - intros j Hj. assert (j = 0) as -> by lia. rewrite g_way by reflexivity. split; [|vm_compute; discriminate].
    intros [_ H]. vm_compute in H. discriminate H.
Qed.
Lemma g_stored : stored_as toy true g_file 0 (sector_bytes g_file 0) (lit "a.txt") (0 + 38) 5 0x81000000 (lit "Hello").
Proof.
  exists (lit "Hello"), (lit "Hello"). split; [vm_compute; reflexivity|]. split; [reflexivity|]. split; [left; reflexivity|discriminate].
Qed.

(** ** A packed table of names *)
Definition p_ht : bytes := Eval vm_compute in slot (lit "a.txt") 0 0 ++ unused ++ unused ++ unused.
Definition p_bt : bytes := Eval vm_compute in block 261 12 12 0x81000000.
Definition p_packed : bytes := Eval vm_compute in
  Nb 0x20 :: [Nb 16] ++ slot (lit "a.txt") 0 0 ++ concat (repeat ([Nb 0x8C; Nb 4] ++ repeat xff 4) 3) ++ [Nb 0xFF].
Definition p_file : bytes := Eval vm_compute in
  archive_magic ++ le32 208 ++ le32 273 ++ le16 3 ++ le16 0 ++ le32 208 ++ le32 245 ++ le32 4 ++ le32 1 ++ le64 0 ++ le16 0 ++ le16 0 ++
  le64 273 ++ le64 0 ++ le64 0 ++ le64 37 ++ le64 16 ++ le64 0 ++ le64 0 ++ le64 0 ++ le32 0 ++ zeros 96 ++
  cipher hash_key p_packed ++ cipher block_key p_bt ++ lit "Hello world!".
Lemma p_runs : runs 126 (tl p_packed) p_ht.
Proof.
  pose proof (runs_bytes 126 (repeat xff 4) [Nb 0xFF] [] ltac:(vm_compute; discriminate) (runs_end 126)) as R1.
  pose proof (runs_zeros 126 12 _ _ ltac:(lia) R1) as R2.
  pose proof (runs_zeros 126 12 _ _ ltac:(lia) (runs_bytes 126 (repeat xff 4) _ _ ltac:(vm_compute; discriminate) R2)) as R3.
  pose proof (runs_zeros 126 12 _ _ ltac:(lia) (runs_bytes 126 (repeat xff 4) _ _ ltac:(vm_compute; discriminate) R3)) as R4.
  exact (runs_bytes 126 (slot (lit "a.txt") 0 0) _ _ ltac:(vm_compute; discriminate) R4).
Qed.
Lemma p_laid_out : laid_out_packed toy p_file 0 p_ht p_bt [].
Proof.
  split.
  { exists 0%nat. split; [intros j Hj; lia|]. left. split; [vm_compute; reflexivity|reflexivity]. }
  exists V4. split; [repeat split; vm_compute; (reflexivity || discriminate)|]. cbv zeta.
  split; [exists 2; vm_compute; reflexivity|].
  split.
  { split; [reflexivity|]. split; [vm_compute; reflexivity|]. split; [vm_compute; reflexivity|].
    exists (cipher hash_key p_packed), p_packed, (Nb 0x20), (tl p_packed). split; [vm_compute; reflexivity|].
    split; [|split; [reflexivity|]].
    - replace (name_hash 3 (lit "(hash table)")) with hash_key by (vm_compute; reflexivity).
      exact (cipher_kept false 0x10000 hash_key p_packed eq_refl (fun H => match diff_false_true H with end)).
    - split; [discriminate|]. right; right; right; right; left. split; [reflexivity|exact p_runs]. }
  split.
  { split; [vm_compute; reflexivity|]. exists (cipher block_key p_bt). split; [vm_compute; reflexivity|].
    replace (name_hash 3 (lit "(block table)")) with block_key by (vm_compute; reflexivity). apply ciphered. vm_compute. reflexivity. }
  split; [reflexivity|split; vm_compute; reflexivity].
Qed.
Lemma p_has_a : has_file toy p_file 0 p_ht p_bt [] (lit "a.txt") (lit "Hello world!").
Proof.
  exists 261, 12, 0x81000000. split.
  { exists 0. split; [|repeat split; vm_compute; reflexivity]. exists 0. split; [vm_compute; reflexivity|].
    split; [unfold on_way; replace (name_hash 0 (lit "a.txt")) with (hash_string (lit "a.txt") 0) by exact (hash_is 0 _ ltac:(lia)); vm_compute; reflexivity|].
    split; [split; [|split]|split; [exact I|intros j Hj; lia]].
    - transitivity (hash_string (lit "a.txt") 1); [vm_compute; reflexivity|exact (hash_is 1 _ ltac:(lia))].
    - transitivity (hash_string (lit "a.txt") 2); [vm_compute; reflexivity|exact (hash_is 2 _ ltac:(lia))].
    - vm_compute. reflexivity. }
  split.
  { exists (lit "Hello world!"), (lit "Hello world!"). split; [vm_compute; reflexivity|]. split; [reflexivity|].
    split; [left; reflexivity|discriminate]. }
  split; [reflexivity|]. split; [vm_compute; discriminate|]. split; [vm_compute; reflexivity|]. split; discriminate.
Qed.
Definition p_arc : archive := Eval vm_compute in open_foreign p_file.
Lemma p_opens : open_archive toy p_file = Ok p_arc.
Proof. vm_compute. reflexivity. Qed.
Lemma p_not_found : find_file p_arc (lit "a.txt") = Ok None.
Proof. vm_compute. reflexivity. Qed.

(** ** Attributes that end too early: the archive of above with one more block *)
Definition s_bt : bytes := Eval vm_compute in o_bt ++ block 0 0 0 0.
Definition s_file : bytes := Eval vm_compute in
  archive_magic ++ le32 44 ++ le32 204 ++ le16 1 ++ le16 0 ++ le32 76 ++ le32 140 ++ le32 4 ++ le32 4 ++ le64 0 ++ le16 0 ++ le16 0 ++
  cipher (hash_string (lit "a.txt") 3) (lit "hello a!") ++ [x02; x00; Nb 100; "b"%byte] ++ o_attrs ++
  cipher hash_key o_ht ++ cipher block_key s_bt.
Lemma s_laid_out : laid_out s_file 0 o_ht s_bt [].
Proof.
  split.
  { exists 0%nat. split; [intros j Hj; lia|]. left. split; [vm_compute; reflexivity|reflexivity]. }
  exists V2. split; [repeat split; vm_compute; (reflexivity || discriminate)|]. cbv zeta.
  split; [exists 2; vm_compute; reflexivity|].
  split.
  { split; [vm_compute; reflexivity|]. exists (cipher hash_key o_ht). split; [vm_compute; reflexivity|].
    replace (name_hash 3 (lit "(hash table)")) with hash_key by (vm_compute; reflexivity). apply ciphered. vm_compute. reflexivity. }
  split.
  { split; [vm_compute; reflexivity|]. exists (cipher block_key s_bt). split; [vm_compute; reflexivity|].
    replace (name_hash 3 (lit "(block table)")) with block_key by (vm_compute; reflexivity). apply ciphered. vm_compute. reflexivity. }
  split; [reflexivity|exact I].
Qed.
Lemma s_has_attrs : has_file toy s_file 0 o_ht s_bt [] (lit "(attributes)") o_attrs.
Proof.
  exists 56, 20, 0x81000000. split.
  { exists 3. split; [apply (o_slot _ 3 (hash_entry o_ht 3)); vm_compute; reflexivity|]. repeat split; vm_compute; reflexivity. }
  split.
  { exists o_attrs, o_attrs. split; [vm_compute; reflexivity|]. split; [reflexivity|]. split; [left; reflexivity|discriminate]. }
  split; [reflexivity|]. split; [vm_compute; discriminate|]. split; [vm_compute; reflexivity|]. split; discriminate.
Qed.

(** ** Attributes packed once more *)
Definition t_attrs : bytes := Eval vm_compute in x02 :: match zlib_enc toy o_attrs with Ok c => c | _ => [] end.
Definition t_bt : bytes := Eval vm_compute in
  block 44 8 8 0x81010000 ++ block 52 4 100 0x81000200 ++ block 56 (lenN t_attrs) (lenN t_attrs) 0x81000000.
Definition t_file_of (attrs : bytes) (bt : bytes) : bytes :=
  archive_magic ++ le32 44 ++ le32 (168 + lenN attrs) ++ le16 1 ++ le16 0 ++ le32 (56 + lenN attrs) ++ le32 (120 + lenN attrs) ++ le32 4 ++ le32 3 ++
  le64 0 ++ le16 0 ++ le16 0 ++
  cipher (hash_string (lit "a.txt") 3) (lit "hello a!") ++ [x02; x00; Nb 100; "b"%byte] ++ attrs ++
  cipher hash_key o_ht ++ cipher block_key bt.
Definition t_file : bytes := Eval vm_compute in t_file_of t_attrs t_bt.
Lemma t_laid_out : laid_out t_file 0 o_ht t_bt [].
Proof.
  split.
  { exists 0%nat. split; [intros j Hj; lia|]. left. split; [vm_compute; reflexivity|reflexivity]. }
  exists V2. split; [repeat split; vm_compute; (reflexivity || discriminate)|]. cbv zeta.
  split; [exists 2; vm_compute; reflexivity|].
  split.
  { split; [vm_compute; reflexivity|]. exists (cipher hash_key o_ht). split; [vm_compute; reflexivity|].
    replace (name_hash 3 (lit "(hash table)")) with hash_key by (vm_compute; reflexivity). apply ciphered. vm_compute. reflexivity. }
  split.
  { split; [vm_compute; reflexivity|]. exists (cipher block_key t_bt). split; [vm_compute; reflexivity|].
    replace (name_hash 3 (lit "(block table)")) with block_key by (vm_compute; reflexivity). apply ciphered. vm_compute. reflexivity. }
  split; [reflexivity|exact I].
Qed.
Lemma t_has_attrs : has_file toy t_file 0 o_ht t_bt [] (lit "(attributes)") t_attrs.
Proof.
  exists 56, (lenN t_attrs), 0x81000000. split.
  { exists 3. split; [apply (o_slot _ 3 (hash_entry o_ht 3)); vm_compute; reflexivity|]. repeat split; vm_compute; reflexivity. }
  split.
  { exists t_attrs, t_attrs. split; [vm_compute; reflexivity|]. split; [reflexivity|]. split; [left; reflexivity|discriminate]. }
  split; [reflexivity|]. split; [vm_compute; discriminate|]. split; [vm_compute; reflexivity|]. split; discriminate.
Qed.
Lemma t_unpacked : unpacked_attributes toy t_attrs o_attrs.
Proof. right. exists x02, (tl t_attrs). split; [reflexivity|]. split; [vm_compute; discriminate|]. left. split; vm_compute; reflexivity. Qed.

(** ** Attributes of another version *)
Definition w_attrs : bytes := Eval vm_compute in le32 0x110 ++ skipn 4 o_attrs.
Definition w_file : bytes := Eval vm_compute in t_file_of w_attrs o_bt.
Lemma w_laid_out : laid_out w_file 0 o_ht o_bt [].
Proof.
  split.
  { exists 0%nat. split; [intros j Hj; lia|]. left. split; [vm_compute; reflexivity|reflexivity]. }
  exists V2. split; [repeat split; vm_compute; (reflexivity || discriminate)|]. cbv zeta.
  split; [exists 2; vm_compute; reflexivity|].
  split.
  { split; [vm_compute; reflexivity|]. exists (cipher hash_key o_ht). split; [vm_compute; reflexivity|].
    replace (name_hash 3 (lit "(hash table)")) with hash_key by (vm_compute; reflexivity). apply ciphered. vm_compute. reflexivity. }
  split.
  { split; [vm_compute; reflexivity|]. exists (cipher block_key o_bt). split; [vm_compute; reflexivity|].
    replace (name_hash 3 (lit "(block table)")) with block_key by (vm_compute; reflexivity). apply ciphered. vm_compute. reflexivity. }
  split; [reflexivity|exact I].
Qed.
Lemma w_has_attrs : has_file toy w_file 0 o_ht o_bt [] (lit "(attributes)") w_attrs.
Proof.
  exists 56, 20, 0x81000000. split.
  { exists 3. split; [apply (o_slot _ 3 (hash_entry o_ht 3)); vm_compute; reflexivity|]. repeat split; vm_compute; reflexivity. }
  split.
  { exists w_attrs, w_attrs. split; [vm_compute; reflexivity|]. split; [reflexivity|]. split; [left; reflexivity|discriminate]. }
  split; [reflexivity|]. split; [vm_compute; discriminate|]. split; [vm_compute; reflexivity|]. split; discriminate.
Qed.

(** ** Attributes that look packed but cannot be unpacked *)
Definition u_attrs : bytes := Eval vm_compute in x02 :: x05 :: skipn 2 o_attrs.
Definition u_file : bytes := Eval vm_compute in t_file_of u_attrs o_bt.
Lemma u_laid_out : laid_out u_file 0 o_ht o_bt [].
Proof.
  split.
  { exists 0%nat. split; [intros j Hj; lia|]. left. split; [vm_compute; reflexivity|reflexivity]. }
  exists V2. split; [repeat split; vm_compute; (reflexivity || discriminate)|]. cbv zeta.
  split; [exists 2; vm_compute; reflexivity|].
  split.
  { split; [vm_compute; reflexivity|]. exists (cipher hash_key o_ht). split; [vm_compute; reflexivity|].
    replace (name_hash 3 (lit "(hash table)")) with hash_key by (vm_compute; reflexivity). apply ciphered. vm_compute. reflexivity. }
  split.
  { split; [vm_compute; reflexivity|]. exists (cipher block_key o_bt). split; [vm_compute; reflexivity|].
    replace (name_hash 3 (lit "(block table)")) with block_key by (vm_compute; reflexivity). apply ciphered. vm_compute. reflexivity. }
  split; [reflexivity|exact I].
Qed.
Lemma u_has_attrs : has_file toy u_file 0 o_ht o_bt [] (lit "(attributes)") u_attrs.
Proof.
  exists 56, 20, 0x81000000. split.
  { exists 3. split; [apply (o_slot _ 3 (hash_entry o_ht 3)); vm_compute; reflexivity|]. repeat split; vm_compute; reflexivity. }
  split.
  { exists u_attrs, u_attrs. split; [vm_compute; reflexivity|]. split; [reflexivity|]. split; [left; reflexivity|discriminate]. }
  split; [reflexivity|]. split; [vm_compute; discriminate|]. split; [vm_compute; reflexivity|]. split; discriminate.
Qed.
Lemma u_not_unpacked : not_unpacked toy x02 (tl u_attrs).
Proof. exists ECompression. left. split; [reflexivity|vm_compute; reflexivity]. Qed.

Lemma german_read : exists L file base ht bt hi name pos csize flags d a d',
  lossless L /\ laid_out file base ht bt hi /\ listed_neutral ht bt hi name pos csize (lenN d) flags /\
  stored_as L true file base (sector_bytes file base) name (base + pos) csize flags d /\
  open_archive L file = Ok a /\ read_file L a name = Ok d' /\ d' <> d.
Proof.
  exists toy, g_file, 0, g_ht, g_bt, [], (lit "a.txt"), 38, 5, 0x81000000, (lit "Hello"), g_arc, (lit "Hallo!").
  split; [exact toy_lossless|]. split; [exact g_laid_out|]. split; [exact g_neutral|]. split; [exact g_stored|].
  split; [exact g_opens|]. split; [vm_compute; reflexivity|discriminate].
Qed.
Lemma packed_lost : exists L file base ht bt hi name d a,
  lossless L /\ laid_out_packed L file base ht bt hi /\ has_file L file base ht bt hi name d /\
  open_archive L file = Ok a /\ find_file a name = Ok None.
Proof.
  exists toy, p_file, 0, p_ht, p_bt, [], (lit "a.txt"), (lit "Hello world!"), p_arc.
  exact (conj toy_lossless (conj p_laid_out (conj p_has_a (conj p_opens p_not_found)))).
Qed.
