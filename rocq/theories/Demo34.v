(** * Concrete archives of version 3 and 4. *)
From Verif Require Import Bytes Crypto SpecNames NameFacts HashTable BlockTable Header SpecHeader Compress SpecTables
  SpecCompress ToyCodec HeaderSearch CompressFacts Listfile HetBet Adler Builder Attributes Archive Signature SpecArchive
  SpecArchive34 Info SpecDigest DemoArchive.
Open Scope N_scope.

(** A digest that takes notice of every byte. *)
Definition toy_md5 (d : bytes) : bytes :=
  le_enc 16 (fold_left (fun acc b => (acc * 257 + bN b + 1) mod (2 ^ 128)) d 7).

(** ** Two files and a list file in version 4 *)
Definition four_cfg := mkCfg V4 0 LGenerate ZLIB true false ZLIB.
Definition four_files := [file_a; file_b].
Definition four_arc : bytes :=
  Eval vm_compute in match build toy toy_md5 four_cfg four_files with Ok a => a | _ => [] end.
Definition four_file : bytes := demo_pre ++ four_arc ++ demo_post.

Lemma toy_md5_length x : lenN (toy_md5 x) = 16.
Proof. unfold toy_md5, lenN. now rewrite le_enc_length. Qed.

Lemma four_reached : reached_at (demo_pre ++ four_arc ++ demo_post) (lenN demo_pre).
Proof.
  exists 1%nat. split.
  - intros j Hj. assert (j = O) as -> by lia. split; [vm_compute; discriminate|].
    intros H. vm_compute in H. discriminate.
  - left. split; [|reflexivity]. vm_compute. reflexivity.
Qed.

Lemma four_built : built34_at toy toy_md5 four_cfg four_files four_arc demo_pre demo_post.
Proof.
  split; [right; reflexivity|]. split; [reflexivity|]. split; [exact toy_md5_length|]. split.
  { split; [reflexivity|]. split; [reflexivity|]. intros f Hf.
    repeat (destruct Hf as [<-|Hf]; [split; reflexivity|]). destruct Hf. }
  split; [reflexivity|]. split; [vm_compute; reflexivity|].
  split; [vm_compute; reflexivity|]. split; [vm_compute; reflexivity|].
  exact four_reached.
Qed.
Lemma four_no_collision : no_collision (LISTFILE :: map pf_name four_files).
Proof. apply no_collisionb_sound. vm_compute. reflexivity. Qed.
Lemma four_apart : hashes_apart ATTRIBUTES (LISTFILE :: map pf_name four_files).
Proof. apply hashes_apartb_sound. vm_compute. reflexivity. Qed.
Lemma four_means : means four_files (lit "DIR/A.TXT") file_a.
Proof.
  exists [], [file_b]. split; [reflexivity|]. split; [|intros g []].
  apply name_equivb_sound. vm_compute. reflexivity.
Qed.

(** The same file with one byte of the block table changed: behind 512 bytes the
    header has 208. *)
Definition flip (d : bytes) (k : nat) : bytes := firstn k d ++ [Nb (255 - bN (nth k d x00))] ++ skipn (S k) d.
Definition four_header : header :=
  Eval vm_compute in match header_read (skipn 512 four_file) with Ok h => h | _ => mkHeader 0 0 V1 0 0 0 0 0 None None None None None None None end.
Definition bad_byte : nat :=
  Eval vm_compute in (512 + N.to_nat (get_block_table_pos four_header) + 5)%nat.
Definition four_bad : bytes := Eval vm_compute in flip four_file bad_byte.

Lemma four_bad_reached : reached_at four_bad (lenN demo_pre).
Proof.
  exists 1%nat. split.
  - intros j Hj. assert (j = O) as -> by lia. split; [vm_compute; discriminate|].
    intros H. vm_compute in H. discriminate.
  - left. split; [|reflexivity]. vm_compute. reflexivity.
Qed.

(** ** Five entries in version 3: the third file is read with the content of the
    first, and so is a name that was never added *)
Definition plain (n d : bytes) : pending := mkPF d n 0 false false 0.
Definition five_cfg := mkCfg V3 0 LGenerate ZLIB false false ZLIB.
Definition five_c := plain (lit "c.txt") (lit "CCCC").
Definition five_files :=
  [plain (lit "a.txt") (lit "AA"); plain (lit "b.txt") (lit "BBB"); five_c; plain (lit "d.txt") (lit "DDDDD")].
Definition five_arc : bytes :=
  Eval vm_compute in match build toy no_md5 five_cfg five_files with Ok a => a | _ => [] end.
Definition five_open : archive :=
  Eval vm_compute in match open_archive toy five_arc with
                     | Ok a => a
                     | _ => mkA [] 0 None four_header None None None None None None
                     end.
Lemma five_opens : open_archive toy five_arc = Ok five_open.
Proof. vm_compute. reflexivity. Qed.
Lemma five_reads_c : read_file toy five_open (lit "c.txt") = Ok (lit "AA").
Proof. vm_compute. reflexivity. Qed.
Lemma five_reads_x : read_file toy five_open (lit "x.txt") = Ok (lit "AA").
Proof. vm_compute. reflexivity. Qed.
Lemma five_built : built34_at toy no_md5 five_cfg five_files five_arc [] [].
Proof.
  split; [left; reflexivity|]. split; [reflexivity|]. split; [reflexivity|]. split.
  { split; [reflexivity|]. split; [reflexivity|]. intros f Hf.
    repeat (destruct Hf as [<-|Hf]; [split; reflexivity|]). destruct Hf. }
  split; [reflexivity|]. split; [vm_compute; reflexivity|].
  split; [vm_compute; reflexivity|]. split; [vm_compute; reflexivity|].
  exists O. split; [intros j Hj; lia|]. left. split; [|reflexivity]. vm_compute. reflexivity.
Qed.
Lemma five_no_collision : no_collision (LISTFILE :: map pf_name five_files).
Proof. apply no_collisionb_sound. vm_compute. reflexivity. Qed.
Lemma five_apart : hashes_apart ATTRIBUTES (LISTFILE :: map pf_name five_files).
Proof. apply hashes_apartb_sound. vm_compute. reflexivity. Qed.
Lemma five_means_c : means five_files (lit "c.txt") five_c.
Proof.
  apply (means_dec _ _ _ [plain (lit "a.txt") (lit "AA"); plain (lit "b.txt") (lit "BBB")] [plain (lit "d.txt") (lit "DDDDD")]);
    vm_compute; reflexivity.
Qed.
Lemma five_apart_x : hashes_apart (lit "x.txt") (LISTFILE :: map pf_name five_files).
Proof. apply hashes_apartb_sound. vm_compute. reflexivity. Qed.

(** ** Seventeen entries in version 3 that cannot be opened: looking for
    "(attributes)" finds the first file *)
Definition many_names : list bytes := map (fun k => lit "f" ++ dec_digits 20 (N.of_nat k) []) (seq 10 15) ++ [lit "f219"].
Definition many_files : list pending := map (fun n => plain n (lit "some text")) many_names.
Definition many_arc : bytes :=
  Eval vm_compute in match build toy no_md5 five_cfg many_files with Ok a => a | _ => [] end.
Lemma many_fails : open_archive toy many_arc = Err EInvalidFormat.
Proof. vm_compute. reflexivity. Qed.
Lemma many_built : built34_at toy no_md5 five_cfg many_files many_arc [] [].
Proof.
  split; [left; reflexivity|]. split; [reflexivity|]. split; [reflexivity|]. split.
  { split; [reflexivity|]. split; [reflexivity|]. intros f Hf.
    apply in_map_iff in Hf as (n & <- & _). split; reflexivity. }
  split; [reflexivity|]. split; [vm_compute; reflexivity|].
  split; [vm_compute; reflexivity|]. split; [vm_compute; reflexivity|].
  exists O. split; [intros j Hj; lia|]. left. split; [|reflexivity]. vm_compute. reflexivity.
Qed.
Lemma many_no_collision : no_collision (LISTFILE :: map pf_name many_files).
Proof. apply no_collisionb_sound. vm_compute. reflexivity. Qed.
Lemma many_apart : hashes_apart ATTRIBUTES (LISTFILE :: map pf_name many_files).
Proof. apply hashes_apartb_sound. vm_compute. reflexivity. Qed.

Lemma five_wrong :
  exists L md5 c files arc a name f,
    lossless L /\ built34_at L md5 c files arc [] [] /\
    no_collision (special_listfile :: map pf_name files) /\
    hashes_apart special_attributes (special_listfile :: map pf_name files) /\
    open_archive L arc = Ok a /\ means files name f /\ reads_back L c (pf_comp f) (pf_data f) /\
    exists d, read_file L a name = Ok d /\ d <> pf_data f.
Proof.
  exists toy, no_md5, five_cfg, five_files, five_arc, five_open, (lit "c.txt"), five_c.
  split; [exact toy_lossless|]. split; [exact five_built|]. split; [exact five_no_collision|].
  split; [exact five_apart|]. split; [exact five_opens|]. split; [exact five_means_c|]. split.
  - left. split; [vm_compute; discriminate|]. split; [vm_compute; reflexivity|]. left. reflexivity.
  - exists (lit "AA"). split; [exact five_reads_c|]. vm_compute. discriminate.
Qed.
Lemma five_absent :
  exists L md5 c files arc a name d,
    lossless L /\ built34_at L md5 c files arc [] [] /\
    hashes_apart name (special_listfile :: map pf_name files) /\
    open_archive L arc = Ok a /\ read_file L a name = Ok d.
Proof.
  exists toy, no_md5, five_cfg, five_files, five_arc, five_open, (lit "x.txt"), (lit "AA").
  split; [exact toy_lossless|]. split; [exact five_built|]. split; [exact five_apart_x|].
  split; [exact five_opens|exact five_reads_x].
Qed.
Lemma many_unopenable :
  exists L md5 c files arc,
    lossless L /\ built34_at L md5 c files arc [] [] /\
    no_collision (special_listfile :: map pf_name files) /\
    hashes_apart special_attributes (special_listfile :: map pf_name files) /\
    forall a, open_archive L arc <> Ok a.
Proof.
  exists toy, no_md5, five_cfg, many_files, many_arc.
  split; [exact toy_lossless|]. split; [exact many_built|]. split; [exact many_no_collision|].
  split; [exact many_apart|]. intros a. rewrite many_fails. discriminate.
Qed.
