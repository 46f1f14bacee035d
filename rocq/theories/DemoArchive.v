(** * A concrete archive that meets the hypotheses of the archive theorems. *)
From Verif Require Import Bytes Crypto SpecNames NameFacts HashTable BlockTable Header SpecHeader Compress SpecTables
  SpecCompress ToyCodec HeaderSearch CompressFacts Listfile Adler Builder Attributes Archive SpecArchive.
Open Scope N_scope.

(** ** Deciding the hypotheses about names *)
Definition same_hash (x y : bytes) : bool :=
  (hash_string x HT_NAME_A =? hash_string y HT_NAME_A) && (hash_string x HT_NAME_B =? hash_string y HT_NAME_B).
Definition no_collisionb (names : list bytes) : bool :=
  forallb (fun x => forallb (fun y => negb (same_hash x y) || name_equivb x y) names) names.
Lemma no_collisionb_sound names : no_collisionb names = true -> no_collision names.
Proof.
  unfold no_collisionb. rewrite forallb_forall. intros H x y Hx Hy HA HB.
  specialize (H x Hx). rewrite forallb_forall in H. specialize (H y Hy).
  unfold same_hash in H. rewrite HA, HB, !N.eqb_refl in H. cbn in H. now apply name_equivb_sound.
Qed.
Definition hashes_apartb (name : bytes) (names : list bytes) : bool :=
  forallb (fun x => negb (same_hash x name)) names.
Lemma hashes_apartb_sound name names : hashes_apartb name names = true -> hashes_apart name names.
Proof.
  unfold hashes_apartb. rewrite forallb_forall. intros H x Hx [HA HB].
  specialize (H x Hx). unfold same_hash in H. rewrite HA, HB, !N.eqb_refl in H. discriminate.
Qed.

(** An archive at the start of a file is reached by the header search. *)
Lemma reached_start L md5 c files arc post :
  version_ge (c_version c) V3 = false -> build L md5 c files = Ok arc -> reached_at (arc ++ post) 0.
Proof.
  intros Hv Hb. exists O. split; [intros j Hj; lia|].
  unfold build in Hb. rewrite Hv in Hb. unfold write_archive12 in Hb.
  destruct (sector_size _) as [ss| |]; cbn [bind] in Hb; try discriminate.
  destruct (ht_new _) as [t0| |]; cbn [bind] in Hb; try discriminate.
  destruct (write_files _ _ _ _ _) as [[body es]| |]; cbn [bind] in Hb; try discriminate.
  destruct (add_files _ _ _) as [t| |]; cbn [bind] in Hb; try discriminate.
  set (P := mkHP _ _ _ _ _ _ _ _ _ _ _) in Hb.
  destruct (write_header P) as [hdr| |] eqn:E; cbn [bind] in Hb; try discriminate.
  apply Ok_inj in Hb. subst arc.
  assert (G : exists r, hdr = archive_magic ++ r).
  { unfold write_header in E. cbn [P p_version] in E.
    destruct (c_version c); try discriminate; apply Ok_inj in E; subst hdr;
    unfold header_v1_bytes; rewrite <- ?app_assoc; change (le32 MPQ_HEADER_SIGNATURE) with archive_magic;
    eexists; reflexivity. }
  destruct G as [r ->]. left. split; [|reflexivity]. unfold magic_at. rewrite <- !app_assoc.
  change (512 * N.of_nat 0) with (lenN (@nil byte)). change 4 with (lenN archive_magic).
  match goal with |- slice _ _ (archive_magic ++ ?x) = _ => exact (slice_mid [] archive_magic x) end.
Qed.

(** ** The archive: three files with checksums, one of them in three sectors *)
Definition no_md5 (d : bytes) : bytes := zeros 16.
Definition file_a := mkPF (lit "hello world") (lit "dir\a.txt") ZLIB true true 0.
Definition file_b := mkPF (repeat x41 200) (lit "dir\b.txt") BZIP2 true false 7.
Definition file_c :=
  mkPF (repeat x41 512 ++ lit "abcdefg" ++ repeat x43 505 ++ repeat x42 200) (lit "c.bin") ZLIB true false 0.
Definition file_d := mkPF (lit "plain") (lit "d.txt") 0 false false 0.
Definition demo_files := [file_a; file_b; file_c; file_d].
Definition demo_cfg := mkCfg V2 0 LGenerate ZLIB true false ZLIB.
Definition demo_arc : bytes :=
  Eval vm_compute in match build toy no_md5 demo_cfg demo_files with Ok a => a | _ => [] end.
Definition demo_pre : bytes := zeros 512.
Definition demo_post : bytes := lit "trailing".
Definition demo_file : bytes := demo_pre ++ demo_arc ++ demo_post.

Lemma demo_built_at : built_at toy no_md5 demo_cfg demo_files demo_arc demo_pre demo_post.
Proof.
  split; [right; reflexivity|]. split.
  { split; [reflexivity|]. split; [reflexivity|]. intros f Hf.
    repeat (destruct Hf as [<-|Hf]; [split; reflexivity|]). destruct Hf. }
  split; [reflexivity|]. split; [vm_compute; reflexivity|].
  split; [vm_compute; reflexivity|]. split; [vm_compute; reflexivity|].
  exists 1%nat. split.
  - intros j Hj. assert (j = O) as -> by lia. split; [vm_compute; discriminate|].
    intros H. vm_compute in H. discriminate.
  - left. split; [|reflexivity]. vm_compute. reflexivity.
Qed.
Lemma demo_no_collision : no_collision (LISTFILE :: map pf_name demo_files).
Proof. apply no_collisionb_sound. vm_compute. reflexivity. Qed.
Lemma demo_apart : hashes_apart ATTRIBUTES (LISTFILE :: map pf_name demo_files).
Proof. apply hashes_apartb_sound. vm_compute. reflexivity. Qed.

(** For a given place in the list [means] is decided by comparing names. *)
Lemma means_dec files name f l1 l2 :
  files = l1 ++ f :: l2 -> name_equivb name (pf_name f) = true ->
  forallb (fun g => negb (name_equivb name (pf_name g))) l1 = true -> means files name f.
Proof.
  intros E Hn Hb. exists l1, l2. split; [exact E|]. split; [now apply name_equivb_sound|].
  intros g Hg He. rewrite forallb_forall in Hb. specialize (Hb g Hg).
  apply name_equivb_complete in He. rewrite He in Hb. discriminate.
Qed.

Lemma demo_means_a : means demo_files (lit "DIR/A.TXT") file_a.
Proof. apply (means_dec _ _ _ [] [file_b; file_c; file_d]); vm_compute; reflexivity. Qed.
Lemma demo_means_c : means demo_files (lit "C.bin") file_c.
Proof. apply (means_dec _ _ _ [file_a; file_b] [file_d]); vm_compute; reflexivity. Qed.
Lemma demo_means_d : means demo_files (lit "d.txt") file_d.
Proof. apply (means_dec _ _ _ [file_a; file_b; file_c] []); vm_compute; reflexivity. Qed.

(** ** Sectors of a concrete file *)
From Verif Require Import BuilderFacts ReadFacts OpenFacts ArchiveFacts.
Lemma sectors_of ss d (P : bytes -> Prop) : 0 < ss -> Forall P (chunks (length d) ss d) ->
  forall s, is_sector ss d s -> P s.
Proof.
  intros Hs H s Hi. apply (is_sector_chunks ss Hs (length d)) in Hi; [|reflexivity].
  rewrite Forall_forall in H. auto.
Qed.

(** ** A codec that saves exactly one byte on some inputs *)
Definition triple_enc (d : bytes) : res bytes :=
  match d with
  | a :: b :: c :: t => if beqb a b && beqb b c then Ok (x00 :: a :: t) else Ok (x01 :: d)
  | _ => Ok (x01 :: d)
  end.
Definition triple_dec (c : bytes) : res bytes :=
  match c with
  | x00 :: a :: t => Ok (a :: a :: a :: t)
  | x01 :: d => Ok d
  | _ => Err ECompression
  end.
Lemma triple_faithful : faithful triple_enc triple_dec.
Proof.
  intros d c H. unfold triple_enc in H.
  destruct d as [|a [|b [|e t]]]; try (apply Ok_inj in H; subst c; split; [discriminate|reflexivity]).
  destruct (beqb a b && beqb b e) eqn:E; apply Ok_inj in H; subst c; (split; [discriminate|]); [|reflexivity].
  apply andb_prop in E as [E1 E2]. apply beqb_eq in E1, E2. subst. reflexivity.
Qed.
Definition triple : codecs :=
  mkCodecs triple_enc triple_dec triple_enc triple_dec triple_enc triple_dec triple_enc triple_dec.
Lemma triple_lossless : lossless triple.
Proof. unfold lossless. cbn. auto using triple_faithful. Qed.

(** ** Two archives whose file is not read back *)
Definition bad_cfg := mkCfg V1 0 LGenerate ZLIB false false ZLIB.
Definition raw_file := mkPF (repeat x41 700) (lit "raw.bin") 0 false false 0.
Definition tight_file := mkPF (repeat x61 1030) (lit "tight.bin") ZLIB false false 0.
(** Everything the claim asks for, yet other bytes come back. *)
Definition read_back_wrong (L : codecs) (c : config) (f : pending) : Prop :=
  exists arc a d, built_at L no_md5 c [f] arc [] [] /\
    no_collision (LISTFILE :: map pf_name [f]) /\ hashes_apart ATTRIBUTES (LISTFILE :: map pf_name [f]) /\
    open_archive L arc = Ok a /\ read_file L a (pf_name f) = Ok d /\ d <> pf_data f.

Lemma one_file_built L c f arc :
  (c_version c = V1 \/ c_version c = V2) -> well_typed c [f] ->
  build L no_md5 c [f] = Ok arc -> (lenN arc <? 2 ^ 30) = true ->
  built_at L no_md5 c [f] arc [] [].
Proof.
  intros Hv Ht Hb Hl. apply N.ltb_lt in Hl.
  split; [exact Hv|]. split; [exact Ht|]. split; [reflexivity|]. split; [exact Hb|].
  change (2 ^ 30) with 1073741824 in Hl.
  split.
  { unfold fits. change (2 ^ 32) with 4294967296. change (2 ^ 48) with 281474976710656.
    destruct (c_version c); lia. }
  split.
  { cbn [app]. rewrite app_nil_r. change (2 ^ 63) with 9223372036854775808. lia. }
  cbn [app]. apply (reached_start L no_md5 c [f]); [|exact Hb].
  destruct Hv as [-> | ->]; reflexivity.
Qed.

Definition raw_arc : bytes :=
  Eval vm_compute in match build toy no_md5 bad_cfg [raw_file] with Ok a => a | _ => [] end.
Lemma raw_wrong : read_back_wrong toy bad_cfg raw_file.
Proof.
  destruct (open_archive toy raw_arc) as [a| |] eqn:Ho; [|vm_compute in Ho; discriminate..].
  destruct (read_file toy a (pf_name raw_file)) as [d| |] eqn:Hr;
    [|exfalso; vm_compute in Ho; injection Ho as <-; vm_compute in Hr; discriminate..].
  exists raw_arc, a, d. repeat match goal with |- _ /\ _ => split end; auto.
  - apply one_file_built; [left; reflexivity| |vm_compute; reflexivity|vm_compute; reflexivity].
    split; [reflexivity|]. split; [reflexivity|]. intros f [<-|[]]. split; reflexivity.
  - apply no_collisionb_sound. vm_compute. reflexivity.
  - apply hashes_apartb_sound. vm_compute. reflexivity.
  - vm_compute in Ho. injection Ho as <-. vm_compute in Hr. injection Hr as <-.
    intros E. apply (f_equal (@length byte)) in E. vm_compute in E. discriminate.
Qed.

Definition tight_arc : bytes :=
  Eval vm_compute in match build triple no_md5 bad_cfg [tight_file] with Ok a => a | _ => [] end.
Lemma tight_wrong : read_back_wrong triple bad_cfg tight_file.
Proof.
  destruct (open_archive triple tight_arc) as [a| |] eqn:Ho; [|vm_compute in Ho; discriminate..].
  destruct (read_file triple a (pf_name tight_file)) as [d| |] eqn:Hr;
    [|exfalso; vm_compute in Ho; injection Ho as <-; vm_compute in Hr; discriminate..].
  exists tight_arc, a, d. repeat match goal with |- _ /\ _ => split end; auto.
  - apply one_file_built; [left; reflexivity| |vm_compute; reflexivity|vm_compute; reflexivity].
    split; [reflexivity|]. split; [reflexivity|]. intros f [<-|[]]. split; reflexivity.
  - apply no_collisionb_sound. vm_compute. reflexivity.
  - apply hashes_apartb_sound. vm_compute. reflexivity.
  - vm_compute in Ho. injection Ho as <-. vm_compute in Hr. injection Hr as <-.
    intros E. apply (f_equal (firstn 1)) in E. vm_compute in E. discriminate.
Qed.

(** ** A checked file of several sectors, altered unnoticed *)
Definition crc_file :=
  mkPF (lit "abcdefg" ++ repeat x43 505 ++ repeat x42 200) (lit "crc.bin") ZLIB false false 0.
Definition crc_arc : bytes :=
  Eval vm_compute in match build toy no_md5 demo_cfg [crc_file] with Ok a => a | _ => [] end.
(** Byte 66 is in the first sector, which is stored as it is. *)
Definition altered_unnoticed (L : codecs) (c : config) (f : pending) (arc : bytes) (i : nat) (b : byte) : Prop :=
  exists a a' d', c_crcs c = true /\ build L no_md5 c [f] = Ok arc /\
    open_archive L arc = Ok a /\ open_archive L (upd arc i b) = Ok a' /\
    read_file L a (pf_name f) = Ok (pf_data f) /\
    read_file L a' (pf_name f) = Ok d' /\ adler32 d' <> adler32 (pf_data f).
Lemma crc_unnoticed : altered_unnoticed toy demo_cfg crc_file crc_arc 66 "!"%byte.
Proof.
  destruct (open_archive toy crc_arc) as [a| |] eqn:Ho; [|vm_compute in Ho; discriminate..].
  destruct (open_archive toy (upd crc_arc 66 "!"%byte)) as [a'| |] eqn:Ho'; [|vm_compute in Ho'; discriminate..].
  destruct (read_file toy a' (pf_name crc_file)) as [d'| |] eqn:Hr;
    [|exfalso; vm_compute in Ho'; injection Ho' as <-; vm_compute in Hr; discriminate..].
  exists a, a', d'. split; [reflexivity|]. split; [vm_compute; reflexivity|].
  split; [exact Ho|]. split; [exact Ho'|]. split; [|split; [exact Hr|]].
  - vm_compute in Ho. injection Ho as <-. vm_compute. reflexivity.
  - vm_compute in Ho'. injection Ho' as <-. vm_compute in Hr. injection Hr as <-.
    apply N.eqb_neq. vm_compute. reflexivity.
Qed.

(** ** A file called "(attributes)" *)
Definition attr_file := mkPF (lit "not attributes") (lit "(attributes)") 0 false false 0.
Definition attr_arc : bytes :=
  Eval vm_compute in match build toy no_md5 demo_cfg [attr_file] with Ok a => a | _ => [] end.
Lemma attr_unopenable : build toy no_md5 demo_cfg [attr_file] = Ok attr_arc /\
    forall a, open_archive toy attr_arc <> Ok a.
Proof.
  split; [vm_compute; reflexivity|]. intros a H. vm_compute in H. discriminate.
Qed.

(** ** The sectors of the three-sector file *)
Lemma clear_cut_dec L m s :
  match compress L s m with Ok r => bytes_eqb r s || (lenN r <? lenN s) | _ => true end = true ->
  clear_cut L m s.
Proof.
  intros H r Hr Hne. rewrite Hr in H. apply orb_prop in H as [H|H].
  - apply bytes_eqb_eq in H. contradiction.
  - now apply N.ltb_lt.
Qed.
Lemma demo_c_sectors : forall s, is_sector (sector_bytes demo_cfg) (pf_data file_c) s ->
  exact_on (pf_comp file_c) s /\ clear_cut toy (pf_comp file_c) s.
Proof.
  apply sectors_of; [reflexivity|]. apply Forall_forall. intros s Hs.
  split; [right; left; left; reflexivity|]. apply clear_cut_dec. revert s Hs.
  apply forallb_forall. vm_compute. reflexivity.
Qed.
Lemma demo_c_shrinks : exists s, is_sector (sector_bytes demo_cfg) (pf_data file_c) s /\ shrinks toy (pf_comp file_c) s.
Proof.
  exists (repeat x42 200). split.
  - exists (repeat x41 512 ++ lit "abcdefg" ++ repeat x43 505), [].
    split; [vm_compute; reflexivity|]. split; [vm_compute; reflexivity|]. split; [discriminate|].
    right. split; [vm_compute; reflexivity|reflexivity].
  - exists [x02; x00; xc8; x42]. split; [vm_compute; reflexivity|]. discriminate.
Qed.
