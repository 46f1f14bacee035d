(** * An archive whose files are, and are not, stored as the format says. *)
From Verif Require Import Bytes Crypto CryptoFacts SpecNames HashTable BlockTable Header SpecHeader Compress SpecCompress
  SpecTables ToyCodec HeaderSearch CompressFacts Listfile Adler Builder BuilderFacts HetBet Attributes Archive ReadFacts
  SpecArchive ArchiveFacts DemoArchive Demo34 SpecStored StoredFacts SpecConform ConformFacts.
Open Scope N_scope.

(** Two sectors, the second compressed, both encrypted with an altered key *)
Definition fit_file := mkPF (repeat x41 512 ++ repeat x42 100) (lit "dir\fit.bin") ZLIB true true 0.
(** Five bytes, encrypted *)
Definition rest_file := mkPF (lit "hello") (lit "five.txt") 0 true false 0.
(** Four bytes that become three and a method byte *)
Definition even_file := mkPF (repeat x41 4) (lit "even.txt") ZLIB false false 0.
(** Two sectors without compression *)
Definition plain_file := mkPF (repeat x41 600) (lit "plain.bin") 0 false false 0.
Definition conf_files := [fit_file; rest_file; even_file; plain_file].
Definition conf_cfg := mkCfg V1 0 LNone 0 true false 0.
Definition conf_bytes : bytes :=
  Eval vm_compute in match build toy no_md5 conf_cfg conf_files with Ok a => a | _ => [] end.
Definition conf_arc : archive :=
  Eval vm_compute in match open_archive toy conf_bytes with
                     | Ok a => a
                     | _ => mkA [] 0 None (mkHeader 0 0 V1 0 0 0 0 0 None None None None None None None) None None None None None None
                     end.
Definition conf_info (name : bytes) : finfo :=
  match find_file conf_arc name with Ok (Some fi) => fi | _ => mkFI 0 0 0 0 0 0 0 end.

Lemma conf_built : built_at toy no_md5 conf_cfg conf_files conf_bytes [] [].
Proof.
  split; [left; reflexivity|]. split.
  { split; [reflexivity|]. split; [reflexivity|]. intros f Hf.
    repeat (destruct Hf as [<-|Hf]; [split; reflexivity|]). destruct Hf. }
  assert (Hb : build toy no_md5 conf_cfg conf_files = Ok conf_bytes) by (vm_compute; reflexivity).
  split; [reflexivity|]. split; [exact Hb|].
  split; [vm_compute; reflexivity|]. split; [vm_compute; reflexivity|].
  cbn [app]. change (lenN (@nil byte)) with 0. exact (reached_start toy no_md5 conf_cfg conf_files conf_bytes [] eq_refl Hb).
Qed.
Lemma conf_no_collision : no_collision (LISTFILE :: map pf_name conf_files).
Proof. apply no_collisionb_sound. vm_compute. reflexivity. Qed.
Lemma conf_apart : hashes_apart ATTRIBUTES (LISTFILE :: map pf_name conf_files).
Proof. apply hashes_apartb_sound. vm_compute. reflexivity. Qed.
Lemma conf_opens : open_archive toy conf_bytes = Ok conf_arc.
Proof. vm_compute. reflexivity. Qed.

Lemma means_fit : means conf_files (lit "DIR/Fit.bin") fit_file.
Proof. apply (means_dec _ _ _ [] [rest_file; even_file; plain_file]); vm_compute; reflexivity. Qed.
Lemma means_rest : means conf_files (lit "five.txt") rest_file.
Proof. apply (means_dec _ _ _ [fit_file] [even_file; plain_file]); vm_compute; reflexivity. Qed.
Lemma means_even : means conf_files (lit "even.txt") even_file.
Proof. apply (means_dec _ _ _ [fit_file; rest_file] [plain_file]); vm_compute; reflexivity. Qed.
Lemma means_plain : means conf_files (lit "plain.bin") plain_file.
Proof. apply (means_dec _ _ _ [fit_file; rest_file; even_file] []); vm_compute; reflexivity. Qed.

Lemma fit_units : forall s, unit_of (sector_bytes conf_cfg) (pf_data fit_file) s ->
  clear_cut toy (pf_comp fit_file) s /\ (pf_encrypt fit_file = true -> in_words toy (pf_comp fit_file) s).
Proof.
  intros s [[H _]|[_ H]]; [exfalso; vm_compute in H; now apply H|]. revert s H.
  apply sectors_of; [reflexivity|]. change (chunks _ _ _) with [repeat x41 512; repeat x42 100].
  constructor; [|constructor; [|constructor]].
  - split.
    + intros r Hr Hne. vm_compute in Hr. apply Ok_inj in Hr. subst r. now elim Hne.
    + intros _ r Hr. vm_compute in Hr. apply Ok_inj in Hr. subst r. vm_compute. reflexivity.
  - split.
    + intros r Hr Hne. vm_compute in Hr. apply Ok_inj in Hr. subst r. vm_compute. reflexivity.
    + intros _ r Hr. vm_compute in Hr. apply Ok_inj in Hr. subst r. vm_compute. reflexivity.
Qed.
Lemma fit_shrinks : sector_bytes conf_cfg < lenN (pf_data fit_file) ->
  exists s, is_sector (sector_bytes conf_cfg) (pf_data fit_file) s /\ shrinks toy (pf_comp fit_file) s.
Proof.
  intros _. exists (repeat x42 100). split.
  - exists (repeat x41 512), []. split; [rewrite app_nil_r; reflexivity|]. split; [reflexivity|]. split; [discriminate|].
    right. split; reflexivity.
  - exists [x02; x00; Nb 100; x42]. split; [vm_compute; reflexivity|discriminate].
Qed.

Definition rest_info : finfo := Eval vm_compute in conf_info (lit "five.txt").
Definition even_info : finfo := Eval vm_compute in conf_info (lit "even.txt").
Lemma rest_found : find_file conf_arc (lit "five.txt") = Ok (Some rest_info).
Proof. vm_compute. reflexivity. Qed.
Lemma even_found : find_file conf_arc (lit "even.txt") = Ok (Some even_info).
Proof. vm_compute. reflexivity. Qed.

(** The last byte of the five is encrypted too. *)
Lemma rest_odd : forall whole, ~ stored_as toy whole conf_bytes 0 512 (lit "five.txt")
  (fi_pos rest_info) (fi_csize rest_info) (fi_flags rest_info) (pf_data rest_file).
Proof.
  intros whole H. unfold stored_as in H.
  change (on (fi_flags rest_info) 24) with true in H. cbv zeta iota in H.
  destruct H as (p & s & Hs & Hk & Hp & _).
  assert (p = pf_data rest_file) as ->.
  { destruct Hp as [E|(_ & [(E & _)|(E & _)])]; [exact E| |]; vm_compute in E; discriminate. }
  unfold kept in Hk. change (on (fi_flags rest_info) 16) with true in Hk. cbv iota in Hk.
  apply enciphered_once in Hk. rewrite Hk in Hs. clear Hk. vm_compute in Hs. discriminate.
Qed.
(** The four bytes are packed though that does not make them fewer. *)
Lemma even_odd : forall whole, ~ stored_as toy whole conf_bytes 0 512 (lit "even.txt")
  (fi_pos even_info) (fi_csize even_info) (fi_flags even_info) (pf_data even_file).
Proof.
  intros whole H. unfold stored_as in H.
  change (on (fi_flags even_info) 24) with true in H. cbv zeta iota in H.
  destruct H as (p & s & Hs & Hk & Hp & _).
  unfold kept in Hk. change (on (fi_flags even_info) 16) with false in Hk. cbv iota in Hk. subst s.
  assert (E : slice (fi_pos even_info) (fi_csize even_info) conf_bytes = Some [x02; x00; x04; x41]) by (vm_compute; reflexivity).
  rewrite E in Hs. injection Hs as <-. destruct Hp as [E'|(E' & _)]; vm_compute in E'; discriminate.
Qed.
Lemma rest_clear : clear_cut toy (pf_comp rest_file) (pf_data rest_file).
Proof. intros r Hr Hne. vm_compute in Hr. apply Ok_inj in Hr. subst r. now elim Hne. Qed.
Lemma plain_none : forall s, is_sector (sector_bytes conf_cfg) (pf_data plain_file) s -> ~ shrinks toy (pf_comp plain_file) s.
Proof. intros s _ (r & Hr & Hne). apply Hne. change (pf_comp plain_file) with 0 in Hr. now apply compress_0 in Hr. Qed.
Lemma rest_small : lenN (pf_data rest_file) <= sector_bytes conf_cfg.
Proof. vm_compute. discriminate. Qed.
Lemma even_small : lenN (pf_data even_file) <= sector_bytes conf_cfg.
Proof. vm_compute. discriminate. Qed.

Lemma five_units_c : forall s, unit_of (sector_bytes five_cfg) (pf_data five_c) s ->
  clear_cut toy (pf_comp five_c) s /\ (pf_encrypt five_c = true -> in_words toy (pf_comp five_c) s).
Proof.
  intros s _. split; [|discriminate]. intros r Hr Hne. exfalso. apply Hne. now apply compress_0 in Hr.
Qed.
