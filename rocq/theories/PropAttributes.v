(** * Property C23, continued: archives of the builder that hold an (attributes) file. *)
From Coq Require Import Lia ZifyNat ZifyN.
From Verif Require Import Bytes Crypto SpecNames NameFacts HashTable Header Compress SpecTables SpecCompress ToyCodec Listfile HetBet Builder BuilderFacts
  Attributes SpecAttributes Archive SpecArchive SpecArchive34 SpecNameTable DemoArchive DemoNames34 BuiltAttributes.
Open Scope N_scope.

(** A file [(attributes)] of version 100 that can be read back decides about the whole
    archive: if it is too short for what its flags announce, for as many entries as the
    archive has, the archive cannot be opened; otherwise it opens with these attributes,
    one per entry, and its files are read as ever. *)
Theorem C23_built_v1_v2 : forall (L : codecs) (md5 : bytes -> bytes) (c : config) (files : list pending) (arc pre post : bytes) (f : pending),
  lossless L -> built_at L md5 c files arc pre post -> no_collision (lit "(listfile)" :: map pf_name files) ->
  means files (lit "(attributes)") f -> reads_back L c (pf_comp f) (pf_data f) -> slice 0 4 (pf_data f) = Some (le32 100) ->
  ((forall s, slice 4 4 (pf_data f) = Some s -> lenN (pf_data f) < whole_size (le_dec s) (entry_count c files)) ->
   open_archive L (pre ++ arc ++ post) = Err EInvalidFormat) /\
  (forall s, slice 4 4 (pf_data f) = Some s -> whole_size (le_dec s) (entry_count c files) <= lenN (pf_data f) ->
   exists a x, open_archive L (pre ++ arc ++ post) = Ok a /\ a_attrs a = Some x /\ at_flags x = le_dec s /\
     lenN (at_files x) = entry_count c files /\
     (forall i v, nthN (at_files x) i = Some v -> file_at (pf_data f) (le_dec s) (entry_count c files) i v) /\
     (forall name g, means files name g -> reads_back L c (pf_comp g) (pf_data g) -> read_file L a name = Ok (pf_data g)) /\
     (forall name, hashes_apart name (lit "(listfile)" :: map pf_name files) ->
        find_file a name = Ok None /\ read_file L a name = Err EFileNotFound)).
Proof. exact attributes12. Qed.
Print Assumptions C23_built_v1_v2.

(** The same in versions 3 and 4, for names that the name table does not mistake. *)
Theorem C23_built_v3_v4 : forall (L : codecs) (md5 : bytes -> bytes) (c : config) (files : list pending) (arc pre post : bytes) (f : pending),
  lossless L -> built34_at L md5 c files arc pre post -> no_collision (lit "(listfile)" :: map pf_name files) ->
  ~ mistaken c files (lit "(attributes)") ->
  means files (lit "(attributes)") f -> reads_back L c (pf_comp f) (pf_data f) -> slice 0 4 (pf_data f) = Some (le32 100) ->
  ((forall s, slice 4 4 (pf_data f) = Some s -> lenN (pf_data f) < whole_size (le_dec s) (entry_count c files)) ->
   open_archive L (pre ++ arc ++ post) = Err EInvalidFormat) /\
  (forall s, slice 4 4 (pf_data f) = Some s -> whole_size (le_dec s) (entry_count c files) <= lenN (pf_data f) ->
   exists a x, open_archive L (pre ++ arc ++ post) = Ok a /\ a_attrs a = Some x /\ at_flags x = le_dec s /\
     lenN (at_files x) = entry_count c files /\
     (forall i v, nthN (at_files x) i = Some v -> file_at (pf_data f) (le_dec s) (entry_count c files) i v) /\
     (forall name g, ~ mistaken c files name -> means files name g -> reads_back L c (pf_comp g) (pf_data g) ->
        read_file L a name = Ok (pf_data g)) /\
     (forall name, ~ mistaken c files name -> hashes_apart name (lit "(listfile)" :: map pf_name files) ->
        find_file a name = Ok None /\ read_file L a name = Err EFileNotFound)).
Proof. exact attributes34. Qed.
Print Assumptions C23_built_v3_v4.

(** Two files and their attributes: checksums only, for three entries *)
Definition own_attributes (d : bytes) : pending := mkPF (le32 100 ++ le32 1 ++ d) (lit "(Attributes)") 0 false false 0.
Definition own_files (d : bytes) : list pending :=
  [mkPF (lit "first") (lit "a.txt") 0 false false 0; own_attributes d; mkPF (lit "second") (lit "b.txt") ZLIB true true 0].
Definition own_cfg (v : version) : config := mkCfg v 0 LNone ZLIB false false ZLIB.
Lemma own_means d : means (own_files d) (lit "(attributes)") (own_attributes d).
Proof.
  exists [mkPF (lit "first") (lit "a.txt") 0 false false 0], [mkPF (lit "second") (lit "b.txt") ZLIB true true 0].
  split; [reflexivity|]. split; [apply name_equivb_sound; vm_compute; reflexivity|].
  intros g [<-|[]] H. apply name_equivb_complete in H. vm_compute in H. discriminate H.
Qed.
Lemma own_collision d : no_collision (lit "(listfile)" :: map pf_name (own_files d)).
Proof. change (map pf_name (own_files d)) with (map pf_name (own_files [])). apply no_collisionb_sound. vm_compute. reflexivity. Qed.
Lemma own_sure d : ~ mistaken (own_cfg V4) (own_files d) (lit "(attributes)").
Proof.
  intros H. assert (G : mistakenb 3 4 2 (own_cfg V4) (own_files []) (lit "(attributes)") = Some false) by (vm_compute; reflexivity).
  apply (mistakenb_iff _ _ _ _ _ _ _ G) in H. discriminate H.
Qed.
Definition own_good : bytes := le32 11 ++ le32 22 ++ le32 33.
Definition own_short : bytes := le32 11 ++ le32 22.
Lemma own_built1 d : d = own_good \/ d = own_short -> exists arc, built_at toy no_md5 (own_cfg V1) (own_files d) arc [] [].
Proof.
  intros [-> | ->]; eexists; (split; [auto|]); (split;
    [split; [reflexivity|]; split; [reflexivity|]; intros f Hf; repeat (destruct Hf as [<-|Hf]; [split; reflexivity|]); destruct Hf|]);
  (split; [reflexivity|]); (split; [vm_compute; reflexivity|]); (split; [vm_compute; reflexivity|]); (split; [vm_compute; reflexivity|]);
  exists O; (split; [intros j Hj; lia|]); left; (split; [|reflexivity]); vm_compute; reflexivity.
Qed.
Lemma own_built4 d : d = own_good \/ d = own_short -> exists arc, built34_at toy no_md5 (own_cfg V4) (own_files d) arc [] [].
Proof.
  intros [-> | ->]; eexists; (split; [auto|]); (split; [reflexivity|]); (split; [reflexivity|]); (split;
    [split; [reflexivity|]; split; [reflexivity|]; intros f Hf; repeat (destruct Hf as [<-|Hf]; [split; reflexivity|]); destruct Hf|]);
  (split; [reflexivity|]); (split; [vm_compute; reflexivity|]); (split; [vm_compute; reflexivity|]); (split; [vm_compute; reflexivity|]);
  exists O; (split; [intros j Hj; lia|]); left; (split; [|reflexivity]); vm_compute; reflexivity.
Qed.
Lemma own_reads v d : lenN d <= 400 -> reads_back toy (own_cfg v) 0 (pf_data (own_attributes d)).
Proof.
  intros H. left. assert (E : lenN (pf_data (own_attributes d)) = 8 + lenN d) by (cbn [pf_data own_attributes]; unfold lenN; rewrite !app_length, !le32_length; lia).
  rewrite E. change (sector_bytes (own_cfg v)) with 512. split; [lia|]. split; [|now left]. change (2 ^ 32) with 4294967296. lia.
Qed.
Lemma own_start d : d = own_good \/ d = own_short ->
  slice 0 4 (pf_data (own_attributes d)) = Some (le32 100) /\ slice 4 4 (pf_data (own_attributes d)) = Some (le32 1).
Proof. intros [-> | ->]; split; vm_compute; reflexivity. Qed.
Example C23_built_example :
  (exists arc a x, open_archive toy arc = Ok a /\ build toy no_md5 (own_cfg V1) (own_files own_good) = Ok arc /\ a_attrs a = Some x /\
     lenN (at_files x) = 3 /\ read_file toy a (lit "B.TXT") = Ok (lit "second")) /\
  (exists arc, build toy no_md5 (own_cfg V1) (own_files own_short) = Ok arc /\ open_archive toy arc = Err EInvalidFormat) /\
  (exists arc a x, open_archive toy arc = Ok a /\ build toy no_md5 (own_cfg V4) (own_files own_good) = Ok arc /\ a_attrs a = Some x /\
     lenN (at_files x) = 3) /\
  (exists arc, build toy no_md5 (own_cfg V4) (own_files own_short) = Ok arc /\ open_archive toy arc = Err EInvalidFormat).
Proof.
  assert (G : own_good = own_good \/ own_good = own_short) by now left.
  assert (S : own_short = own_good \/ own_short = own_short) by now right.
  destruct (own_start _ G) as [G0 G4]. destruct (own_start _ S) as [S0 S4].
  assert (GL : lenN own_good <= 400) by (vm_compute; discriminate). assert (SL : lenN own_short <= 400) by (vm_compute; discriminate).
  split; [|split; [|split]].
  - destruct (own_built1 _ G) as (arc & B). exists arc.
    destruct (C23_built_v1_v2 _ _ _ _ _ _ _ _ toy_lossless B (own_collision _) (own_means _) (own_reads V1 _ GL) G0) as [_ H].
    destruct (H _ G4) as (a & x & Ho & Hx & _ & Hn & _ & Hr & _); [vm_compute; discriminate|].
    cbn [app] in Ho. rewrite app_nil_r in Ho. exists a, x. split; [exact Ho|]. split; [apply B|]. split; [exact Hx|]. split; [exact Hn|].
    refine (Hr _ (mkPF (lit "second") (lit "b.txt") ZLIB true true 0) _ _).
    + apply (means_dec _ _ _ [mkPF (lit "first") (lit "a.txt") 0 false false 0; own_attributes own_good] []); vm_compute; reflexivity.
    + left. split; [vm_compute; discriminate|]. split; [vm_compute; reflexivity|]. right. left. now left.
  - destruct (own_built1 _ S) as (arc & B). exists arc. split; [apply B|]. rewrite <- (app_nil_r arc).
    apply (proj1 (C23_built_v1_v2 _ _ _ _ _ _ _ _ toy_lossless B (own_collision _) (own_means _) (own_reads V1 _ SL) S0)).
    intros s E. rewrite S4 in E. injection E as <-. vm_compute. reflexivity.
  - destruct (own_built4 _ G) as (arc & B). exists arc.
    destruct (C23_built_v3_v4 _ _ _ _ _ _ _ _ toy_lossless B (own_collision _) (own_sure _) (own_means _) (own_reads V4 _ GL) G0) as [_ H].
    destruct (H _ G4) as (a & x & Ho & Hx & _ & Hn & _); [vm_compute; discriminate|].
    cbn [app] in Ho. rewrite app_nil_r in Ho. exists a, x. split; [exact Ho|]. split; [apply B|]. split; [exact Hx|exact Hn].
  - destruct (own_built4 _ S) as (arc & B). exists arc. split; [apply B|]. rewrite <- (app_nil_r arc).
    apply (proj1 (C23_built_v3_v4 _ _ _ _ _ _ _ _ toy_lossless B (own_collision _) (own_sure _) (own_means _) (own_reads V4 _ SL) S0)).
    intros s E. rewrite S4 in E. injection E as <-. vm_compute. reflexivity.
Qed.
