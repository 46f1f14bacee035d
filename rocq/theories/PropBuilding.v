(** * C48: building an archive never panics. *)
From Verif Require Import Bytes Compress Header ToyCodec Listfile Builder SpecBuilding BuildCalm BuildWide DemoArchive Demo34.
Open Scope N_scope.

(** Versions 1 and 2: the sector size has to fit a machine word, encrypted files
    have to stay below four gigabytes. *)
Theorem C48_v1_v2_partial :
  forall (L : codecs) (md5 : bytes -> bytes) (c : config) (files : list pending),
  calm_encoders L -> c_version c = V1 \/ c_version c = V2 ->
  c_block_size c < 55 -> lenN files < 2 ^ 30 - 2 ->
  (forall f, In f files -> pf_encrypt f = true -> lenN (pf_data f) <= 4000000000) ->
  build L md5 c files <> Panic.
Proof. exact build_calm12. Qed.
Print Assumptions C48_v1_v2_partial.

(** Versions 3 and 4: what an entry of the table of blocks has to hold of position,
    size and stored size has to be less than 64 bits.  Two megabytes of files are
    always little enough, a gigabyte of files below 64 kilobytes is as well. *)
Theorem C48_v3_v4_partial :
  forall (L : codecs) (md5 : bytes -> bytes) (c : config) (files : list pending),
  calm_encoders L -> c_version c = V3 \/ c_version c = V4 ->
  c_block_size c < 55 -> narrow (all_contents c files) ->
  build L md5 c files <> Panic.
Proof. exact build_calm34. Qed.
Print Assumptions C48_v3_v4_partial.

Example C48_example :
  calm_encoders toy /\
  build toy no_md5 (mkCfg V2 3 LGenerate ZLIB true false ZLIB)
    [mkPF (lit "hello") (lit "a.txt") ZLIB true true 0; mkPF (zeros 5000) (lit "b.bin") 0 true false 0] <> Panic /\
  build toy no_md5 (mkCfg V4 0 LGenerate ZLIB true true ZLIB)
    [mkPF (lit "hello") (lit "a.txt") ZLIB true true 0; mkPF (zeros 5000) (lit "b.bin") 0 true false 0] <> Panic.
Proof.
  assert (E : forall d, toy_enc d <> Panic) by (intros [|b t]; cbn [toy_enc]; [|destruct (_ && _)]; discriminate).
  assert (H : calm_encoders toy) by (unfold calm_encoders; auto).
  split; [exact H|]. split.
  - apply C48_v1_v2_partial; [exact H|right; reflexivity|reflexivity|reflexivity|].
    intros f [<-|[<-|[]]] _; vm_compute; discriminate.
  - apply C48_v3_v4_partial; [exact H|right; reflexivity|reflexivity|]. apply narrow_small. vm_compute. discriminate.
Qed.
Example C48_narrow_example :
  narrow (repeat (zeros 32768) 1000) /\ 2 ^ 24 < total_room (repeat (zeros 32768) 1000).
Proof.
  assert (Hr : room (zeros 32768) = 33296) by (unfold room; rewrite zeros_length; reflexivity).
  rewrite total_room_repeat, Hr. split; [|reflexivity]. split.
  - unfold lenN. rewrite repeat_length. vm_compute. discriminate.
  - exists 26, 16. rewrite total_room_repeat, Hr. split; [lia|]. split; [lia|]. split; [lia|].
    split; [vm_compute; discriminate|]. intros d Hd. apply repeat_spec in Hd. rewrite Hd, Hr. reflexivity.
Qed.

(** Versions 3 and 4, exactly: the builder panics if and only if all files can be
    stored and no three widths of together less than 64 bits hold the positions,
    the sizes and the stored sizes (the 64-bit word in which an entry is put
    together is shifted by 64 or more). *)
Theorem C48_v3_v4_iff :
  forall (L : codecs) (md5 : bytes -> bytes) (c : config) (files : list pending),
  calm_encoders L -> c_version c = V3 \/ c_version c = V4 ->
  c_block_size c < 55 -> lenN files < 2 ^ 17 ->
  (forall f, In f files -> pf_encrypt f = true -> lenN (pf_data f) <= 4000000000) ->
  (c_ctables c = true -> forall d, exists r, compress L d (c_tmethod c) = Ok r) ->
  (build L md5 c files = Panic <->
   exists l, placed L c (header_room (c_version c)) (prepare_listfile c files) l /\ ~ held 63 l).
Proof. exact (fun L md5 c files HC => build_panics34 L HC md5 c files). Qed.
Print Assumptions C48_v3_v4_iff.

(** The places of two small files and the list, and that they are held. *)
Example C48_iff_example :
  exists l, placed toy (mkCfg V4 0 LGenerate ZLIB true false ZLIB) (header_room V4)
    (prepare_listfile (mkCfg V4 0 LGenerate ZLIB true false ZLIB)
      [mkPF (lit "hello") (lit "a.txt") ZLIB true true 0; mkPF (zeros 700) (lit "b.bin") 0 true false 0]) l /\
    map (fun x => fst (fst x)) l = [208; 217; 937] /\ held 63 l.
Proof.
  eexists. split; [|split].
  - eapply placed_cons; [vm_compute; reflexivity|]. eapply placed_cons; [vm_compute; reflexivity|].
    eapply placed_cons; [vm_compute; reflexivity|]. apply placed_nil.
  - vm_compute. reflexivity.
  - exists 10, 10, 10. do 4 (split; [lia|]). intros a b d. vm_compute.
    intros [H|[H|[H|[]]]]; injection H as <- <- <-; repeat split.
Qed.

(** The block size is any 16-bit number; the documented limit of 31 is not checked. *)
Theorem C48_block_size_refuted :
  forall (L : codecs) (md5 : bytes -> bytes),
  build L md5 (mkCfg V1 64 LNone 0 false false 0) [] = Panic.
Proof. exact block_size_refuted. Qed.
Print Assumptions C48_block_size_refuted.

Theorem C48_sector_size_zero_refuted :
  forall (L : codecs) (md5 : bytes -> bytes),
  build L md5 (mkCfg V1 55 LNone 0 false false 0) [mkPF (lit "x") (lit "a") 0 false false 0] = Panic.
Proof. exact sector_zero_refuted. Qed.
Print Assumptions C48_sector_size_zero_refuted.

(** A file of two megabytes and an empty one, version 3. *)
Theorem C48_two_megabytes_refuted :
  forall (L : codecs) (md5 : bytes -> bytes) (d : bytes), 2 ^ 21 <= lenN d -> lenN d <= 2 ^ 25 ->
  build L md5 (mkCfg V3 16 LNone 0 false false 0)
    [mkPF d (lit "a") 0 false false 0; mkPF [] (lit "b") 0 false false 0] = Panic.
Proof. exact big_refuted. Qed.
Print Assumptions C48_two_megabytes_refuted.

(** An encrypted file of four gigabytes or more that is not compressed. *)
Theorem C48_encrypted_refuted :
  forall (L : codecs) (md5 : bytes -> bytes) (c : config) (f : pending) (rest : list pending),
  c_block_size c <= 6 -> lenN rest < 2 ^ 29 -> pf_encrypt f = true -> pf_comp f = 0 ->
  2 ^ 32 <= lenN (pf_data f) -> lenN (pf_data f) <= 2 ^ 33 ->
  build L md5 c (f :: rest) = Panic.
Proof. exact encrypted_refuted. Qed.
Print Assumptions C48_encrypted_refuted.

Example C48_refuted_example :
  (exists d : bytes, 2 ^ 21 <= lenN d /\ lenN d <= 2 ^ 25) /\
  (exists f : pending, pf_encrypt f = true /\ pf_comp f = 0 /\
     2 ^ 32 <= lenN (pf_data f) /\ lenN (pf_data f) <= 2 ^ 33).
Proof.
  split.
  - exists (zeros (2 ^ 21)). rewrite zeros_length. split; vm_compute; discriminate.
  - exists (mkPF (zeros (2 ^ 32)) (lit "a") 0 true false 0). cbn [pf_encrypt pf_comp pf_data]. rewrite zeros_length.
    repeat split; vm_compute; discriminate.
Qed.
