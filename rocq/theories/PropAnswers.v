(** * Properties C53-C55: what the C API tells about archives and files. *)
From Verif Require Import Bytes Adler Compress ToyCodec Builder Archive DemoArchive Ffi SpecFfi SpecAnswers FfiMain FfiDemo DemoAnswers SpecMasks MaskFacts.
Open Scope N_scope.

(** ** C53 *)
(** There is one assignment of archives and files to handles that agrees with all
    calls that opened them, and every answer of every call with usable arguments is
    about the archive or file of its handle. A call whose handle is not open fails
    with the code for that. *)
Theorem C53_answers_about_the_handle (L : codecs) (md5 sha1 : bytes -> bytes) (crc32 : bytes -> N)
    (rd : archive -> N -> N -> N) (clients : list client) (c : state) :
  reachable L md5 sha1 crc32 rd clients c -> finished c ->
  exists w, fits_history L w (s_log (fst c)) /\
  forall e h, In e (s_log (fst c)) -> h <> 0 -> good_ask (e_call e) ->
  (asks_archive (e_call e) h ->
     (refused_handle (e_call e) (e_ret e) (e_err e) /\ no_archive (s_log (fst c)) e h) \/ tells_archive L md5 sha1 crc32 rd w e h) /\
  (asks_file (e_call e) h ->
     (refused_handle (e_call e) (e_ret e) (e_err e) /\ no_file (s_log (fst c)) e h) \/ tells_file w e h) /\
  (on_either (e_call e) h ->
     tells_file w e h \/ (no_file (s_log (fst c)) e h /\
       ((refused_handle (e_call e) (e_ret e) (e_err e) /\ no_archive (s_log (fst c)) e h) \/ tells_archive L md5 sha1 crc32 rd w e h))).
Proof. exact (answers_fit L md5 sha1 crc32 rd clients c). Qed.
Print Assumptions C53_answers_about_the_handle.

Example C53_example :
  exists c, reachable toy no_md5 no_md5 zero_crc full
    [open_then (fun a => file_then a (lit "DIR/A.txt") (fun h =>
       calls [CHasFile a (Some (lit "d.txt")); CHasFile a (Some (lit "e.txt")); CFileSize h true; CFileName h true;
              CFileInfo h 7 true 8; CFileInfo a 3 true 4; CFileInfo a 3 true 3; CArchiveName a true 6; CArchiveName a true 5;
              CEnumFiles a (Some (lit ".txt")) false (fun n => ([], beqb (last n x00) "t"%byte));
              CVerifyFile a (Some (lit "c.bin")) 0; CExtract a (Some (lit "no")) (Some (lit "out"));
              COpenFile a (Some (lit "no")) true; CFileInfo h 99 true 8; CFileSize a true; CArchiveName h true 6]))] c /\
  finished c /\
  map (fun e => (e_ret e, e_err e)) (skipn 2 (rev (s_log (fst c)))) =
    [(RBool true, 0); (RBool false, 0); (RNum 11 (Some 0%Z), 0); (RData (lit "DIR/A.txt" ++ [x00]), 0);
     (RInfo [x0b; x00; x00; x00; x00; x00; x00; x00] 8, 0); (RInfo [x05; x00; x00; x00] 4, 0); (RNeed 4, 122);
     (RData (lit "x.mpq" ++ [x00]), 0); (RBool false, 122);
     (RNames [lit "dir\a.txt"; lit "dir\b.txt"; lit "d.txt"], 0);
     (RBool true, 0); (RBool false, 2); (RBool false, 2); (RBool false, 50);
     (RNum 0xFFFFFFFF None, 6); (RBool false, 6)].
Proof.
  eexists (demo_run [(0, 1000)]%nat [_]).
  split; [apply demo_run_reachable|]. split; [apply finishedb_sound; vm_compute; reflexivity|]. vm_compute. reflexivity.
Qed.

(** The size that is told is the one in the tables, not the length of what can be
    read from the file. *)
Theorem C53_size_refuted :
  exists L md5 sha1 crc32 rd clients c, reachable L md5 sha1 crc32 rd clients c /\ finished c /\
  exists e1 e2 x, In e1 (s_log (fst c)) /\ In e2 (s_log (fst c)) /\
    e_call e1 = CFileSize 2 true /\ e_ret e1 = RNum 700 (Some 0%Z) /\
    (forall e, In e (s_log (fst c)) -> on_file (e_call e) 2 -> e = e1 \/ e = e2) /\
    e_call e2 = CReadFile 2 true 10000 /\ e_ret e2 = RData x /\ lenN x <> 700 /\ lenN x < 10000.
Proof.
  exact (ex_intro _ toy (ex_intro _ no_md5 (ex_intro _ no_md5 (ex_intro _ zero_crc (ex_intro _ full
    (ex_intro _ [raw_client] size_run)))))).
Qed.
Print Assumptions C53_size_refuted.

(** ** C54 *)
(** A mask has its common meaning for all names if and only if it is a text without
    stars and question marks between stars, or just stars. *)
Theorem C54_masks_iff (d p : bytes) : holds d p ->
  (forall s, ~ In x00 s -> (mask_matches (Some d) s <-> wild p s)) <-> between_stars p.
Proof. exact (masks_iff d p). Qed.
Print Assumptions C54_masks_iff.
Example C54_masks_example :
  (forall s, ~ In x00 s -> (mask_matches (Some (lit "**.tx*")) s <-> wild (lit "**.tx*") s)) /\
  ~ (forall s, ~ In x00 s -> (mask_matches (Some (lit "*.txt")) s <-> wild (lit "*.txt") s)).
Proof.
  split.
  - apply C54_masks_iff; [split; [vm_compute; intuition discriminate|now left]|]. right. exists 1%nat, (lit ".tx"), 0%nat.
    split; [reflexivity|vm_compute; intuition congruence].
  - intros H. assert (W : wild (lit "*.txt") (lit ".txta")).
    { apply H; [vm_compute; intuition discriminate|]. split; [vm_compute; intuition discriminate|]. exists (lit "*.txt").
      split; [split; [vm_compute; intuition discriminate|now left]|]. now exists [], (lit "a"). }
    change (lit "*.txt") with (lit "*.tx" ++ lit "t") in W. apply wild_last in W; [|discriminate|discriminate].
    destruct W as [r W]. change (lit ".txta") with (lit ".txt" ++ lit "a") in W. apply app_inj_tail in W. destruct W. discriminate.
Qed.
Example C54_example : mask_matches (Some (lit "*.tx*")) (lit "d.txt") /\ ~ mask_matches (Some (lit "*.bin*")) (lit "d.txt").
Proof.
  split.
  - split; [|exists (lit "*.tx*"); split; [split; [|now left]|now exists (lit "d"), (lit "t")]]; vm_compute; intuition discriminate.
  - intros H. apply (mask_agrees (lit ".bin")) in H.
    + inversion H as [|? u v Hw Ep Es|? ? ? ?|? ? ? N1 ? ?].
      apply (wild_lit (lit ".bin")) in Hw; [|vm_compute; intuition congruence]. destruct Hw as [r ->].
      apply (f_equal (fun l => In "b"%byte l)) in Es. assert (K : In "b"%byte (lit "d.txt")).
      { rewrite <- Es. apply in_or_app. right. apply in_or_app. left. vm_compute. auto. }
      vm_compute in K. intuition discriminate.
    + vm_compute; intuition congruence.
    + split; [vm_compute; intuition discriminate|now left].
    + vm_compute; intuition discriminate.
Qed.

(** In general the claim is false: a mask for names that end in [.t] also gives
    names that do not, and one for a single byte before [.txt] does not give
    [d.txt]. *)
Theorem C54_wildcards_refuted :
  exists L md5 sha1 crc32 rd clients c, reachable L md5 sha1 crc32 rd clients c /\ finished c /\
  (exists e a m cb shown n, In e (s_log (fst c)) /\ e_call e = CEnumFiles a (Some m) false cb /\
     e_ret e = RNames shown /\ In n shown /\ ~ wild m n) /\
  (exists e a m cb shown n, In e (s_log (fst c)) /\ e_call e = CEnumFiles a (Some m) false cb /\
     (forall x, snd (cb x) = true) /\ e_ret e = RNames shown /\ ~ In n shown /\ wild m n /\
     exists e0 cb0 shown0, In e0 (s_log (fst c)) /\ e_call e0 = CEnumFiles a (Some (lit "*.t")) false cb0 /\
       e_ret e0 = RNames shown0 /\ In n shown0).
Proof. exact masks_astray. Qed.
Print Assumptions C54_wildcards_refuted.

(** ** C55 *)
(** [SFileVerifyFile] of an opened archive succeeds exactly if the file is found
    and what was asked for (and is recorded) holds. *)
Theorem C55_verify_file (L : codecs) (md5 : bytes -> bytes) (crc32 : bytes -> N)
    (file : bytes) (y : archive) (name : bytes) (flags err : N) (y' : archive) :
  open_archive L file = Ok y -> verify_file L md5 crc32 y name flags = Ok (err, y') ->
  (err = 0 <-> checks_out L md5 crc32 y name flags).
Proof. exact (verify_opened L md5 crc32 file y name flags err y'). Qed.
Print Assumptions C55_verify_file.

(** Checking sector checksums means reading the file, and reading only logs wrong
    ones (C20): an altered file passes. *)
Theorem C55_wrong_checksum_refuted :
  exists L md5 crc32 c f arc i b y d, c_crcs c = true /\ build L md5 c [f] = Ok arc /\
    open_archive L (Bytes.upd arc i b) = Ok y /\ read_file L y (pf_name f) = Ok d /\ adler32 d <> adler32 (pf_data f) /\
    lenN d = lenN (pf_data f) /\
    forall fl, checks_out L md5 crc32 y (pf_name f) fl.
Proof. exact wrong_checksum. Qed.
Print Assumptions C55_wrong_checksum_refuted.

(** The demonstration archive records no digests; its file checks out, an absent
    one does not. *)
Example C55_example :
  exists y, open_archive toy demo_file = Ok y /\
    verify_file toy no_md5 zero_crc y (lit "d.txt") 0 = Ok (0, y) /\
    verify_file toy no_md5 zero_crc y (lit "no") 0 = Ok (2, y).
Proof.
  destruct (open_archive toy demo_file) as [y| |] eqn:E; [|vm_compute in E; discriminate..].
  exists y. split; [reflexivity|]. vm_compute in E. injection E as <-. vm_compute. split; reflexivity.
Qed.
