(** * Properties C26, C27: digital signatures. *)
From Verif Require Import Bytes Header Compress Archive Signature SpecSignature SignatureFacts.
Open Scope N_scope.

(** C26: however the reader splits the data, the digest is taken over the range
    with the bytes of the excluded part read as zeros. *)
Theorem C26_digest_data : forall (rd : N -> N -> N) (file : bytes) (si : sig_info),
  reader_of file rd -> si_xbegin si <= si_xend si ->
  digest_data rd file si =
  Ok (blanked (si_xbegin si) (si_xend si) (si_begin si) (portion (si_begin si) (si_end si) file)).
Proof. exact digest_data_ok. Qed.
Print Assumptions C26_digest_data.

(** Bytes inside the excluded part never matter, every byte of the range outside
    of it does. *)
Theorem C26_depends_exactly_on_the_rest :
  forall (rd rd' : N -> N -> N) (si : sig_info) (f g : bytes),
  reader_of f rd -> reader_of g rd' -> lenN f = lenN g -> si_xbegin si <= si_xend si ->
  (digest_data rd f si = digest_data rd' g si <->
   agree_at (fun p => si_begin si <= p < si_end si /\ (p < si_xbegin si \/ si_xend si <= p)) f g).
Proof. exact digest_agree. Qed.
Print Assumptions C26_depends_exactly_on_the_rest.

(** For an archive: the range is the archive and the excluded part is where the
    signature file is stored. *)
Theorem C26_archive_digest :
  forall (L : codecs) (md5 : bytes -> bytes) (rd : N -> N -> N) (k : rsa_key) (a : archive)
         (fi : finfo) (data s : bytes),
  reader_of (a_file a) rd -> find_file a (lit "(signature)") = Ok (Some fi) ->
  read_file L a (lit "(signature)") = Ok data -> parse_weak_signature data = Ok s ->
  fi_pos fi + fi_csize fi < M64 -> a_off a + h_archive_size (a_header a) < M64 ->
  archive_verify_weak L md5 rd k a =
    match verify_pkcs1_v15_md5 (rsa_open k s)
            (md5 (blanked (fi_pos fi) (fi_pos fi + fi_csize fi) (a_off a)
                   (portion (a_off a) (a_off a + h_archive_size (a_header a)) (a_file a)))) with
    | Ok true => Ok WeakValid
    | Panic => Panic
    | _ => Ok WeakInvalid
    end.
Proof. exact archive_weak_digest. Qed.
Print Assumptions C26_archive_digest.

(** Three bytes at a time, the excluded part straddling two reads. *)
Example C26_example :
  let file := lit "xxarchive SIGN rest" in
  digest_data (slow file) file (mkSI 2 17 10 14) = Ok (lit "archive " ++ zeros 4 ++ lit " re").
Proof.
  cbv zeta. rewrite C26_digest_data; [vm_compute; reflexivity|apply slow_reader|discriminate].
Qed.

(** C27: a strong signature is reported as valid exactly if it stands directly
    behind the archive and signs the padded digest of the archive. *)
Theorem C27_strong_signature :
  forall (sha1 : bytes -> bytes), (forall d, length (sha1 d) = 20%nat) ->
  forall (rd : N -> N -> N) (k : rsa_key) (a : archive),
  k_n k <> 0 -> reader_of (a_file a) rd -> lenN (a_file a) < 2 ^ 63 ->
  let fin := a_off a + get_archive_size (a_header a) in
  (archive_verify_strong sha1 rd k a = Ok StrongValid <->
   exists s, length s = 256%nat /\ slice fin 260 (a_file a) = Some (lit "NGIS" ++ s) /\
     signs k s (strong_text (sha1 (portion (a_off a) fin (a_file a))))).
Proof. exact strong_iff. Qed.
Print Assumptions C27_strong_signature.

(** A 40-byte archive with a signature for a key with exponent one. *)
Definition demo_sha1 (d : bytes) : bytes := firstn 20 (rev d ++ zeros 20).
Definition demo_signed : archive :=
  let body := lit "0123456789012345678901234567890123456789" in
  let h := mkHeader 32 40 V1 3 0 0 0 0 None None None None None None None in
  mkA (body ++ lit "NGIS" ++ rev (strong_text (demo_sha1 body))) 0 None h None None None None None None.
Example C27_example :
  archive_verify_strong demo_sha1 (slow (a_file demo_signed)) (open_key 2048) demo_signed = Ok StrongValid.
Proof.
  apply C27_strong_signature.
  - intros d. unfold demo_sha1. rewrite firstn_length, app_length. unfold zeros. rewrite repeat_length.
    change (N.to_nat 20) with 20%nat. Lia.lia.
  - discriminate.
  - apply slow_reader.
  - reflexivity.
  - exists (rev (strong_text (demo_sha1 (lit "0123456789012345678901234567890123456789")))).
    split; [reflexivity|]. split; [vm_compute; reflexivity|]. vm_compute. reflexivity.
Qed.
(** With the real key the same bytes are no signature. *)
Example C27_example_real_key :
  archive_verify_strong demo_sha1 (slow (a_file demo_signed)) strong_public_key demo_signed = Ok StrongInvalid.
Proof. vm_compute. reflexivity. Qed.

(** The check of the padding of a weak signature, by itself, is exact: it accepts
    PKCS#1 v1.5 with at least eight bytes of padding and nothing else. *)
Theorem C27_weak_padding : forall d hash : bytes, length hash = 16%nat ->
  (verify_pkcs1_v15_md5 d hash = Ok true <-> exists n, (8 <= n)%nat /\ d = padded_text n hash).
Proof. exact weak_padding_iff. Qed.
Print Assumptions C27_weak_padding.
Example C27_weak_padding_example :
  let hash := lit "0123456789abcdef" in
  weak_text hash = padded_text 27 hash /\ verify_pkcs1_v15_md5 (weak_text hash) hash = Ok true /\
  verify_pkcs1_v15_md5 (weak_text hash ++ [x00]) (hash ++ [x00]) = Ok false.
Proof.
  cbv zeta. split; [reflexivity|]. split; [|vm_compute; reflexivity].
  apply (proj2 (C27_weak_padding _ (lit "0123456789abcdef") eq_refl)). exists 27%nat. split; [Lia.lia|reflexivity].
Qed.

(** C27 fails for weak signatures: a proper signature is rejected... *)
Theorem C27_weak_rejects_valid_refuted : exists k s file si,
  length s = 64%nat /\
  signs k s (weak_text (zero_md5 (blanked (si_xbegin si) (si_xend si) (si_begin si)
                               (portion (si_begin si) (si_end si) file)))) /\
  verify_weak_stormlib zero_md5 (slow file) k file s si = Ok false.
Proof. exact weak_rejects. Qed.
Print Assumptions C27_weak_rejects_valid_refuted.

(** ... and none is ever accepted, for any key, archive and digest function:
    the leading zero byte that the check asks for is not there in the bytes of a
    number.  (So "for nothing else" holds.) *)
Theorem C27_weak_never_valid :
  forall (L : codecs) (md5 : bytes -> bytes) (rd : N -> N -> N) (k : rsa_key) (a : archive),
  archive_verify_weak L md5 rd k a <> Ok WeakValid.
Proof. exact archive_weak_never. Qed.
Print Assumptions C27_weak_never_valid.

(** The two keys of the code are what keys should be (a digit changed would give a small factor
    or another length more likely than not). *)
Theorem C27_keys : usual_key 512 weak_public_key /\ usual_key 2048 strong_public_key.
Proof. exact keys_usual. Qed.
Print Assumptions C27_keys.
