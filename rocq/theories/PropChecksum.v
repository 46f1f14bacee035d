(** * Property C20, continued: what the checksums are; and C12, C23: streams without a
    head, attributes packed twice. *)
From Verif Require Import Bytes Adler Compress ToyCodec SpecChecksum AdlerFacts Attributes Archive UnwrapFacts DemoArchive.
Open Scope N_scope.

(** The checksum of a sector is the Adler-32 of RFC 1950. *)
Theorem C20_adler32 : forall (d : bytes), adler32 d = rfc1950 d.
Proof. exact adler_rfc. Qed.
Print Assumptions C20_adler32.
Example C20_adler32_example : adler32 (lit "Wikipedia") = 0x11E60398 /\ rfc1950 (lit "Wikipedia") = 0x11E60398.
Proof. split; vm_compute; reflexivity. Qed.

(** One wrong byte is always noticed, and so are two neighbours that have changed
    places; not every change is. *)
Theorem C20_one_byte : forall (p : bytes) (x y : byte) (q : bytes), adler32 (p ++ x :: q) = adler32 (p ++ y :: q) -> x = y.
Proof. exact adler_one_byte. Qed.
Print Assumptions C20_one_byte.
Theorem C20_swapped : forall (p : bytes) (x y : byte) (q : bytes), adler32 (p ++ x :: y :: q) = adler32 (p ++ y :: x :: q) -> x = y.
Proof. exact adler_swap. Qed.
Print Assumptions C20_swapped.
Theorem C20_all_changes_refuted : exists d e, lenN d = lenN e /\ d <> e /\ adler32 d = adler32 e.
Proof. exact adler_collision. Qed.
Print Assumptions C20_all_changes_refuted.
Example C20_one_byte_example : adler32 (lit "abc") <> adler32 (lit "abd") /\ adler32 (lit "abc") <> adler32 (lit "acb").
Proof.
  split; intros H.
  - apply (C20_one_byte (lit "ab")) in H. discriminate.
  - apply (C20_swapped (lit "a")) in H. discriminate.
Qed.

(** An imploded stream is unpacked with the first of six heads that works, and only so. *)
Theorem C12_imploded : forall (L : codecs) (d : bytes) (n : N) (r : bytes), d <> [] -> (forall c, pk_dec L c <> Panic) ->
  (decompress L d 0x04 n = Ok r <-> first_head L d r).
Proof. exact imploded_first. Qed.
Print Assumptions C12_imploded.
(** A decoder that knows dictionaries of 2 kilobytes only *)
Definition two_kilo : codecs := mkCodecs toy_enc toy_dec toy_enc toy_dec toy_enc toy_dec toy_enc
  (fun c => match c with t :: x05 :: r => Ok (t :: r) | _ => Err ECompression end).
Example C12_imploded_example : decompress two_kilo (lit "abc") 0x04 3 = Ok (x00 :: lit "abc").
Proof.
  apply (C12_imploded two_kilo (lit "abc") 3 (x00 :: lit "abc")); [discriminate| |].
  - intros [|t [|[] r]]; discriminate.
  - exists [(0, 4)], (0, 5), [(0, 6); (1, 4); (1, 5); (1, 6)]. split; [reflexivity|]. split; [|reflexivity].
    intros g [<-|[]]. eexists. reflexivity.
Qed.

(** Attributes of at least four bytes that do not begin with the version are taken for
    packed once more, if the first byte can be a method; what does not unpack is taken
    as it is. *)
Theorem C23_packed_twice : forall (L : codecs) (a : archive) (bt : list BlockTable.bentry) (m : byte) (rest : bytes),
  a_attrs a = None -> a_block a = Some bt -> read_file L a (lit "(attributes)") = Ok (m :: rest) ->
  4 <= lenN (m :: rest) -> firstn 4 (m :: rest) <> le32 100 -> bN m <> 100 -> bN m mod 16 <> 0 ->
  (forall d x, decompress L rest (bN m) (lenN bt * 100) = Ok d -> attr_parse d (lenN bt) = Ok x ->
     exists y, load_attributes L a = Ok y /\ a_attrs y = Some x) /\
  (forall d e, decompress L rest (bN m) (lenN bt * 100) = Ok d -> attr_parse d (lenN bt) = Err e -> load_attributes L a = Err e) /\
  (forall e, decompress L rest (bN m) (lenN bt * 100) = Err e -> load_attributes L a = Err EInvalidFormat).
Proof. exact unwrapped. Qed.
Print Assumptions C23_packed_twice.
(** Four bytes that a decoder makes attributes of *)
Definition lavish : codecs := mkCodecs toy_enc (fun _ => Ok (le32 100 ++ le32 0)) toy_enc toy_dec toy_enc toy_dec toy_enc toy_dec.
Definition lavish_files : list Builder.pending := [Builder.mkPF [x02; x01; x00; x00] (lit "(attributes)") 0 false false 0].
Definition lavish_arc : bytes :=
  Eval vm_compute in match Builder.build toy no_md5 (Builder.mkCfg Header.V1 0 Builder.LNone 0 false false 0) lavish_files with Ok a => a | _ => [] end.
Definition lavish_before (o : archive) : archive :=
  mkA (a_file o) (a_off o) (a_user o) (a_header o) (a_hash o) (a_block o) (a_hi o) (a_het o) (a_bet o) None.
Example C23_packed_twice_example : exists o x,
  open_archive lavish lavish_arc = Ok o /\ read_file lavish o (lit "(attributes)") = Ok [x02; x01; x00; x00] /\
  attr_parse (le32 100 ++ le32 0) 1 = Ok x /\ exists y, load_attributes lavish (lavish_before o) = Ok y /\ a_attrs y = Some x.
Proof.
  assert (P : exists x, attr_parse (le32 100 ++ le32 0) 1 = Ok x) by (eexists; vm_compute; reflexivity). destruct P as [x P].
  assert (O : exists o bt, open_archive lavish lavish_arc = Ok o /\ read_file lavish o (lit "(attributes)") = Ok [x02; x01; x00; x00] /\
    a_block o = Some bt /\ lenN bt = 1 /\ read_file lavish (lavish_before o) (lit "(attributes)") = Ok [x02; x01; x00; x00]).
  { eexists. eexists. split; [vm_compute; reflexivity|]. split; [vm_compute; reflexivity|]. split; [vm_compute; reflexivity|].
    split; vm_compute; reflexivity. }
  destruct O as (o & bt & Ho & Hr & Hb & Hn & Hr'). exists o, x. split; [exact Ho|]. split; [exact Hr|]. split; [exact P|].
  apply (proj1 (C23_packed_twice lavish (lavish_before o) bt x02 [x01; x00; x00] eq_refl Hb Hr'
    ltac:(vm_compute; discriminate) ltac:(vm_compute; discriminate) ltac:(vm_compute; discriminate) ltac:(vm_compute; discriminate))
    (le32 100 ++ le32 0)); [reflexivity|]. rewrite Hn. exact P.
Qed.
