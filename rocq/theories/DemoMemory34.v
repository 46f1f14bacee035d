(** * What archives of versions 3 and 4 ask for, and several steps of packing. *)
From Verif Require Import Bytes Crypto HashTable BlockTable Header Compress HetBet Builder Attributes Archive ToyCodec SpecHostile DemoHostile
  DemoArchive Demo34 DemoExtended Memory SpecMemory SpecErrors.
Open Scope N_scope.

Lemma toy_plain : plain_failures toy.
Proof.
  assert (K : forall d e, toy_dec d = Err e -> e = ECompression).
  { intros d e. unfold toy_dec. repeat match goal with |- context [match ?x with _ => _ end] => destruct x end; congruence. }
  intros d e [H|[H|[H|H]]]; exact (K d e H).
Qed.

(** Version 3 with both extended tables: 76 and 108 bytes, a word of flags, 16 bytes of entries *)
Lemma ext_asks_list : open_archive toy ext_file = Ok ext_arc /\ open_asks toy ext_file = [76; 108; 4; 16; 0].
Proof. split; vm_compute; reflexivity. Qed.
(** The builder's packed tables, which are not read back (C36): the second is unpacked for 3072 bytes. *)
Definition packed_tables : bytes := Eval vm_compute in
  match build toy toy_md5 (mkCfg V4 0 LGenerate ZLIB true true ZLIB) four_files with Ok d => d | _ => [] end.
Lemma packed_asks_list : lenN packed_tables = 760 /\ open_asks toy packed_tables = [53; 134; 3072; 256; 256; 48; 48].
Proof. split; vm_compute; reflexivity. Qed.

(** Huffman and another step: twice the size *)
Definition two_steps : bytes := crafted f 3 0x81000200 9 20 (map Nb [0x41; 1; 7; 8; 9; 1; 2; 3; 4]).
Lemma two_steps_asks : exists a, open_archive toy two_steps = Ok a /\ read_asks toy a f = [9; 40; 20].
Proof. eexists. split; [vm_compute; reflexivity|]. vm_compute. reflexivity. Qed.
(** Attributes packed once more *)
Definition twice_packed : bytes := crafted (lit "(attributes)") 3 0x81000000 14 14 (map Nb [2; 1] ++ le32 100 ++ le32 1 ++ le32 77).
Lemma twice_packed_asks : open_asks toy twice_packed = [16; 16; 16; 16; 14; 100; 48; 4] /\
  exists a, open_archive toy twice_packed = Ok a /\ a_attrs a = Some (mkAttrs 100 1 [mkFA (Some 77) None None None]).
Proof. split; [vm_compute; reflexivity|]. eexists. split; vm_compute; reflexivity. Qed.
Lemma two_steps_how : exists a fi, open_archive toy two_steps = Ok a /\ find_file a f = Ok (Some fi) /\ in_one_piece fi /\ compressed fi /\
  N.land (fi_flags fi) 0x00010000 = 0 /\ fi_pos fi < 2 ^ 63 /\ fi_size fi = 20 /\ fi_csize fi = 9 /\
  slice (fi_pos fi) (fi_csize fi) (a_file a) = Some (map Nb [0x41; 1; 7; 8; 9; 1; 2; 3; 4]) /\
  steps_ask 20 8 0x41 [40; 20].
Proof.
  eexists. eexists. split; [vm_compute; reflexivity|]. split; [vm_compute; reflexivity|]. split; [vm_compute; discriminate|].
  split; [vm_compute; discriminate|]. split; [reflexivity|]. split; [reflexivity|]. split; [reflexivity|]. split; [reflexivity|].
  split; [vm_compute; reflexivity|]. apply (ask_huffman 20 8). cbn. auto.
Qed.
Lemma twice_packed_how : exists a bt, of_version_1_or_2 twice_packed /\ open_archive toy twice_packed = Ok a /\ a_block a = Some bt /\ lenN bt = 1 /\
  read_file toy a (lit "(attributes)") = Ok (map Nb [2; 1] ++ le32 100 ++ le32 1 ++ le32 77) /\ steps_ask 100 13 2 [100].
Proof.
  eexists. eexists. split.
  { split; [reflexivity|]. do 3 eexists. split; [vm_compute; reflexivity|left; reflexivity]. }
  split; [vm_compute; reflexivity|]. split; [reflexivity|]. split; [reflexivity|]. split; [vm_compute; reflexivity|].
  apply ask_one. cbn. auto.
Qed.
