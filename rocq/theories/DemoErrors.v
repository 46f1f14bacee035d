(** * Files that are damaged in one way each. *)
From Verif Require Import Bytes Crypto Header HashTable BlockTable Compress Archive ToyCodec SpecHostile HostileFacts
  Error SpecErrors ErrorFacts SpecMemory DemoHostile.
Open Scope N_scope.

Lemma toy_failures : plain_failures toy.
Proof.
  assert (H : forall d e, toy_dec d = Err e -> e = ECompression).
  { intros d e. unfold toy_dec. repeat (match goal with |- context [match ?x with _ => _ end] => destruct x end; try discriminate);
      intros H; now injection H as <-. }
  intros d e [X|[X|[X|X]]]; exact (H _ _ X).
Qed.

(** The file is said to be 30 bytes long, but the archive ends after 3. *)
Definition cut_off := crafted f 3 0x81000000 30 30 (map Nb [7; 8; 9]).
(** A compressed file whose compressed form is none. *)
Definition garbled := crafted f 3 0x81000200 4 10 (map Nb [2; 9; 9; 9]).
(** Two sectors, the second one before the first one. *)
Definition crossed := crafted f 0 0x80000200 21 600 (le32 16 ++ le32 12 ++ le32 21 ++ map Nb [2; 0; 255; 7; 2; 0; 88; 7; 0]).
(** A file whose checksum is not the stored one. *)
Definition altered := crafted f 3 0x85000000 3 3 (map Nb [7; 8; 9] ++ le32 1).
(** An entry of the hash table that leads nowhere. *)
Definition astray : bytes :=
  match write_header (mkHP V1 3 64 32 48 1 1 None None None None) with
  | Ok h => h ++ write_hash_table [mkHE (hash_string f HT_NAME_A) (hash_string f HT_NAME_B) 0 0 5] ++ write_block_table [mkBE 64 0 0 0x80000000]
  | _ => []
  end.
(** Files that are no archives. *)
Definition other_number := map Nb [0x4D; 0x50; 0x51; 0x1A; 32; 0; 0; 0; 64; 0; 0; 0; 9; 0; 3; 0] ++ zeros 48.
Definition half_header := map Nb [0x4D; 0x50; 0x51; 0x1A; 32; 0; 0; 0; 64; 0; 0; 0; 9; 0; 3; 0].
Definition six_slots : bytes :=
  match write_header (mkHP V1 3 64 32 48 6 1 None None None None) with Ok h => h ++ zeros 200 | _ => [] end.
Definition half_tables := firstn 60 cut_off.
Definition false_attributes := crafted (lit "(attributes)") 3 0x81000000 12 12 (le32 7 ++ le32 1 ++ le32 77).

Lemma each_error : forall L,
  reads L cut_off f = Err EIo /\ reads toy garbled f = Err ECompression /\ reads L crossed f = Err EInvalidFormat /\
  reads L altered f = Err EChecksum /\ reads L astray f = Err EBlockTable /\ reads L cut_off (lit "g") = Err EFileNotFound.
Proof. intros L. repeat split; vm_compute; reflexivity. Qed.
Lemma each_open_error : forall L,
  open_archive L [] = Err EInvalidFormat /\ open_archive L other_number = Err EUnsupportedVersion /\
  open_archive L half_header = Err EIo /\ open_archive L six_slots = Err EHashTable /\ open_archive L half_tables = Err EIo /\
  open_archive L false_attributes = Err EInvalidFormat.
Proof. intros L. repeat split; vm_compute; reflexivity. Qed.

(** A sound file of ten bytes, packed into four, and the same with one byte changed. *)
Definition sound := crafted f 3 0x81000200 4 10 (map Nb [2; 0; 10; 7]).
Lemma kinds_mislead : exists L file,
  plain_failures L /\ reads L file f = Ok (repeat (Nb 7) 10) /\
  reads L (firstn 65 file ++ [x09] ++ skipn 66 file) f = Err ECompression /\ is_corruption ECompression = false /\
  reads L (firstn 66 file) f = Err EIo /\ is_corruption EIo = false /\
  (exists a, open_with_options L file false = Ok a /\ read_file L a f = Err EInvalidFormat) /\ is_corruption EInvalidFormat = true.
Proof.
  exists toy, sound. split; [exact toy_failures|]. split; [vm_compute; reflexivity|]. split; [vm_compute; reflexivity|]. split; [reflexivity|].
  split; [vm_compute; reflexivity|]. split; [reflexivity|]. split; [|reflexivity].
  eexists. split; [vm_compute; reflexivity|]. vm_compute. reflexivity.
Qed.
