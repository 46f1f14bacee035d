(** * Small hostile files. *)
From Verif Require Import Bytes Crypto Header HashTable BlockTable Compress Archive ToyCodec HostileFacts SpecHostile.
Open Scope N_scope.

Lemma toy_calm : calm toy.
Proof.
  assert (H : forall d, toy_dec d <> Panic).
  { intros d. unfold toy_dec. repeat (match goal with |- context [match ?x with _ => _ end] => destruct x end; try discriminate). }
  repeat split; exact H.
Qed.

(** Hash table entry for a name. *)
Definition slot (name : bytes) : hentry :=
  mkHE (hash_string name HT_NAME_A) (hash_string name HT_NAME_B) 0 0 0.

(** An archive with one file, one hash slot and one block; the content starts at 64. *)
Definition crafted (name : bytes) (bs flags csize size : N) (content : bytes) : bytes :=
  match write_header (mkHP V1 bs (64 + lenN content) 32 48 1 1 None None None None) with
  | Ok h => h ++ write_hash_table [slot name] ++ write_block_table [mkBE 64 csize size flags] ++ content
  | _ => []
  end.

Definition f : bytes := lit "f".
Definition reads L (file name : bytes) : res bytes := a <- open_archive L file ;; read_file L a name.

(** A sector size exponent of 64, and of 55 (a size that wraps to 0). *)
Definition exponent64 := crafted f 64 0x80000200 20 600 (zeros 20).
Definition exponent55 := crafted f 55 0x80000200 20 600 (zeros 20).
(** A checked compressed file with nothing in it. *)
Definition nothing := crafted f 3 0x85000200 0 10 (zeros 4).
(** The first of two sectors expands to 638 zeros, the file has 600. *)
Definition overrun := crafted f 0 0x80000200 21 600
  (le32 12 ++ le32 19 ++ le32 21 ++ map Nb [0x20; 0xFE; 0xFE; 0xFE; 0xFE; 0x87; 0xFE; 0; 0]).
(** An audio file with a shift of 40 bits. *)
Definition shift40 := crafted f 3 0x81000200 7 10 (map Nb [0x40; 0; 40; 0; 0; 1; 1]).

(** The same under the name of the attributes, which opening reads. *)
Definition bad_attributes := crafted (lit "(attributes)") 3 0x81000200 7 10 (map Nb [0x40; 0; 40; 0; 0; 1; 1]).
(** Attributes stored as they are, but looking like such a piece (the method byte
    also has to have one of its low bits set). *)
Definition odd_attributes := crafted (lit "(attributes)") 3 0x81000000 7 7 (map Nb [0x48; 1; 0; 40; 0; 0; 1]).
(** Version 2: the position of the third table is 2^64 - 1 and the archive starts at 512. *)
Definition far_table : bytes :=
  match write_header (mkHP V2 3 76 44 60 1 1 (Some 0xFFFFFFFFFFFFFFFF) None None None) with
  | Ok h => zeros 512 ++ h ++ write_hash_table [slot f] ++ write_block_table [mkBE 76 0 0 0x80000000]
  | _ => []
  end.
(** Version 3: the HET table lies behind the hash table, no BET table. *)
Definition late_het : bytes :=
  match write_header (mkHP V3 3 200 68 84 1 1 None (Some 100) None None) with
  | Ok h => h ++ write_hash_table [slot f] ++ write_block_table [mkBE 68 0 0 0x80000000]
  | _ => []
  end.


Lemma reads_split L file name : reads L file name = Panic -> open_archive L file <> Panic ->
  exists a, open_archive L file = Ok a /\ read_file L a name = Panic.
Proof.
  unfold reads. intros H C. destruct (open_archive L file) as [a| |]; cbn [bind] in H; [eauto|discriminate|congruence].
Qed.
Lemma exponent64_read L : reads L exponent64 f = Panic /\ open_archive L exponent64 <> Panic.
Proof. split; [vm_compute; reflexivity|vm_compute; discriminate]. Qed.
Lemma exponent55_read L : reads L exponent55 f = Panic /\ open_archive L exponent55 <> Panic.
Proof. split; [vm_compute; reflexivity|vm_compute; discriminate]. Qed.
Lemma nothing_read L : reads L nothing f = Panic /\ open_archive L nothing <> Panic.
Proof. split; [vm_compute; reflexivity|vm_compute; discriminate]. Qed.
Lemma overrun_read L : reads L overrun f = Panic /\ open_archive L overrun <> Panic.
Proof. split; [vm_compute; reflexivity|vm_compute; discriminate]. Qed.
Lemma shift40_read L : reads L shift40 f = Panic /\ open_archive L shift40 <> Panic.
Proof. split; [vm_compute; reflexivity|vm_compute; discriminate]. Qed.
Lemma bad_attributes_open L : open_archive L bad_attributes = Panic.
Proof. vm_compute; reflexivity. Qed.
Lemma odd_attributes_open : open_archive toy odd_attributes = Panic.
Proof. vm_compute; reflexivity. Qed.
Lemma far_table_open L : open_archive L far_table = Panic.
Proof. vm_compute; reflexivity. Qed.
Lemma late_het_open L : open_archive L late_het = Panic.
Proof. vm_compute; reflexivity. Qed.

Lemma reading_witnesses L :
  Forall (fun file => exists a, open_archive L file = Ok a /\ read_file L a (lit "f") = Panic)
    [exponent64; exponent55; nothing; overrun; shift40].
Proof.
  apply Forall_cons; [exact (reads_split _ _ _ (proj1 (exponent64_read L)) (proj2 (exponent64_read L)))|].
  apply Forall_cons; [exact (reads_split _ _ _ (proj1 (exponent55_read L)) (proj2 (exponent55_read L)))|].
  apply Forall_cons; [exact (reads_split _ _ _ (proj1 (nothing_read L)) (proj2 (nothing_read L)))|].
  apply Forall_cons; [exact (reads_split _ _ _ (proj1 (overrun_read L)) (proj2 (overrun_read L)))|].
  apply Forall_cons; [exact (reads_split _ _ _ (proj1 (shift40_read L)) (proj2 (shift40_read L)))|].
  apply Forall_nil.
Qed.
Lemma opening_witnesses :
  (forall L, Forall (fun file => open_archive L file = Panic) [bad_attributes; far_table; late_het]) /\
  (calm toy /\ open_archive toy odd_attributes = Panic).
Proof.
  split; [|split; [exact toy_calm|exact odd_attributes_open]]. intros L.
  apply Forall_cons; [apply bad_attributes_open|]. apply Forall_cons; [apply far_table_open|].
  apply Forall_cons; [apply late_het_open|]. apply Forall_nil.
Qed.
Lemma hostile_example :
  calm toy /\ lenN shift40 = 71 /\
  (exists off ud h a fi, find_header shift40 = Ok (off, ud, h) /\ h_version h = V1 /\
     open_archive toy shift40 = Ok a /\ find_file a f = Ok (Some fi) /\ fi_pos fi = 64 /\ compressed fi) /\
  (exists a, open_archive toy (crafted f 3 0x81000000 3 3 f) = Ok a /\ read_file toy a f = Err EIo) /\
  Adpcm.adpcm_decompress (map Nb [0; 40; 0; 0; 1; 1]) 10 1 = Panic.
Proof.
  split; [exact toy_calm|]. split; [vm_compute; reflexivity|]. split; [|split].
  - do 5 eexists. split; [vm_compute; reflexivity|]. split; [reflexivity|]. split; [vm_compute; reflexivity|].
    split; [vm_compute; reflexivity|]. split; [reflexivity|]. vm_compute. discriminate.
  - eexists. split; [vm_compute; reflexivity|]. vm_compute. reflexivity.
  - vm_compute. reflexivity.
Qed.
