(** * Small archives that ask for little, and for much. *)
From Verif Require Import Bytes Crypto HashTable BlockTable Header Compress Archive ToyCodec SpecHostile DemoHostile Memory SpecMemory.
Open Scope N_scope.

(** A header and nothing else, which announces 2^31 hash slots. *)
Definition tiny : bytes :=
  match write_header (mkHP V1 3 32 32 32 (2 ^ 31) 1 None None None None) with Ok h => h | _ => [] end.
Lemma tiny_asks L : lenN tiny = 32 /\ of_version_1_or_2 tiny /\ open_asks L tiny = [2 ^ 35] /\ open_archive L tiny = Err EIo.
Proof.
  split; [reflexivity|]. split.
  - split; [reflexivity|]. do 3 eexists. split; [vm_compute; reflexivity|]. left. reflexivity.
  - split; vm_compute; reflexivity.
Qed.
(** A block table of 2^32 - 1 entries *)
Definition tiny_blocks : bytes :=
  match write_header (mkHP V1 3 48 32 48 1 (2 ^ 32 - 1) None None None None) with
  | Ok h => h ++ write_hash_table [slot f] | _ => [] end.
Lemma tiny_blocks_asks L : lenN tiny_blocks = 48 /\ open_asks L tiny_blocks = [16; 16; 2 ^ 36 - 16] /\ open_archive L tiny_blocks = Err EIo.
Proof. split; [reflexivity|]. split; vm_compute; reflexivity. Qed.

(** Version 4: the header says that the first extended table takes 2^62 bytes.  It is not
    there, which is no error: the classic tables are used. *)
Definition vast_het : bytes :=
  match write_header (mkHP V4 3 260 208 224 1 1 None (Some 208) None
          (Some (mkV4 16 16 0 (2 ^ 62) 0 0x4000 (zeros 16) (zeros 16) (zeros 16) (zeros 16) (zeros 16) (zeros 16)))) with
  | Ok h => h ++ write_hash_table [slot f] ++ write_block_table [mkBE 240 20 20 0x80000000] ++ zeros 20
  | _ => []
  end.
Lemma vast_het_asks L : lenN vast_het = 260 /\ open_asks L vast_het = [2 ^ 62; 16; 16; 16; 16] /\
  exists a, open_archive L vast_het = Ok a /\ read_file L a f = Ok (zeros 20).
Proof.
  split; [reflexivity|]. split; [vm_compute; reflexivity|].
  eexists. split; [vm_compute; reflexivity|]. vm_compute. reflexivity.
Qed.

(** A file of three bytes that declares 2^32 - 1 bytes; the size is not checked after zlib. *)
Definition boast : bytes := crafted f 3 0x81000200 5 (2 ^ 32 - 1) (map Nb [2; 1; 7; 8; 9]).
Lemma boast_asks : exists a, lenN boast = 69 /\ of_version_1_or_2 boast /\ open_archive toy boast = Ok a /\
  read_file toy a f = Ok (map Nb [7; 8; 9]) /\ read_asks toy a f = [5; 2 ^ 32 - 1].
Proof.
  eexists. split; [reflexivity|]. split.
  { split; [reflexivity|]. do 3 eexists. split; [vm_compute; reflexivity|]. left. reflexivity. }
  split; [vm_compute; reflexivity|]. split; vm_compute; reflexivity.
Qed.
(** An uncompressed one, whose reading fails. *)
Definition short : bytes := crafted f 3 0x80000000 (2 ^ 32 - 1) (2 ^ 32 - 1) (map Nb [7; 8; 9]).
Lemma short_asks L : exists a, lenN short = 67 /\ open_archive L short = Ok a /\
  read_file L a f = Err EIo /\ read_asks L a f = [2 ^ 32 - 1].
Proof.
  eexists. split; [reflexivity|]. split; [vm_compute; reflexivity|]. split; vm_compute; reflexivity.
Qed.

(** A file in one sector, packed, of 255 bytes though 344 are declared: what is asked for, step by step *)
Definition usual_file : bytes := crafted f 0 0x80000200 104 344
  (le32 8 ++ le32 12 ++ map Nb [2; 0; 255; 7]).
Lemma usual_asks : exists a, open_archive toy usual_file = Ok a /\ of_version_1_or_2 usual_file /\
  find_file a (lit "(attributes)") = Ok None /\
  read_file toy a f = Ok (repeat (Nb 7) 255) /\ read_asks toy a f = [8; 8; 344; 4; 344] /\ open_asks toy usual_file = [16; 16; 16; 16].
Proof.
  eexists. split; [vm_compute; reflexivity|]. split.
  { split; [reflexivity|]. do 3 eexists. split; [vm_compute; reflexivity|]. left. reflexivity. }
  split; [vm_compute; reflexivity|]. split; [vm_compute; reflexivity|]. split; vm_compute; reflexivity.
Qed.
(** Attributes: a header and a checksum, stored as they are *)
Definition attributed : bytes := crafted (lit "(attributes)") 3 0x81000000 12 12 (le32 100 ++ le32 1 ++ le32 77).
Lemma attributed_asks : exists a fi, open_archive toy attributed = Ok a /\ of_version_1_or_2 attributed /\
  find_file a (lit "(attributes)") = Ok (Some fi) /\ fi_size fi = 12 /\
  read_file toy a (lit "(attributes)") = Ok (le32 100 ++ le32 1 ++ le32 77) /\
  open_asks toy attributed = [16; 16; 16; 16; 12; 48; 4].
Proof.
  do 2 eexists. split; [vm_compute; reflexivity|]. split.
  { split; [reflexivity|]. do 3 eexists. split; [vm_compute; reflexivity|]. left. reflexivity. }
  split; [vm_compute; reflexivity|]. split; [reflexivity|]. split; vm_compute; reflexivity.
Qed.
