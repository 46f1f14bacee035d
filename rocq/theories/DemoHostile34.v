(** * Small hostile files of version 3. *)
From Verif Require Import Bytes Crypto Header HashTable BlockTable HetBet Compress Archive ToyCodec
  HostileFacts SpecHostile SpecHostile34 DemoHostile.
Open Scope N_scope.

Definition ext (sig : N) (body : bytes) (key : N) : bytes :=
  le32 sig ++ le32 1 ++ le32 (lenN body) ++ encrypt_data body key.
(** A HET table of [n] bytes of [b] with entries of [bits] bits. *)
Definition het_bytes (bits n : N) (b : byte) : bytes :=
  ext HET_SIG (concat (map le32 [32 + n; 1; n; bits; 0; 0; 0; 0]) ++ repeat b (N.to_nat n)) ht_key.
(** A BET table for one file, of the given entry width, positions and widths of the fields, and entry. *)
Definition bet_bytes (width : N) (fields : list N) (entry : N) : bytes :=
  ext BET_SIG (concat (map le32 ([100; 1; 0x10; width] ++ fields ++ [0; 0; 64; 0; 1]))
               ++ le32 0x81000200 ++ le64 entry) bt_key.
(** An archive of version 3 with these tables and one hash slot that no name uses. *)
Definition crafted34 (het bet : bytes) : bytes :=
  let hp := 68 + lenN het + lenN bet in
  match write_header (mkHP V3 3 (hp + 32) hp (hp + 16) 1 1 None (Some 68) (Some (68 + lenN het)) None) with
  | Ok h => h ++ het ++ bet ++ write_hash_table [mkHE 1 1 0 0 0] ++ write_block_table [mkBE 0 0 0 0]
  | _ => []
  end.

(** The low byte of the hash of "f". *)
Definition mark : byte := Nb (jenkins_hash f).
Definition fields_ok : list N := [0; 16; 32; 48; 50; 16; 16; 16; 2; 0].
(** HET entries of no bits, of 64 bits, and more bits than the table has. *)
Definition no_bits := crafted34 (het_bytes 0 24 mark) (bet_bytes 60 fields_ok 0).
Definition more_bits := crafted34 (het_bytes 200 24 mark) (bet_bytes 60 fields_ok 0).
(** BET entries of 64 bits; a field that starts at bit 64. *)
Definition wide_bet := crafted34 (het_bytes 8 24 mark) (bet_bytes 64 fields_ok 0).
Definition late_field := crafted34 (het_bytes 8 24 mark) (bet_bytes 60 [0; 16; 32; 64; 50; 16; 16; 16; 2; 0] 0).
(** Nothing wrong: "f" is found through the extended tables. *)
Definition sound34 := crafted34 (het_bytes 8 24 mark) (bet_bytes 60 fields_ok 0).

(** A file of more than 2^61 bytes, two of which are stored, packed with three methods:
    it lies in the header (0x1A, 0xD0). *)
Definition vast := crafted34 (het_bytes 8 24 mark)
  (bet_bytes 63 [0; 0; 16; 20; 22; 16; 62; 4; 2; 0] (2 ^ 61 + 2 * 2 ^ 16 + 3)).

Definition finds L (file name : bytes) : res (option finfo) := a <- open_archive L file ;; find_file a name.
Lemma finds_split L file name : finds L file name = Panic -> open_archive L file <> Panic ->
  exists a, open_archive L file = Ok a /\ find_file a name = Panic.
Proof.
  unfold finds. intros H C. destruct (open_archive L file) as [a| |]; cbn [bind] in H; [eauto|discriminate|congruence].
Qed.

Lemma wide_bet_find L : finds L wide_bet f = Panic /\ open_archive L wide_bet <> Panic.
Proof. split; [vm_compute; reflexivity|vm_compute; discriminate]. Qed.
Lemma late_field_find L : finds L late_field f = Panic /\ open_archive L late_field <> Panic.
Proof. split; [vm_compute; reflexivity|vm_compute; discriminate]. Qed.
Lemma no_bits_open L : open_archive L no_bits = Panic.
Proof. vm_compute; reflexivity. Qed.
Lemma more_bits_open L : open_archive L more_bits = Panic.
Proof. vm_compute; reflexivity. Qed.

Lemma lookup_witnesses L :
  Forall (fun file => exists a, open_archive L file = Ok a /\ find_file a (lit "f") = Panic) [wide_bet; late_field] /\
  Forall (fun file => open_archive L file = Panic) [no_bits; more_bits].
Proof.
  split.
  - apply Forall_cons; [exact (finds_split _ _ _ (proj1 (wide_bet_find L)) (proj2 (wide_bet_find L)))|].
    apply Forall_cons; [exact (finds_split _ _ _ (proj1 (late_field_find L)) (proj2 (late_field_find L)))|].
    apply Forall_nil.
  - apply Forall_cons; [apply no_bits_open|]. apply Forall_cons; [apply more_bits_open|]. apply Forall_nil.
Qed.

Lemma vast_read L : exists a fi, open_archive L vast = Ok a /\ find_file a (lit "f") = Ok (Some fi) /\
  fi_pos fi = 3 /\ fi_csize fi = 2 /\ 2 ^ 61 <= fi_size fi /\ read_file L a (lit "f") = Panic.
Proof.
  do 2 eexists. split; [vm_compute; reflexivity|]. split; [vm_compute; reflexivity|].
  split; [reflexivity|]. split; [reflexivity|]. split; [vm_compute; discriminate|vm_compute; reflexivity].
Qed.

(** Hypotheses met without a panic, through the extended tables. *)
Lemma sound_example :
  calm toy /\ exists a fi b, open_archive toy sound34 = Ok a /\ find_file a (lit "f") = Ok (Some fi) /\
    fi_flags fi = 0x81000200 /\ read_file toy a (lit "f") = Err ECompression /\
    a_bet a = Some b /\ bet_entry_bits b = 60 /\ list_all a <> Panic.
Proof.
  split; [exact toy_calm|]. do 3 eexists. split; [vm_compute; reflexivity|].
  split; [vm_compute; reflexivity|]. split; [reflexivity|]. split; [vm_compute; reflexivity|].
  split; [reflexivity|]. split; [reflexivity|]. vm_compute. discriminate.
Qed.
