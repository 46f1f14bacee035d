(** * Properties C01-C04: cipher and name hashes. *)
From Verif Require Import Bytes Crypto CryptoFacts SpecNames NameFacts.
Open Scope N_scope.

(** C01: the block cipher round trip, both ways, for every key and block. *)
Theorem C01_block_cipher_round_trip :
  forall (data : list N) (key : N),
    decrypt_block (encrypt_block data key) key = data /\
    encrypt_block (decrypt_block data key) key = data /\
    length (encrypt_block data key) = length data /\
    length (decrypt_block data key) = length data /\
    encrypt_block data 0 = data /\ decrypt_block data 0 = data.
Proof.
  exact (fun d k => conj (decrypt_encrypt_block d k) (conj (encrypt_decrypt_block d k)
    (conj (encrypt_block_length d k) (conj (decrypt_block_length d k)
    (conj (encrypt_block_0 d) (decrypt_block_0 d)))))).
Qed.
Print Assumptions C01_block_cipher_round_trip.

(** 32-bit words stay 32-bit words, so the statement is about [u32] values. *)
Theorem C01_block_cipher_words :
  forall (data : list N) (key : N),
    Forall (fun w => w < 2 ^ 32) data ->
    Forall (fun w => w < 2 ^ 32) (encrypt_block data key) /\
    Forall (fun w => w < 2 ^ 32) (decrypt_block data key).
Proof.
  exact (fun d k H => conj (encrypt_block_ok d k H) (decrypt_block_ok d k H)).
Qed.
Print Assumptions C01_block_cipher_words.

(** The test block of crypto/encryption.rs:64-70: the cipher does change it,
    and every later word depends on the earlier ones. *)
Example C01_example :
  let d := [0x12345678; 0x9ABCDEF0; 0x13579BDF] in
  let d' := [0x12345679; 0x9ABCDEF0; 0x13579BDF] in
  let k := 0xC1EB1CEF in
  encrypt_block d k <> d /\
  nth 2 (encrypt_block d k) 0 <> nth 2 (encrypt_block d' k) 0 /\
  decrypt_block (encrypt_block d k) k = d.
Proof. vm_compute. repeat split; discriminate. Qed.

(** C02: what the builder encrypts the reader decrypts, for every length. *)
Theorem C02_file_encryption_round_trip :
  forall (data : bytes) (key : N),
    decrypt_file_data (encrypt_data data key) key = data /\
    encrypt_data (decrypt_file_data data key) key = data /\
    length (encrypt_data data key) = length data /\
    length (decrypt_file_data data key) = length data.
Proof.
  exact (fun d k => conj (decrypt_encrypt_data d k) (conj (encrypt_decrypt_data d k)
    (conj (encrypt_data_length d k) (decrypt_data_length d k)))).
Qed.
Print Assumptions C02_file_encryption_round_trip.

(** A seven-byte file: one word and a three-byte tail, all of it changed. *)
Example C02_example :
  let d := lit "seven_b" in
  length d = 7%nat /\
  forallb (fun p => negb (beqb (fst p) (snd p))) (combine d (encrypt_data d 0xC3AF3770)) = true /\
  decrypt_file_data (encrypt_data d 0xC3AF3770) 0xC3AF3770 = d.
Proof. vm_compute. repeat split. Qed.

(** C03: spellings that differ in case and separators hash alike. *)
Theorem C03_names_case_and_separator_insensitive :
  forall (a b : bytes), name_equiv a b ->
    (forall hash_type, hash_string a hash_type = hash_string b hash_type) /\
    jenkins_hash a = jenkins_hash b.
Proof.
  exact (fun a b H => conj (fun ht => name_equiv_hash a b ht H) (name_equiv_jenkins a b H)).
Qed.
Print Assumptions C03_names_case_and_separator_insensitive.

(** Hash values fit their machine words. *)
Theorem C03_hash_ranges :
  forall (a : bytes) hash_type, hash_string a hash_type < 2 ^ 32 /\ jenkins_hash a < 2 ^ 64.
Proof. exact (fun a ht => conj (hash_string_lt a ht) (jenkins_hash_lt a)). Qed.
Print Assumptions C03_hash_ranges.

Example C03_example :
  name_equiv (lit "Units\Human/Peasant.MDX") (lit "UNITS/hUMAN\pEASANT.mdx") /\
  hash_string (lit "Units\Human/Peasant.MDX") 1 <> hash_string (lit "Units\Human/Peasant.MDL") 1.
Proof.
  split; [|vm_compute; discriminate].
  apply name_equivb_sound. vm_compute. reflexivity.
Qed.

(** C04: the one-word decryption is the block decryption of that word. *)
Theorem C04_single_word_decryption :
  forall (value key : N),
    decrypt_block [value] key = [decrypt_dword value key] /\
    (forall c, encrypt_block [value] key = [c] -> decrypt_dword c key = value).
Proof.
  exact (fun v k => conj (decrypt_dword_block v k)
    (fun c H => eq_trans
       (f_equal (fun l => decrypt_dword (hd 0 l) k)
          (eq_trans (eq_sym H) (decrypt_dword_encrypt v k)))
       (decrypt_dword_invol v k))).
Qed.
Print Assumptions C04_single_word_decryption.

Example C04_example :
  decrypt_dword 0x6DBB9D94 0xEC83B3A3 <> 0x6DBB9D94 /\
  encrypt_block [decrypt_dword 0x6DBB9D94 0xEC83B3A3] 0xEC83B3A3 = [0x6DBB9D94].
Proof. vm_compute. split; [discriminate|reflexivity]. Qed.
