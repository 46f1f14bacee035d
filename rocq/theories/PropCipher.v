(** * C65: names are hashed and words enciphered as the format description says; its test
    vectors are none of them right. *)
From Verif Require Import Bytes Crypto SpecCipher CipherFacts.
Open Scope N_scope.

(** The table of 1280 words is drawn as the description has it. *)
Theorem C65_table i j : (i < 256)%nat -> (j < 5)%nat -> T (N.of_nat i + 256 * N.of_nat j) = entry i j.
Proof. exact (table_entry i j). Qed.
Print Assumptions C65_table.
Example C65_table_ex : entry 0 0 = 0x55C636E2 /\ entry 255 4 = 0x7303286C.
Proof. split; vm_compute; reflexivity. Qed.

(** Every name of any bytes, hashed with each of the five columns *)
Theorem C65_names j name : (j < 5)%nat -> hash_string name (N.of_nat j) = name_hash j name.
Proof. exact (hash_is j name). Qed.
Print Assumptions C65_names.
Example C65_names_ex :
  name_hash 0 (lit "arr\units.dat") = 0xF4E6C69D /\ name_hash 0 (lit "unit\neutral\acritter.grp") = 0xA26067F3 /\
  name_hash 3 (lit "(hash table)") = 0xC3AF3770 /\ name_hash 3 (lit "(block table)") = 0xEC83B3A3.
Proof. repeat split; vm_compute; reflexivity. Qed.

(** A type of hash outside the five panics, on every name but the empty one; within the five
    the answer is the hash. *)
Theorem C65_types name ht :
  (hash_string_chk name ht = Panic <-> 5 <= ht /\ name <> []) /\
  (forall v, hash_string_chk name ht = Ok v -> name <> [] -> v = name_hash (N.to_nat ht) name).
Proof. exact (types_are name ht). Qed.
Print Assumptions C65_types.
Example C65_types_ex :
  hash_string_chk (lit "a") 5 = Panic /\ hash_string_chk (lit "a") 4 = Ok (name_hash 4 (lit "a")) /\
  hash_string_chk [] 5 = Ok 0x7FED7FED.
Proof. repeat split; vm_compute; reflexivity. Qed.

(** The hash of the extended tables, of every name *)
Theorem C65_extended name : jenkins_hash name = extended_hash name.
Proof. exact (jenkins_is name). Qed.
Print Assumptions C65_extended.
Example C65_extended_ex : extended_hash (lit "a/B") = extended_hash (lit "A\b") /\ extended_hash (lit "ab") <> extended_hash (lit "ba").
Proof. split; [vm_compute; reflexivity|]. intros H. apply N.eqb_eq in H. vm_compute in H. discriminate H. Qed.

(** The cipher, on every list of words under every key; deciphering undoes it both ways. *)
Theorem C65_cipher ws key :
  encrypt_block ws key = cipher_of key ws /\
  decrypt_block (cipher_of key ws) key = ws /\ cipher_of key (decrypt_block ws key) = ws.
Proof. exact (conj (cipher_is ws key) (decipher_is ws key)). Qed.
Print Assumptions C65_cipher.
Example C65_cipher_ex : cipher_of 0xC1EB1CEF [1; 2; 3] <> [1; 2; 3] /\ cipher_of 0 [1; 2; 3] = [1; 2; 3].
Proof. split; [|reflexivity]. intros H. vm_compute in H. discriminate H. Qed.

(** The description goes on to list test vectors, of which "a working implementation should
    produce identical results": none of them is right, of this implementation or of the
    algorithms of the description itself. *)
Theorem C65_vectors_refuted :
  Forall (fun '(name, ht, v) => hash_string name ht <> v) documented_hashes /\
  Forall (fun '(i, j, v) => T (N.of_nat i + 256 * N.of_nat j) <> v) documented_entries /\
  Forall2 (fun x y => x <> y) (encrypt_block documented_plain 0xC1EB1CEF) documented_cipher /\
  jenkins_hash (lit "unit\neutral\chicken.mdx") <> 0x0E47BAE570E8D3CA.
Proof. exact (conj hashes_wrong (conj entries_wrong (conj block_wrong extended_wrong))). Qed.
Print Assumptions C65_vectors_refuted.
Example C65_vectors_ex : length documented_hashes = 29%nat /\ length documented_entries = 10%nat /\ length documented_plain = 8%nat.
Proof. repeat split. Qed.
