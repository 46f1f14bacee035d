(** * An archive with a list that another tool could have written. *)
From Verif Require Import Bytes Crypto HashTable BlockTable Header Compress SpecCompress ToyCodec Listfile Attributes HetBet Archive DemoStored.
Open Scope N_scope.

Definition listed_hash : list hentry :=
  upd (repeat he_empty 4) (N.to_nat (hash_string LISTFILE 0 mod 4)) (mkHE (hash_string LISTFILE 1) (hash_string LISTFILE 2) 0 0 0).
Definition listed_text : bytes := lit "; list" ++ [x0a] ++ lit "gone.txt;3" ++ [x0a] ++ lit " (LISTFILE)".
Definition listed_file : bytes := Eval vm_compute in
  header_v1_bytes (mkHP V1 0 (32 + lenN listed_text + 80) (32 + lenN listed_text) (32 + lenN listed_text + 64) 4 1 None None None None)
  ++ listed_text ++ write_hash_table listed_hash ++ write_block_table [mkBE 32 (lenN listed_text) (lenN listed_text) 0x81000000].
Definition listed_arc : archive := Eval vm_compute in open_foreign listed_file.
Definition listed_info : finfo := Eval vm_compute in match find_file listed_arc LISTFILE with Ok (Some fi) => fi | _ => no_info end.
Lemma listed_opens : open_archive toy listed_file = Ok listed_arc.
Proof. vm_compute. reflexivity. Qed.
