(** * Model of the MPQ cipher and name hashes (mopaq/src/crypto). *)
From Verif Require Import Bytes.
From Coq Require Strings.String.
Open Scope N_scope.

(** ** Encryption table: mopaq/src/crypto/keys.rs:4-31.
    The Rust loop fills [table[i1 + i2*0x100]] for [i1] outermost.  The model
    produces the values in generation order and reads them transposed. *)
Definition seed_step (s : N) : N := (w32 (w32 (s * 125) + 3)) mod 0x2AAAAB.

(** keys.rs:14-21: one table value and the seed after it. *)
Definition table_step (s : N) : N * N :=
  let s1 := seed_step s in
  let t1 := shl32 (N.land s1 0xFFFF) 16 in
  let s2 := seed_step s1 in
  let t2 := N.land s2 0xFFFF in
  (N.lor t1 t2, s2).

Fixpoint gen_values (n : nat) (s : N) : list N :=
  match n with
  | O => []
  | S n' => let '(v, s') := table_step s in v :: gen_values n' s'
  end.

(** All 0x500 values in generation order (keys.rs:8-25, seed keys.rs:6). *)
Definition raw_table : list N := Eval vm_compute in gen_values 1280 0x00100001.

(** [ENCRYPTION_TABLE[i]] for [i < 0x500]: slot [i1 + i2*0x100] was filled by
    generation step [i1*5 + i2]. *)
Definition table : list N := Eval vm_compute in
  map (fun i => nth ((i mod 256) * 5 + i / 256) raw_table 0) (seq 0 1280).

Definition T (i : N) : N := nth (N.to_nat i) table 0.

(** ** Cipher: mopaq/src/crypto/encryption.rs:6-32, decryption.rs:6-42. *)

(** encryption.rs:15 *)
Definition seed_mix (key seed : N) : N := w32 (seed + T (0x400 + N.land key 0xFF)).
(** encryption.rs:24 *)
Definition key_next (key : N) : N :=
  N.lor (w32 (shl32 (not32 key) 0x15 + 0x11111111)) (N.shiftr key 0x0B).
(** encryption.rs:27-30 *)
Definition seed_next (plain seed : N) : N :=
  w32 (w32 (w32 (plain + seed) + shl32 seed 5) + 3).

Fixpoint enc_loop (key seed : N) (l : list N) : list N :=
  match l with
  | [] => []
  | ch :: t =>
      let seed1 := seed_mix key seed in
      N.lxor ch (w32 (key + seed1)) :: enc_loop (key_next key) (seed_next ch seed1) t
  end.

Fixpoint dec_loop (key seed : N) (l : list N) : list N :=
  match l with
  | [] => []
  | v :: t =>
      let seed1 := seed_mix key seed in
      let ch := N.lxor v (w32 (key + seed1)) in
      ch :: dec_loop (key_next key) (seed_next ch seed1) t
  end.

(** encryption.rs:6-32 *)
Definition encrypt_block (data : list N) (key : N) : list N :=
  if key =? 0 then data else enc_loop key 0xEEEEEEEE data.
(** decryption.rs:6-30 *)
Definition decrypt_block (data : list N) (key : N) : list N :=
  if key =? 0 then data else dec_loop key 0xEEEEEEEE data.
(** decryption.rs:33-42 *)
Definition decrypt_dword (value key : N) : N :=
  if key =? 0 then value
  else N.lxor value (w32 (key + seed_mix key 0xEEEEEEEE)).

(** [key.wrapping_sub(1)] (builder.rs:1071, archive.rs:1359) *)
Definition dec32 (k : N) : N := w32 (k + 0xFFFFFFFF).

(** ** Byte-level wrappers *)

(** Zero padding of a 1-3 byte remainder to a word
    (builder.rs:1357-1360, archive.rs:1803-1806). *)
Definition pad4 (r : bytes) : bytes := firstn 4 (r ++ repeat x00 4).

(** mopaq/src/builder.rs:1338-1374 [encrypt_data] *)
Definition encrypt_data (data : bytes) (key : N) : bytes :=
  if (lenN data =? 0) || (key =? 0) then data
  else
    let '(ws, r) := words_of_bytes data in
    let tail :=
      match r with
      | [] => []
      | _ => firstn (length r)
               (bytes_of_words (encrypt_block [le_dec (pad4 r)] (w32 (key + w32 (lenN ws)))))
      end in
    bytes_of_words (encrypt_block ws key) ++ tail.

(** mopaq/src/archive.rs:1764-1818 [decrypt_file_data] *)
Definition decrypt_file_data (data : bytes) (key : N) : bytes :=
  if (lenN data =? 0) || (key =? 0) then data
  else
    let '(ws, r) := words_of_bytes data in
    let tail :=
      match r with
      | [] => []
      | _ => firstn (length r)
               (le32 (decrypt_dword (le_dec (pad4 r)) (w32 (key + w32 (lenN ws)))))
      end in
    bytes_of_words (decrypt_block ws key) ++ tail.

(** mopaq/src/tables/common.rs:30-46: whole words only, a 1-3 byte
    remainder stays as it is. *)
Definition decrypt_table_data (data : bytes) (key : N) : bytes :=
  let '(ws, r) := words_of_bytes data in
  bytes_of_words (decrypt_block ws key) ++ r.

(** ** Name hashes: mopaq/src/crypto/hash.rs *)

(** keys.rs:34-68 ASCII_TO_UPPER; keys.rs:70-103 ASCII_TO_LOWER.  The Rust
    tables list all 256 values; they differ from the identity on the letters
    only. *)
Definition to_upper (c : N) : N := if (97 <=? c) && (c <=? 122) then c - 32 else c.
Definition to_lower (c : N) : N := if (65 <=? c) && (c <=? 90) then c + 32 else c.
(** hash.rs:15-17, 44-46 *)
Definition fold_sep (c : N) : N := if c =? 47 then 92 else c.

(** hash.rs:10-30, one character *)
Definition hash_step (ht : N) (st : N * N) (b : byte) : N * N :=
  let '(seed1, seed2) := st in
  let ch := to_upper (fold_sep (bN b)) in
  let seed1' := N.lxor (T (ht * 0x100 + ch)) (w32 (seed1 + seed2)) in
  let seed2' := w32 (w32 (w32 (w32 (ch + seed1') + seed2) + shl32 seed2 5) + 3) in
  (seed1', seed2').

(** hash.rs:6-33 [hash_string] for the hash types 0..4 the format defines
    (crypto/types.rs); other types index outside the table and panic for every
    non-empty name, see [hash_string_chk]. *)
Definition hash_string (name : bytes) (ht : N) : N :=
  fst (fold_left (hash_step ht) name (0x7FED7FED, 0xEEEEEEEE)).

Definition hash_string_chk (name : bytes) (ht : N) : res N :=
  match name with
  | [] => Ok (hash_string name ht)
  | _ => if ht <? 5 then Ok (hash_string name ht) else Panic
  end.

(** crypto/types.rs hash_type *)
Definition HT_TABLE_OFFSET : N := 0.
Definition HT_NAME_A : N := 1.
Definition HT_NAME_B : N := 2.
Definition HT_FILE_KEY : N := 3.
Definition HT_KEY2_MIX : N := 4.

(** hash.rs:36-62 [jenkins_hash] *)
Definition jenkins_step (h : N) (b : byte) : N :=
  let ch := to_lower (fold_sep (bN b)) in
  let h1 := w64 (h + ch) in
  let h2 := w64 (h1 + w64 (N.shiftl h1 10)) in
  N.lxor h2 (N.shiftr h2 6).

Definition jenkins_hash (name : bytes) : N :=
  let h := fold_left jenkins_step name 0 in
  let h1 := w64 (h + w64 (N.shiftl h 3)) in
  let h2 := N.lxor h1 (N.shiftr h1 11) in
  w64 (h2 + w64 (N.shiftl h2 15)).

(** Checks against the test vectors of crypto/hash.rs and crypto/keys.rs. *)
Example table_vec :
  (T 0, T 1, T 0x100, T 0x400, T 0x4FF)
  = (0x55C636E2, 0x02BE0170, 0x76F8C1B1, 0x193AA698, 0x7303286C).
Proof. vm_compute. reflexivity. Qed.
Example hash_vec :
  (hash_string (lit "(listfile)") 0, hash_string (lit "(hash table)") 3,
   hash_string (lit "(block table)") 3, hash_string (lit "path\to\file") 0,
   hash_string (lit "file.txt") 0)
  = (0x5F3DE859, 0xC3AF3770, 0xEC83B3A3, 0x534CC8EE, 0x3EA98D7A).
Proof. vm_compute. reflexivity. Qed.
