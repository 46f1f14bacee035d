(** * Specification: the cipher and the hashes of names, as the format description has
    them (docs/mopaq-format.md, "File Hashing Algorithm" and "Encryption and
    Decryption Algorithm"), in plain arithmetic. *)
From Verif Require Import Bytes.
Open Scope N_scope.

(** ** The table *)
Fixpoint draw (k : nat) : N :=
  match k with O => 0x100001 | S k => (125 * draw k + 3) mod 0x2AAAAB end.
(** Row [i] of 256, column [j] of 5: two draws each *)
Definition entry (i j : nat) : N :=
  let k := (2 * (5 * i + j))%nat in 65536 * (draw (S k) mod 65536) + draw (S (S k)) mod 65536.

(** ** Names *)
Definition folded (c : byte) : byte :=
  match c with
  | "/" => "\"
  | "a" => "A" | "b" => "B" | "c" => "C" | "d" => "D" | "e" => "E" | "f" => "F" | "g" => "G" | "h" => "H" | "i" => "I"
  | "j" => "J" | "k" => "K" | "l" => "L" | "m" => "M" | "n" => "N" | "o" => "O" | "p" => "P" | "q" => "Q" | "r" => "R"
  | "s" => "S" | "t" => "T" | "u" => "U" | "v" => "V" | "w" => "W" | "x" => "X" | "y" => "Y" | "z" => "Z"
  | c => c
  end%byte.
Definition lowered (c : byte) : byte :=
  match c with
  | "/" => "\"
  | "A" => "a" | "B" => "b" | "C" => "c" | "D" => "d" | "E" => "e" | "F" => "f" | "G" => "g" | "H" => "h" | "I" => "i"
  | "J" => "j" | "K" => "k" | "L" => "l" | "M" => "m" | "N" => "n" | "O" => "o" | "P" => "p" | "Q" => "q" | "R" => "r"
  | "S" => "s" | "T" => "t" | "U" => "u" | "V" => "v" | "W" => "w" | "X" => "x" | "Y" => "y" | "Z" => "z"
  | c => c
  end%byte.

Fixpoint hashed (column : nat) (a b : N) (name : bytes) : N :=
  match name with
  | [] => a
  | c :: r =>
      let v := bN (folded c) in
      let a' := N.lxor (entry (N.to_nat v) column) ((a + b) mod 2 ^ 32) in
      hashed column a' ((v + a' + 33 * b + 3) mod 2 ^ 32) r
  end.
Definition name_hash (column : nat) (name : bytes) : N := hashed column 0x7FED7FED 0xEEEEEEEE name.

(** The hash of the extended tables *)
Fixpoint mixed (h : N) (name : bytes) : N :=
  match name with
  | [] => h
  | c :: r => let x := (1025 * (h + bN (lowered c))) mod 2 ^ 64 in mixed (N.lxor x (x / 64)) r
  end.
Definition extended_hash (name : bytes) : N :=
  let x := (9 * mixed 0 name) mod 2 ^ 64 in
  let y := N.lxor x (x / 2048) in
  (32769 * y) mod 2 ^ 64.

(** ** Words *)
Definition turned (key : N) : N :=
  N.lor (((2 ^ 32 - 1 - key) * 2 ^ 21 + 0x11111111) mod 2 ^ 32) (key / 2 ^ 11).
Fixpoint sealed (key seed : N) (ws : list N) : list N :=
  match ws with
  | [] => []
  | w :: r =>
      let s := (seed + entry (N.to_nat (key mod 256)) 4) mod 2 ^ 32 in
      N.lxor w ((key + s) mod 2 ^ 32) :: sealed (turned key) ((w + 33 * s + 3) mod 2 ^ 32) r
  end.
(** Key 0 leaves the words as they are. *)
Definition cipher_of (key : N) (ws : list N) : list N := if key =? 0 then ws else sealed key 0xEEEEEEEE ws.

(** ** The test vectors of the description (lines 1401-1497) *)
Definition documented_hashes : list (bytes * N * N) :=
  [ (lit "War3.mpq", 0, 0xB5E3BF95); (lit "War3.mpq", 1, 0xAB8F548C); (lit "War3.mpq", 2, 0xA9CAF9C1); (lit "War3.mpq", 3, 0xF4E26CAD);
    (lit "(attribute)", 0, 0xD38437CB); (lit "(attribute)", 1, 0x07DFEAEC); (lit "(attribute)", 2, 0x1CB8E78A); (lit "(attribute)", 3, 0xD3C2D58B);
    (lit "(listfile)", 0, 0xFD5F6EEA); (lit "(listfile)", 1, 0x7E4A7FE4); (lit "(listfile)", 2, 0xCABC04F6); (lit "(listfile)", 3, 0xD3F10625);
    (lit "ARCHIVE", 0, 0x8E2B8CED); (lit "ARCHIVE", 1, 0x6D7F9E62); (lit "ARCHIVE", 2, 0xD89B5A0D); (lit "ARCHIVE", 3, 0xB09C6288);
    (lit "items\map.doo", 0, 0xD83EAAD5); (lit "items\map.doo", 1, 0xB052F1F6); (lit "items\map.doo", 2, 0x5ECCF240); (lit "items\map.doo", 3, 0xCA581368);
    (lit "replay.dat", 0, 0x70A2E78D); (lit "replay.dat", 1, 0x716F3B76); (lit "replay.dat", 2, 0xA00E26BD); (lit "replay.dat", 3, 0x34D2D63E);
    (lit "file.txt", 0, 0x1FC54C64); (lit "path\to\FILE", 0, 0x8844B672); (lit "interface\glue\mainmenu.blp", 0, 0x41992D90);
    (lit "unit\neutral\chicken.mdx", 1, 0xB785DF90); (lit "unit\neutral\chicken.mdx", 2, 0x0936D252) ].
Definition documented_entries : list (nat * nat * N) :=
  [ (0, 0, 0x1A790AA9%N); (1, 0, 0x18DF4175%N); (2, 0, 0x3C064005%N); (3, 0, 0x0D66C89C%N); (4, 0, 0x24C5C5A9%N);
    (251, 4, 0x3C9740B0%N); (252, 4, 0x3C579B79%N); (253, 4, 0x1A3C54E7%N); (254, 4, 0x21B86B73%N); (255, 4, 0x16FEF546%N) ]%nat.
Definition documented_plain : list N :=
  [0x12345678; 0x9ABCDEF0; 0x13579BDF; 0x2468ACE0; 0xFEDCBA98; 0x76543210; 0xF0DEBC9A; 0xE1C3A597].
Definition documented_cipher : list N :=
  [0x6DBB9D94; 0x20F0AF34; 0x3A73EA6F; 0x8E82A467; 0x5F11FC9B; 0xD9BE74FF; 0x82071B61; 0xF1E4D305].
