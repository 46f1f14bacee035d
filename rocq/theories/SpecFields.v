(** * Where the fields of a header lie. *)
From Verif Require Import Bytes Header SpecDigest.
Open Scope N_scope.

(** The number of [len] bytes at a position, least significant byte first. *)
Definition field (d : bytes) (pos len : N) : N := le_dec (part d pos len).

(** The header that lies at the beginning of some bytes, if it is of this
    version: 32 bytes, from version 2 on 12 more, from version 3 on 24 more,
    from version 4 on the stored sizes and the digests. *)
Definition header_in (d : bytes) (v : version) : header :=
  let from2 {A} (x : A) := match v with V1 => None | _ => Some x end in
  let from3 {A} (x : A) := match v with V1 | V2 => None | _ => Some x end in
  {| h_size := field d 4 4; h_archive_size := field d 8 4; h_version := v;
     h_block_size := field d 14 2; h_hash_pos := field d 16 4; h_block_pos := field d 20 4;
     h_hash_count := field d 24 4; h_block_count := field d 28 4;
     h_hi_pos := from2 (field d 32 8); h_hash_pos_hi := from2 (field d 40 2);
     h_block_pos_hi := from2 (field d 42 2); h_archive_size64 := from3 (field d 44 8);
     h_bet_pos := from3 (field d 52 8); h_het_pos := from3 (field d 60 8);
     h_v4 := match v with
             | V4 => Some {| v4_hash_size := field d 68 8; v4_block_size := field d 76 8;
                             v4_hi_size := field d 84 8; v4_het_size := field d 92 8;
                             v4_bet_size := field d 100 8; v4_chunk := field d 108 4;
                             v4_md5_block := part d 112 16; v4_md5_hash := part d 128 16;
                             v4_md5_hi := part d 144 16; v4_md5_bet := part d 160 16;
                             v4_md5_het := part d 176 16; v4_md5_header := part d 192 16 |}
             | _ => None
             end |}.

(** The length of the header of a version. *)
Definition header_length (v : version) : N :=
  match v with V1 => 32 | V2 => 44 | V3 => 68 | V4 => 208 end.

(** Bytes that begin with a usable header of a version: the letters MPQ and 26,
    the number of the version, a stated length that is at least the one of the
    version, and as many bytes as the version needs. *)
Definition begins_with_header (d : bytes) (v : version) : Prop :=
  field d 0 4 = 0x1A51504D /\
  field d 12 2 = match v with V1 => 0 | V2 => 1 | V3 => 2 | V4 => 3 end /\
  header_length v <= field d 4 4 /\ header_length v <= lenN d.

(** The bytes a digest of a version 4 archive is of, from the header in the
    file: where the table is said to lie, in the size that is said to be stored;
    none if the table is said not to exist.  The header has its own 192 bytes. *)
Definition digested_part (file : bytes) (off : N) (d : digested) : option (N * N) :=
  let at_ p n := field file (off + p) n in
  let there (absent : bool) pos size :=
    if absent then None else if size =? 0 then None else Some (off + pos, size) in
  match d with
  | DHash => there (at_ 24 4 =? 0) (at_ 40 2 * 2 ^ 32 + at_ 16 4) (at_ 68 8)
  | DBlock => there (at_ 28 4 =? 0) (at_ 42 2 * 2 ^ 32 + at_ 20 4) (at_ 76 8)
  | DHi => there (at_ 32 8 =? 0) (at_ 32 8) (at_ 84 8)
  | DHet => there (at_ 60 8 =? 0) (at_ 60 8) (at_ 92 8)
  | DBet => there (at_ 52 8 =? 0) (at_ 52 8) (at_ 100 8)
  | DHeader => Some (off, 192)
  end.

(** Where the digest itself is stored. *)
Definition digest_at (file : bytes) (off : N) (d : digested) : bytes :=
  part file (off + match d with DBlock => 112 | DHash => 128 | DHi => 144 | DBet => 160 | DHet => 176
                              | DHeader => 192 end) 16.
