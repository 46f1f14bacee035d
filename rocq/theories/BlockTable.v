(** * Model of the block tables (mopaq/src/tables/block.rs). *)
From Verif Require Import Bytes Crypto HashTable.
Open Scope N_scope.

(** block.rs:9-20 *)
Record bentry := mkBE {
  be_pos : N; be_csize : N; be_size : N; be_flags : N }.

(** block.rs:22-41 *)
Definition FLAG_IMPLODE : N := 0x00000100.
Definition FLAG_COMPRESS : N := 0x00000200.
Definition FLAG_ENCRYPTED : N := 0x00010000.
Definition FLAG_FIX_KEY : N := 0x00020000.
Definition FLAG_PATCH_FILE : N := 0x00100000.
Definition FLAG_SINGLE_UNIT : N := 0x01000000.
Definition FLAG_DELETE_MARKER : N := 0x02000000.
Definition FLAG_SECTOR_CRC : N := 0x04000000.
Definition FLAG_EXISTS : N := 0x80000000.

(** block.rs:43-72: flag tests [(flags & F) != 0]. *)
Definition has_flag (flags f : N) : bool := negb (N.land flags f =? 0).

(** builder.rs:1197-1202 *)
Definition be_bytes (e : bentry) : bytes :=
  le32 (be_pos e) ++ le32 (be_csize e) ++ le32 (be_size e) ++ le32 (be_flags e).

(** block.rs:75-87 *)
Definition be_from_bytes (d : bytes) : res bentry :=
  if lenN d <? 16 then Err EInvalidFormat
  else Ok (mkBE (le_dec (firstn 4 d)) (le_dec (firstn 4 (skipn 4 d)))
             (le_dec (firstn 4 (skipn 8 d))) (le_dec (firstn 4 (skipn 12 d)))).

(** builder.rs:1190-1215 *)
Definition bt_key : N := hash_string (lit "(block table)") HT_FILE_KEY.
Definition write_block_table (t : list bentry) : bytes :=
  encrypt_data (concat (map be_bytes t)) bt_key.

(** block.rs:111-145 *)
Definition bt_read (file : bytes) (offset size : N) : res (list bentry) :=
  raw <- read_at file offset (size * 16) ;;
  parse_entries be_from_bytes (N.to_nat size) (decrypt_table_data raw bt_key).

(** ** High parts of file positions *)
(** builder.rs:1218-1236 *)
Definition write_hi_block_table (t : list N) : bytes := concat (map le16 t).

(** block.rs:208-217.  The Rust loop reads value by value; the first read past
    the end is an I/O error, so it succeeds exactly if all bytes exist. *)
Fixpoint parse_u16s (n : nat) (d : bytes) : list N :=
  match n with
  | O => []
  | S n' => le_dec (firstn 2 d) :: parse_u16s n' (skipn 2 d)
  end.
Definition hi_read (file : bytes) (offset size : N) : res (list N) :=
  raw <- read_at file offset (size * 2) ;;
  Ok (parse_u16s (N.to_nat size) raw).

(** block.rs:220-227 *)
Definition hi_get (t : list N) (i : N) : N :=
  match nthN t i with Some v => v | None => 0 end.
(** block.rs:249-251 *)
Definition hi_is_needed (t : list N) : bool := existsb (fun v => negb (v =? 0)) t.

(** builder.rs:672-673, 679-682: a position is split into the low 32 bits kept
    in the block entry and 16 high bits kept in the hi-block table. *)
Definition pos_low (pos : N) : N := w32 pos.
Definition pos_high (pos : N) : N := w16 (N.shiftr pos 32).

(** builder.rs:699-712: the hi-block table is written only if needed. *)
Definition hi_written (version2 : bool) (positions : list N) : option bytes :=
  let t := map pos_high positions in
  if version2 && hi_is_needed t then Some (write_hi_block_table t) else None.

(** archive.rs:925-931: recombination on lookup. *)
Definition pos_full (hi : option (list N)) (idx low : N) : N :=
  match hi with
  | Some t => N.lor (N.shiftl (hi_get t idx) 32) low
  | None => low
  end.
