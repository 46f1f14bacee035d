(** * Model of the archive header (mopaq/src/header.rs) and of the builder's
    header writer (mopaq/src/builder.rs). *)
From Verif Require Import Bytes.
Open Scope N_scope.

(** header.rs:30-36 *)
Definition MPQ_HEADER_SIGNATURE : N := 0x1A51504D.
Definition MPQ_USERDATA_SIGNATURE : N := 0x1B51504D.
Definition HEADER_ALIGNMENT : N := 512.

(** header.rs:41-50 *)
Inductive version := V1 | V2 | V3 | V4.

(** header.rs:54-61 *)
Definition header_size_of (v : version) : N :=
  match v with V1 => 0x20 | V2 => 0x2C | V3 => 0x44 | V4 => 0xD0 end.

(** header.rs:64-72, and the cast [version as u16]. *)
Definition version_of_raw (n : N) : option version :=
  match n with 0 => Some V1 | 1 => Some V2 | 2 => Some V3 | 3 => Some V4 | _ => None end.
Definition version_raw (v : version) : N :=
  match v with V1 => 0 | V2 => 1 | V3 => 2 | V4 => 3 end.

(** The derived order on versions. *)
Definition version_ge (a b : version) : bool := version_raw b <=? version_raw a.

(** header.rs:129-155 *)
Record v4data := mkV4 {
  v4_hash_size : N; v4_block_size : N; v4_hi_size : N; v4_het_size : N; v4_bet_size : N;
  v4_chunk : N;
  v4_md5_block : bytes; v4_md5_hash : bytes; v4_md5_hi : bytes; v4_md5_bet : bytes;
  v4_md5_het : bytes; v4_md5_header : bytes }.

(** header.rs:88-126 *)
Record header := mkHeader {
  h_size : N; h_archive_size : N; h_version : version; h_block_size : N;
  h_hash_pos : N; h_block_pos : N; h_hash_count : N; h_block_count : N;
  h_hi_pos : option N; h_hash_pos_hi : option N; h_block_pos_hi : option N;
  h_archive_size64 : option N; h_bet_pos : option N; h_het_pos : option N;
  h_v4 : option v4data }.

(** header.rs:8-25: [read_exact] of [k] bytes from a stream, giving the bytes
    and the rest of the stream. *)
Definition take (k : N) (d : bytes) : res (bytes * bytes) :=
  if k <=? lenN d then Ok (firstn (N.to_nat k) d, skipn (N.to_nat k) d) else Err EIo.
Definition take_le (k : N) (d : bytes) : res (N * bytes) :=
  ' (b, r) <- take k d ;; Ok (le_dec b, r).

(** header.rs:212-240: the version 4 part *)
Definition v4_read (d : bytes) : res v4data :=
  ' (a, d) <- take_le 8 d ;;
  ' (b, d) <- take_le 8 d ;;
  ' (c, d) <- take_le 8 d ;;
  ' (e, d) <- take_le 8 d ;;
  ' (f, d) <- take_le 8 d ;;
  ' (g, d) <- take_le 4 d ;;
  ' (m1, d) <- take 16 d ;;
  ' (m2, d) <- take 16 d ;;
  ' (m3, d) <- take 16 d ;;
  ' (m4, d) <- take 16 d ;;
  ' (m5, d) <- take 16 d ;;
  ' (m6, d) <- take 16 d ;;
  Ok (mkV4 a b c e f g m1 m2 m3 m4 m5 m6).

(** header.rs:158-247 [MpqHeader::read], on the bytes from the current
    position on. *)
Definition header_read (d : bytes) : res header :=
  ' (sig, d) <- take_le 4 d ;;
  if negb (sig =? MPQ_HEADER_SIGNATURE) then Err EInvalidFormat else
  ' (hsize, d) <- take_le 4 d ;;
  ' (asize, d) <- take_le 4 d ;;
  ' (vraw, d) <- take_le 2 d ;;
  ' (bsize, d) <- take_le 2 d ;;
  ' (hpos, d) <- take_le 4 d ;;
  ' (bpos, d) <- take_le 4 d ;;
  ' (hcount, d) <- take_le 4 d ;;
  ' (bcount, d) <- take_le 4 d ;;
  match version_of_raw vraw with
  | None => Err EUnsupportedVersion
  | Some v =>
      if hsize <? header_size_of v then Err EInvalidFormat else
      if negb (version_ge v V2) then
        Ok (mkHeader hsize asize v bsize hpos bpos hcount bcount
              None None None None None None None)
      else
        ' (hi, d) <- take_le 8 d ;;
        ' (hhi, d) <- take_le 2 d ;;
        ' (bhi, d) <- take_le 2 d ;;
        if negb (version_ge v V3) then
          Ok (mkHeader hsize asize v bsize hpos bpos hcount bcount
                (Some hi) (Some hhi) (Some bhi) None None None None)
        else
          ' (as64, d) <- take_le 8 d ;;
          ' (bet, d) <- take_le 8 d ;;
          ' (het, d) <- take_le 8 d ;;
          if negb (version_ge v V4) then
            Ok (mkHeader hsize asize v bsize hpos bpos hcount bcount
                  (Some hi) (Some hhi) (Some bhi) (Some as64) (Some bet) (Some het) None)
          else
            v4 <- v4_read d ;;
            Ok (mkHeader hsize asize v bsize hpos bpos hcount bcount
                  (Some hi) (Some hhi) (Some bhi) (Some as64) (Some bet) (Some het) (Some v4))
  end.

(** header.rs:250-252 *)
Definition get_archive_size (h : header) : N :=
  match h_archive_size64 h with Some n => n | None => h_archive_size h end.
(** header.rs:255-261 *)
Definition get_hash_table_pos (h : header) : N :=
  match h_hash_pos_hi h with
  | Some hi => N.lor (N.shiftl hi 32) (h_hash_pos h)
  | None => h_hash_pos h
  end.
(** header.rs:264-270 *)
Definition get_block_table_pos (h : header) : N :=
  match h_block_pos_hi h with
  | Some hi => N.lor (N.shiftl hi 32) (h_block_pos h)
  | None => h_block_pos h
  end.
(** header.rs:273-275: [512 << block_size] on [usize]: a shift amount of 64 or
    more panics, bits shifted out are lost. *)
Definition sector_size (block_size : N) : res N :=
  if block_size <? 64 then Ok (w64 (N.shiftl 512 block_size)) else Panic.

(** header.rs:76-84 *)
Record user_data := mkUD { ud_size : N; ud_offset : N; ud_hsize : N }.

(** The bytes of a file from a position on ([seek] + stream). *)
Definition from (file : bytes) (off : N) : bytes :=
  if off <=? lenN file then skipn (N.to_nat off) file else [].

(** header.rs:279-341 [find_header]: the loop with the current boundary
    [offset]; [fuel] bounds the number of boundaries (never reached, see
    HeaderFacts; reported as [Panic]). *)
Fixpoint find_header_loop (fuel : nat) (file : bytes) (offset : N)
  : res (N * option user_data * header) :=
  match fuel with
  | O => Panic
  | S f =>
      let next := find_header_loop f file (offset + HEADER_ALIGNMENT) in
      if lenN file <=? offset then Err EInvalidFormat
      else
        match take_le 4 (from file offset) with
        | Ok (sig, d) =>
            if sig =? MPQ_HEADER_SIGNATURE then
              h <- header_read (from file offset) ;; Ok (offset, None, h)
            else if sig =? MPQ_USERDATA_SIGNATURE then
              ' (us, d) <- take_le 4 d ;;
              ' (ho, d) <- take_le 4 d ;;
              ' (uh, d) <- take_le 4 d ;;
              let mpq := offset + ho in
              if mpq <? lenN file then
                ' (sig2, _) <- take_le 4 (from file mpq) ;;
                if sig2 =? MPQ_HEADER_SIGNATURE then
                  h <- header_read (from file mpq) ;; Ok (mpq, Some (mkUD us ho uh), h)
                else next
              else next
            else next
        | _ => next
        end
  end.
Definition find_header (file : bytes) : res (N * option user_data * header) :=
  find_header_loop (S (S (length file / 512))) file 0.

(** ** Writing *)
(** builder.rs: [HeaderWriteParams] (fields used by [write_header]) together
    with the builder's version and block size. *)
Record hparams := mkHP {
  p_version : version; p_block_size : N;
  p_archive_size : N; p_hash_pos : N; p_block_pos : N; p_hash_count : N; p_block_count : N;
  p_hi_pos : option N; p_het_pos : option N; p_bet_pos : option N; p_v4 : option v4data }.

Definition or0 (o : option N) : N := match o with Some n => n | None => 0 end.

(** builder.rs:1299-1315 *)
Definition v4_bytes (v : v4data) : bytes :=
  le64 (v4_hash_size v) ++ le64 (v4_block_size v) ++ le64 (v4_hi_size v)
  ++ le64 (v4_het_size v) ++ le64 (v4_bet_size v) ++ le32 (v4_chunk v)
  ++ v4_md5_block v ++ v4_md5_hash v ++ v4_md5_hi v ++ v4_md5_bet v
  ++ v4_md5_het v ++ v4_md5_header v.

(** builder.rs:1246-1264: the part common to all versions *)
Definition header_v1_bytes (p : hparams) : bytes :=
  le32 MPQ_HEADER_SIGNATURE ++ le32 (header_size_of (p_version p))
  ++ le32 (N.min (p_archive_size p) 0xFFFFFFFF)
  ++ le16 (version_raw (p_version p)) ++ le16 (p_block_size p)
  ++ le32 (w32 (p_hash_pos p)) ++ le32 (w32 (p_block_pos p))
  ++ le32 (p_hash_count p) ++ le32 (p_block_count p).
(** builder.rs:1272-1277 (repeated at 1280-1283, 1292-1295) *)
Definition header_v2_bytes (p : hparams) : bytes :=
  le64 (or0 (p_hi_pos p))
  ++ le16 (w16 (N.shiftr (p_hash_pos p) 32)) ++ le16 (w16 (N.shiftr (p_block_pos p) 32)).
(** builder.rs:1285-1288 (repeated at 1297-1300) *)
Definition header_v3_bytes (p : hparams) : bytes :=
  le64 (p_archive_size p) ++ le64 (or0 (p_bet_pos p)) ++ le64 (or0 (p_het_pos p)).

(** builder.rs:1239-1323 [write_header]: the bytes written at the start. *)
Definition write_header (p : hparams) : res bytes :=
  match p_version p with
  | V1 => Ok (header_v1_bytes p)
  | V2 => Ok (header_v1_bytes p ++ header_v2_bytes p)
  | V3 => Ok (header_v1_bytes p ++ header_v2_bytes p ++ header_v3_bytes p)
  | V4 =>
      match p_v4 p with
      | Some v => Ok (header_v1_bytes p ++ header_v2_bytes p ++ header_v3_bytes p ++ v4_bytes v)
      | None => Err EInvalidFormat
      end
  end.
