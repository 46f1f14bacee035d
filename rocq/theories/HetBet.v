(** * HET and BET tables (mopaq/src/tables/het.rs, bet.rs) and their creation
    (mopaq/src/builder.rs:1409-1879). *)
From Verif Require Import Bytes Crypto HashTable BlockTable Compress.
Open Scope N_scope.

(** [1u64 << k] minus one, saturated (het.rs:230-239). *)
Definition mask_sat (k : N) : N := if 64 <=? k then 2 ^ 64 - 1 else 2 ^ k - 1.
(** [1u64 << k] minus one where a shift of 64 or more panics (bet.rs:286, 292). *)
Definition mask_chk (k : N) : res N := if k <? 64 then Ok (2 ^ k - 1) else Panic.
(** [v >> k] on [u64] *)
Definition shr64 (v k : N) : res N := if k <? 64 then Ok (N.shiftr v k) else Panic.
(** [v << k] on [u64] *)
Definition shl64 (v k : N) : res N := if k <? 64 then Ok (w64 (N.shiftl v k)) else Panic.
(** arithmetic on [u32] that panics on overflow *)
Definition chk32 (n : N) : res N := if n <? M32 then Ok n else Panic.

(** ** Reading *)
Definition HET_SIG : N := 0x1A544548.
Definition BET_SIG : N := 0x1A544542.

(** het.rs:59-140, bet.rs:70-151 (the same text in both): the table data after
    the extended header. *)
Definition ext_read (L : codecs) (sig : N) (file : bytes) (off size key : N) : res bytes :=
  data <- read_at file off size ;;
  if lenN data <? 12 then Err EInvalidFormat
  else if negb (le_dec (firstn 4 data) =? sig) then Err EInvalidFormat
  else
    let ds := le_dec (firstn 4 (skipn 8 data)) in
    let body := skipn 12 data in
    let body := if key =? 0 then body else decrypt_table_data body key in
    if lenN data <? ds + 12 then
      match body with
      | [] => Err EInvalidFormat
      | m :: c => decompress L c (bN m) ds
      end
    else Ok body.

(** The [i]-th little-endian [u32] of a buffer (present, sizes are checked
    before use). *)
Definition word_at (d : bytes) (i : nat) : N := le_dec (firstn 4 (skipn (4 * i) d)).

(** het.rs:11-55 *)
Record het := mkHet {
  het_size : N; het_max : N; het_table_bytes : N; het_hash_bits : N; het_total_index : N;
  het_extra : N; het_index_bits : N; het_block_bytes : N;
  het_hashes : bytes; het_indices : bytes }.

(** het.rs:59-207, 210-226 *)
Definition het_read (L : codecs) (file : bytes) (off size key : N) : res het :=
  body <- ext_read L HET_SIG file off size key ;;
  if lenN body <? 32 then Err EInvalidFormat
  else
    let tb := word_at body 2 in
    let ti := word_at body 4 in
    let idx := div_ceil ti 8 in
    if lenN body <? 32 + tb + idx then Err EInvalidFormat
    else
      match slice 32 tb body, slice (32 + tb) idx body with
      | Some h, Some i =>
          Ok (mkHet (word_at body 0) (word_at body 1) tb (word_at body 3) ti
                (word_at body 5) (word_at body 6) (word_at body 7) h i)
      | _, _ => Panic
      end.

(** het.rs:266-291 [read_hash_entry] *)
Definition het_entry (h : het) (index : N) : option N :=
  let bit := index * het_hash_bits h in
  let byte := bit / 8 in
  match slice byte 8 (het_hashes h) with
  | None => None
  | Some b => Some (N.land (N.shiftr (le_dec b) (bit mod 8)) (mask_sat (het_hash_bits h)))
  end.

(** het.rs:229-263 [find_file] *)
Definition het_find (h : het) (name : bytes) : res (option N) :=
  let hash := jenkins_hash name in
  let hmask := mask_sat (het_hash_bits h) in
  let imask := mask_sat (het_index_bits h) in
  bits <- chk32 (het_table_bytes h * 8) ;;
  if het_hash_bits h =? 0 then Panic
  else
    let entries := bits / het_hash_bits h in
    if entries =? 0 then Panic
    else
      match het_entry h (N.land hash (entries - 1)) with
      | None => Ok None
      | Some e =>
          if negb (N.land e hmask =? N.land hash hmask) then Ok None
          else
            fi <- shr64 e (het_hash_bits h) ;;
            let fi := N.land fi imask in
            if het_max h <=? fi then Ok None else Ok (Some (w32 fi))
      end.

(** bet.rs:10-66 *)
Record bet := mkBet {
  bet_size : N; bet_count : N; bet_unk08 : N; bet_entry_bits : N;
  ix_pos : N; ix_size : N; ix_csize : N; ix_flag : N; ix_unk : N;
  ct_pos : N; ct_size : N; ct_csize : N; ct_flag : N; ct_unk : N;
  bet_hash_total : N; bet_hash_extra : N; bet_hash_bits : N; bet_hash_bytes : N;
  bet_flag_count : N;
  bet_flags : list N; bet_table : bytes; bet_hashes : list N }.

(** [n] consecutive little-endian values of [k] bytes *)
Fixpoint le_values (k n : nat) (d : bytes) : list N :=
  match n with
  | O => []
  | S n' => le_dec (firstn k d) :: le_values k n' (skipn k d)
  end.

(** bet.rs:70-187, 190-219.  The cursor reads follow each other; a read past the
    end is an I/O error. *)
Definition bet_read (L : codecs) (file : bytes) (off size key : N) : res bet :=
  body <- ext_read L BET_SIG file off size key ;;
  if lenN body <? 76 then Err EInvalidFormat
  else
    let w := word_at body in
    let d := skipn 76 body in
    let fc := w 18%nat in
    flags <- of_option EIo (slice 0 (fc * 4) d) ;;
    let ts := div_ceil (w 1%nat * w 3%nat) 8 in
    table <- of_option EIo (slice (fc * 4) ts d) ;;
    let hc := w 17%nat / 8 in
    hashes <- of_option EIo (slice (fc * 4 + ts) (hc * 8) d) ;;
    Ok (mkBet (w 0%nat) (w 1%nat) (w 2%nat) (w 3%nat) (w 4%nat) (w 5%nat) (w 6%nat) (w 7%nat)
          (w 8%nat) (w 9%nat) (w 10%nat) (w 11%nat) (w 12%nat) (w 13%nat) (w 14%nat) (w 15%nat)
          (w 16%nat) (w 17%nat) fc
          (le_values 4 (N.to_nat fc) flags) table (le_values 8 (N.to_nat hc) hashes)).

(** bet.rs:263-288 [read_table_entry] *)
Definition bet_entry (t : bet) (index : N) : res (option N) :=
  let bit := index * bet_entry_bits t in
  let byte := bit / 8 in
  let sh := bit mod 8 in
  if lenN (bet_table t) <? byte + 8 then Ok None
  else
    let n := N.min (div_ceil (sh + bet_entry_bits t) 8) 8 in
    match slice byte n (bet_table t) with
    | None => Panic
    | Some b =>
        m <- mask_chk (bet_entry_bits t) ;;
        Ok (Some (N.land (N.shiftr (le_dec b) sh) m))
    end.

(** bet.rs:291-294 *)
Definition extract_bits (v off cnt : N) : res N :=
  m <- mask_chk cnt ;; x <- shr64 v off ;; Ok (N.land x m).

(** bet.rs:299-311 *)
Record bet_info := mkBI { bi_pos : N; bi_size : N; bi_csize : N; bi_flags : N }.

(** bet.rs:222-260 [get_file_info] *)
Definition bet_get (t : bet) (index : N) : res (option bet_info) :=
  if bet_count t <=? index then Ok None
  else
    r <- bet_entry t index ;;
    match r with
    | None => Ok None
    | Some e =>
        pos <- extract_bits e (ix_pos t) (ct_pos t) ;;
        size <- extract_bits e (ix_size t) (ct_size t) ;;
        csize <- extract_bits e (ix_csize t) (ct_csize t) ;;
        fi <- extract_bits e (ix_flag t) (ct_flag t) ;;
        let fi := w32 fi in
        flags <- (if fi <? bet_flag_count t then
                    match nthN (bet_flags t) fi with Some f => Ok f | None => Panic end
                  else Ok 0) ;;
        Ok (Some (mkBI pos size csize flags))
    end.

(** ** Writing *)
(** builder.rs:1593-1599 *)
Definition bits_needed (v : N) : N := if v =? 0 then 1 else N.size v.

(** builder.rs:1533-1590 [write_bit_entry] *)
Definition write_bit_entry (data : bytes) (index value bits : N) : res bytes :=
  let bit := index * bits in
  let byte := bit / 8 in
  let sh := bit mod 8 in
  let need := div_ceil (sh + bits) 8 in
  if lenN data <? byte + need then Err EInvalidFormat
  else
    let n := N.min need 8 in
    match slice byte n data with
    | None => Panic
    | Some b =>
        let vmask := mask_sat bits in
        let mask := w64 (N.shiftl vmask sh) in
        let ex := N.lor (N.ldiff (le_dec b) mask) (w64 (N.shiftl (N.land value vmask) sh)) in
        Ok (splice byte (le_enc (N.to_nat n) ex) data)
    end.

(** builder.rs:1466-1497: probing for a free slot; [used] is [file_map] reduced
    to which slots are taken. *)
Fixpoint het_slot (fuel : nat) (used : list bool) (entries start cur : N) : res N :=
  match fuel with
  | O => Err EInvalidFormat
  | S f =>
      match nthN used cur with
      | None => Panic
      | Some false => Ok cur
      | Some true =>
          let cur := (cur + 1) mod entries in
          if cur =? start then Err EInvalidFormat else het_slot f used entries start cur
      end
  end.

(** builder.rs:1460-1498 *)
Fixpoint het_fill (names : list bytes) (i : N) (used : list bool) (table : bytes)
    (entries hbits ibits : N) : res bytes :=
  match names with
  | [] => Ok table
  | n :: rest =>
      let hash := jenkins_hash n in
      let start := N.land hash (entries - 1) in
      slot <- het_slot (length used) used entries start start ;;
      hm <- mask_chk hbits ;;
      hi <- shl64 i hbits ;;
      table' <- write_bit_entry table slot (N.lor (N.land hash hm) hi) (hbits + ibits) ;;
      het_fill rest (i + 1) (upd used (N.to_nat slot) true) table' entries hbits ibits
  end.

(** [u32::next_power_of_two]: panics when the result does not fit *)
Definition next_pow2_chk (n : N) : res N := chk32 (next_power_of_two n).

(** builder.rs:1409-1530 [create_het_table] *)
Definition create_het_table (names : list bytes) : res bytes :=
  let count := w32 (lenN names) in
  c2 <- chk32 (count * 2) ;;
  entries <- next_pow2_chk c2 ;;
  let hbits := bits_needed entries in
  let ibits := bits_needed count in
  tb <- chk32 (entries * hbits) ;;
  let tb := div_ceil tb 8 in
  at_ <- chk32 (entries * (hbits + ibits)) ;;
  let actual := div_ceil at_ 8 in
  ti <- chk32 (entries * ibits) ;;
  let idx := div_ceil ti 8 in
  table <- het_fill names 0 (repeat false (N.to_nat entries)) (zeros actual) entries hbits ibits ;;
  ds <- chk32 (32 + tb + idx) ;;
  ts <- chk32 (12 + ds) ;;
  Ok (le32 HET_SIG ++ le32 1 ++ le32 ds
      ++ (le32 ts ++ le32 count ++ le32 tb ++ le32 hbits ++ le32 ti ++ le32 0 ++ le32 ibits ++ le32 0)
      ++ table ++ zeros idx).

(** The sorted, duplicate-free flag values (builder.rs:1665-1675, 1701-1703). *)
Fixpoint insert_flag (x : N) (l : list N) : list N :=
  match l with
  | [] => [x]
  | y :: t => if x =? y then l else if x <? y then x :: l else y :: insert_flag x t
  end.
Definition flag_array (bt : list bentry) : list N :=
  fold_right (fun e acc => insert_flag (be_flags e) acc) [] bt.

Fixpoint index_of (x : N) (l : list N) (i : N) : option N :=
  match l with
  | [] => None
  | y :: t => if x =? y then Some i else index_of x t (i + 1)
  end.

Definition max_of (f : bentry -> N) (bt : list bentry) : N :=
  fold_right (fun e acc => N.max (f e) acc) 0 bt.

(** builder.rs:1746-1768 *)
Fixpoint bet_fill (bt : list bentry) (i : N) (table : bytes) (flags : list N)
    (is_ ics ifl entry_bits : N) : res bytes :=
  match bt with
  | [] => Ok table
  | e :: rest =>
      match index_of (be_flags e) flags 0 with
      | None => Panic
      | Some fi =>
          a <- shl64 (be_pos e) 0 ;;
          b <- shl64 (be_size e) is_ ;;
          c <- shl64 (be_csize e) ics ;;
          d <- shl64 fi ifl ;;
          table' <- write_bit_entry table i (N.lor (N.lor (N.lor a b) c) d) entry_bits ;;
          bet_fill rest (i + 1) table' flags is_ ics ifl entry_bits
      end
  end.

(** builder.rs:1815-1819 *)
Fixpoint bet_hash_fill (hs : list N) (i : N) (d : bytes) : res bytes :=
  match hs with
  | [] => Ok d
  | h :: rest => d' <- write_bit_entry d i h 64 ;; bet_hash_fill rest (i + 1) d'
  end.

(** builder.rs:1657-1824 [create_bet_table]; the block table has one entry per
    pending file. *)
Definition create_bet_table (names : list bytes) (bt : list bentry) : res bytes :=
  let count := w32 (lenN names) in
  let flags := flag_array bt in
  let cp := bits_needed (max_of be_pos bt) in
  let cs := bits_needed (max_of be_size bt) in
  let cc := bits_needed (max_of be_csize bt) in
  let cf := match flags with [] => 0 | _ => bits_needed (lenN flags - 1) end in
  let is_ := cp in
  let ics := is_ + cs in
  let ifl := ics + cc in
  let iu := ifl + cf in
  tbits <- chk32 (count * iu) ;;
  let tsize := div_ceil tbits 8 in
  ht <- chk32 (count * 64) ;;
  let hsize := div_ceil ht 8 in
  table <- bet_fill bt 0 (zeros tsize) flags is_ ics ifl iu ;;
  fs <- chk32 (lenN flags * 4) ;;
  ds <- chk32 (76 + fs + tsize + hsize) ;;
  ts <- chk32 (12 + ds) ;;
  hashes <- bet_hash_fill (map jenkins_hash names) 0 (zeros hsize) ;;
  Ok (le32 BET_SIG ++ le32 1 ++ le32 ds
      ++ concat (map le32 [ts; count; 0x10; iu; 0; is_; ics; ifl; iu; cp; cs; cc; cf; 0;
                           ht; 0; 64; hsize; lenN flags])
      ++ concat (map le32 flags) ++ table ++ hashes).

(** builder.rs:1602-1654 [write_het_table], 1827-1879 [write_bet_table] (the
    same text with another key): the bytes written. *)
Definition write_ext_table (L : codecs) (compressed : bool) (m : N) (data : bytes) (key : N) : res bytes :=
  if lenN data <? 12 then Err EInvalidFormat
  else
    let hdr := firstn 12 data in
    let body := skipn 12 data in
    body <- (if compressed then c <- compress L body m ;; Ok (Nb m :: c) else Ok body) ;;
    Ok (hdr ++ encrypt_data body key).
