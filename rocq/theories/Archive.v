(** * Opening an archive and reading from it (mopaq/src/archive.rs).

    The archive file is a byte list that does not change while the archive is
    open.  Logging is left out.  [L] stands for the third-party codecs. *)
From Verif Require Import Bytes Crypto HashTable BlockTable Header Compress Adler Listfile
  Attributes HetBet.
Open Scope N_scope.

(** archive.rs:257-280 *)
Record archive := mkA {
  a_file : bytes; a_off : N; a_user : option user_data; a_header : header;
  a_hash : option (list hentry); a_block : option (list bentry); a_hi : option (list N);
  a_het : option het; a_bet : option bet; a_attrs : option attrs }.

(** archive.rs:1822-1839 *)
Record finfo := mkFI {
  fi_hash_index : N; fi_block : N; fi_pos : N; fi_csize : N; fi_size : N; fi_flags : N;
  fi_locale : N }.

(** archive.rs:1841-1878 *)
Definition is_compressed (flags : N) : bool := has_flag flags (N.lor FLAG_IMPLODE FLAG_COMPRESS).
Definition is_encrypted (flags : N) : bool := has_flag flags FLAG_ENCRYPTED.
Definition has_fix_key (flags : N) : bool := has_flag flags FLAG_FIX_KEY.
Definition is_single_unit (flags : N) : bool := has_flag flags FLAG_SINGLE_UNIT.
Definition has_sector_crc (flags : N) : bool := has_flag flags FLAG_SECTOR_CRC.

(** archive.rs:912-947 [find_file_classic] *)
Definition find_file_classic (a : archive) (name : bytes) : res (option finfo) :=
  ht <- of_option EInvalidFormat (a_hash a) ;;
  bt <- of_option EInvalidFormat (a_block a) ;;
  r <- ht_find_file ht name 0 ;;
  match r with
  | None => Ok None
  | Some (hi, e) =>
      b <- of_option EBlockTable (nthN bt (he_block e)) ;;
      pos <- add64 (a_off a) (pos_full (a_hi a) (he_block e) (be_pos b)) ;;
      Ok (Some (mkFI hi (he_block e) pos (be_csize b) (be_size b) (be_flags b) (he_locale e)))
  end.

(** archive.rs:421-428: both extended tables present and not empty *)
Definition valid_het_bet (a : archive) : option (het * bet) :=
  match a_het a, a_bet a with
  | Some h, Some b => if (0 <? het_max h) && (0 <? bet_count b) then Some (h, b) else None
  | _, _ => None
  end.

(** archive.rs:874-909 [find_file] *)
Definition find_file (a : archive) (name : bytes) : res (option finfo) :=
  match valid_het_bet a with
  | None => find_file_classic a name
  | Some (h, b) =>
      i <- het_find h name ;;
      info <- (match i with None => Ok None | Some i => r <- bet_get b i ;; Ok (option_map (pair i) r) end) ;;
      match info with
      | Some (i, bi) =>
          pos <- add64 (a_off a) (bi_pos bi) ;;
          Ok (Some (mkFI 0 i pos (bi_csize bi) (bi_size bi) (bi_flags bi) 0))
      | None =>
          match a_hash a, a_block a with
          | Some _, Some _ => find_file_classic a name
          | _, _ => Ok None
          end
      end
  end.

Section Archive.
Variable L : codecs.

(** archive.rs:1475-1484, 1316-1331: the part [data[0]], [data[1..]] common to
    both uses *)
Definition expand (data : bytes) (size : N) : res bytes :=
  match data with
  | [] => Err ECompression
  | m :: c => decompress L c (bN m) size
  end.

(** archive.rs:1417-1489: the sectors.  A checksum mismatch (1453-1471) is only
    logged, so the checksums do not appear. *)
Fixpoint read_sectors (file : bytes) (pos fsize ss flags key : N) (offs : list N) (i : N)
    (out : bytes) : res bytes :=
  match offs with
  | s :: ((e :: _) as r) =>
      if e <? s then Err EInvalidFormat
      else
        let csize := e - s in
        remaining <- sub_chk fsize (lenN out) ;;
        let expected := N.min remaining ss in
        p <- add64 pos s ;;
        raw <- read_at file p csize ;;
        let data := if is_encrypted flags then decrypt_file_data raw (w32 (key + w32 i)) else raw in
        sec <- (if is_compressed flags && (csize <? expected)
                then expand data expected
                else Ok (firstn (N.to_nat (N.min expected (lenN data))) data)) ;;
        read_sectors file pos fsize ss flags key r (i + 1) (out ++ sec)
  | _ => Ok out
  end.

(** archive.rs:1339-1495 [read_sectored_file]; a sector size of 0 makes
    [div_ceil] panic. *)
Definition read_sectored_file (a : archive) (fi : finfo) (key : N) : res bytes :=
  ss <- sector_size (h_block_size (a_header a)) ;;
  if ss =? 0 then Panic
  else
    let file := a_file a in
    let flags := fi_flags fi in
    let n := div_ceil (fi_size fi) ss in
    let tsize := (n + 1) * 4 in
    raw <- read_at file (fi_pos fi) tsize ;;
    let tab := if is_encrypted flags then decrypt_file_data raw (dec32 key) else raw in
    let offs := le_values 4 (N.to_nat (n + 1)) tab in
    _ <- (if has_sector_crc flags && (tsize + n * 4 <=? hd 0 offs)
          then read_at file (fi_pos fi + tsize) (n * 4) else Ok []) ;;
    read_sectors file (fi_pos fi) (fi_size fi) ss flags key offs 0 [].

(** archive.rs:1241-1253 *)
Definition read_key (a : archive) (name : bytes) (fi : finfo) (ksize : N) : N :=
  if is_encrypted (fi_flags fi) then
    let base := hash_string name HT_FILE_KEY in
    if has_fix_key (fi_flags fi) then N.lxor (w32 (base + w32 (fi_pos fi - a_off a))) ksize
    else base
  else 0.

(** archive.rs:1258-1332: a file stored in one piece *)
Definition read_whole_file (a : archive) (fi : finfo) (key size : N) : res bytes :=
  let flags := fi_flags fi in
  raw <- read_at (a_file a) (fi_pos fi) (fi_csize fi) ;;
  let data := if is_encrypted flags then decrypt_file_data raw key else raw in
  _ <- (if has_sector_crc flags && is_single_unit flags then
          crc <- read_at (a_file a) (fi_pos fi + fi_csize fi) 4 ;;
          plain <- (if is_compressed flags then
                      match data with [] => Panic | m :: c => decompress L c (bN m) size end
                    else Ok data) ;;
          if adler32 plain =? le_dec crc then Ok tt else Err EChecksum
        else Ok tt) ;;
  if is_compressed flags then expand data size else Ok data.

(** archive.rs:1213-1336 [read_file] *)
Definition read_file (a : archive) (name : bytes) : res bytes :=
  r <- find_file a name ;;
  fi <- of_option EFileNotFound r ;;
  ' (ksize, size) <-
    (match a_het a, a_bet a with
     | Some _, Some _ => Ok (w32 (fi_size fi), fi_size fi)
     | _, _ =>
         bt <- of_option EInvalidFormat (a_block a) ;;
         b <- of_option EBlockTable (nthN bt (fi_block fi)) ;;
         Ok (be_size b, be_size b)
     end) ;;
  let key := read_key a name fi ksize in
  if is_single_unit (fi_flags fi) || negb (is_compressed (fi_flags fi))
  then read_whole_file a fi key size
  else read_sectored_file a fi key.

(** archive.rs:1516-1547: the attempt to undo a second compression *)
Definition attr_unwrap (data : bytes) (count : N) : res bytes :=
  match data with
  | m :: rest =>
      if (4 <=? lenN data) && negb (le_dec (firstn 4 data) =? 100) && negb (bN m =? 0x64)
         && negb (N.land (bN m) 0x0F =? 0)
      then match decompress L rest (bN m) (count * 100) with
           | Ok d => Ok d
           | Err _ => Ok data
           | Panic => Panic
           end
      else Ok data
  | [] => Ok data
  end.

Definition ATTRIBUTES : bytes := lit "(attributes)".

(** archive.rs:1498-1565 [load_attributes] *)
Definition load_attributes (a : archive) : res archive :=
  match a_attrs a with
  | Some _ => Ok a
  | None =>
      match read_file a ATTRIBUTES with
      | Ok data =>
          count <- (match a_block a, a_bet a with
                    | Some bt, _ => Ok (lenN bt)
                    | None, Some b => Ok (bet_count b)
                    | None, None => Err EInvalidFormat
                    end) ;;
          data <- attr_unwrap data count ;;
          at_ <- attr_parse data count ;;
          Ok (mkA (a_file a) (a_off a) (a_user a) (a_header a) (a_hash a) (a_block a) (a_hi a)
                  (a_het a) (a_bet a) (Some at_))
      | Err EFileNotFound => Ok a
      | Err e => Err e
      | Panic => Panic
      end
  end.

(** archive.rs:1592-1631 [read_het_table_size], [read_bet_table_size] *)
Definition het_table_size (h : header) (het_pos : N) : res N :=
  match h_bet_pos h with
  | Some b => if het_pos <? b then Ok (b - het_pos) else sub_chk (get_hash_table_pos h) het_pos
  | None => sub_chk (get_hash_table_pos h) het_pos
  end.
Definition bet_table_size (h : header) (bet_pos : N) : res N :=
  sub_chk (get_hash_table_pos h) bet_pos.

(** archive.rs:337-385, 388-436: one extended table; a failed read is ignored. *)
Definition load_ext {T} (a_off : N) (pos : option N) (v4size : N) (v : version)
    (size_of : N -> res N) (rd : N -> N -> res T) : res (option T) :=
  match pos with
  | None => Ok None
  | Some p =>
      if p =? 0 then Ok None
      else
        size <- (match v with V3 => if v4size =? 0 then size_of p else Ok v4size | _ => Ok v4size end) ;;
        if size =? 0 then Ok None
        else
          o <- add64 a_off p ;;
          match rd o size with Ok t => Ok (Some t) | Err _ => Ok None | Panic => Panic end
  end.

Definition v4_het (h : header) : N := match h_v4 h with Some v => v4_het_size v | None => 0 end.
Definition v4_bet (h : header) : N := match h_v4 h with Some v => v4_bet_size v | None => 0 end.

(** archive.rs:329-498 [load_tables] *)
Definition load_tables (a : archive) : res archive :=
  let h := a_header a in
  let file := a_file a in
  ' (het, bet) <-
    (if version_ge (h_version h) V3 then
       het <- load_ext (a_off a) (h_het_pos h) (v4_het h) (h_version h) (het_table_size h)
                (fun o s => het_read L file o s ht_key) ;;
       bet <- load_ext (a_off a) (h_bet_pos h) (v4_bet h) (h_version h) (bet_table_size h)
                (fun o s => bet_read L file o s bt_key) ;;
       Ok (match het with Some t => Some t | None => a_het a end,
           match bet with Some t => Some t | None => a_bet a end)
     else Ok (a_het a, a_bet a)) ;;
  let a1 := mkA file (a_off a) (a_user a) h (a_hash a) (a_block a) (a_hi a) het bet (a_attrs a) in
  ' (ht, bt) <-
    (if match valid_het_bet a1 with None => true | Some _ => 0 <? h_hash_count h end then
       ho <- add64 (a_off a) (get_hash_table_pos h) ;;
       ht <- ht_read file ho (h_hash_count h) ;;
       bo <- add64 (a_off a) (get_block_table_pos h) ;;
       bt <- bt_read file bo (h_block_count h) ;;
       Ok (Some ht, Some bt)
     else Ok (a_hash a, a_block a)) ;;
  hi <- (match h_hi_pos h with
         | Some p => if p =? 0 then Ok (a_hi a)
                     else o <- add64 (a_off a) p ;; t <- hi_read file o (h_block_count h) ;; Ok (Some t)
         | None => Ok (a_hi a)
         end) ;;
  load_attributes (mkA file (a_off a) (a_user a) h ht bt hi het bet (a_attrs a)).

(** archive.rs:289-326 [open_with_options]; [load] is [options.load_tables] *)
Definition open_with_options (file : bytes) (load : bool) : res archive :=
  ' (off, ud, h) <- find_header file ;;
  let a := mkA file off ud h None None None None None None in
  if load then load_tables a else Ok a.

(** archive.rs:284-286 *)
Definition open_archive (file : bytes) : res archive := open_with_options file true.

(** ** Listing *)
(** archive.rs:21-35 *)
Record fentry := mkFE {
  fe_name : bytes; fe_size : N; fe_csize : N; fe_flags : N; fe_hashes : option (N * N) }.

(** Decimal digits, most significant first. *)
Fixpoint dec_digits (fuel : nat) (n : N) (acc : bytes) : bytes :=
  match fuel with
  | O => acc
  | S f => let acc := Nb (48 + n mod 10) :: acc in
           if n / 10 =? 0 then acc else dec_digits f (n / 10) acc
  end.
(** [format!("file_{:08}.dat", n)] *)
Definition anon_name (n : N) : bytes :=
  let d := dec_digits 20 n [] in
  lit "file_" ++ repeat x30 (8 - length d) ++ d ++ lit ".dat".

(** archive.rs:965-985 *)
Fixpoint list_named (a : archive) (names : list bytes) : res (list fentry) :=
  match names with
  | [] => Ok []
  | n :: t =>
      r <- find_file a n ;;
      rest <- list_named a t ;;
      match r with
      | Some fi => Ok (mkFE n (fi_size fi) (fi_csize fi) (fi_flags fi) None :: rest)
      | None => Ok rest
      end
  end.

(** archive.rs:995-1007, 1061-1073: files of the BET table from number [i] on *)
Fixpoint bet_entries (b : bet) (n : nat) (i : N) : res (list fentry) :=
  match n with
  | O => Ok []
  | S n' =>
      r <- bet_get b i ;;
      rest <- bet_entries b n' (i + 1) ;;
      match r with
      | Some bi => if has_flag (bi_flags bi) FLAG_EXISTS
                   then Ok (mkFE (anon_name i) (bi_size bi) (bi_csize bi) (bi_flags bi) None :: rest)
                   else Ok rest
      | None => Ok rest
      end
  end.

(** archive.rs:1027-1043: anonymous entries named by hash slot *)
Fixpoint slot_entries (bt : list bentry) (t : list hentry) (i : N) : list fentry :=
  match t with
  | [] => []
  | e :: r =>
      let rest := slot_entries bt r (i + 1) in
      if is_valid e then
        match nthN bt (he_block e) with
        | Some b => if has_flag (be_flags b) FLAG_EXISTS
                    then mkFE (anon_name i) (be_size b) (be_csize b) (be_flags b) None :: rest
                    else rest
        | None => rest
        end
      else rest
  end.

(** The listing from the extended tables if they are valid and give anything,
    otherwise what [k] makes of the classic tables (archive.rs:992-1023,
    1055-1089, 1144-1176). *)
Definition list_tables (a : archive) (k : list hentry -> list bentry -> list fentry)
  : res (list fentry) :=
  es <- (match valid_het_bet a with
         | Some (_, b) => bet_entries b (N.to_nat (bet_count b)) 0
         | None => Ok []
         end) ;;
  match es with
  | _ :: _ => Ok es
  | [] =>
      ht <- of_option EInvalidFormat (a_hash a) ;;
      bt <- of_option EInvalidFormat (a_block a) ;;
      Ok (k ht bt)
  end.

(** archive.rs:950-1046 [list] *)
Definition list_files (a : archive) : res (list fentry) :=
  r <- find_file a LISTFILE ;;
  match r with
  | Some _ => d <- read_file a LISTFILE ;; list_named a (parse_listfile d)
  | None => list_tables a (fun ht bt => slot_entries bt ht 0)
  end.

(** archive.rs:1094-1117, 1179-1203: one entry per block, in slot order *)
Fixpoint block_entries (hashes : bool) (bt : list bentry) (t : list hentry) (seen : list N)
  : list fentry :=
  match t with
  | [] => []
  | e :: r =>
      if is_valid e && negb (existsb (N.eqb (he_block e)) seen) then
        let rest := block_entries hashes bt r (he_block e :: seen) in
        match nthN bt (he_block e) with
        | Some b => if has_flag (be_flags b) FLAG_EXISTS
                    then mkFE (anon_name (he_block e)) (be_size b) (be_csize b) (be_flags b)
                           (if hashes then Some (he_name1 e, he_name2 e) else None) :: rest
                    else rest
        | None => rest
        end
      else block_entries hashes bt r seen
  end.

(** [str::cmp] *)
Fixpoint bytes_leb (a b : bytes) : bool :=
  match a, b with
  | [], _ => true
  | _, [] => false
  | x :: a', y :: b' => if beqb x y then bytes_leb a' b' else bN x <? bN y
  end.
(** [sort_by] on the names: a stable sort *)
Fixpoint insert_entry (e : fentry) (l : list fentry) : list fentry :=
  match l with
  | [] => [e]
  | f :: t => if bytes_leb (fe_name e) (fe_name f) then e :: l else f :: insert_entry e t
  end.
Definition sort_entries (l : list fentry) : list fentry := fold_right insert_entry [] l.

(** archive.rs:1050-1123 [list_all] *)
Definition list_all (a : archive) : res (list fentry) :=
  list_tables a (fun ht bt => sort_entries (block_entries false bt ht [])).
(** archive.rs:1141-1210 [list_all_with_hashes] *)
Definition list_all_with_hashes (a : archive) : res (list fentry) :=
  list_tables a (fun ht bt => sort_entries (block_entries true bt ht [])).
(** archive.rs:1126-1138 [list_with_hashes] *)
Definition list_with_hashes (a : archive) : res (list fentry) :=
  l <- list_files a ;;
  Ok (map (fun e => mkFE (fe_name e) (fe_size e) (fe_csize e) (fe_flags e)
             (Some (hash_string (fe_name e) HT_NAME_A, hash_string (fe_name e) HT_NAME_B))) l).

End Archive.
