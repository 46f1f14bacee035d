(** * The archive builder (mopaq/src/builder.rs).

    Simplifications: files added by path are represented by the bytes
    [fs::read] returns for them; the writer is represented by the bytes it ends
    up with; logging is left out.  [L] stands for the third-party codecs, [md5]
    for the MD5 digest. *)
From Verif Require Import Bytes Crypto HashTable BlockTable Header Compress Adler Listfile HetBet.
Open Scope N_scope.

(** builder.rs:36-50, 52-56 *)
Record pending := mkPF {
  pf_data : bytes; pf_name : bytes; pf_comp : N; pf_encrypt : bool; pf_fix : bool; pf_locale : N }.

(** builder.rs:93-101; the external list file is represented by its bytes *)
Inductive listfile_option := LGenerate | LExternal (data : bytes) | LNone.

(** builder.rs:143-160 without the pending files *)
Record config := mkCfg {
  c_version : version; c_block_size : N; c_listfile : listfile_option; c_default : N;
  c_crcs : bool; c_ctables : bool; c_tmethod : N }.

(** builder.rs:164-175 [new] *)
Definition default_config : config := mkCfg V1 3 LGenerate ZLIB false false ZLIB.

(** builder.rs:567-607 [prepare_listfile] *)
Definition prepare_listfile (c : config) (files : list pending) : list pending :=
  match c_listfile c with
  | LGenerate =>
      files ++ [mkPF (listfile_content (map pf_name files)) LISTFILE (c_default c) false false 0]
  | LExternal d => files ++ [mkPF d LISTFILE (c_default c) false false 0]
  | LNone => files
  end.

(** builder.rs:510-516: the count used for the hash table size *)
Definition table_count (c : config) (files : list pending) : N :=
  lenN files + match c_listfile c with LNone => 0 | _ => 1 end.

Definition flag_if (b : bool) (f : N) : N := if b then f else 0.

(** builder.rs:1326-1335 [calculate_file_key] *)
Definition calculate_file_key (name : bytes) (pos size flags : N) : N :=
  let base := hash_string name HT_FILE_KEY in
  if has_flag flags FLAG_FIX_KEY then N.lxor (w32 (base + w32 pos)) size else base.




(** builder.rs:1006-1008: [&file_data[i*ss .. min((i+1)*ss, len)]] for all [i] *)
Fixpoint chunks (fuel : nat) (ss : N) (d : bytes) : list bytes :=
  match fuel with
  | O => []
  | S f =>
      match d with
      | [] => []
      | _ => let n := N.to_nat (N.min ss (lenN d)) in firstn n d :: chunks f ss (skipn n d)
      end
  end.

(** builder.rs:1010, 1048: offsets of the sectors and of the end *)
Fixpoint sector_offsets (at_ : N) (l : list bytes) : list N :=
  match l with
  | [] => [w32 at_]
  | s :: t => w32 at_ :: sector_offsets (at_ + lenN s) t
  end.

(** builder.rs:1076-1087: each sector, found by the offsets, encrypted with its
    own key *)
Fixpoint enc_sectors (key ds : N) (data : bytes) (offs : list N) (i : N) : res bytes :=
  match offs with
  | a :: ((b :: _) as r) =>
      s <- sub_chk a (w32 ds) ;;
      e <- sub_chk b (w32 ds) ;;
      if e <? s then Panic
      else
        match slice s (e - s) data with
        | None => Panic
        | Some sec =>
            rest <- enc_sectors key ds data r (i + 1) ;;
            Ok (encrypt_data sec (w32 (key + w32 i)) ++ rest)
        end
  | _ => Ok []
  end.

Section Builder.
Variable L : codecs.
Variable md5 : bytes -> bytes.

(** builder.rs:926-953, 1019-1035: the bytes to store for a file or a sector and
    whether they are compressed *)
Definition store_form (d : bytes) (comp : N) : res (bytes * bool) :=
  if (comp =? 0) || (lenN d =? 0) then Ok (d, false)
  else
    c <- compress L d comp ;;
    if bytes_eqb c d then Ok (d, false) else Ok (c, true).

(** builder.rs:915-985: a file of at most one sector.  The result is the bytes
    written, the size recorded and the flags. *)
Definition write_single (c : config) (f : pending) (pos : N) : res (bytes * N * N) :=
  let d := pf_data f in
  ' (body, comp) <- store_form d (pf_comp f) ;;
  let flags := N.lor (N.lor FLAG_SINGLE_UNIT (flag_if (c_crcs c) FLAG_SECTOR_CRC))
                     (flag_if comp FLAG_COMPRESS) in
  let flags := N.lor (N.lor flags (flag_if (pf_encrypt f) FLAG_ENCRYPTED))
                     (flag_if (pf_encrypt f && pf_fix f) FLAG_FIX_KEY) in
  let final := if pf_encrypt f
               then encrypt_data body (calculate_file_key (pf_name f) pos (w32 (lenN d)) flags)
               else body in
  Ok (final ++ (if c_crcs c then le32 (adler32 d) else []), lenN final, flags).

(** builder.rs:1003-1038: the sectors as stored and whether any is compressed *)
Fixpoint store_sectors (l : list bytes) (comp : N) : res (list bytes * bool) :=
  match l with
  | [] => Ok ([], false)
  | s :: t =>
      ' (b, x) <- store_form s comp ;;
      ' (r, y) <- store_sectors t comp ;;
      Ok (b :: r, x || y)
  end.

(** builder.rs:987-1108: a file of several sectors; a sector size of 0 makes
    [div_ceil] panic. *)
Definition write_multi (c : config) (ss : N) (f : pending) (pos : N) : res (bytes * N * N) :=
  let d := pf_data f in
  if ss =? 0 then Panic
  else
    let n := div_ceil (lenN d) ss in
    let table_size := (n + 1) * 4 in
    let data_start := table_size + (if c_crcs c then n * 4 else 0) in
    let secs := chunks (length d) ss d in
    ' (stored, comp) <- store_sectors secs (pf_comp f) ;;
    let data := concat stored in
    let offs := sector_offsets data_start stored in
    let flags := N.lor (flag_if (c_crcs c) FLAG_SECTOR_CRC) (flag_if comp FLAG_COMPRESS) in
    let flags := N.lor (N.lor flags (flag_if (pf_encrypt f) FLAG_ENCRYPTED))
                       (flag_if (pf_encrypt f && pf_fix f) FLAG_FIX_KEY) in
    let key := calculate_file_key (pf_name f) pos (w32 (lenN d)) flags in
    data' <- (if pf_encrypt f then enc_sectors key data_start data offs 0 else Ok data) ;;
    let offs' := if pf_encrypt f then encrypt_block offs (dec32 key) else offs in
    Ok (bytes_of_words offs'
        ++ (if c_crcs c then concat (map (fun s => le32 (adler32 s)) secs) else [])
        ++ data',
        table_size + lenN data', flags).

(** builder.rs:897-1110 [write_file] *)
Definition write_file (c : config) (ss : N) (f : pending) (pos : N) : res (bytes * N * N) :=
  if lenN (pf_data f) <=? ss then write_single c f pos else write_multi c ss f pos.

(** builder.rs:673-679, 770-775 *)
Definition block_entry (f : pending) (pos csize flags : N) : bentry :=
  mkBE (pos_low pos) (w32 csize) (w32 (lenN (pf_data f))) (N.lor flags FLAG_EXISTS).

(** builder.rs:640-693, 753-791: the file data, and per file its position and
    block entry.  [add_to_hash_table], which the version 1 and 2 path calls
    after each file, is kept apart in [add_files]: a failure of either ends the
    build with an error and the file data does not depend on the hash table. *)
Fixpoint write_files (c : config) (ss : N) (fs : list pending) (pos : N)
  : res (bytes * list (N * bentry)) :=
  match fs with
  | [] => Ok ([], [])
  | f :: t =>
      ' (out, csize, flags) <- write_file c ss f pos ;;
      ' (rest, es) <- write_files c ss t (pos + lenN out) ;;
      Ok (out ++ rest, (pos, block_entry f pos csize flags) :: es)
  end.

(** builder.rs:663-668, 809-816 *)
Fixpoint add_files (t : list hentry) (fs : list pending) (i : N) : res (list hentry) :=
  match fs with
  | [] => Ok t
  | f :: r => t' <- add_to_hash_table t (pf_name f) (w32 i) (pf_locale f) ;; add_files t' r (i + 1)
  end.

(** builder.rs:610-733 [write_archive] for versions 1 and 2 *)
Definition write_archive12 (c : config) (fs : list pending) : res bytes :=
  ss <- sector_size (c_block_size c) ;;
  let hcount := calculate_hash_table_size (table_count c fs) in
  t0 <- ht_new hcount ;;
  let h0 := header_size_of (c_version c) in
  ' (body, es) <- write_files c ss fs h0 ;;
  t <- add_files t0 fs 0 ;;
  let htab := write_hash_table t in
  let btab := write_block_table (map snd es) in
  let hash_pos := h0 + lenN body in
  let block_pos := hash_pos + lenN htab in
  let hi := hi_written (version_ge (c_version c) V2) (map fst es) in
  let hi_pos := match hi with Some _ => Some (block_pos + lenN btab) | None => None end in
  let hib := match hi with Some w => w | None => [] end in
  let size := block_pos + lenN btab + lenN hib in
  hdr <- write_header (mkHP (c_version c) (c_block_size c) size hash_pos block_pos hcount
                            (w32 (lenN fs)) hi_pos None None None) ;;
  Ok (hdr ++ body ++ htab ++ btab ++ hib).

(** builder.rs:736-895 [write_archive_with_het_bet], with
    [finalize_v4_header_md5] (1388-1406) *)
Definition write_archive34 (c : config) (fs : list pending) : res bytes :=
  ss <- sector_size (c_block_size c) ;;
  let h0 := header_size_of (c_version c) in
  ' (body, es) <- write_files c ss fs h0 ;;
  let names := map pf_name fs in
  let bt := map snd es in
  het <- create_het_table names ;;
  hetb <- write_ext_table L (c_ctables c) (c_tmethod c) het ht_key ;;
  bet <- create_bet_table names bt ;;
  betb <- write_ext_table L (c_ctables c) (c_tmethod c) bet bt_key ;;
  let hcount := calculate_hash_table_size (table_count c fs) in
  t0 <- ht_new hcount ;;
  t <- add_files t0 fs 0 ;;
  let htab := write_hash_table t in
  let btab := write_block_table bt in
  let het_pos := h0 + lenN body in
  let bet_pos := het_pos + lenN hetb in
  let hash_pos := bet_pos + lenN betb in
  let block_pos := hash_pos + lenN htab in
  let hi := hi_written true (map fst es) in
  let hi_pos := match hi with Some _ => Some (block_pos + lenN btab) | None => None end in
  let hib := match hi with Some w => w | None => [] end in
  let size := block_pos + lenN btab + lenN hib in
  let v4 := match c_version c with
            | V4 => Some (mkV4 (hcount * 16) (lenN fs * 16) (lenN fs * 2) (lenN hetb) (lenN betb) 0x4000
                            (md5 btab) (md5 htab)
                            (match hi with Some w => md5 w | None => repeat x00 16 end)
                            (md5 betb) (md5 hetb) (repeat x00 16))
            | _ => None
            end in
  hdr <- write_header (mkHP (c_version c) (c_block_size c) size hash_pos block_pos hcount
                            (w32 (lenN fs)) hi_pos (Some het_pos) (Some bet_pos) v4) ;;
  let hdr := match c_version c with
             | V4 => firstn 192 hdr ++ md5 (firstn 192 hdr)
             | _ => hdr
             end in
  Ok (hdr ++ body ++ hetb ++ betb ++ htab ++ btab ++ hib).

(** builder.rs:525-564 [build]: the bytes of the archive (the file system side
    is modelled in FileSystem.v). *)
Definition build (c : config) (files : list pending) : res bytes :=
  let fs := prepare_listfile c files in
  if version_ge (c_version c) V3 then write_archive34 c fs else write_archive12 c fs.

End Builder.
