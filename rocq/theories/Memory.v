(** * The memory that opening and reading ask for: the sizes in bytes of the vectors that are made
    with a length or capacity taken from the archive ([vec![0; n]], [Vec::with_capacity(n)]), in
    the order of the calls, as far as the calls before succeed.  Copies of data at hand
    ([collect], [to_vec], [clone]) and what the third-party decoders ask for are left out. *)
From Verif Require Import Bytes Crypto HashTable BlockTable Header Compress Listfile Attributes HetBet Archive.
Open Scope N_scope.

(** What follows only if [r] succeeded *)
Definition after {A} (r : res A) (k : A -> list N) : list N := match r with Ok x => k x | _ => [] end.
(** A seek to 2^63 or more fails before anything is asked for. *)
Definition sought (off : N) (l : list N) : list N := if 2 ^ 63 <=? off then [] else l.

(** hash.rs:92-131, block.rs:112-145: the bytes, and entries of 16 bytes *)
Definition ht_asks (file : bytes) (off n : N) : list N :=
  if is_power_of_two n then sought off (16 * n :: after (ht_read file off n) (fun _ => [16 * n])) else [].
Definition bt_asks (file : bytes) (off n : N) : list N :=
  sought off (16 * n :: after (bt_read file off n) (fun _ => [16 * n])).
(** block.rs:208-217 *)
Definition hi_asks (off n : N) : list N := sought off [2 * n].

Section L.
Variable L : codecs.

(** decompress.rs:8-155; the requests of all steps of several, also of those that a failure
    before prevents.  zlib.rs:25, bzip2.rs:12, lzma.rs:10 (28 once more), sparse.rs:8,
    huffman.rs:378, adpcm.rs:222; implode.rs and pkware.rs leave it to the library. *)
Definition unpack_asks (d : bytes) (m size : N) : list N :=
  match d with
  | [] => []
  | _ =>
      match from_flags m with
      | MNone | MImplode | MPKWare => []
      | MMultiple f =>
          (if bit f HUFFMAN then [N.max (2 * size) (2 * lenN d)]
           else if bit f ZLIB || bit f BZIP2 || bit f SPARSE then [4 * size] else []) ++ [size]
      | _ => [size]
      end
  end.
(** The method byte and what follows *)
Definition expand_asks (data : bytes) (size : N) : list N :=
  match data with [] => [] | m :: c => unpack_asks c (bN m) size end.

(** archive.rs:1255-1332 *)
Definition whole_asks (a : archive) (fi : finfo) (key size : N) : list N :=
  fi_csize fi ::
  after (read_at (a_file a) (fi_pos fi) (fi_csize fi)) (fun raw =>
    let data := if is_encrypted (fi_flags fi) then decrypt_file_data raw key else raw in
    if is_compressed (fi_flags fi) then expand_asks data size else []).

(** archive.rs:1417-1489 *)
Fixpoint sector_asks (file : bytes) (pos fsize ss flags key : N) (offs : list N) (i : N) (out : bytes) : list N :=
  match offs with
  | s :: ((e :: _) as r) =>
      if e <? s then []
      else
        let csize := e - s in
        after (sub_chk fsize (lenN out)) (fun remaining =>
        let expected := N.min remaining ss in
        after (add64 pos s) (fun p =>
        csize ::
        after (read_at file p csize) (fun raw =>
        let data := if is_encrypted flags then decrypt_file_data raw (w32 (key + w32 i)) else raw in
        (if is_compressed flags && (csize <? expected) then expand_asks data expected else []) ++
        after (if is_compressed flags && (csize <? expected)
               then expand L data expected
               else Ok (firstn (N.to_nat (N.min expected (lenN data))) data)) (fun sec =>
          sector_asks file pos fsize ss flags key r (i + 1) (out ++ sec)))))
  | _ => []
  end.

(** archive.rs:1339-1414 *)
Definition sectored_asks (a : archive) (fi : finfo) (key : N) : list N :=
  after (sector_size (h_block_size (a_header a))) (fun ss =>
  if ss =? 0 then []
  else
    let flags := fi_flags fi in
    let n := div_ceil (fi_size fi) ss in
    let tsize := (n + 1) * 4 in
    tsize ::
    after (read_at (a_file a) (fi_pos fi) tsize) (fun raw =>
    let tab := if is_encrypted flags then decrypt_file_data raw (dec32 key) else raw in
    let offs := le_values 4 (N.to_nat (n + 1)) tab in
    tsize ::
    (if has_sector_crc flags && (tsize + n * 4 <=? hd 0 offs) then [n * 4] else []) ++
    after (if has_sector_crc flags && (tsize + n * 4 <=? hd 0 offs)
           then read_at (a_file a) (fi_pos fi + tsize) (n * 4) else Ok []) (fun _ =>
    fi_size fi :: sector_asks (a_file a) (fi_pos fi) (fi_size fi) ss flags key offs 0 []))).

(** archive.rs:1213-1336 [read_file] *)
Definition read_asks (a : archive) (name : bytes) : list N :=
  after (find_file a name) (fun r =>
  match r with
  | None => []
  | Some fi =>
      after (match a_het a, a_bet a with
             | Some _, Some _ => Ok (w32 (fi_size fi), fi_size fi)
             | _, _ =>
                 bt <- of_option EInvalidFormat (a_block a) ;;
                 b <- of_option EBlockTable (nthN bt (fi_block fi)) ;;
                 Ok (be_size b, be_size b)
             end) (fun ks =>
      let key := read_key a name fi (fst ks) in
      sought (fi_pos fi)
        (if is_single_unit (fi_flags fi) || negb (is_compressed (fi_flags fi))
         then whole_asks a fi key (snd ks)
         else sectored_asks a fi key))
  end).

(** het.rs:59-140, bet.rs:70-151 *)
Definition ext_asks (sig : N) (file : bytes) (off size key : N) : list N :=
  sought off (size ::
  after (read_at file off size) (fun data =>
  if lenN data <? 12 then []
  else if negb (le_dec (firstn 4 data) =? sig) then []
  else
    let ds := le_dec (firstn 4 (skipn 8 data)) in
    let body := skipn 12 data in
    let body := if key =? 0 then body else decrypt_table_data body key in
    if lenN data <? ds + 12 then expand_asks body ds else [])).
(** bet.rs:166-184: what the table announces *)
Definition bet_asks (file : bytes) (off size key : N) : list N :=
  ext_asks BET_SIG file off size key ++
  after (ext_read L BET_SIG file off size key) (fun body =>
  if lenN body <? 76 then []
  else
    let w := word_at body in
    let d := skipn 76 body in
    let fc := w 18%nat in
    let ts := div_ceil (w 1%nat * w 3%nat) 8 in
    let hc := w 17%nat / 8 in
    fc * 4 :: after (of_option EIo (slice 0 (fc * 4) d)) (fun _ =>
    ts :: after (of_option EIo (slice (fc * 4) ts d)) (fun _ => [hc * 8]))).

(** attributes.rs:125-193; an entry of the result has 48 bytes *)
Definition attr_asks (data : bytes) (n : N) : list N :=
  if lenN data <? 8 then []
  else if negb (le_dec (firstn 4 data) =? EXPECTED_VERSION) then []
  else
    let flags := le_dec (firstn 4 (skipn 4 data)) in
    after (attr_size flags n) (fun size =>
    if lenN data <? size then []
    else 48 * n :: (if a_has flags A_CRC32 then [4 * n] else []) ++ (if a_has flags A_FILETIME then [8 * n] else []) ++
         (if a_has flags A_MD5 then [16 * n] else []) ++ (if a_has flags A_PATCH then [div_ceil n 8] else [])).
(** archive.rs:1516-1547 *)
Definition unwrap_asks (data : bytes) (count : N) : list N :=
  match data with
  | m :: rest =>
      if (4 <=? lenN data) && negb (le_dec (firstn 4 data) =? 100) && negb (bN m =? 0x64) && negb (N.land (bN m) 0x0F =? 0)
      then unpack_asks rest (bN m) (count * 100) else []
  | [] => []
  end.
(** archive.rs:1498-1565 [load_attributes] *)
Definition attributes_asks (a : archive) : list N :=
  match a_attrs a with
  | Some _ => []
  | None =>
      read_asks a ATTRIBUTES ++
      after (read_file L a ATTRIBUTES) (fun data =>
      after (match a_block a, a_bet a with
             | Some bt, _ => Ok (lenN bt)
             | None, Some b => Ok (bet_count b)
             | None, None => Err EInvalidFormat
             end) (fun count =>
      unwrap_asks data count ++ after (attr_unwrap L data count) (fun data => attr_asks data count)))
  end.

(** archive.rs:337-385, 388-436 *)
Definition load_asks (a_off : N) (pos : option N) (v4size : N) (v : version) (size_of : N -> res N) (rd : N -> N -> list N) : list N :=
  match pos with
  | None => []
  | Some p =>
      if p =? 0 then []
      else after (match v with V3 => if v4size =? 0 then size_of p else Ok v4size | _ => Ok v4size end) (fun size =>
           if size =? 0 then [] else after (add64 a_off p) (fun o => rd o size))
  end.

(** The tables of archive.rs:329-498 [load_tables] *)
Definition classic_asks (file : bytes) (off : N) (h : header) : list N :=
  after (add64 off (get_hash_table_pos h)) (fun ho =>
  ht_asks file ho (h_hash_count h) ++
  after (ht_read file ho (h_hash_count h)) (fun _ =>
  after (add64 off (get_block_table_pos h)) (fun bo => bt_asks file bo (h_block_count h)))).
Definition high_asks (off : N) (h : header) : list N :=
  match h_hi_pos h with
  | Some p => if p =? 0 then [] else after (add64 off p) (fun o => hi_asks o (h_block_count h))
  | None => []
  end.
Definition extended_asks (file : bytes) (off : N) (h : header) : list N :=
  if version_ge (h_version h) V3 then
    let het := load_ext off (h_het_pos h) (v4_het h) (h_version h) (het_table_size h) (fun o s => het_read L file o s ht_key) in
    load_asks off (h_het_pos h) (v4_het h) (h_version h) (het_table_size h) (fun o s => ext_asks HET_SIG file o s ht_key) ++
    after het (fun _ =>
    load_asks off (h_bet_pos h) (v4_bet h) (h_version h) (bet_table_size h) (fun o s => bet_asks file o s bt_key))
  else [].
(** archive.rs:289-326, 329-498: opening an archive and loading its tables *)
Definition open_asks (file : bytes) : list N :=
  after (find_header file) (fun '(off, ud, h) =>
  let a0 := mkA file off ud h None None None None None None in
  extended_asks file off h ++
  after (if version_ge (h_version h) V3 then
           het <- load_ext off (h_het_pos h) (v4_het h) (h_version h) (het_table_size h) (fun o s => het_read L file o s ht_key) ;;
           bet <- load_ext off (h_bet_pos h) (v4_bet h) (h_version h) (bet_table_size h) (fun o s => bet_read L file o s bt_key) ;;
           Ok (het, bet)
         else Ok (None, None)) (fun '(het, bet) =>
  let a1 := mkA file off ud h None None None het bet None in
  let needed := match valid_het_bet a1 with None => true | Some _ => 0 <? h_hash_count h end in
  (if needed then classic_asks file off h else []) ++
  after (if needed then
           ho <- add64 off (get_hash_table_pos h) ;;
           ht <- ht_read file ho (h_hash_count h) ;;
           bo <- add64 off (get_block_table_pos h) ;;
           bt <- bt_read file bo (h_block_count h) ;;
           Ok (Some ht, Some bt)
         else Ok (None, None)) (fun '(ht, bt) =>
  high_asks off h ++
  after (match h_hi_pos h with
         | Some p => if p =? 0 then Ok None else o <- add64 off p ;; t <- hi_read file o (h_block_count h) ;; Ok (Some t)
         | None => Ok None
         end) (fun hi => attributes_asks (mkA file off ud h ht bt hi het bet None))))).
End L.
