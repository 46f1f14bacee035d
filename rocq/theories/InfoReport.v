(** * The whole of what inspection reports, and how it is printed as comma separated values
    (mopaq/src/archive.rs:35-98, 635-840; storm-cli/src/output.rs:15-29, 278-295). *)
From Verif Require Import Bytes Crypto HashTable BlockTable Header Compress HetBet Builder Listfile
  Attributes Archive Signature Info CliList.
Open Scope N_scope.

(** archive.rs:79-90 [TableInfo] *)
Record table_info := mkTI { ti_size : option N; ti_offset : N; ti_csize : option N; ti_failed : bool }.
(** archive.rs:35-77 [ArchiveInfo] but for the path, which is the one given; archive.rs:93-98 [UserDataInfo]:
    header size, data size *)
Record report := mkReport {
  r_file_size : N; r_offset : N; r_info : info; r_hash : table_info; r_block : table_info;
  r_het : option table_info; r_bet : option table_info; r_hi : option table_info; r_user : option (N * N) }.

Definition none_in {A} (x : option A) : bool := match x with Some _ => false | None => true end.

(** archive.rs:708-752, 754-795: an extended table; [size_of] is [read_het_table_size] or
    [read_bet_table_size], of which the error is ignored (there is none).  The file opened once more
    for it is the same file. *)
Definition ext_info {T} (h : header) (pos v4size : option N) (size_of : N -> res N) (entries : T -> N) (t : option T)
  : res (option table_info) :=
  match pos with
  | None => Ok None
  | Some p =>
      if p =? 0 then Ok None
      else
        c <- (match v4size, h_version h with
              | None, V3 => match size_of p with Ok s => Ok (Some s) | Err _ => Ok None | Panic => Panic end
              | c, _ => Ok c
              end) ;;
        Ok (Some (mkTI (option_map entries t) p c (none_in t)))
  end.

Section Report.
Variable L : codecs.
Variable md5 sha1 : bytes -> bytes.
Variable rd : N -> N -> N.

(** archive.rs:635-840 [get_info]; the fields of [Info] are computed first (they are the first in the
    code as well, but for the digests, and a version with digests has no sizes to compute). *)
Definition get_report (a : archive) : res report :=
  a <- (match a_hash a, a_het a with None, None => load_tables L a | _, _ => Ok a end) ;;
  i <- get_info L md5 sha1 rd a ;;
  let h := a_header a in
  let stored (f : v4data -> N) := option_map f (h_v4 h) in
  het <- ext_info h (h_het_pos h) (stored v4_het_size) (het_table_size h) het_max (a_het a) ;;
  bet <- ext_info h (h_bet_pos h) (stored v4_bet_size) (bet_table_size h) bet_count (a_bet a) ;;
  let hi := match h_hi_pos h with
            | Some p => if p =? 0 then None
                        else Some (mkTI (match a_hi a with Some _ => Some (h_block_count h) | None => None end)
                                        p (stored v4_hi_size) (none_in (a_hi a)))
            | None => None
            end in
  Ok (mkReport (lenN (a_file a)) (a_off a) i
       (mkTI (Some (h_hash_count h)) (get_hash_table_pos h) (stored v4_hash_size)
             (none_in (a_hash a) && (0 <? h_hash_count h)))
       (mkTI (Some (h_block_count h)) (get_block_table_pos h) (stored v4_block_size)
             (none_in (a_block a) && (0 <? h_block_count h)))
       het bet hi
       (option_map (fun u => (ud_hsize u, ud_size u)) (a_user a))).

End Report.

(** archive.rs:101-115: the derived [Debug] of [SignatureStatus]; [StrongNoKey] is never made *)
Definition status_text (s : sig_status) : bytes :=
  match s with
  | SigNone => lit "None" | WeakValid => lit "WeakValid" | WeakInvalid => lit "WeakInvalid"
  | StrongValid => lit "StrongValid" | StrongInvalid => lit "StrongInvalid"
  end.
(** [Display] of [bool] *)
Definition truth (b : bool) : bytes := if b then lit "true" else lit "false".
(** header.rs: [FormatVersion as u16 + 1] *)
Definition version_shown (v : version) : N := match v with V1 => 1 | V2 => 2 | V3 => 3 | V4 => 4 end.

(** output.rs:278-295 [print_archive_info_csv]; [path] is what [display] makes of the path. *)
Definition print_info_csv (path : bytes) (r : report) : bytes :=
  let i := r_info r in
  let row k v := line (k ++ lit "," ++ v) in
  line (lit "property,value") ++
  row (lit "path") path ++
  row (lit "file_size") (decimal (r_file_size r)) ++
  row (lit "archive_offset") (decimal (r_offset r)) ++
  row (lit "format_version") (decimal (version_shown (i_version i))) ++
  row (lit "file_count") (decimal (i_file_count i)) ++
  row (lit "max_file_count") (decimal (i_max_count i)) ++
  row (lit "sector_size") (decimal (i_sector_size i)) ++
  row (lit "is_encrypted") (truth (i_encrypted i)) ++
  row (lit "has_signature") (truth (i_has_signature i)) ++
  row (lit "signature_status") (status_text (i_signature i)) ++
  row (lit "has_attributes") (truth (i_has_attributes i)) ++
  row (lit "has_listfile") (truth (i_has_listfile i)).
