(** * Inspection of an archive (mopaq/src/archive.rs:35-133, 526-840). *)
From Verif Require Import Bytes Crypto HashTable BlockTable Header Compress HetBet Builder Listfile
  Attributes Archive Signature.
Open Scope N_scope.

(** archive.rs:117-133 [Md5Status] *)
Record md5_status := mkMS {
  ms_hash : bool; ms_block : bool; ms_hi : bool; ms_het : bool; ms_bet : bool; ms_header : bool }.

(** archive.rs:35-78 [ArchiveInfo], with the fields computed from more than the header left
    in; file size, the [TableInfo]s and [UserDataInfo] repeat header fields and are in
    [InfoReport].  The path is the one given. *)
Record info := mkInfo {
  i_version : version; i_file_count : N; i_max_count : N; i_sector_size : N; i_encrypted : bool;
  i_has_signature : bool; i_signature : sig_status; i_has_attributes : bool; i_has_listfile : bool;
  i_md5 : option md5_status }.

Section Info.
Variable L : codecs.
Variable md5 sha1 : bytes -> bytes.
Variable rd : N -> N -> N.

(** archive.rs:535-555: one table *)
Definition check_table (a : archive) (expected : bytes) (off size : N) : res bool :=
  if size =? 0 then Ok true
  else
    o <- add64 (a_off a) off ;;
    d <- read_at (a_file a) o size ;;
    Ok (bytes_eqb (md5 d) expected).

(** archive.rs:576-612: a table whose position may be missing or zero *)
Definition check_optional (a : archive) (expected : bytes) (pos : option N) (size : N) : res bool :=
  match pos with
  | Some p => if p =? 0 then Ok true else check_table a expected p size
  | None => Ok true
  end.

(** archive.rs:526-632 [validate_v4_md5_checksums] *)
Definition validate_v4 (a : archive) : res (option md5_status) :=
  let h := a_header a in
  match h_v4 h with
  | None => Ok None
  | Some v =>
      ht <- (if 0 <? h_hash_count h
             then check_table a (v4_md5_hash v) (get_hash_table_pos h) (v4_hash_size v) else Ok true) ;;
      bt <- (if 0 <? h_block_count h
             then check_table a (v4_md5_block v) (get_block_table_pos h) (v4_block_size v) else Ok true) ;;
      hi <- check_optional a (v4_md5_hi v) (h_hi_pos h) (v4_hi_size v) ;;
      he <- check_optional a (v4_md5_het v) (h_het_pos h) (v4_het_size v) ;;
      be <- check_optional a (v4_md5_bet v) (h_bet_pos h) (v4_bet_size v) ;;
      d <- read_at (a_file a) (a_off a) 192 ;;
      Ok (Some (mkMS ht bt hi he be (bytes_eqb (md5 d) (v4_md5_header v))))
  end.

(** archive.rs:635-840 [get_info] *)
Definition get_info (a : archive) : res info :=
  a <- (match a_hash a, a_het a with None, None => load_tables L a | _, _ => Ok a end) ;;
  let h := a_header a in
  let count := match a_bet a, a_block a with
               | Some b, _ => bet_count b
               | None, Some bt => lenN (filter (fun e => negb (be_size e =? 0)) bt)
               | None, None => 0
               end in
  let maxc := match a_het a with Some t => het_max t | None => h_hash_count h end in
  lf <- find_file a LISTFILE ;;
  sg <- find_file a SIGNATURE ;;
  at_ <- (match a_attrs a with
          | Some _ => Ok true
          | None => r <- find_file a ATTRIBUTES ;; Ok (match r with Some _ => true | None => false end)
          end) ;;
  let enc := match a_block a with Some bt => existsb (fun e => is_encrypted (be_flags e)) bt | None => false end in
  let has x := match x with Some _ => true | None => false end in
  sig <- (match sg with
          | Some _ =>
              match verify_signature L md5 sha1 rd weak_public_key strong_public_key a with
              | Ok s => Ok s
              | Err _ => Ok WeakInvalid
              | Panic => Panic
              end
          | None => Ok SigNone
          end) ;;
  m <- validate_v4 a ;;
  ss <- sector_size (h_block_size h) ;;
  Ok (mkInfo (h_version h) count maxc ss enc (has sg) sig at_ (has lf) m).

End Info.
