(** * Building an archive as a program on the file system
    (mopaq/src/builder.rs:525-733).

    Unlike [build] of Builder.v, which gives the bytes of the finished archive,
    this is the sequence of calls that puts them there.  Simplifications: the
    bytes of one file (and of the header) are written by one [write_all] where
    the code uses several in a row; since a write may stop after any byte, this
    makes no difference to the states passed through. *)
From Verif Require Import Bytes Crypto HashTable BlockTable Header Compress Listfile HetBet Builder FileSystem.
Open Scope N_scope.

(** builder.rs:52-56 [FileSource] *)
Inductive source := SData (d : bytes) | SPath (p : path).

(** builder.rs:36-50 [PendingFile] *)
Record spending := mkSP {
  sp_source : source; sp_name : bytes; sp_comp : N; sp_encrypt : bool; sp_fix : bool; sp_locale : N }.
Definition loaded (s : spending) (d : bytes) : pending :=
  mkPF d (sp_name s) (sp_comp s) (sp_encrypt s) (sp_fix s) (sp_locale s).

(** builder.rs:93-101 [ListfileOption] *)
Inductive slist := SGenerate | SExternal (p : path) | SNone.
Definition set_listfile (c : config) (o : listfile_option) : config :=
  mkCfg (c_version c) (c_block_size c) o (c_default c) (c_crcs c) (c_ctables c) (c_tmethod c).

(** builder.rs:567-607 [prepare_listfile] *)
Definition io_prepare (c : config) (lo : slist) (srcs : list spending) : io (config * list spending) :=
  let add d := srcs ++ [mkSP (SData d) LISTFILE (c_default c) false false 0] in
  match lo with
  | SGenerate => Ret (Ok (set_listfile c LGenerate, add (listfile_content (map sp_name srcs))))
  | SExternal p => d <~ io_read p ;; Ret (Ok (set_listfile c (LExternal d), add d))
  | SNone => Ret (Ok (set_listfile c LNone, srcs))
  end.

(** builder.rs:641-645, 754-758 *)
Definition io_source (s : source) : io bytes :=
  match s with SData d => Ret (Ok d) | SPath p => io_read p end.

Section BuildIo.
Variable L : codecs.
Variable md5 : bytes -> bytes.

(** builder.rs:638-687 *)
Fixpoint io_files (c : config) (ss : N) (tmp : path) (srcs : list spending) (i : N) (t : list hentry)
  : io (list (N * bentry) * list hentry) :=
  match srcs with
  | [] => Ret (Ok ([], t))
  | s :: r =>
      pos <~ io_tell ;;
      d <~ io_source (sp_source s) ;;
      let f := loaded s d in
      ' (out, csize, flags) <~ Ret (write_file L c ss f pos) ;;
      _ <~ write_all tmp out ;;
      t' <~ Ret (add_to_hash_table t (pf_name f) (w32 i) (pf_locale f)) ;;
      ' (es, t'') <~ io_files c ss tmp r (i + 1) t' ;;
      Ret (Ok ((pos, block_entry f pos csize flags) :: es, t''))
  end.

(** builder.rs:610-733 [write_archive] for versions 1 and 2 *)
Definition io_archive12 (c : config) (tmp : path) (srcs : list spending) : io unit :=
  let hcount := calculate_hash_table_size
                  (lenN srcs + match c_listfile c with LNone => 0 | _ => 1 end) in
  ss <~ Ret (sector_size (c_block_size c)) ;;
  _ <~ io_seek (header_size_of (c_version c)) ;;
  t0 <~ Ret (ht_new hcount) ;;
  ' (es, t) <~ io_files c ss tmp srcs 0 t0 ;;
  hash_pos <~ io_tell ;;
  _ <~ write_all tmp (write_hash_table t) ;;
  block_pos <~ io_tell ;;
  _ <~ write_all tmp (write_block_table (map snd es)) ;;
  hi_pos <~ match hi_written (version_ge (c_version c) V2) (map fst es) with
            | Some w => pos <~ io_tell ;; _ <~ write_all tmp w ;; Ret (Ok (Some pos))
            | None => Ret (Ok None)
            end ;;
  size <~ io_tell ;;
  _ <~ io_seek 0 ;;
  hdr <~ Ret (write_header (mkHP (c_version c) (c_block_size c) size hash_pos block_pos hcount
                                 (w32 (lenN srcs)) hi_pos None None None)) ;;
  write_all tmp hdr.

(** builder.rs:536-551, 750-795: the archive assembled in memory, then written.  Each file is
    read and put into the archive before the next is read; [write_archive34] does the second
    once more. *)
Fixpoint io_load (c : config) (ss : N) (srcs : list spending) (pos : N) : io (list pending) :=
  match srcs with
  | [] => Ret (Ok [])
  | s :: r =>
      d <~ io_source (sp_source s) ;;
      ' (out, _, _) <~ Ret (write_file L c ss (loaded s d) pos) ;;
      l <~ io_load c ss r (pos + lenN out) ;;
      Ret (Ok (loaded s d :: l))
  end.
Definition io_archive34 (c : config) (tmp : path) (srcs : list spending) : io unit :=
  ss <~ Ret (sector_size (c_block_size c)) ;;
  fs <~ io_load c ss srcs (header_size_of (c_version c)) ;;
  buffer <~ Ret (write_archive34 L md5 c fs) ;;
  write_all tmp buffer.

(** builder.rs:531-556: everything between creating and renaming the file *)
Definition io_body (c : config) (lo : slist) (srcs : list spending) (tmp : path) : io unit :=
  ' (c', srcs') <~ io_prepare c lo srcs ;;
  _ <~ (if version_ge (c_version c') V3 then io_archive34 c' tmp srcs' else io_archive12 c' tmp srcs') ;;
  io_flush.

(** Dropping the [NamedTempFile] removes the file; a failure is ignored. *)
Definition drop_temp (tmp : path) (r : res unit) : io unit := Do (OUnlink tmp) (fun _ => Ret r).

(** builder.rs:525-564 [build] *)
Definition io_build (c : config) (lo : slist) (srcs : list spending) (dest : path) : io unit :=
  Do (OTemp (p_dir dest)) (fun r =>
    match r with
    | RPath tmp =>
        after (io_body c lo srcs tmp) (fun r =>
          match r with
          | Ok _ => Do (ORename tmp dest) (fun r =>
              match r with RDone => Ret (Ok tt) | _ => drop_temp tmp (Err EIo) end)
          | e => drop_temp tmp e
          end)
    | _ => Ret (Err EIo)
    end).

End BuildIo.
