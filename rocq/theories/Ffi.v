(** * The C API (storm-ffi/src/lib.rs).

    Every exported function is a program over atomic actions: taking and
    releasing one of the three global mutexes, one access to what a mutex
    protects, and accesses to thread-local cells.  Any number of threads run such
    programs interleaved (see [step]).

    Simplifications: an access to a map entry through [get]/[get_mut] is one
    action, also if the entry is changed, as the mutex is held meanwhile.  A null
    or valid pointer argument is a boolean or an [option]; memory behind it is
    not modelled, what is written there is part of the result.  The environment
    (files on disk) answers every request arbitrarily.  A panic inside an
    [extern "C"] function aborts the process (the crate asks for rustc 1.86), so
    a poisoned mutex is never seen.  Locking a mutex that the same thread holds
    blocks. *)
From Verif Require Import Bytes Header Compress Archive Attributes Listfile Builder Signature HashTable BlockTable.
Open Scope N_scope.

(** lib.rs:20-25 *)
Inductive lockid := NEXT | ARCHIVES | FILES.
Definition lockid_eqb (a b : lockid) : bool :=
  match a, b with NEXT, NEXT | ARCHIVES, ARCHIVES | FILES, FILES => true | _, _ => false end.

(** lib.rs:34-45 *)
Record ahandle := mkAH { ah_archive : archive; ah_path : bytes }.
Record fhandle := mkFH { fh_archive : N; fh_name : bytes; fh_data : bytes; fh_pos : N; fh_size : N }.

(** lib.rs:48-57, 60, 66-72, 75-86, 95-99 *)
Definition ERROR_SUCCESS : N := 0.
Definition ERROR_FILE_NOT_FOUND : N := 2.
Definition ERROR_ACCESS_DENIED : N := 5.
Definition ERROR_INVALID_HANDLE : N := 6.
Definition ERROR_INVALID_PARAMETER : N := 87.
Definition ERROR_INSUFFICIENT_BUFFER : N := 122.
Definition ERROR_ALREADY_EXISTS : N := 183.
Definition ERROR_FILE_CORRUPT : N := 1392.
Definition ERROR_NOT_SUPPORTED : N := 50.
Definition LOCALE_NEUTRAL : N := 0.
Definition VERIFY_SECTOR_CRC : N := 0x01.
Definition VERIFY_FILE_CRC : N := 0x02.
Definition VERIFY_FILE_MD5 : N := 0x04.
Definition VERIFY_SIGNATURE : N := 0x10.
Definition VERIFY_ALL_FILES : N := 0x20.
Definition VERIFY_ALL : N := 0xFF.

(** A C string argument: [None] is a null pointer. *)
Definition cstr := option bytes.

(** ** The functions and their arguments.
    [out] says whether the output pointer is not null.  A callback is given by
    the API calls it makes for a name and by whether it asks to go on. *)
Inductive call :=
| COpenArchive (fname : cstr) (out : bool)
| CCreateArchive (fname : cstr) (disposition table_size : N) (out : bool)
| CCloseArchive (h : N)
| COpenFile (a : N) (fname : cstr) (out : bool)
| CCloseFile (h : N)
| CReadFile (h : N) (buffer : bool) (to_read : N)
| CFileSize (h : N) (high : bool)
| CSeek (h : N) (pos : Z) (high : option Z) (method : N)
| CHasFile (a : N) (fname : cstr)
| CFileInfo (h : N) (class : N) (buffer : bool) (size : N)
| CArchiveName (a : N) (buffer : bool) (size : N)
| CEnumFiles (a : N) (mask : cstr) (cb_null : bool) (cb : bytes -> list call * bool)
| CSetLocale (l : N)
| CGetLocale
| CGetLastError
| CSetLastError (e : N)
| CFileName (h : N) (buffer : bool)
| CExtract (a : N) (fname dest : cstr)
| CVerifyFile (a : N) (fname : cstr) (flags : N)
| CVerifyArchive (a : N) (flags : N).

(** What a call returns, with what it wrote through pointers. *)
Inductive ret :=
| RBool (b : bool)
| RHandle (h : N)                      (* true, and a handle *)
| RData (d : bytes)                    (* true, and data in the buffer *)
| RInfo (d : bytes) (needed : N)       (* true, and data of [needed] bytes *)
| RNeed (needed : N)                   (* false, and the size needed *)
| RNames (l : list bytes)              (* true, after passing these names on *)
| RNum (n : N) (high : option Z).      (* a number, and a high part *)

(** A finished call, in the record of calls that the theorems talk about (no
    function looks at it): the thread, the call, its result, the thread's last
    error just after it and the calls that had finished when it began. *)
Inductive event := mkE {
  e_thread : nat; e_call : call; e_ret : ret; e_err : N; e_past : list event }.

(** lib.rs:21-31 *)
Record shared := mkS {
  s_next : N; s_archs : N -> option ahandle; s_files : N -> option fhandle;
  s_lock : lockid -> option nat; s_err : nat -> N; s_locale : nat -> N; s_log : list event }.

Definition upd {A} (f : N -> A) (k : N) (v : A) : N -> A := fun i => if i =? k then v else f i.
Definition updn {A} (f : nat -> A) (k : nat) (v : A) : nat -> A := fun i => if Nat.eqb i k then v else f i.
Definition upd_lock (f : lockid -> option nat) (k : lockid) v : lockid -> option nat :=
  fun i => if lockid_eqb i k then v else f i.

(** ** Atomic actions *)
Inductive act : Type -> Type :=
| ALock (l : lockid) : act unit
| AUnlock (l : lockid) : act unit
| ANewId : act (option N)                                          (* [None]: overflow *)
| AArchIns (id : N) (h : ahandle) : act unit
| AArchMod (id : N) (f : ahandle -> ahandle) : act (option ahandle) (* the entry before *)
| AArchDel (id : N) : act bool
| AFileIns (id : N) (f : fhandle) : act unit
| AFileMod (id : N) (f : fhandle -> fhandle) : act (option fhandle)
| AFileDel (id : N) : act bool
| ARetain (a : N) : act unit
| ASetErr (e : N) : act unit
| AGetErr : act N
| ASetLocale (l : N) : act unit
| AGetLocale : act N
| AReadDisk (path : bytes) : act (option bytes)
| AExists (path : bytes) : act bool
| AWriteDisk (path data : bytes) : act bool
| ABegin (c : call) : act (list event)
| AEnd (c : call) (past : list event) (r : ret) : act unit.

Definition some {A} (o : option A) : bool := match o with Some _ => true | None => false end.
Definition set_next s v := mkS v (s_archs s) (s_files s) (s_lock s) (s_err s) (s_locale s) (s_log s).
Definition set_archs s v := mkS (s_next s) v (s_files s) (s_lock s) (s_err s) (s_locale s) (s_log s).
Definition set_files s v := mkS (s_next s) (s_archs s) v (s_lock s) (s_err s) (s_locale s) (s_log s).
Definition set_lock s v := mkS (s_next s) (s_archs s) (s_files s) v (s_err s) (s_locale s) (s_log s).
Definition set_err s v := mkS (s_next s) (s_archs s) (s_files s) (s_lock s) v (s_locale s) (s_log s).
Definition set_locale s v := mkS (s_next s) (s_archs s) (s_files s) (s_lock s) (s_err s) v (s_log s).
Definition set_log s v := mkS (s_next s) (s_archs s) (s_files s) (s_lock s) (s_err s) (s_locale s) v.

(** [can a t s x s']: in state [s] thread [t] can do [a], with result [x] and new
    state [s']. *)
Definition can {A} (a : act A) (t : nat) (s : shared) : A -> shared -> Prop :=
  match a in act A return A -> shared -> Prop with
  | ALock l => fun _ s' => s_lock s l = None /\ s' = set_lock s (upd_lock (s_lock s) l (Some t))
  | AUnlock l => fun _ s' => s' = set_lock s (upd_lock (s_lock s) l None)
  | ANewId => fun x s' =>
      if s_next s + 1 <? M64 then x = Some (s_next s) /\ s' = set_next s (s_next s + 1)
      else x = None /\ s' = s
  | AArchIns id h => fun _ s' => s' = set_archs s (upd (s_archs s) id (Some h))
  | AArchMod id f => fun x s' =>
      x = s_archs s id /\ s' = set_archs s (upd (s_archs s) id (option_map f (s_archs s id)))
  | AArchDel id => fun x s' => x = some (s_archs s id) /\ s' = set_archs s (upd (s_archs s) id None)
  | AFileIns id f => fun _ s' => s' = set_files s (upd (s_files s) id (Some f))
  | AFileMod id f => fun x s' =>
      x = s_files s id /\ s' = set_files s (upd (s_files s) id (option_map f (s_files s id)))
  | AFileDel id => fun x s' => x = some (s_files s id) /\ s' = set_files s (upd (s_files s) id None)
  | ARetain a => fun _ s' =>
      s' = set_files s (fun i => match s_files s i with
                                 | Some f => if fh_archive f =? a then None else Some f
                                 | None => None
                                 end)
  | ASetErr e => fun _ s' => s' = set_err s (updn (s_err s) t e)
  | AGetErr => fun x s' => x = s_err s t /\ s' = s
  | ASetLocale l => fun _ s' => s' = set_locale s (updn (s_locale s) t l)
  | AGetLocale => fun x s' => x = s_locale s t /\ s' = s
  | AReadDisk _ => fun _ s' => s' = s
  | AExists _ => fun _ s' => s' = s
  | AWriteDisk _ _ => fun _ s' => s' = s
  | ABegin _ => fun x s' => x = s_log s /\ s' = s
  | AEnd c past r => fun _ s' => s' = set_log s (mkE t c r (s_err s t) past :: s_log s)
  end.

(** ** Programs *)
Inductive prog (R : Type) : Type :=
| Ret (r : R)
| Abort                                  (* panic: the process ends *)
| Act {A : Type} (a : act A) (k : A -> prog R).
Arguments Ret {R}. Arguments Abort {R}. Arguments Act {R A}.

Fixpoint pbind {R S} (p : prog R) (f : R -> prog S) : prog S :=
  match p with
  | Ret r => f r
  | Abort => Abort
  | Act a k => Act a (fun x => pbind (k x) f)
  end.

Notation "x <! a ; k" := (Act a (fun x => k)) (at level 61, a at next level, right associativity).
Notation "! a ; k" := (Act a (fun _ => k)) (at level 61, a at next level, right associativity).

(** A guard that lives until [p] has its result. *)
Definition locked {R} (l : lockid) (p : prog R) : prog R :=
  ! ALock l ; pbind p (fun r => ! AUnlock l ; Ret r).

(** lib.rs:108-110 with the common endings *)
Definition fail (e : N) : prog ret := ! ASetErr e ; Ret (RBool false).
Definition finish (r : ret) : prog ret := ! ASetErr ERROR_SUCCESS ; Ret r.
(** lib.rs:483-492, 517-526, 541-544: the failures of functions that return a number *)
Definition fail_num (e : N) : prog ret := ! ASetErr e ; Ret (RNum 0xFFFFFFFF None).

(** lib.rs:112-118 *)
Definition handle_to_id (h : N) : option N := if h =? 0 then None else Some h.

(** [CStr::from_ptr(p).to_str()]: the bytes before the first zero byte, if they
    are UTF-8. *)
Fixpoint until_nul (d : bytes) : bytes :=
  match d with [] => [] | b :: t => if beqb b x00 then [] else b :: until_nul t end.
Definition to_str (d : bytes) : option bytes :=
  let s := until_nul d in if bytes_eqb (utf8_lossy s) s then Some s else None.
(** [CString::new(s)]: fails if there is a zero byte inside. *)
Definition has_nul (s : bytes) : bool := existsb (beqb x00) s.

(** lib.rs:158-161, 361-364: a fresh handle number *)
Definition new_id (k : N -> prog ret) : prog ret :=
  ! ALock NEXT ;
  o <! ANewId ;
  match o with
  | Some id => ! AUnlock NEXT ; k id
  | None => Abort
  end.

(** lib.rs:175-180, 1010-1015 *)
Definition open_code (e : error) : N :=
  match e with
  | EFileNotFound => ERROR_FILE_NOT_FOUND
  | EInvalidFormat => ERROR_FILE_CORRUPT
  | EIo => ERROR_ACCESS_DENIED
  | _ => ERROR_FILE_CORRUPT
  end.
(** lib.rs:277-282 *)
Definition create_code (e : error) : N :=
  match e with
  | EFileNotFound => ERROR_FILE_NOT_FOUND
  | EInvalidFormat => ERROR_INVALID_PARAMETER
  | EIo => ERROR_ACCESS_DENIED
  | _ => ERROR_ACCESS_DENIED
  end.

(** lib.rs:440-442 *)
Definition bytes_to_read (n : N) (f : fhandle) : N := N.min n (lenN (fh_data f) - fh_pos f).
Definition set_pos (f : fhandle) (p : N) : fhandle :=
  mkFH (fh_archive f) (fh_name f) (fh_data f) p (fh_size f).

(** lib.rs:529-546: the new position; [None] for an unknown origin, a panic if the
    64-bit sum overflows. *)
Definition seek_target (f : fhandle) (pos : Z) (high : option Z) (method : N) : option (res N) :=
  let offset := match high with None => pos | Some h => Z.lor pos (Z.shiftl h 32) end in
  let as_usize (z : Z) := Z.to_N (z mod 2 ^ 64) in
  let from (base : N) :=
    let z := (Z.of_N base + offset)%Z in
    if ((- 2 ^ 63 <=? z) && (z <? 2 ^ 63))%Z then Ok (as_usize z) else Panic in
  match method with
  | 0 => Some (Ok (as_usize offset))
  | 1 => Some (from (fh_pos f))
  | 2 => Some (from (lenN (fh_data f)))
  | _ => None
  end.
(** lib.rs:549: clamped to the file's size *)
Definition seek_pos (f : fhandle) (pos : Z) (high : option Z) (method : N) : N :=
  match seek_target f pos high method with
  | Some (Ok p) => N.min p (lenN (fh_data f))
  | _ => fh_pos f
  end.

(** lib.rs:630-671 [get_file_info]: error code and result *)
Definition file_info (f : fhandle) (class size : N) : N * ret :=
  let give v := if 8 <=? size then (ERROR_SUCCESS, RInfo (le_enc 8 v) 8) else (ERROR_INSUFFICIENT_BUFFER, RNeed 8) in
  match class with
  | 7 => give (fh_size f)
  | 10 => give (fh_pos f)
  | _ => (ERROR_NOT_SUPPORTED, RBool false)
  end.
(** lib.rs:674-745 [get_archive_info] *)
Definition archive_info (h : header) (class size : N) : res (N * ret) :=
  let give k v := if k <=? size then Ok (ERROR_SUCCESS, RInfo (le_enc (N.to_nat k) v) k)
                  else Ok (ERROR_INSUFFICIENT_BUFFER, RNeed k) in
  match class with
  | 1 => give 8 (get_archive_size h)
  | 2 => give 4 (h_hash_count h)
  | 3 => give 4 (h_block_count h)
  | 4 => if 4 <=? size then ss <- sector_size (h_block_size h) ;; give 4 (w32 ss)
         else Ok (ERROR_INSUFFICIENT_BUFFER, RNeed 4)
  | _ => Ok (ERROR_NOT_SUPPORTED, RBool false)
  end.

(** [str::contains], and [pattern.replace("*", "")] *)
Fixpoint starts_with (p s : bytes) : bool :=
  match p, s with
  | [], _ => true
  | x :: p', y :: s' => beqb x y && starts_with p' s'
  | _, [] => false
  end.
Fixpoint contains (p s : bytes) : bool :=
  starts_with p s || match s with [] => false | _ :: s' => contains p s' end.
Definition remove_stars (p : bytes) : bytes := filter (fun b => negb (beqb b "*"%byte)) p.
(** lib.rs:845, 846-849: passed on to the callback *)
Definition enumerated (pattern name : bytes) : bool :=
  (bytes_eqb pattern (lit "*") || contains (remove_stars pattern) name) && negb (has_nul name).

(** lib.rs:1221-1226: special names and directories *)
Definition last_byte (s : bytes) : byte := last s x00.
Definition skipped_name (n : bytes) : bool :=
  (starts_with (lit "(") n && beqb (last_byte n) ")"%byte)
  || beqb (last_byte n) "/"%byte || beqb (last_byte n) "\"%byte || has_nul n.

Section Api.
Variable L : codecs.
Variable md5 sha1 : bytes -> bytes.
Variable crc32 : bytes -> N.
(** How much a [read] on an archive gives ([Signature]). *)
Variable rd : archive -> N -> N -> N.

(** lib.rs:131-185 [SFileOpenArchive] *)
Definition open_archive_api (fname : cstr) (out : bool) : prog ret :=
  match fname with
  | None => fail ERROR_INVALID_PARAMETER
  | Some d =>
      if negb out then fail ERROR_INVALID_PARAMETER
      else
        match to_str d with
        | None => fail ERROR_INVALID_PARAMETER
        | Some path =>
            o <! AReadDisk path ;
            match (match o with None => Err EIo | Some b => open_archive L b end) with
            | Ok a =>
                new_id (fun id =>
                  ! ALock ARCHIVES ;
                  ! AArchIns id (mkAH a path) ;
                  ! AUnlock ARCHIVES ;
                  finish (RHandle id))
            | Err e => fail (open_code e)
            | Panic => Abort
            end
        end
  end.

(** lib.rs:194-287 [SFileCreateArchive]: the builder's default settings, format
    V2 and no files.  The build writes through a temporary file
    (builder.rs:525-564). *)
Definition create_archive_api (fname : cstr) (disposition table_size : N) (out : bool) : prog ret :=
  match fname with
  | None => fail ERROR_INVALID_PARAMETER
  | Some d =>
      if negb out then fail ERROR_INVALID_PARAMETER
      else if ((table_size =? 0) || negb (N.land table_size (table_size - 1) =? 0)) || (table_size <? 4)
      then fail ERROR_INVALID_PARAMETER
      else
        match to_str d with
        | None => fail ERROR_INVALID_PARAMETER
        | Some path =>
            let create :=
              match build L md5 (mkCfg V2 3 LGenerate ZLIB false false ZLIB) [] with
              | Ok arc =>
                  ok <! AWriteDisk path arc ;
                  if (ok : bool) then open_archive_api fname out else fail (create_code EIo)
              | Err e => fail (create_code e)
              | Panic => Abort
              end in
            ex <! AExists path ;
            match disposition with
            | 1 => if (ex : bool) then fail ERROR_ALREADY_EXISTS else create
            | 2 => create
            | 3 => fail ERROR_INVALID_PARAMETER
            | 4 => if (ex : bool) then open_archive_api fname out else create
            | 5 => if (ex : bool) then create else fail ERROR_FILE_NOT_FOUND
            | _ => fail ERROR_INVALID_PARAMETER
            end
        end
  end.

(** lib.rs:291-311 [SFileCloseArchive] *)
Definition close_archive_api (h : N) : prog ret :=
  match handle_to_id h with
  | None => fail ERROR_INVALID_HANDLE
  | Some id =>
      ! ALock FILES ;
      ! ARetain id ;
      ! AUnlock FILES ;
      ! ALock ARCHIVES ;
      ok <! AArchDel id ;
      ! AUnlock ARCHIVES ;
      if (ok : bool) then finish (RBool true) else fail ERROR_INVALID_HANDLE
  end.

(** Inside a function that holds [ARCHIVES]: the entry of a handle, possibly
    changed by [f]. *)
Definition with_archive (h : N) (f : ahandle -> ahandle) (k : ahandle -> prog ret) : prog ret :=
  match handle_to_id h with
  | None => fail ERROR_INVALID_HANDLE
  | Some id =>
      locked ARCHIVES
        (o <! AArchMod id f ;
         match o with None => fail ERROR_INVALID_HANDLE | Some ah => k ah end)
  end.
(** The same for a file. *)
Definition with_file (h : N) (f : fhandle -> fhandle) (bad : prog ret) (k : fhandle -> prog ret) : prog ret :=
  match handle_to_id h with
  | None => bad
  | Some id =>
      locked FILES
        (o <! AFileMod id f ;
         match o with None => bad | Some fh => k fh end)
  end.
Definition same {A} (x : A) : A := x.

(** lib.rs:320-397 [SFileOpenFileEx] *)
Definition open_file_api (a : N) (fname : cstr) (out : bool) : prog ret :=
  match fname with
  | None => fail ERROR_INVALID_PARAMETER
  | Some d =>
      if negb out then fail ERROR_INVALID_PARAMETER
      else if a =? 0 then fail ERROR_INVALID_HANDLE
      else
        match to_str d with
        | None => fail ERROR_INVALID_PARAMETER
        | Some name =>
            with_archive a same (fun ah =>
              match find_file (ah_archive ah) name with
              | Ok (Some fi) =>
                  match read_file L (ah_archive ah) name with
                  | Ok data =>
                      new_id (fun id =>
                        ! ALock FILES ;
                        ! AFileIns id (mkFH a name data 0 (fi_size fi)) ;
                        ! AUnlock FILES ;
                        finish (RHandle id))
                  | Err _ => fail ERROR_FILE_CORRUPT
                  | Panic => Abort
                  end
              | Ok None => fail ERROR_FILE_NOT_FOUND
              | Err _ => fail ERROR_FILE_CORRUPT
              | Panic => Abort
              end)
        end
  end.

(** lib.rs:401-414 [SFileCloseFile] *)
Definition close_file_api (h : N) : prog ret :=
  match handle_to_id h with
  | None => fail ERROR_INVALID_HANDLE
  | Some id =>
      ! ALock FILES ;
      ok <! AFileDel id ;
      ! AUnlock FILES ;
      if (ok : bool) then finish (RBool true) else fail ERROR_INVALID_HANDLE
  end.

(** lib.rs:423-474 [SFileReadFile] *)
Definition read_file_api (h : N) (buffer : bool) (n : N) : prog ret :=
  if negb buffer then fail ERROR_INVALID_PARAMETER
  else with_file h (fun f => set_pos f (fh_pos f + bytes_to_read n f)) (fail ERROR_INVALID_HANDLE)
         (fun f => finish (RData (firstn (N.to_nat (bytes_to_read n f)) (skipn (N.to_nat (fh_pos f)) (fh_data f))))).

(** lib.rs:482-503 [SFileGetFileSize] *)
Definition file_size_api (h : N) (high : bool) : prog ret :=
  with_file h same (fail_num ERROR_INVALID_HANDLE)
    (fun f => finish (RNum (w32 (fh_size f))
                       (if high then Some (Z.of_N (w32 (N.shiftr (fh_size f) 32))) else None))).

(** lib.rs:511-557 [SFileSetFilePointer] *)
Definition seek_api (h : N) (pos : Z) (high : option Z) (method : N) : prog ret :=
  with_file h (fun f => set_pos f (seek_pos f pos high method)) (fail_num ERROR_INVALID_HANDLE)
    (fun f =>
       match seek_target f pos high method with
       | None => fail_num ERROR_INVALID_PARAMETER
       | Some Panic | Some (Err _) => Abort
       | Some (Ok _) =>
           let p := seek_pos f pos high method in
           finish (RNum (w32 p) (option_map (fun _ => Z.of_N (N.shiftr p 32)) high))
       end).

(** lib.rs:565-585 [SFileHasFile]: sets no error *)
Definition has_file_api (a : N) (fname : cstr) : prog ret :=
  match fname, handle_to_id a with
  | Some d, Some id =>
      match to_str d with
      | None => Ret (RBool false)
      | Some name =>
          locked ARCHIVES
            (o <! AArchMod id same ;
             match o with
             | None => Ret (RBool false)
             | Some ah =>
                 match find_file (ah_archive ah) name with
                 | Ok r => Ret (RBool (some r))
                 | Err _ => Ret (RBool false)
                 | Panic => Abort
                 end
             end)
      end
  | _, _ => Ret (RBool false)
  end.

(** lib.rs:594-627 [SFileGetFileInfo]: the lock on the files is released before
    the archives are looked at (edition 2021: at the end of the [if let]). *)
Definition file_info_api (h : N) (class : N) (buffer : bool) (size : N) : prog ret :=
  if negb buffer && (0 <? size) then fail ERROR_INVALID_PARAMETER
  else
    match handle_to_id h with
    | None => fail ERROR_INVALID_HANDLE
    | Some id =>
        ! ALock FILES ;
        o <! AFileMod id same ;
        match o with
        | Some f => let (e, r) := file_info f class size in ! ASetErr e ; ! AUnlock FILES ; Ret r
        | None =>
            ! AUnlock FILES ;
            ! ALock ARCHIVES ;
            o <! AArchMod id same ;
            match o with
            | Some ah =>
                match archive_info (a_header (ah_archive ah)) class size with
                | Ok (e, r) => ! ASetErr e ; ! AUnlock ARCHIVES ; Ret r
                | _ => Abort
                end
            | None => ! AUnlock ARCHIVES ; fail ERROR_INVALID_HANDLE
            end
        end
    end.

(** lib.rs:753-794 [SFileGetArchiveName] *)
Definition archive_name_api (a : N) (buffer : bool) (size : N) : prog ret :=
  if negb buffer || (size =? 0) then fail ERROR_INVALID_PARAMETER
  else with_archive a same (fun ah =>
         if has_nul (ah_path ah) then fail ERROR_INVALID_PARAMETER
         else if size <? lenN (ah_path ah) + 1 then fail ERROR_INSUFFICIENT_BUFFER
         else finish (RData (ah_path ah ++ [x00]))).

(** lib.rs:907-936 [SFileGetFileName] *)
Definition file_name_api (h : N) (buffer : bool) : prog ret :=
  if negb buffer then fail ERROR_INVALID_PARAMETER
  else with_file h same (fail ERROR_INVALID_HANDLE)
         (fun f => if has_nul (fh_name f) then fail ERROR_INVALID_PARAMETER
                   else finish (RData (fh_name f ++ [x00]))).

(** lib.rs:872-897 *)
Definition set_locale_api (l : N) : prog ret := o <! AGetLocale ; ! ASetLocale l ; Ret (RNum o None).
Definition get_locale_api : prog ret := o <! AGetLocale ; Ret (RNum o None).
Definition get_error_api : prog ret := o <! AGetErr ; Ret (RNum o None).
Definition set_error_api (e : N) : prog ret := ! ASetErr e ; Ret (RBool true).

(** lib.rs:945-1022 [SFileExtractFile]: creating the directory and writing the
    file are one request to the environment. *)
Definition extract_api (a : N) (fname dest : cstr) : prog ret :=
  match fname, dest with
  | Some d, Some d' =>
      if a =? 0 then fail ERROR_INVALID_HANDLE
      else
        match to_str d, to_str d' with
        | Some name, Some path =>
            with_archive a same (fun ah =>
              match read_file L (ah_archive ah) name with
              | Ok data => ok <! AWriteDisk path data ;
                           if (ok : bool) then finish (RBool true) else fail ERROR_ACCESS_DENIED
              | Err e => fail (open_code e)
              | Panic => Abort
              end)
        | _, _ => fail ERROR_INVALID_PARAMETER
        end
  | _, _ => fail ERROR_INVALID_PARAMETER
  end.

(** lib.rs:1077-1081, 1120-1124: the attributes, loaded if they were not; a
    failure to load is ignored. *)
Definition with_attributes (a : archive) : res archive :=
  match load_attributes L a with Ok a' => Ok a' | Err _ => Ok a | Panic => Panic end.
Definition attributes_of (a : archive) (block : N) : option fattr :=
  match a_attrs a with Some at_ => nth_error (at_files at_) (N.to_nat block) | None => None end.
(** lib.rs:1083-1109, 1126-1152: one comparison *)
Definition compare_attr {T} (a : archive) (name : bytes) (expected : option T) (ok : T -> bytes -> bool) : res bool :=
  match expected with
  | None => Ok true
  | Some x => match read_file L a name with
              | Ok d => Ok (ok x d)
              | Err _ => Ok false
              | Panic => Panic
              end
  end.

(** lib.rs:1057-1156: what [SFileVerifyFile] does with the archive: the error code
    and the archive afterwards *)
Definition verify_file (a : archive) (name : bytes) (flags : N) : res (N * archive) :=
  match find_file a name with
  | Panic => Panic
  | Err _ => Ok (ERROR_FILE_CORRUPT, a)
  | Ok None => Ok (ERROR_FILE_NOT_FOUND, a)
  | Ok (Some fi) =>
      let vf := if flags =? 0 then VERIFY_ALL else flags in
      let on f := negb (N.land vf f =? 0) in
      s <- (if on VERIFY_SECTOR_CRC && has_sector_crc (fi_flags fi)
            then match read_file L a name with Ok _ => Ok true | Err _ => Ok false | Panic => Panic end
            else Ok true) ;;
      if negb s then Ok (ERROR_FILE_CORRUPT, a)
      else
        ' (c, a) <- (if on VERIFY_FILE_CRC then
                       a <- with_attributes a ;;
                       b <- compare_attr a name (match attributes_of a (fi_block fi) with
                                                 | Some f => fa_crc f | None => None end)
                              (fun x d => crc32 d =? x) ;;
                       Ok (b, a)
                     else Ok (true, a)) ;;
        if negb c then Ok (ERROR_FILE_CORRUPT, a)
        else
          ' (m, a) <- (if on VERIFY_FILE_MD5 then
                         a <- with_attributes a ;;
                         b <- compare_attr a name (match attributes_of a (fi_block fi) with
                                                   | Some f => fa_md5 f | None => None end)
                                (fun x d => bytes_eqb (md5 d) x) ;;
                         Ok (b, a)
                       else Ok (true, a)) ;;
          if negb m then Ok (ERROR_FILE_CORRUPT, a) else Ok (ERROR_SUCCESS, a)
  end.

(** lib.rs:1030-1157 [SFileVerifyFile] *)
Definition verify_file_api (a : N) (fname : cstr) (flags : N) : prog ret :=
  match fname with
  | None => fail ERROR_INVALID_PARAMETER
  | Some d =>
      if a =? 0 then fail ERROR_INVALID_HANDLE
      else
        match to_str d with
        | None => fail ERROR_INVALID_PARAMETER
        | Some name =>
            with_archive a
              (fun ah => match verify_file (ah_archive ah) name flags with
                         | Ok (_, a') => mkAH a' (ah_path ah)
                         | _ => ah
                         end)
              (fun ah => match verify_file (ah_archive ah) name flags with
                         | Ok (e, _) => if e =? ERROR_SUCCESS then finish (RBool true) else fail e
                         | _ => Abort
                         end)
        end
  end.

(** lib.rs:1219-1265: each listed file through [SFileVerifyFile], which locks
    [ARCHIVES] although it is held *)
Fixpoint verify_all (a : N) (l : list fentry) : prog ret :=
  match l with
  | [] => finish (RBool true)
  | f :: t =>
      if skipped_name (fe_name f) then verify_all a t
      else
        let fl := N.lor (if has_sector_crc (fe_flags f) then VERIFY_SECTOR_CRC else 0)
                        (N.lor VERIFY_FILE_CRC VERIFY_FILE_MD5) in
        pbind (verify_file_api a (Some (fe_name f)) fl) (fun r =>
          match r with
          | RBool false => e <! AGetErr ;
                           if e =? ERROR_FILE_CORRUPT then Ret (RBool false) else verify_all a t
          | _ => verify_all a t
          end)
  end.

(** lib.rs:1168-1271 [SFileVerifyArchive] *)
Definition verify_archive_api (a : N) (flags : N) : prog ret :=
  with_archive a same (fun ah =>
    let vf := if flags =? 0 then VERIFY_SIGNATURE else flags in
    let arc := ah_archive ah in
    match (if N.land vf VERIFY_SIGNATURE =? 0 then Ok SigNone
           else verify_signature L md5 sha1 (rd arc) weak_public_key strong_public_key arc) with
    | Panic => Abort
    | Err _ | Ok WeakInvalid | Ok StrongInvalid => fail ERROR_FILE_CORRUPT
    | Ok _ =>
        if N.land vf VERIFY_ALL_FILES =? 0 then finish (RBool true)
        else
          match (match list_files L arc with Err _ => list_all arc | r => r end) with
          | Ok l => verify_all a l
          | Err _ => fail ERROR_FILE_CORRUPT
          | Panic => Abort
          end
    end).

(** A call recorded in the log. *)
Definition recorded {R} (c : call) (p : prog ret) (k : ret -> prog R) : prog R :=
  past <! ABegin c ; pbind p (fun r => ! AEnd c past r ; k r).

(** lib.rs:804-868 [SFileEnumFiles] with the callback's own calls made by [run] *)
Definition enum_loop (pattern : bytes) (run : bytes -> (bool -> prog ret) -> prog ret) :=
  fix loop (names : list bytes) (given : list bytes) : prog ret :=
    match names with
    | [] => finish (RNames (rev given))
    | n :: t =>
        if enumerated pattern n
        then run n (fun b => if b : bool then loop t (n :: given) else finish (RNames (rev (n :: given))))
        else loop t given
    end.
Definition enum_api (a : N) (mask : cstr) (cb_null : bool)
    (run : bytes -> (bool -> prog ret) -> prog ret) : prog ret :=
  if cb_null then fail ERROR_INVALID_PARAMETER
  else if a =? 0 then fail ERROR_INVALID_HANDLE
  else
    match (match mask with None => Some (lit "*") | Some d => to_str d end) with
    | None => fail ERROR_INVALID_PARAMETER
    | Some pattern =>
        with_archive a same (fun ah =>
          match list_files L (ah_archive ah) with
          | Ok l => enum_loop pattern run (map fe_name l) []
          | Err _ => finish (RNames [])
          | Panic => Abort
          end)
    end.

Fixpoint api (c : call) : prog ret :=
  match c with
  | COpenArchive f o => open_archive_api f o
  | CCreateArchive f d n o => create_archive_api f d n o
  | CCloseArchive h => close_archive_api h
  | COpenFile a f o => open_file_api a f o
  | CCloseFile h => close_file_api h
  | CReadFile h b n => read_file_api h b n
  | CFileSize h hi => file_size_api h hi
  | CSeek h p hi m => seek_api h p hi m
  | CHasFile a f => has_file_api a f
  | CFileInfo h c b n => file_info_api h c b n
  | CArchiveName a b n => archive_name_api a b n
  | CEnumFiles a m z cb =>
      enum_api a m z (fun n k =>
        match cb n with
        | (cs, b) => (fix run (cs : list call) : prog ret :=
                        match cs with
                        | [] => k b
                        | c :: t => recorded c (api c) (fun _ => run t)
                        end) cs
        end)
  | CSetLocale l => set_locale_api l
  | CGetLocale => get_locale_api
  | CGetLastError => get_error_api
  | CSetLastError e => set_error_api e
  | CFileName h b => file_name_api h b
  | CExtract a f d => extract_api a f d
  | CVerifyFile a f fl => verify_file_api a f fl
  | CVerifyArchive a fl => verify_archive_api a fl
  end.

(** ** Threads *)
(** A thread makes calls that depend on earlier results. *)
Inductive client :=
| Done
| Call (c : call) (k : ret -> client).
Fixpoint run (cl : client) : prog unit :=
  match cl with
  | Done => Ret tt
  | Call c k => recorded c (api c) (fun r => run (k r))
  end.

End Api.

(** lib.rs:21-31: the state when the library is loaded *)
Definition initial : shared :=
  mkS 1 (fun _ => None) (fun _ => None) (fun _ => None) (fun _ => ERROR_SUCCESS) (fun _ => LOCALE_NEUTRAL) [].

Fixpoint set_nth {A} (l : list A) (i : nat) (x : A) : list A :=
  match l, i with
  | [], _ => []
  | _ :: t, O => x :: t
  | y :: t, S i => y :: set_nth t i x
  end.

(** One step of thread [t]: its next action. *)
Definition next {R} (t : nat) (p : prog R) (s : shared) (p' : prog R) (s' : shared) : Prop :=
  match p with
  | Act a k => exists x, can a t s x s' /\ p' = k x
  | _ => False
  end.
Definition state := (shared * list (prog unit))%type.
Definition step (c c' : state) : Prop :=
  exists t p p', nth_error (snd c) t = Some p /\ next t p (fst c) p' (fst c') /\
                 snd c' = set_nth (snd c) t p'.

Inductive steps : state -> state -> Prop :=
| steps_refl c : steps c c
| steps_more c c' c'' : steps c c' -> step c' c'' -> steps c c''.

(** ** A run without other threads *)
Fixpoint alone {R} (t : nat) (p : prog R) (s : shared) (r : R) (s' : shared) : Prop :=
  match p with
  | Ret r0 => r = r0 /\ s' = s
  | Abort => False
  | Act a k => exists x s1, can a t s x s1 /\ alone t (k x) s1 r s'
  end.
