(** * Vocabulary for what the C API tells about archives and files. *)
From Verif Require Import Bytes SpecListfile Header Compress Archive Attributes Signature Ffi SpecFfi.
Open Scope N_scope.

(** The name that a C string argument stands for. *)
Definition is_name (n name : bytes) : Prop := holds n name /\ is_text name.

(** Calls that ask about an archive or a file, and usable arguments for them. *)
Definition asks_archive (c : call) (h : N) : Prop :=
  match c with
  | COpenFile a _ _ | CHasFile a _ | CArchiveName a _ _ | CEnumFiles a _ _ _ | CExtract a _ _
  | CVerifyFile a _ _ | CVerifyArchive a _ => a = h
  | _ => False
  end.
Definition asks_file (c : call) (h : N) : Prop :=
  match c with CReadFile f _ _ | CFileSize f _ | CSeek f _ _ _ | CFileName f _ => f = h | _ => False end.
Definition usable (f : cstr) : Prop := exists n name, f = Some n /\ is_name n name.
Definition good_ask (c : call) : Prop :=
  match c with
  | COpenFile _ f out => usable f /\ out = true
  | CHasFile _ f | CVerifyFile _ f _ => usable f
  | CReadFile _ buffer _ | CFileName _ buffer => buffer = true
  | CFileInfo _ _ buffer size => buffer = true \/ size = 0
  | CArchiveName _ buffer size => buffer = true /\ size <> 0
  | CEnumFiles _ m null _ => null = false /\ (m = None \/ usable m)
  | CExtract _ f d => usable f /\ usable d
  | _ => True
  end.

(** ** Masks of an enumeration *)
(** What the mask is turned into: a name matches if it has the mask without its
    stars somewhere inside; a null pointer stands for [*]. *)
Definition inside_of (x s : bytes) : Prop := exists u v, s = u ++ x ++ v.
Definition mask_matches (m : cstr) (s : bytes) : Prop :=
  ~ In x00 s /\
  match m with
  | None => True
  | Some d => exists p, holds d p /\ inside_of (filter (fun b => negb (beqb b "*"%byte)) p) s
  end.
(** The names passed on: the matching ones in order, up to the first one at which
    the callback says stop. *)
Inductive passed_on (P : bytes -> Prop) (go : bytes -> bool) : list bytes -> list bytes -> Prop :=
| po_end : passed_on P go [] []
| po_skip n l r : ~ P n -> passed_on P go l r -> passed_on P go (n :: l) r
| po_more n l r : P n -> go n = true -> passed_on P go l r -> passed_on P go (n :: l) (n :: r)
| po_stop n l : P n -> go n = false -> passed_on P go (n :: l) [n].

(** ** Verification of a file *)
Section Answers.
Variable L : codecs.
Variable md5 sha1 : bytes -> bytes.
Variable crc32 : bytes -> N.
Variable rd : archive -> N -> N -> N.

(** The flags of [SFileVerifyFile]; 0 stands for all. *)
Definition asked (flags bit : N) : Prop := flags = 0 \/ N.land flags bit <> 0.
Definition recorded_for (y : archive) (fi : finfo) (x : fattr) : Prop :=
  exists t, a_attrs y = Some t /\ nth_error (at_files t) (N.to_nat (fi_block fi)) = Some x.
Definition readable (y : archive) (name : bytes) (P : bytes -> Prop) : Prop :=
  exists d, read_file L y name = Ok d /\ P d.
Definition checks_out (y : archive) (name : bytes) (flags : N) : Prop :=
  exists fi, find_file y name = Ok (Some fi) /\
    (asked flags 1 -> N.testbit (fi_flags fi) 26 = true -> readable y name (fun _ => True)) /\
    (asked flags 2 -> forall x v, recorded_for y fi x -> fa_crc x = Some v -> readable y name (fun d => crc32 d = v)) /\
    (asked flags 4 -> forall x v, recorded_for y fi x -> fa_md5 x = Some v -> readable y name (fun d => md5 d = v)).

(** ** Answers about an archive *)
(** [p] is its path, [y] what was read from there; [r] and [err] are the result of
    the call and the last error it leaves. *)
Definition archive_answer (c : call) (p : bytes) (y : archive) (r : ret) (err : N) : Prop :=
  match c with
  | COpenFile _ (Some n) _ => exists name, is_name n name /\
      ((exists h fi d, r = RHandle h /\ find_file y name = Ok (Some fi) /\ read_file L y name = Ok d) \/
       (r = RBool false /\
        match find_file y name with
        | Ok None => err = 2
        | Ok (Some _) => err = 1392 /\ exists e, read_file L y name = Err e
        | Err _ => err = 1392
        | Panic => False
        end))
  | CHasFile _ (Some n) => exists name, is_name n name /\
      ((r = RBool true /\ exists fi, find_file y name = Ok (Some fi)) \/
       (r = RBool false /\ (find_file y name = Ok None \/ exists e, find_file y name = Err e)))
  | CArchiveName _ _ size =>
      if size <? lenN p + 1 then r = RBool false /\ err = 122 else r = RData (p ++ [x00])
  | CEnumFiles _ m _ cb => exists shown, r = RNames shown /\
      match list_files L y with
      | Ok l => passed_on (mask_matches m) (fun n => snd (cb n)) (map fe_name l) shown
      | _ => shown = []
      end
  | CExtract _ (Some n) _ => exists name, is_name n name /\
      ((r = RBool true /\ exists d, read_file L y name = Ok d) \/
       (r = RBool false /\ (err = 5 \/ exists e, read_file L y name = Err e)))
  | CVerifyFile _ (Some n) flags => exists name, is_name n name /\
      ((r = RBool true /\ checks_out y name flags) \/ (r = RBool false /\ ~ checks_out y name flags))
  | CVerifyArchive _ flags =>
      r = RBool true -> asked flags 16 ->
      exists s, verify_signature L md5 sha1 (rd y) weak_public_key strong_public_key y = Ok s /\
        s <> WeakInvalid /\ s <> StrongInvalid
  | CFileInfo _ class _ size =>
      let give k v := (size < k -> r = RNeed k /\ err = 122) /\ (k <= size -> r = RInfo (le_enc (N.to_nat k) v) k) in
      let h := a_header y in
      match class with
      | 1 => give 8 (get_archive_size h)
      | 2 => give 4 (h_hash_count h)
      | 3 => give 4 (h_block_count h)
      | 4 => give 4 ((512 * 2 ^ h_block_size h) mod 2 ^ 32)
      | _ => r = RBool false /\ err = 50
      end
  | _ => True
  end.

(** ** Answers about an open file *)
(** [name] is its name, [len] its size in the tables. *)
Definition file_answer (c : call) (name : bytes) (len : N) (r : ret) (err : N) : Prop :=
  match c with
  | CFileSize _ high => exists hi, r = RNum (len mod 2 ^ 32) hi /\
      (high = true -> hi = Some (Z.of_N (len / 2 ^ 32 mod 2 ^ 32)))
  | CFileName _ _ => r = RData (name ++ [x00])
  | CFileInfo _ class _ size =>
      match class with
      | 7 => (size < 8 -> r = RNeed 8 /\ err = 122) /\ (8 <= size -> r = RInfo (le_enc 8 len) 8)
      | 10 => (size < 8 -> r = RNeed 8 /\ err = 122) /\ (8 <= size -> exists x, r = RInfo x 8)
      | _ => r = RBool false /\ err = 50
      end
  | _ => True
  end.
End Answers.

(** ** What handles stand for *)
(** An archive, with its path; a file: the handle of its archive and its name. *)
Record world := mkW { w_archive : N -> option (bytes * archive); w_file : N -> option (N * bytes) }.
Definition fits_history (L : codecs) (w : world) (l : list event) : Prop :=
  (forall a p y, w_archive w a = Some (p, y) -> exists file, open_archive L file = Ok y) /\
  (forall e h, In e l -> opened_archive e h -> exists n p y, holds n p /\ w_archive w h = Some (p, y) /\
     match e_call e with COpenArchive f _ | CCreateArchive f _ _ _ => f = Some n | _ => False end) /\
  (forall e a h, In e l -> opened_file e a h -> exists n name out, holds n name /\ w_file w h = Some (a, name) /\
     e_call e = COpenFile a (Some n) out).
(** A call on handle [h] was answered: it told about the archive or the file that
    the handle stands for, or it failed and the handle is none that was open: if it
    was given out before, somebody asked to close it. *)
Section Told.
Variable L : codecs.
Variable md5 sha1 : bytes -> bytes.
Variable crc32 : bytes -> N.
Variable rd : archive -> N -> N -> N.
Definition tells_archive (w : world) (e : event) (h : N) : Prop :=
  exists p y, w_archive w h = Some (p, y) /\ archive_answer L md5 sha1 crc32 rd (e_call e) p y (e_ret e) (e_err e).
Definition tells_file (w : world) (e : event) (h : N) : Prop :=
  exists a name p y fi, w_file w h = Some (a, name) /\ w_archive w a = Some (p, y) /\
    find_file y name = Ok (Some fi) /\ file_answer (e_call e) name (fi_size fi) (e_ret e) (e_err e).
End Told.
(** How calls fail that do not find their handle: with the code for invalid
    handles, but for [SFileHasFile], which leaves the code alone. *)
Definition refused_handle (c : call) (r : ret) (err : N) : Prop :=
  failed r /\ match c with CHasFile _ _ => True | _ => err = 6 end.
Definition no_archive (l : list event) (e : event) (h : N) : Prop :=
  forall e1, In e1 (e_past e) -> opened_archive e1 h -> exists e2, In e2 l /\ e_call e2 = CCloseArchive h.
Definition no_file (l : list event) (e : event) (h : N) : Prop :=
  forall e1 a, In e1 (e_past e) -> opened_file e1 a h ->
  exists e2, In e2 l /\ (e_call e2 = CCloseFile h \/ e_call e2 = CCloseArchive a).

(** ** Wildcards *)
(** What masks commonly mean: a star for any string, a question mark for any byte. *)
Inductive wild : bytes -> bytes -> Prop :=
| wild_end : wild [] []
| wild_star p u v : wild p v -> wild ("*"%byte :: p) (u ++ v)
| wild_any p b s : wild p s -> wild ("?"%byte :: p) (b :: s)
| wild_one p b s : b <> "*"%byte -> b <> "?"%byte -> wild p s -> wild (b :: p) (b :: s).
