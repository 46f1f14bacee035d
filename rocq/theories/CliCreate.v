(** * [archive create]: from a directory to an archive
    (storm-cli/src/commands/archive.rs:41-146).

    Simplifications: Unix paths; the directory does not change meanwhile; a link to
    a file counts as the file, a link to nothing as a file that cannot be read, links
    do not form circles; a file that cannot be read fails the command before
    anything is built. *)
From Verif Require Import Bytes Header Compress Listfile Builder Cli.
Open Scope N_scope.

(** A directory as it is listed: files with their content ([None]: cannot be read),
    directories, which may be links, and may be ones that cannot be listed. *)
Inductive node :=
| NFile (d : option bytes)
| NDir (link ok : bool) (t : tree)
with tree :=
| TNil
| TCons (name : bytes) (n : node) (rest : tree).

Record entry := mkEntry { en_parts : list bytes; en_dir : bool; en_data : option bytes }.

(** archive.rs:91-100: what [WalkDir] yields, in the order of the listing, a directory
    before what is in it; [None] is an error.  The root is left out by [min_depth(1)],
    [max_depth(1)] stops at the first level. *)
Fixpoint walk_node (follow deep : bool) (p : list bytes) (n : node) : list (option entry) :=
  match n with
  | NFile d => [Some (mkEntry p false d)]
  | NDir link ok t =>
      Some (mkEntry p true None) ::
      (if deep && (follow || negb link) then (if ok then walk_tree follow deep p t else [None]) else [])
  end
with walk_tree (follow deep : bool) (p : list bytes) (t : tree) : list (option entry) :=
  match t with
  | TNil => []
  | TCons name n rest => walk_node follow deep (p ++ [name]) n ++ walk_tree follow deep p rest
  end.

(** [str::contains] *)
Fixpoint starts (pat s : bytes) : bool :=
  match pat, s with
  | [], _ => true
  | x :: pat', y :: s' => beqb x y && starts pat' s'
  | _, _ => false
  end.
Fixpoint occurs (pat s : bytes) : bool :=
  starts pat s || match s with [] => false | _ :: t => occurs pat t end.

Definition entry_path (dir : bytes) (p : list bytes) : bytes := fold_left path_join p dir.

(** archive.rs:111-121 *)
Definition ignored (dir : bytes) (pats : list bytes) (p : list bytes) : bool :=
  existsb (fun pat =>
    occurs pat (utf8_lossy (entry_path dir p)) ||
    match rev p with [] => false | name :: _ => occurs pat (utf8_lossy name) end) pats.

(** archive.rs:102-146: the loop; [to_str().unwrap()] asks for UTF-8 *)
Fixpoint add_entries (dir : bytes) (pats : list bytes) (l : list (option entry)) : res (list (list bytes * option bytes)) :=
  match l with
  | [] => Ok []
  | None :: _ => Err EIo
  | Some e :: t =>
      if en_dir e then add_entries dir pats t
      else if ignored dir pats (en_parts e) then add_entries dir pats t
      else if bytes_eqb (utf8_lossy (entry_path dir (en_parts e))) (entry_path dir (en_parts e)) then
        r <- add_entries dir pats t ;; Ok ((en_parts e, en_data e) :: r)
      else Panic
  end.

(** archive.rs:84-146 [add_directory_to_archive]; [ok]: whether the directory itself can
    be listed *)
Definition added (dir : bytes) (follow deep : bool) (pats : list bytes) (ok : bool) (t : tree)
  : res (list (list bytes * option bytes)) :=
  add_entries dir pats (if ok then walk_tree follow deep [] t else [None]).

(** archive.rs:123-137, builder.rs:329-339 *)
Definition stored (c : config) (name : bytes) (d : bytes) : pending := mkPF d name (c_default c) false false 0.
Definition stored_name (p : list bytes) : bytes := to_slash (utf8_lossy (join_slash p)).

Inductive source :=
| SFile (d : option bytes)
| SDir (ok : bool) (t : tree)
| SMissing.

Section Create.
Variable L : codecs.
Variable md5 : bytes -> bytes.

(** builder.rs: files are read when the archive is built. *)
Fixpoint read_all (c : config) (l : list (bytes * option bytes)) : res (list pending) :=
  match l with
  | [] => Ok []
  | (n, Some d) :: t => r <- read_all c t ;; Ok (stored c n d :: r)
  | (_, None) :: _ => Err EIo
  end.

(** archive.rs:41-81 [create], 84-146 [add_directory_to_archive] *)
Definition create_archive (c : config) (src : bytes) (follow deep : bool) (pats : list bytes) (s : source) : res bytes :=
  l <- (match s with
        | SFile d => match file_name src with Some n => Ok [(utf8_lossy n, d)] | None => Err EIo end
        | SDir ok t =>
            fs <- added src follow deep pats ok t ;;
            Ok (map (fun f => (stored_name (fst f), snd f)) fs)
        | SMissing => Err EIo
        end) ;;
  files <- read_all c l ;;
  build L md5 c files.
End Create.
