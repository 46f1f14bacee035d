(** * The command line tool: verifying and extracting
    (storm-cli/src/commands/archive.rs, storm-cli/src/commands/file.rs).

    Only the modules that commands/mod.rs:1-7 declares are part of the tool;
    commands/extract.rs, commands/verify.rs and commands/create.rs are not
    compiled.  Simplifications: paths are Unix paths; a path is what its
    components say (no symbolic links); printing is left out; the file system
    operations are recorded in order, one that fails ends the command (so that
    what was done is a prefix of what is recorded here). *)
From Verif Require Import Bytes Header Compress Listfile Builder Attributes Archive Signature Info.
Open Scope N_scope.

(** ** [std::path] on Unix *)
Definition SLASH : byte := "/"%byte.

(** The parts between the separators. *)
Fixpoint split_slash (p : bytes) (cur : bytes) : list bytes :=
  match p with
  | [] => [rev cur]
  | b :: t => if beqb b SLASH then rev cur :: split_slash t [] else split_slash t (b :: cur)
  end.
Definition is_dot (c : bytes) : bool := bytes_eqb c (lit ".").
Definition is_dotdot (c : bytes) : bool := bytes_eqb c (lit "..").

(** [Path::components]: empty parts and [.] count for nothing (a leading [.],
    which the library keeps, makes no difference below). *)
Definition parts (p : bytes) : list bytes :=
  filter (fun c => negb (bytes_eqb c []) && negb (is_dot c)) (split_slash p []).
(** [Path::has_root] *)
Definition rooted (p : bytes) : bool := match p with b :: _ => beqb b SLASH | [] => false end.

(** [Path::join] *)
Definition path_join (d p : bytes) : bytes :=
  if rooted p then p
  else match rev d with
       | [] => p
       | b :: _ => if beqb b SLASH then d ++ p else d ++ SLASH :: p
       end.

(** [Path::file_name] *)
Definition file_name (p : bytes) : option bytes :=
  match rev (parts p) with
  | c :: _ => if is_dotdot c then None else Some c
  | [] => None
  end.

(** ** Extraction *)
(** What is done to the file system: [fs::create_dir_all] of the directory above
    a path, given by whether it starts at the root and by its components, and
    [fs::write]. *)
Inductive action :=
| AMkdirs (root : bool) (dir : list bytes)
| AWrite (p : bytes) (data : bytes).

(** file.rs:95-98, 127-132: [Path::parent] is [None] for the root and the empty path *)
Definition write_actions (p data : bytes) : list action :=
  match parts p with
  | [] => [AWrite p data]
  | cs => [AMkdirs (rooted p) (removelast cs); AWrite p data]
  end.

Section Cli.
Variable L : codecs.
Variable md5 sha1 : bytes -> bytes.
Variable rd : N -> N -> N.

(** file.rs:109-137: the loop over all names *)
Fixpoint extract_names (a : archive) (dir : bytes) (preserve : bool) (names : list bytes)
  : list action * res unit :=
  match names with
  | [] => ([], Ok tt)
  | n :: r =>
      match read_file L a n with
      | Ok d =>
          match (if preserve then Some (path_join dir n)
                 else match file_name n with Some f => Some (path_join dir f) | None => None end) with
          | Some p => let (acts, res) := extract_names a dir preserve r in
                      (write_actions p d ++ acts, res)
          | None => ([], Panic)
          end
      | Err _ => extract_names a dir preserve r
      | Panic => ([], Panic)
      end
  end.

(** file.rs:75-148 [extract]: the archive given by the bytes of its file, the
    name of a single file and the [-t] argument if there are any *)
Definition extract (file : bytes) (name output : option bytes) (preserve : bool)
  : list action * res unit :=
  match open_archive L file with
  | Ok a =>
      match name with
      | Some n =>
          match read_file L a n with
          | Ok d =>
              match (match output with
                     | Some o => Some o
                     | None => if preserve then Some n else file_name n
                     end) with
              | Some p => (write_actions p d, Ok tt)
              | None => ([], Panic)
              end
          | Err e => ([], Err e)
          | Panic => ([], Panic)
          end
      | None =>
          match list_files L a with
          | Ok l => extract_names a (match output with Some o => o | None => lit "." end) preserve (map fe_name l)
          | Err e => ([], Err e)
          | Panic => ([], Panic)
          end
      end
  | Err e => ([], Err e)
  | Panic => ([], Panic)
  end.

(** ** Verification *)
(** archive.rs:226-283: the names with an error *)
Fixpoint verify_names (a : archive) (check_contents : bool) (names : list bytes) : res (list bytes) :=
  match names with
  | [] => Ok []
  | n :: r =>
      f <- find_file a n ;;
      bad <- (match f with
              | Some _ =>
                  if check_contents
                  then match read_file L a n with Ok _ => Ok [] | Err _ => Ok [n] | Panic => Panic end
                  else Ok []
              | None => Ok [n]
              end) ;;
      rest <- verify_names a check_contents r ;;
      Ok (bad ++ rest)
  end.

(** archive.rs:159-296 [verify]; the final error carries only a message, any
    kind will do.  The header, table and signature checks are printed but do
    not decide about success; [--check-crc] only prints. *)
Definition verify (file : bytes) (check_contents : bool) : res unit :=
  a <- open_archive L file ;;
  _ <- get_info L md5 sha1 rd a ;;
  l <- list_files L a ;;
  bad <- verify_names a check_contents (map fe_name l) ;;
  match bad with [] => Ok tt | _ => Err EInvalidFormat end.

End Cli.

(** ** Creation *)
(** A file found below the source directory: the components of its path
    relative to it (not empty, nor [.] or [..], and without separator), and its bytes. *)
Record found := mkFound { f_parts : list bytes; f_data : bytes }.
Fixpoint join_slash (l : list bytes) : bytes :=
  match l with
  | [] => []
  | [c] => c
  | c :: t => c ++ SLASH :: join_slash t
  end.
(** [replace('\\', "/")] *)
Definition to_slash (n : bytes) : bytes := map (fun b => if beqb b "\"%byte then SLASH else b) n.

(** archive.rs:41-81, 84-146 [create], [add_directory_to_archive]: the files the
    directory walk yields, after the ignore patterns, become files with the
    default compression (builder.rs:329-339 [add_file]); names are taken to be
    UTF-8. *)
Definition create_files (c : config) (walk : list found) : list pending :=
  map (fun f => mkPF (f_data f) (to_slash (join_slash (f_parts f))) (c_default c) false false 0) walk.
