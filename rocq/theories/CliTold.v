(** * What [file extract] and [archive create] print on the way
    (storm-cli/src/commands/file.rs:75-148, storm-cli/src/commands/archive.rs:41-146).

    Simplifications: those of [Cli] and [CliCreate]; text without colours; paths are printed as they
    are; [why n e] is the text of the error [e] that reading [n] ended with. *)
From Verif Require Import Bytes Header Compress Listfile Builder Archive Cli CliCreate CliList CliVerify.
Open Scope N_scope.

(** In the order in which it happens: a line on the standard output, one on the standard error
    output, a change of the file system. *)
Inductive event := Out (l : bytes) | Grumble (l : bytes) | Act (x : action).

Section Told.
Variable L : codecs.
Variable md5 : bytes -> bytes.
Variable why : bytes -> error -> bytes.
Variable quiet : bool.

(** [if !global_opts.quiet { println!(..) }] *)
Definition tell (l : bytes) : list event := if quiet then [] else [Out l].

(** file.rs:109-142: the loop over all names and the line below it; [all] is [files.len()] *)
Fixpoint extract_names_told (a : archive) (dir : bytes) (preserve : bool) (all : N) (names : list bytes) : list event * res unit :=
  match names with
  | [] => (tell (TICK ++ lit " Extracted " ++ decimal all ++ lit " files"), Ok tt)
  | n :: r =>
      match read_file L a n with
      | Ok d =>
          match (if preserve then Some (path_join dir n)
                 else match file_name n with Some f => Some (path_join dir f) | None => None end) with
          | Some p => let (evs, res) := extract_names_told a dir preserve all r in
                      (map Act (write_actions p d) ++ tell (lit "Extracted: " ++ n) ++ evs, res)
          | None => ([], Panic)
          end
      | Err e => let (evs, res) := extract_names_told a dir preserve all r in
                 (Grumble (lit "Failed to extract " ++ n ++ lit ": " ++ why n e) :: evs, res)
      | Panic => ([], Panic)
      end
  end.

(** file.rs:75-148 [extract] *)
Definition extract_told (file : bytes) (name output : option bytes) (preserve : bool) : list event * res unit :=
  match open_archive L file with
  | Ok a =>
      match name with
      | Some n =>
          match read_file L a n with
          | Ok d =>
              match (match output with
                     | Some o => Some o
                     | None => if preserve then Some n else file_name n
                     end) with
              | Some p => (map Act (write_actions p d) ++ tell (lit "Extracted: " ++ n ++ lit " -> " ++ p), Ok tt)
              | None => ([], Panic)
              end
          | Err e => ([], Err e)
          | Panic => ([], Panic)
          end
      | None =>
          match list_files L a with
          | Ok l => extract_names_told a (match output with Some o => o | None => lit "." end) preserve (lenN l) (map fe_name l)
          | Err e => ([], Err e)
          | Panic => ([], Panic)
          end
      end
  | Err e => ([], Err e)
  | Panic => ([], Panic)
  end.

(** archive.rs:102-143: the loop over the directory *)
Fixpoint add_entries_told (dir : bytes) (pats : list bytes) (l : list (option entry)) : list event * res (list (list bytes * option bytes)) :=
  match l with
  | [] => ([], Ok [])
  | None :: _ => ([], Err EIo)
  | Some e :: t =>
      if en_dir e then add_entries_told dir pats t
      else if ignored dir pats (en_parts e) then add_entries_told dir pats t
      else if bytes_eqb (utf8_lossy (entry_path dir (en_parts e))) (entry_path dir (en_parts e)) then
        let (evs, r) := add_entries_told dir pats t in
        (tell (lit "Added: " ++ stored_name (en_parts e)) ++ evs, r <- r ;; Ok ((en_parts e, en_data e) :: r))
      else ([], Panic)
  end.

(** archive.rs:41-81 [create]; [build] leaves nothing behind if it fails (C24) *)
Definition create_told (c : config) (path src : bytes) (follow deep : bool) (pats : list bytes) (s : source) : list event * res bytes :=
  let hello := tell (lit "Creating archive: " ++ path) in
  let (evs, r) :=
    match s with
    | SFile d =>
        match file_name src with
        | Some n => (tell (lit "Added: " ++ utf8_lossy n), Ok [(utf8_lossy n, d)])
        | None => ([], Err EIo)
        end
    | SDir ok t =>
        let (evs, r) := add_entries_told src pats (if ok then walk_tree follow deep [] t else [None]) in
        (evs, fs <- r ;; Ok (map (fun f => (stored_name (fst f), snd f)) fs))
    | SMissing => ([], Err EIo)
    end in
  match r with
  | Ok l =>
      match (files <- read_all c l ;; build L md5 c files) with
      | Ok arc => (hello ++ evs ++ Act (AWrite path arc) :: tell (TICK ++ lit " Archive created successfully"), Ok arc)
      | Err e => (hello ++ evs, Err e)
      | Panic => (hello ++ evs, Panic)
      end
  | Err e => (hello ++ evs, Err e)
  | Panic => (hello ++ evs, Panic)
  end.
End Told.
