(** * The settings of the command line tool
    (storm-cli/src/config.rs, storm-cli/src/main.rs:432-555, 690-840).

    Simplifications: the file system is what each path has in it (no directories,
    no permissions but for writing); TOML text is what the parameters [encode] and
    [decode] make of it; aliases, which nothing but [config show] looks at, are one
    piece of text; of the commands that do not look at the settings only that they are
    loaded first is represented ([archive create] stands for all of them). *)
From Verif Require Import Bytes Header Compress Builder Cli.
Open Scope N_scope.

(** config.rs:8-24 [Config] *)
Record settings := mkSet {
  st_compression : option bytes; st_version : option N; st_block : option N;
  st_aliases : option bytes; st_output : option bytes }.
(** config.rs:26-36 [Default for Config] *)
Definition default_settings : settings :=
  mkSet (Some (lit "zlib")) (Some 1) (Some 3) None (Some (lit "text")).

(** main.rs:30-34 and the [CompressionMethod] of main.rs:405-415 *)
Inductive format := Text | Json | Csv.
Inductive choice := ChNone | ChZlib | ChBzip2 | ChLzma | ChSparse | ChPkware | ChMono | ChStereo.

(** main.rs:132-167: the options of [archive create]; clap admits versions 1 to 4 and
    block sizes up to 23 only. *)
Record flags := mkFlags {
  fl_version : option version; fl_compression : option choice; fl_block : option N;
  fl_no_listfile : bool; fl_listfile : option bytes }.

Inductive command :=
| Show
| SetKey (key value : bytes)
| Reset
| PathOf
| Create (f : flags).
(** What is printed, or handed to the builder. *)
Inductive answer :=
| Failed
| Done
| Told (path : bytes)
| Shown (compression : bytes) (version block : N) (output : bytes)
| Creates (c : config) (o : format).

(** [str::parse::<u16>]: an optional plus sign and decimal digits *)
Fixpoint digits (d : bytes) (acc : N) : option N :=
  match d with
  | [] => Some acc
  | b :: t =>
      if (48 <=? bN b) && (bN b <=? 57) then
        let v := acc * 10 + (bN b - 48) in
        if v <? 65536 then digits t v else None
      else None
  end.
Definition parse_u16 (d : bytes) : option N :=
  match d with
  | [] => None
  | b :: t => if beqb b "+"%byte then (match t with [] => None | _ => digits t 0 end) else digits d 0
  end.

Definition among (v : bytes) (l : list bytes) : bool := existsb (bytes_eqb v) l.
Definition method_names : list bytes :=
  [lit "none"; lit "zlib"; lit "bzip2"; lit "lzma"; lit "sparse"; lit "pkware"; lit "adpcm-mono"; lit "adpcm-stereo"].

(** main.rs:773-813: a setting changed, if the value is valid *)
Definition change (s : settings) (key value : bytes) : option settings :=
  if bytes_eqb key (lit "default_compression") then
    if among value method_names
    then Some (mkSet (Some value) (st_version s) (st_block s) (st_aliases s) (st_output s)) else None
  else if bytes_eqb key (lit "default_version") then
    match parse_u16 value with
    | Some v => if (1 <=? v) && (v <=? 4)
                then Some (mkSet (st_compression s) (Some v) (st_block s) (st_aliases s) (st_output s)) else None
    | None => None
    end
  else if bytes_eqb key (lit "default_block_size") then
    match parse_u16 value with
    | Some b => if b <=? 23
                then Some (mkSet (st_compression s) (st_version s) (Some b) (st_aliases s) (st_output s)) else None
    | None => None
    end
  else if bytes_eqb key (lit "default_output") then
    if among value [lit "text"; lit "json"; lit "csv"]
    then Some (mkSet (st_compression s) (st_version s) (st_block s) (st_aliases s) (Some value)) else None
  else None.

(** main.rs:489-507 *)
Definition version_of (n : N) : version := match n with 1 => V1 | 2 => V2 | 3 => V3 | 4 => V4 | _ => V1 end.
Definition used_version (s : settings) (f : flags) : version :=
  match fl_version f with
  | Some v => v
  | None => match st_version s with Some n => version_of n | None => V1 end
  end.
(** main.rs:508-537 *)
Definition method_of (c : choice) : N :=
  match c with
  | ChNone => 0 | ChZlib => ZLIB | ChBzip2 => BZIP2 | ChLzma => LZMA | ChSparse => SPARSE | ChPkware => PKWARE
  | ChMono => ADPCM_MONO | ChStereo => ADPCM_STEREO
  end.
Definition method_named (v : bytes) : N :=
  if bytes_eqb v (lit "none") then 0
  else if bytes_eqb v (lit "zlib") then ZLIB
  else if bytes_eqb v (lit "bzip2") then BZIP2
  else if bytes_eqb v (lit "lzma") then LZMA
  else if bytes_eqb v (lit "sparse") then SPARSE
  else if bytes_eqb v (lit "pkware") then PKWARE
  else if bytes_eqb v (lit "adpcm-mono") then ADPCM_MONO
  else if bytes_eqb v (lit "adpcm-stereo") then ADPCM_STEREO
  else ZLIB.
Definition used_method (s : settings) (f : flags) : N :=
  match fl_compression f with
  | Some c => method_of c
  | None => match st_compression s with Some v => method_named v | None => ZLIB end
  end.
(** main.rs:538 *)
Definition used_block (s : settings) (f : flags) : N :=
  match fl_block f with
  | Some b => b
  | None => match st_block s with Some b => b | None => 3 end
  end.
(** main.rs:488-552, archive.rs:48-53: the builder that [archive create] sets up *)
Definition create_with (s : settings) (f : flags) : config :=
  mkCfg (used_version s f) (used_block s f)
        (if fl_no_listfile f then LNone
         else match fl_listfile f with Some d => LExternal d | None => LGenerate end)
        (used_method s f mod 256) false false ZLIB.

(** main.rs:44-46, 465: the output format comes from the command line only *)
Definition used_format (flag : option format) (s : settings) : format :=
  match flag with Some o => o | None => Text end.

Section Config.
Variable encode : settings -> bytes.
Variable decode : bytes -> option settings.
Variable home : option bytes.
Variable writable : bytes -> bool.

Definition files := bytes -> option bytes.
Definition put (fs : files) (p d : bytes) : files := fun q => if bytes_eqb q p then Some d else fs q.
Definition there {A} (o : option A) : bool := match o with Some _ => true | None => false end.

Definition storm_path (h : bytes) : bytes := path_join (path_join h (lit ".storm-cli")) (lit "config.toml").
Definition xdg_path (h : bytes) : bytes :=
  path_join (path_join (path_join h (lit ".config")) (lit "storm-cli")) (lit "config.toml").

(** config.rs:39-69 [load_config] *)
Definition load_from (fs : files) (p : bytes) : option settings :=
  match fs p with
  | Some d => decode d
  | None => Some default_settings
  end.
Definition load_config (fs : files) (over : option bytes) : option settings :=
  match over with
  | Some p => load_from fs p
  | None =>
      match home with
      | Some h =>
          if there (fs (storm_path h)) then load_from fs (storm_path h)
          else if there (fs (xdg_path h)) then load_from fs (xdg_path h)
          else Some default_settings
      | None => Some default_settings
      end
  end.
(** main.rs:716-733 *)
Definition config_path (fs : files) (over : option bytes) : option bytes :=
  match over with
  | Some p => Some p
  | None =>
      match home with
      | Some h => Some (if there (fs (storm_path h)) then storm_path h else xdg_path h)
      | None => None
      end
  end.
(** config.rs:72-82 [save_config] *)
Definition save_config (fs : files) (s : settings) (p : bytes) : option files :=
  if writable p then Some (put fs p (encode s)) else None.

Definition or_else {A} (o : option A) (d : A) : A := match o with Some x => x | None => d end.

(** main.rs:432-441 and 709-840 [handle_config_command] *)
Definition storm (over : option bytes) (out : option format) (cmd : command) (fs : files) : files * answer :=
  match load_config fs over with
  | None => (fs, Failed)
  | Some s =>
      match cmd with
      | Create f => (fs, Creates (create_with s f) (used_format out s))
      | _ =>
          match config_path fs over with
          | None => (fs, Failed)
          | Some p =>
              match cmd with
              | Show => (fs, Shown (or_else (st_compression s) (lit "zlib")) (or_else (st_version s) 1)
                                   (or_else (st_block s) 3) (or_else (st_output s) (lit "text")))
              | PathOf => (fs, Told p)
              | Reset => match save_config fs default_settings p with
                         | Some fs' => (fs', Done)
                         | None => (fs, Failed)
                         end
              | SetKey k v =>
                  match change s k v with
                  | None => (fs, Failed)
                  | Some s' => match save_config fs s' p with
                               | Some fs' => (fs', Done)
                               | None => (fs, Failed)
                               end
                  end
              | Create f => (fs, Creates (create_with s f) (used_format out s))
              end
          end
      end
  end.
End Config.
