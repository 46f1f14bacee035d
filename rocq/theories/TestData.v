(** * Generated test data (mopaq/src/test_utils/data_generator.rs).

    Simplifications: paths are Unix paths and are what their components say (no
    symbolic links; [x/..] is where it started, also if there is no [x]); the path of the
    base directory has a component; what the seeded random generator yields for a number
    of bytes is a parameter.  Of a call that fails it is only known what it may have
    changed. *)
From Verif Require Import Bytes Cli TestArchives.
Open Scope N_scope.

(** ** A disk with directories *)
(** What is at a place, the list of names that leads to it from the root *)
Inductive item := IDir | IFile (d : bytes).
Definition disk := list bytes -> option item.

(** [a] is on the way to [b] *)
Fixpoint on_way (a b : list bytes) : bool :=
  match a, b with
  | [], _ => true
  | x :: a', y :: b' => bytes_eqb x y && on_way a' b'
  | _, _ => false
  end.
Definition same_place (a b : list bytes) : bool := on_way a b && on_way b a.

(** Where components lead to *)
Fixpoint walk (at_ cs : list bytes) : list bytes :=
  match cs with
  | [] => at_
  | c :: r => walk (if is_dotdot c then removelast at_ else at_ ++ [c]) r
  end.
Definition resolve (cwd : list bytes) (p : bytes) : list bytes := walk (if rooted p then [] else cwd) (parts p).
(** [rmdir] refuses a path that ends in [.] or [..] *)
Definition removable (p : bytes) : bool :=
  match rev (filter (fun c => negb (bytes_eqb c [])) (split_slash p [])) with
  | c :: _ => negb (is_dot c) && negb (is_dotdot c)
  | [] => false
  end.

(** The calls: [if p.exists() { fs::remove_dir_all(p)? }], [fs::create_dir_all], and
    [fs::write] of what has been computed before *)
Inductive dcall :=
| DClear (p : list bytes) (may : bool)
| DMkdirs (p : list bytes)
| DWrite (p : list bytes) (c : res bytes).

(** A directory on the way to [p] that is a file *)
Fixpoint blocked (d : disk) (done p : list bytes) : bool :=
  match d done with
  | Some (IFile _) => true
  | _ => match p with [] => false | x :: r => blocked d (done ++ [x]) r end
  end.

(** What a call does that succeeds; [Err]: it cannot *)
Definition perform (o : dcall) (d : disk) : res disk :=
  match o with
  | DClear p may =>
      match d p with
      | None => Ok d
      | Some IDir => if may then Ok (fun l => if on_way p l then None else d l) else Err EIo
      | Some (IFile _) => Err EIo
      end
  | DMkdirs p => if blocked d [] p then Err EIo else Ok (fun l => if on_way l p then Some IDir else d l)
  | DWrite p c =>
      match c with
      | Ok b => match p, d (removelast p), d p with
                | [], _, _ => Err EIo
                | _, Some IDir, Some IDir => Err EIo
                | _, Some IDir, _ => Ok (fun l => if same_place l p then Some (IFile b) else d l)
                | _, _, _ => Err EIo
                end
      | Err e => Err e
      | Panic => Panic
      end
  end.

(** What a call may have done that fails *)
Definition spoils (o : dcall) (d d' : disk) : Prop :=
  forall l, d' l = d l \/
  match o with
  | DClear p _ => on_way p l = true /\ d' l = None
  | DMkdirs p => on_way l p = true /\ d l = None /\ d' l = Some IDir
  | DWrite p _ => l = p /\ d l <> Some IDir /\ exists c, d' l = Some (IFile c)
  end.

(** One call after the other; [fault] tells whether calls may fail without cause *)
Inductive druns (fault : bool) : list dcall -> disk -> disk -> res unit -> Prop :=
| druns_end d : druns fault [] d d (Ok tt)
| druns_next o r d d1 d2 x : perform o d = Ok d1 -> druns fault r d1 d2 x -> druns fault (o :: r) d d2 x
| druns_refused o r d d' e : perform o d = Err e -> spoils o d d' -> druns fault (o :: r) d d' (Err e)
| druns_fault o r d d' : fault = true -> perform o d <> Panic -> spoils o d d' -> druns fault (o :: r) d d' (Err EIo)
| druns_panic o r d : perform o d = Panic -> druns fault (o :: r) d d Panic.

(** ** The generator *)
(** data_generator.rs:33-42 [FileType] *)
Inductive ftype := FText | FBinary | FEmpty.
(** data_generator.rs:22-31 [FileConfig] *)
Record dfile := mkDF { df_path : bytes; df_type : ftype; df_kb : N }.
(** data_generator.rs:9-20 [TestDataConfig] *)
Record dconfig := mkDC { dc_name : bytes; dc_dirs : list bytes; dc_files : list dfile }.

(** data_generator.rs:313, 395: [size_kb * 1024], and the capacity asked for *)
Definition kilobytes (n : N) : res N := if n * 1024 <? 2 ^ 63 then Ok (n * 1024) else Panic.

(** data_generator.rs:311-390 [generate_text_content]; the only call asks for medium
    compressibility *)
Definition FOX : bytes := lit "The quick brown fox jumps over the lazy dog. ".
Definition generate_text_content (kb : N) : res bytes :=
  n <- kilobytes kb ;; Ok (fill (N.to_nat n) FOX n).

Section Data.
(** [StdRng::seed_from_u64(42)] and [fill] *)
Variable random : N -> bytes.

(** data_generator.rs:392-399 [generate_binary_content] *)
Definition generate_binary_content (kb : N) : res bytes := n <- kilobytes kb ;; Ok (random n).

(** data_generator.rs:288-300 *)
Definition file_content (f : dfile) : res bytes :=
  match df_type f with
  | FText => generate_text_content (df_kb f)
  | FBinary => generate_binary_content (df_kb f)
  | FEmpty => Ok []
  end.

(** data_generator.rs:284-286: [Path::parent] *)
Definition mkdirs_above (cwd : list bytes) (p : bytes) : list dcall :=
  match parts p with [] => [] | cs => [DMkdirs (walk (if rooted p then [] else cwd) (removelast cs))] end.

(** data_generator.rs:262-303: the calls of [generate_test_data] *)
Definition data_calls (cwd : list bytes) (base : bytes) (c : dconfig) : list dcall :=
  let out := path_join base (dc_name c) in
  [DClear (resolve cwd out) (removable out); DMkdirs (resolve cwd out)] ++
  map (fun s => DMkdirs (resolve cwd (path_join out s))) (dc_dirs c) ++
  flat_map (fun f => let p := path_join out (df_path f) in
                     mkdirs_above cwd p ++ [DWrite (resolve cwd p) (file_content f)]) (dc_files c).

(** data_generator.rs:257-309 [generate_test_data], from disk [d] to disk [d'] *)
Definition generate_test_data (fault : bool) (cwd : list bytes) (base : bytes) (c : dconfig) (d d' : disk)
  (r : res (bytes * list bytes)) : Prop :=
  exists x, druns fault (data_calls cwd base c) d d' x /\
  r = match x with
      | Ok _ => Ok (path_join base (dc_name c), map df_path (dc_files c))
      | Err e => Err e
      | Panic => Panic
      end.
End Data.

(** ** The predefined configurations *)
(** data_generator.rs:65-89 *)
Definition dc_simple : dconfig :=
  mkDC (lit "simple") []
    [mkDF (lit "readme.txt") FText 2; mkDF (lit "data.txt") FText 5; mkDF (lit "config.ini") FText 1].
(** data_generator.rs:91-145 *)
Definition dc_game_assets : dconfig :=
  mkDC (lit "game_assets") [lit "textures"; lit "models"; lit "sounds"; lit "scripts"]
    [mkDF (lit "textures/player.dds") FBinary 256; mkDF (lit "textures/terrain.dds") FBinary 512;
     mkDF (lit "models/player.mdx") FBinary 128; mkDF (lit "models/building.mdx") FBinary 64;
     mkDF (lit "sounds/music/theme.mp3") FBinary 1024; mkDF (lit "sounds/effects/click.wav") FBinary 32;
     mkDF (lit "scripts/main.lua") FText 10; mkDF (lit "scripts/utils.lua") FText 5].
(** data_generator.rs:147-176 *)
Definition dc_nested : dconfig :=
  mkDC (lit "nested") []
    [mkDF (lit "level1/readme.txt") FText 1; mkDF (lit "level1/level2/data.bin") FBinary 10;
     mkDF (lit "level1/level2/level3/config.xml") FText 2; mkDF (lit "level1/level2/level3/level4/deep.txt") FText 1].
(** data_generator.rs:178-212 *)
Definition dc_mixed_sizes : dconfig :=
  mkDC (lit "mixed_sizes") []
    [mkDF (lit "tiny.txt") FEmpty 0; mkDF (lit "small.dat") FBinary 1; mkDF (lit "medium.bin") FBinary 100;
     mkDF (lit "large.pak") FBinary 1024; mkDF (lit "config.json") FText 5].
(** data_generator.rs:214-243 *)
Definition dc_special_names : dconfig :=
  mkDC (lit "special_names") []
    [mkDF (lit "file with spaces.txt") FText 1; mkDF (lit "special-chars_$#@.dat") FBinary 5;
     mkDF (lit "unicode_文件.txt") FText 2; mkDF (lit ".hidden_file") FText 1].
(** data_generator.rs:245-254 [all_configs] *)
Definition all_data : list dconfig := [dc_simple; dc_game_assets; dc_nested; dc_mixed_sizes; dc_special_names].
