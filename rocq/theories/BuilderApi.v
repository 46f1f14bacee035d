(** * The calls that fill an archive builder (mopaq/src/builder.rs:93-507).

    Simplification: every call takes the builder and gives it back changed, as the
    fluent interface does; the two variants of each adding call (a path, bytes in
    memory) are one with a [source]. *)
From Verif Require Import Bytes Header Compress Builder FileSystem BuildIo.
Open Scope N_scope.

(** builder.rs:146-163 [ArchiveBuilder] *)
Record builder := mkBuilder {
  b_version : version; b_block : N; b_pending : list spending; b_list : slist;
  b_default : N; b_crcs : bool; b_ctables : bool; b_tmethod : N }.

(** builder.rs:167-178 [new] *)
Definition builder_new : builder := mkBuilder V1 3 [] SGenerate ZLIB false false ZLIB.

(** The methods of the interface, with their arguments *)
Inductive method :=
| MVersion (v : version)            (* builder.rs:181-184 *)
| MBlock (n : N)                    (* builder.rs:207-210 *)
| MDefault (m : N)                  (* builder.rs:213-216 *)
| MList (o : slist)                 (* builder.rs:219-222 *)
| MCrcs (b : bool)                  (* builder.rs:245-248 *)
| MTables (b : bool)                (* builder.rs:273-276 *)
| MTableMethod (m : N)              (* builder.rs:300-303 *)
| MAdd (s : source) (name : bytes)  (* builder.rs:329-339 [add_file], 411-421 [add_file_data] *)
| MAddOptions (s : source) (name : bytes) (m : N) (encrypt : bool) (locale : N)
                                    (* builder.rs:367-384, 450-467 *)
| MAddEncryption (s : source) (name : bytes) (m : N) (fix_key : bool) (locale : N).
                                    (* builder.rs:470-487, 490-507 *)

Definition push (b : builder) (f : spending) : builder :=
  mkBuilder (b_version b) (b_block b) (b_pending b ++ [f]) (b_list b) (b_default b) (b_crcs b) (b_ctables b) (b_tmethod b).

Definition apply_method (b : builder) (m : method) : builder :=
  match m with
  | MVersion v => mkBuilder v (b_block b) (b_pending b) (b_list b) (b_default b) (b_crcs b) (b_ctables b) (b_tmethod b)
  | MBlock n => mkBuilder (b_version b) n (b_pending b) (b_list b) (b_default b) (b_crcs b) (b_ctables b) (b_tmethod b)
  | MDefault d => mkBuilder (b_version b) (b_block b) (b_pending b) (b_list b) d (b_crcs b) (b_ctables b) (b_tmethod b)
  | MList o => mkBuilder (b_version b) (b_block b) (b_pending b) o (b_default b) (b_crcs b) (b_ctables b) (b_tmethod b)
  | MCrcs x => mkBuilder (b_version b) (b_block b) (b_pending b) (b_list b) (b_default b) x (b_ctables b) (b_tmethod b)
  | MTables x => mkBuilder (b_version b) (b_block b) (b_pending b) (b_list b) (b_default b) (b_crcs b) x (b_tmethod b)
  | MTableMethod x => mkBuilder (b_version b) (b_block b) (b_pending b) (b_list b) (b_default b) (b_crcs b) (b_ctables b) x
  | MAdd s n => push b (mkSP s n (b_default b) false false 0)
  | MAddOptions s n c e l => push b (mkSP s n c e false l)
  | MAddEncryption s n c x l => push b (mkSP s n c true x l)
  end.

(** [ArchiveBuilder::new().….….…] *)
Definition builder_of (ms : list method) : builder := fold_left apply_method ms builder_new.

(** The options as [io_build] takes them (the list file wanted is its next argument) *)
Definition builder_config (b : builder) : config :=
  mkCfg (b_version b) (b_block b) LNone (b_default b) (b_crcs b) (b_ctables b) (b_tmethod b).

(** builder.rs:525-564 [build] *)
Definition builder_build (L : codecs) (md5 : bytes -> bytes) (b : builder) (dest : path) : io unit :=
  io_build L md5 (builder_config b) (b_list b) (b_pending b) dest.
