(** * Making a new, empty archive (mopaq/src/archive.rs:243-255).

    Simplification: the file system is left out; what [build] writes is what
    [open] reads. *)
From Verif Require Import Bytes Compress Header Builder Archive.
Open Scope N_scope.

Section Create.
Variable L : codecs.
Variable md5 : bytes -> bytes.

(** archive.rs:243-255 [OpenOptions::create] with [version.unwrap_or(V1)];
    builder.rs:164-175, 207-210 *)
Definition create_config (v : option version) : config :=
  let d := default_config in
  mkCfg (match v with Some v => v | None => V1 end) (c_block_size d) (c_listfile d) (c_default d)
        (c_crcs d) (c_ctables d) (c_tmethod d).
Definition create (v : option version) (load : bool) : res archive :=
  arc <- build L md5 (create_config v) [] ;; open_with_options L arc load.
End Create.
