(** * What settings are: which values a setting takes and what it is for *)
From Verif Require Import Bytes Header Builder CliConfig.
Open Scope N_scope.

(** The compression methods by name, with their numbers in an archive *)
Definition methods : list (bytes * N) :=
  [ (lit "none", 0); (lit "zlib", 0x02); (lit "bzip2", 0x10); (lit "lzma", 0x12); (lit "sparse", 0x20);
    (lit "pkware", 0x08); (lit "adpcm-mono", 0x40); (lit "adpcm-stereo", 0x80) ].
Definition choices : list (choice * N) :=
  [ (ChNone, 0); (ChZlib, 0x02); (ChBzip2, 0x10); (ChLzma, 0x12); (ChSparse, 0x20); (ChPkware, 0x08);
    (ChMono, 0x40); (ChStereo, 0x80) ].
Definition versions : list (N * version) := [(1, V1); (2, V2); (3, V3); (4, V4)].

(** [v] is a decimal number, perhaps with a plus sign. *)
Definition a_digit (b : byte) : Prop := 48 <= bN b <= 57.
Definition number (l : bytes) : N := fold_left (fun a b => a * 10 + (bN b - 48)) l 0.
Definition decimal (v : bytes) (n : N) : Prop :=
  exists sign ds, v = sign ++ ds /\ (sign = [] \/ sign = lit "+") /\ ds <> [] /\ Forall a_digit ds /\ number ds = n.

(** What a later [archive create] is asked to do: [c'] is [c] but for ... *)
Definition with_method (c : config) (m : N) : config :=
  mkCfg (c_version c) (c_block_size c) (c_listfile c) m (c_crcs c) (c_ctables c) (c_tmethod c).
Definition with_version (c : config) (v : version) : config :=
  mkCfg v (c_block_size c) (c_listfile c) (c_default c) (c_crcs c) (c_ctables c) (c_tmethod c).
Definition with_block (c : config) (b : N) : config :=
  mkCfg (c_version c) b (c_listfile c) (c_default c) (c_crcs c) (c_ctables c) (c_tmethod c).

(** The value [v] for the setting [k]: what it turns a build [c] into. *)
Inductive setting : bytes -> bytes -> (config -> config) -> Prop :=
| set_method v m : In (v, m) methods -> setting (lit "default_compression") v (fun c => with_method c m)
| set_version v n w : decimal v n -> In (n, w) versions -> setting (lit "default_version") v (fun c => with_version c w)
| set_block v n : decimal v n -> n <= 23 -> setting (lit "default_block_size") v (fun c => with_block c n)
| set_output v : In v [lit "text"; lit "json"; lit "csv"] -> setting (lit "default_output") v (fun c => c).

(** Whether a flag of [archive create] says what the setting [k] is for *)
Definition overridden (k : bytes) (f : flags) : bool :=
  if bytes_eqb k (lit "default_compression") then match fl_compression f with Some _ => true | None => false end
  else if bytes_eqb k (lit "default_version") then match fl_version f with Some _ => true | None => false end
  else if bytes_eqb k (lit "default_block_size") then match fl_block f with Some _ => true | None => false end
  else true.

(** The commands one after the other *)
Definition after {files command answer : Type} (step : command -> files -> files * answer) (l : list command) (fs : files) : files :=
  fold_left (fun fs c => fst (step c fs)) l fs.
