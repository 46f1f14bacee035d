(** * Vocabulary for statements about writing an archive to a path: the archive
    that the given files make up. *)
From Verif Require Import Bytes Compress Builder FileSystem BuildIo.
Open Scope N_scope.

(** The bytes a source stands for in a given file system. *)
Definition source_bytes (w : world) (s : source) : option bytes :=
  match s with SData d => Some d | SPath p => w_files w p end.

(** The files to be added, with their contents. *)
Inductive contents (w : world) : list spending -> list pending -> Prop :=
| contents_nil : contents w [] []
| contents_cons s r d fs : source_bytes w (sp_source s) = Some d -> contents w r fs ->
    contents w (s :: r) (mkPF d (sp_name s) (sp_comp s) (sp_encrypt s) (sp_fix s) (sp_locale s) :: fs).

(** The list file wanted, with its contents. *)
Inductive list_wanted (w : world) : slist -> listfile_option -> Prop :=
| want_gen : list_wanted w SGenerate LGenerate
| want_ext p d : w_files w p = Some d -> list_wanted w (SExternal p) (LExternal d)
| want_none : list_wanted w SNone LNone.

(** [arc] is the archive of the files as they are in [w]. *)
Definition archive_of L md5 (w : world) (c : config) (lo : slist) (srcs : list spending)
    (arc : bytes) : Prop :=
  exists o fs, list_wanted w lo o /\ contents w srcs fs /\
    build L md5 (mkCfg (c_version c) (c_block_size c) o (c_default c) (c_crcs c) (c_ctables c)
                       (c_tmethod c)) fs = Ok arc.

(** No file to be read has the name of a temporary file that does not exist. *)
Definition not_temp (w : world) (p : path) : Prop := w_files w p <> None \/ ~ temp_name (p_name p).
Definition sources_ok (w : world) (lo : slist) (srcs : list spending) : Prop :=
  (forall s p, In s srcs -> sp_source s = SPath p -> not_temp w p) /\
  forall p, lo = SExternal p -> not_temp w p.
