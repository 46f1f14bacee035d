(** * Vocabulary for statements about why building an archive fails. *)
From Verif Require Import Bytes SpecNames Compress Listfile Builder FileSystem BuildIo SpecBuild SpecBuilding.
Open Scope N_scope.

(** The third-party encoders fail with an error of compression only. *)
Definition plain_encoders (L : codecs) : Prop :=
  forall d e, zlib_enc L d = Err e \/ bz_enc L d = Err e \/ lzma_enc L d = Err e \/ pk_enc L d = Err e -> e = ECompression.

(** The files in the order in which they are put into the archive: the list comes last. *)
Definition in_order (c : config) (o : listfile_option) (srcs : list spending) : list spending :=
  let list d := [mkSP (SData d) (lit "(listfile)") (c_default c) false false 0] in
  srcs ++ match o with
          | LGenerate => list (listfile_content (map sp_name srcs))
          | LExternal d => list d
          | LNone => []
          end.

Definition source_key (s : spending) : bytes * N := (sp_name s, sp_locale s).

(** The file can be read and its method takes it. *)
Definition usable (L : codecs) (w : world) (c : config) (s : spending) : Prop :=
  exists d, source_bytes w (sp_source s) = Some d /\ packable L c (d, sp_comp s).

(** What is wrong with a file itself, and the error that says so *)
Inductive flaw (L : codecs) (w : world) (c : config) (s : spending) : error -> Prop :=
| unreadable : source_bytes w (sp_source s) = None -> flaw L w c s EIo
| unpackable d : source_bytes w (sp_source s) = Some d -> ~ packable L c (d, sp_comp s) -> flaw L w c s ECompression.

(** Its name, with its locale, is that of a file before it. *)
Definition name_taken (before : list spending) (s : spending) : Prop :=
  exists b, In b before /\ name_equiv (sp_name b) (sp_name s) /\ sp_locale b = sp_locale s.

(** A content that is to be encrypted is not too long. *)
Definition short_enough (w : world) (s : spending) : Prop :=
  forall d, source_bytes w (sp_source s) = Some d -> sp_encrypt s = true -> lenN d <= 4000000000.

(** The places and sizes of the files do not fit the table of blocks of versions 3
    and 4. *)
Definition too_wide (L : codecs) (w : world) (c : config) (srcs : list spending) : Prop :=
  exists fs l, contents w srcs fs /\ placed L c (header_room (c_version c)) fs l /\ ~ held 63 l.
