(** * Digested regions. *)
From Verif Require Import Bytes Header Compress Archive SpecArchive Info.
Open Scope N_scope.

(** The bytes of a file from one position on. *)
Definition part (file : bytes) (off len : N) : bytes :=
  firstn (N.to_nat len) (skipn (N.to_nat off) file).

(** The six digests of a version 4 header. *)
Inductive digested := DHash | DBlock | DHi | DHet | DBet | DHeader.

(** What each of them is a digest of: the name table of 16 bytes per slot, the
    block table of 16 bytes per entry, the table of high words (absent if its
    position is zero) of two bytes per entry, the two extended tables that lie
    between the file data and the name table, and the header up to its own
    digest. *)
Definition region (h : header) (d : digested) : range :=
  let het := match h_het_pos h with Some p => p | None => 0 end in
  let bet := match h_bet_pos h with Some p => p | None => 0 end in
  match d with
  | DHash => (get_hash_table_pos h, 16 * h_hash_count h)
  | DBlock => (get_block_table_pos h, 16 * h_block_count h)
  | DHi => match h_hi_pos h with
           | Some p => if p =? 0 then (0, 0) else (p, 2 * h_block_count h)
           | None => (0, 0)
           end
  | DHet => (het, bet - het)
  | DBet => (bet, get_hash_table_pos h - bet)
  | DHeader => (0, 192)
  end.

(** What the inspection says about each. *)
Definition flag (s : md5_status) (d : digested) : bool :=
  match d with
  | DHash => ms_hash s | DBlock => ms_block s | DHi => ms_hi s
  | DHet => ms_het s | DBet => ms_bet s | DHeader => ms_header s
  end.

(** An archive handle got from a file, with the tables loaded at once or later. *)
Definition opened (L : codecs) (file : bytes) (a : archive) : Prop :=
  open_archive L file = Ok a \/ open_with_options L file false = Ok a.

(** The bytes of a region in a file where the archive starts at [off]. *)
Definition region_bytes (file : bytes) (off : N) (h : header) (d : digested) : bytes :=
  part file (off + fst (region h d)) (snd (region h d)).
