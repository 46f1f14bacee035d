(** * What is known about special files by name (special_files/info.rs). *)
From Verif Require Import Bytes.

(** special_files/info.rs:3-12 [SpecialFileInfo] *)
Record sinfo := mkSI { si_name : bytes; si_encrypted : bool; si_compressed : bool }.

(** special_files/info.rs:14-39 [get_special_file_info]: the name as it is
    spelled there *)
Definition special_info (name : bytes) : option sinfo :=
  if bytes_eqb name (lit "(listfile)") then Some (mkSI (lit "(listfile)") false true)
  else if bytes_eqb name (lit "(attributes)") then Some (mkSI (lit "(attributes)") false true)
  else if bytes_eqb name (lit "(signature)") then Some (mkSI (lit "(signature)") false false)
  else if bytes_eqb name (lit "(user data)") then Some (mkSI (lit "(user data)") false false)
  else None.
