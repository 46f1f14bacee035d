(** * Kinds of errors (mopaq/src/error.rs). *)
From Verif Require Import Bytes.
Open Scope N_scope.

(** error.rs:132-141; [EMmap] and [EUtf8] are never made and not in [error]. *)
Definition is_corruption (e : error) : bool :=
  match e with EInvalidFormat | EChecksum | EMd5 | ESignature | EInvalidHeader => true | _ => false end.
(** error.rs:144-149 *)
Definition is_recoverable (e : error) : bool :=
  match e with EFileNotFound | EReadOnly | ENotSupported => true | _ => false end.
