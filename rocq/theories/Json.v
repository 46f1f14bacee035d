(** * The values the tool prints as JSON (storm-cli/src/output.rs:7-12).

    [serde_json::Value] with the numbers that are used: unsigned.  The members of an object are listed
    in the order of the source; which order the library prints is left open ([SpecJson.writes_json]). *)
From Verif Require Import Bytes CliList.
Open Scope N_scope.

Inductive json :=
  | JNull | JBool (b : bool) | JNum (n : N) | JText (t : bytes)
  | JList (l : list json) | JObject (l : list (bytes * json)).

(** serde: an [Option] *)
Definition j_option {A} (f : A -> json) (x : option A) : json := match x with Some a => f a | None => JNull end.

(** output.rs:7-12 [print_json]; [show] is [serde_json::to_string_pretty], which does not fail on
    these values. *)
Definition print_json (show : json -> bytes) (v : json) : bytes := line (show v).
