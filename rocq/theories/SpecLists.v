(** * Specification: lists of names written by other tools. *)
From Verif Require Import Bytes SpecListfile.
Open Scope N_scope.

(** ** Bytes that may not be text
    Characters stay; where no character starts, the longest sequence that one could
    start with, or else one byte, becomes U+FFFD (the practice that Unicode
    recommends, chapter 3, "Substitution of Maximal Subparts"). *)
Definition begins_char (p : bytes) : Prop := exists c r, scalar c /\ r <> [] /\ encode c = p ++ r.
Inductive repaired : bytes -> bytes -> Prop :=
| rep_end : repaired [] []
| rep_char c d t : scalar c -> repaired d t -> repaired (encode c ++ d) (encode c ++ t)
| rep_broken p d t : p <> [] ->
    (forall c r, scalar c -> p ++ d <> encode c ++ r) ->
    (length p = 1%nat \/ begins_char p) ->
    (forall q r, d = q ++ r -> q <> [] -> ~ begins_char (p ++ q)) ->
    repaired d t -> repaired (p ++ d) (encode 0xFFFD ++ t).

(** ** Lines *)
Fixpoint joined (ls : list bytes) : bytes :=
  match ls with [] => [] | [l] => l | l :: r => l ++ "010"%byte :: joined r end.
Definition lines_of (text : bytes) (ls : list bytes) : Prop :=
  ls <> [] /\ Forall (fun l => ~ In "010"%byte l) ls /\ text = joined ls.

Definition white_run (d : bytes) : Prop := exists cs, Forall (fun c => In c white_space) cs /\ d = concat (map encode cs).
(** [core] is [d] without white space at its ends. *)
Definition stripped (d core : bytes) : Prop :=
  exists a b, white_run a /\ white_run b /\ d = a ++ core ++ b /\
    forall w r, In w white_space -> core <> encode w ++ r /\ core <> r ++ encode w.
(** What comes before the first semicolon *)
Definition first_part (d p : bytes) : Prop :=
  ~ In ";"%byte p /\ (d = p \/ exists r, d = p ++ ";"%byte :: r).
(** A line is empty, a comment, or has a name, perhaps with something behind a semicolon. *)
Definition no_name (core : bytes) : Prop :=
  core = [] \/ (exists r, core = ";"%byte :: r) \/ exists r, core = "#"%byte :: r.
Definition line_says (line : bytes) (o : option bytes) : Prop :=
  exists core, stripped line core /\
    (no_name core /\ o = None \/
     ~ no_name core /\ exists p n, first_part core p /\ stripped p n /\ o = Some n).

Definition names_of (os : list (option bytes)) : list bytes :=
  flat_map (fun o => match o with Some n => [n] | None => [] end) os.
(** The names in a list, given as bytes *)
Definition lists (data : bytes) (names : list bytes) : Prop :=
  exists text ls os, repaired data text /\ lines_of text ls /\ Forall2 line_says ls os /\ names = names_of os.
