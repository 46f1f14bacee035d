(** * Specification: tallies and file extensions *)
From Verif Require Import Bytes Archive.
Open Scope N_scope.

(** How often [k] comes up in [l] *)
Inductive times (k : bytes) : list bytes -> N -> Prop :=
| times_none : times k [] 0
| times_this l n : times k l n -> times k (k :: l) (n + 1)
| times_other x l n : x <> k -> times k l n -> times k (x :: l) n.
(** A tally has every key that comes up, once, with the number of times it does. *)
Definition tally (keys : list bytes) (t : list (bytes * N)) : Prop :=
  NoDup (map fst t) /\ forall k n, In (k, n) t <-> times k keys n /\ n <> 0.
(** The same for pairs: for every first part that comes up, once, the tally of the second
    parts that come up with it *)
Definition tally2 (rows : list (bytes * bytes)) (t : list (bytes * list (bytes * N))) : Prop :=
  NoDup (map fst t) /\
  (forall e m, In (e, m) t -> tally (map snd (filter (fun r => bytes_eqb e (fst r)) rows)) m) /\
  (forall e, In e (map fst rows) <-> In e (map fst t)).

(** The entries of a listing that are found, with what is found *)
Inductive found_in (a : archive) : list fentry -> list (bytes * finfo) -> Prop :=
| found_nil : found_in a [] []
| found_some e t fi hs : find_file a (fe_name e) = Ok (Some fi) -> found_in a t hs -> found_in a (e :: t) ((fe_name e, fi) :: hs)
| found_none e t hs : find_file a (fe_name e) = Ok None -> found_in a t hs -> found_in a (e :: t) hs.

(** The extension of a file name *)
Definition extension (name e : bytes) : Prop :=
  exists b, b <> [] /\ name = b ++ lit "." ++ e /\ ~ In "."%byte e.
