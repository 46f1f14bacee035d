(** * What a name table should do, stated without the implementation's loop. *)
From Verif Require Import Bytes Crypto SpecNames HashTable.
Open Scope N_scope.

(** A slot answers a request for the name hashes [a], [b] and the locale [loc]:
    the slot is live and either side is locale neutral or they agree. *)
Definition answers (a b loc : N) (e : hentry) : Prop :=
  he_block e < DELETED /\ he_name1 e = a /\ he_name2 e = b /\
  (loc = 0 \/ he_locale e = 0 \/ he_locale e = loc).

Definition never_used (e : hentry) : Prop := he_block e = NEVER_USED.

(** The [i]-th slot on the way from a home slot, going round. *)
Definition slot_at (t : list hentry) (home : N) (i : N) : option hentry :=
  nth_error t (N.to_nat ((home + i) mod N.of_nat (length t))).

(** [i] is where the walk from [home] ends with a hit. *)
Definition first_answer (t : list hentry) (home a b loc i : N) (e : hentry) : Prop :=
  i < N.of_nat (length t) /\ slot_at t home i = Some e /\ answers a b loc e /\
  forall j e', j < i -> slot_at t home j = Some e' ->
    ~ answers a b loc e' /\ ~ never_used e'.

(** The documented outcome of a lookup. *)
Definition lookup_spec (t : list hentry) (home a b loc : N) (r : option (N * hentry)) : Prop :=
  match r with
  | Some (idx, e) => exists i, first_answer t home a b loc i e /\
                       idx = (home + i) mod N.of_nat (length t)
  | None => ~ exists i e, first_answer t home a b loc i e
  end.

(** ** A name table as a map: a list of (name, locale) pairs in the order of
    their addition, the position being the block number. *)
Definition key := (bytes * N)%type.

Definition same_file (x y : key) : Prop := name_equiv (fst x) (fst y) /\ snd x = snd y.

(** A stored file answers a request if the names are equivalent and the locales
    are compatible. *)
Definition key_answers (req stored : key) : Prop :=
  name_equiv (fst req) (fst stored) /\
  (snd req = 0 \/ snd stored = 0 \/ snd stored = snd req).

(** The block number a request should give: the first file added that answers. *)
Definition map_lookup (files : list key) (req : key) (r : option N) : Prop :=
  match r with
  | Some m => exists x, nth_error files (N.to_nat m) = Some x /\ key_answers req x /\
                forall j y, (j < N.to_nat m)%nat -> nth_error files j = Some y -> ~ key_answers req y
  | None => forall y, In y files -> ~ key_answers req y
  end.

(** No accident: among the given names, equal 64-bit name hashes mean
    equivalent names.  (The format stores no names, so nothing can tell
    colliding names apart.) *)
Definition no_collision (names : list bytes) : Prop :=
  forall x y, In x names -> In y names ->
    hash_string x HT_NAME_A = hash_string y HT_NAME_A ->
    hash_string x HT_NAME_B = hash_string y HT_NAME_B -> name_equiv x y.

(** Adding a list of files, one after the other, numbered from [m]. *)
Fixpoint add_all (t : list hentry) (files : list key) (m : N) : res (list hentry) :=
  match files with
  | [] => Ok t
  | (n, l) :: rest => t' <- add_to_hash_table t n m l ;; add_all t' rest (m + 1)
  end.
