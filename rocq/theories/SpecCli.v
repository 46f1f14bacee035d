(** * Vocabulary for statements about the command line tool: the place in the
    directory tree that a path leads to. *)
From Verif Require Import Bytes Cli.
Open Scope N_scope.

(** A place is given by the names of the directories from the root down to it. *)
Definition place := list bytes.

(** One step: stay, go up, go down. *)
Definition enter (at_ : place) (seg : bytes) : place :=
  if bytes_eqb seg (lit ".") then at_
  else if bytes_eqb seg (lit "..") then removelast at_
  else at_ ++ [seg].

(** Following a path from a place, as open(2) does in the absence of links. *)
Inductive follows : place -> bytes -> place -> Prop :=
| follows_end l : follows l [] l
| follows_slash l p l' : follows l p l' -> follows l ("/"%byte :: p) l'
| follows_seg l seg p l' :
    seg <> [] -> ~ In "/"%byte seg -> (p = [] \/ exists r, p = "/"%byte :: r) ->
    follows (enter l seg) p l' -> follows l (seg ++ p) l'.
Definition leads (cwd : place) (p : bytes) (l : place) : Prop :=
  ((exists r, p = "/"%byte :: r) /\ follows [] p l) \/
  (~ (exists r, p = "/"%byte :: r) /\ follows cwd p l).

(** The place an action changes. *)
Inductive touches (cwd : place) : action -> place -> Prop :=
| touches_write p d l : leads cwd p l -> touches cwd (AWrite p d) l
| touches_dir (root : bool) (cs : list bytes) :
    touches cwd (AMkdirs root cs) (fold_left enter cs (if root then [] else cwd)).

(** The place is the directory [dir] or lies below it. *)
Definition below (dir l : place) : Prop := exists r, l = dir ++ r.

(** A name that is relative, leads somewhere, and never goes up. *)
Definition never_up (n : bytes) : Prop :=
  ~ (exists r, n = "/"%byte :: r) /\ ~ follows [] n [] /\
  forall a b, (a = [] \/ exists r, a = r ++ ["/"%byte]) -> (b = [] \/ exists r, b = "/"%byte :: r) ->
    n <> a ++ lit ".." ++ b.

Definition writes_of (acts : list action) : list (bytes * bytes) :=
  flat_map (fun x => match x with AWrite p d => [(p, d)] | _ => [] end) acts.

(** A file name that keeps its meaning when packed: an ordinary name without separators of either kind. *)
Definition component (s : bytes) : Prop :=
  s <> [] /\ s <> lit "." /\ s <> lit ".." /\ ~ In "/"%byte s /\ ~ In "\"%byte s.
