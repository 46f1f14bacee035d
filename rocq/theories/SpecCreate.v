(** * Specification: the files of a directory, and which of them are wanted *)
From Verif Require Import Bytes Listfile SpecListfile Cli SpecCli CliCreate.
Open Scope N_scope.

(** An entry of a directory *)
Inductive has : tree -> bytes -> node -> Prop :=
| has_here name n rest : has (TCons name n rest) name n
| has_later name n rest name' n' : has rest name' n' -> has (TCons name n rest) name' n'.

(** The file at a path; links to directories are followed if asked for. *)
Inductive file_at (follow : bool) : tree -> list bytes -> option bytes -> Prop :=
| at_here t name d : has t name (NFile d) -> file_at follow t [name] d
| at_below t name link sub p d : has t name (NDir link true sub) -> link = false \/ follow = true ->
    file_at follow sub p d -> file_at follow t (name :: p) d.
(** A directory on the way that cannot be listed *)
Inductive hidden (follow : bool) : tree -> Prop :=
| hidden_here t name link sub : has t name (NDir link false sub) -> link = false \/ follow = true -> hidden follow t
| hidden_below t name link sub : has t name (NDir link true sub) -> link = false \/ follow = true ->
    hidden follow sub -> hidden follow t.

(** Names as the file system has them *)
Definition ordinary (c : bytes) : Prop := c <> [] /\ ~ In "/"%byte c.
(** Every name once in a directory *)
Inductive proper : tree -> Prop :=
| proper_nil : proper TNil
| proper_file name d rest : ordinary name -> (forall n, ~ has rest name n) -> proper rest ->
    proper (TCons name (NFile d) rest)
| proper_dir name link ok sub rest : ordinary name -> (forall n, ~ has rest name n) -> proper sub -> proper rest ->
    proper (TCons name (NDir link ok sub) rest).

(** The path of a file below the directory [dir] *)
Fixpoint with_slashes (l : list bytes) : bytes :=
  match l with [] => [] | [c] => c | c :: t => c ++ ["/"%byte] ++ with_slashes t end.
Definition path_below (dir : bytes) (p : list bytes) : bytes :=
  match rev dir with
  | [] => with_slashes p
  | b :: _ => dir ++ (if bytes_eqb [b] (lit "/") then [] else lit "/") ++ with_slashes p
  end.

Definition appears (pat s : bytes) : Prop := exists a b, s = a ++ pat ++ b.
(** A file that is to be packed: no pattern appears in its path (as text, with
    replacement characters for what is not), nor in its name. *)
Definition wanted (dir : bytes) (deep : bool) (pats : list bytes) (p : list bytes) : Prop :=
  (deep = true \/ length p = 1%nat) /\
  forall pat, In pat pats -> ~ appears pat (utf8_lossy (path_below dir p)) /\ ~ appears pat (utf8_lossy (last p [])).

(** What is written is the list of names and, below the place [dl], exactly the
    wanted files of the tree. *)
Definition restored (src : bytes) (follow deep : bool) (pats : list bytes) (t : tree) (cwd : place) (dl : place) (acts : list action) : Prop :=
  exists ws x y, writes_of acts = ws ++ [(x, y)] /\ leads cwd x (dl ++ [lit "(listfile)"]) /\
    (forall p d, file_at follow t p (Some d) -> wanted src deep pats p ->
       exists w, In w ws /\ leads cwd (fst w) (dl ++ p) /\ snd w = d) /\
    (forall w, In w ws -> exists p, file_at follow t p (Some (snd w)) /\ wanted src deep pats p /\ leads cwd (fst w) (dl ++ p)).
