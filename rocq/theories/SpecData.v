(** * Vocabulary for statements about generated test data. *)
From Verif Require Import Bytes Cli SpecCli TestData.
Open Scope N_scope.

(** Only directories hold something. *)
Definition orderly (d : disk) : Prop := forall l x, d (l ++ [x]) <> None -> d l = Some IDir.

(** Where the output directory, a configured directory and a configured file are. *)
Definition out_at (cwd : place) (base : bytes) (c : dconfig) (l : place) : Prop :=
  leads cwd (path_join base (dc_name c)) l.
Definition dir_at (cwd : place) (base : bytes) (c : dconfig) (s : bytes) (l : place) : Prop :=
  leads cwd (path_join (path_join base (dc_name c)) s) l.
Definition file_at (cwd : place) (base : bytes) (c : dconfig) (f : dfile) (l : place) : Prop :=
  leads cwd (path_join (path_join base (dc_name c)) (df_path f)) l.

(** All places a configuration names. *)
Definition named_at (cwd : place) (base : bytes) (c : dconfig) (l : place) : Prop :=
  out_at cwd base c l \/ (exists s, In s (dc_dirs c) /\ dir_at cwd base c s l) \/
  (exists f, In f (dc_files c) /\ file_at cwd base c f l).

(** A sentence again and again, or what the random generator yields; of the size asked for. *)
Definition content_of (random : N -> bytes) (f : dfile) (b : bytes) : Prop :=
  match df_type f with
  | FText => lenN b = 1024 * df_kb f /\
      forall i, i < 1024 * df_kb f ->
        nthN b i = nthN (lit "The quick brown fox jumps over the lazy dog. ") (i mod 45)
  | FBinary => b = random (1024 * df_kb f)
  | FEmpty => b = []
  end.


(** Kilobytes of one kind asked for *)
Definition total_kb (k : ftype) (c : dconfig) : N :=
  fold_right N.add 0 (map df_kb (filter (fun f => match df_type f, k with
    | FText, FText => true | FBinary, FBinary => true | FEmpty, FEmpty => true | _, _ => false end) (dc_files c))).
