(** * Settings: an encoding that can be read back, and a few commands *)
From Verif Require Import Bytes Header Compress Builder Cli CliConfig SpecConfig ConfigFacts.
Open Scope N_scope.

(** Every piece of text ends with a zero; each of its bytes follows a one. *)
Fixpoint w_bytes (d : bytes) : bytes := match d with [] => [x00] | b :: t => x01 :: b :: w_bytes t end.
Fixpoint r_bytes (d : bytes) : option (bytes * bytes) :=
  match d with
  | x00 :: r => Some ([], r)
  | x01 :: b :: t => match r_bytes t with Some (v, r) => Some (b :: v, r) | None => None end
  | _ => None
  end.
Lemma rw_bytes d r : r_bytes (w_bytes d ++ r) = Some (d, r).
Proof. induction d as [|b t IH]; cbn; [reflexivity|]. now rewrite IH. Qed.
Fixpoint w_pos (p : positive) : bytes := match p with xH => [x00] | xO q => x01 :: w_pos q | xI q => x02 :: w_pos q end.
Fixpoint r_pos (d : bytes) : option (positive * bytes) :=
  match d with
  | x00 :: r => Some (xH, r)
  | x01 :: t => match r_pos t with Some (p, r) => Some (xO p, r) | None => None end
  | x02 :: t => match r_pos t with Some (p, r) => Some (xI p, r) | None => None end
  | _ => None
  end.
Lemma rw_pos p r : r_pos (w_pos p ++ r) = Some (p, r).
Proof. induction p as [p IH|p IH|]; cbn; [| |reflexivity]; now rewrite IH. Qed.
Definition w_n (n : N) : bytes := match n with 0 => [x00] | Npos p => x01 :: w_pos p end.
Definition r_n (d : bytes) : option (N * bytes) :=
  match d with
  | x00 :: r => Some (0, r)
  | x01 :: t => match r_pos t with Some (p, r) => Some (Npos p, r) | None => None end
  | _ => None
  end.
Lemma rw_n n r : r_n (w_n n ++ r) = Some (n, r).
Proof. destruct n as [|p]; cbn; [reflexivity|]. now rewrite rw_pos. Qed.
Definition w_opt {A} (w : A -> bytes) (o : option A) : bytes := match o with None => [x00] | Some x => x01 :: w x end.
Definition r_opt {A} (r : bytes -> option (A * bytes)) (d : bytes) : option (option A * bytes) :=
  match d with
  | x00 :: t => Some (None, t)
  | x01 :: t => match r t with Some (v, u) => Some (Some v, u) | None => None end
  | _ => None
  end.
Lemma rw_opt {A} w (r : bytes -> option (A * bytes)) : (forall v t, r (w v ++ t) = Some (v, t)) ->
  forall o t, r_opt r (w_opt w o ++ t) = Some (o, t).
Proof. intros H [x|] t; cbn; [now rewrite H|reflexivity]. Qed.

Definition toy_encode (s : settings) : bytes :=
  w_opt w_bytes (st_compression s) ++ w_opt w_n (st_version s) ++ w_opt w_n (st_block s) ++
  w_opt w_bytes (st_aliases s) ++ w_opt w_bytes (st_output s) ++ [].
Definition toy_decode (d : bytes) : option settings :=
  match r_opt r_bytes d with None => None | Some (c, d) =>
  match r_opt r_n d with None => None | Some (v, d) =>
  match r_opt r_n d with None => None | Some (b, d) =>
  match r_opt r_bytes d with None => None | Some (a, d) =>
  match r_opt r_bytes d with None => None | Some (o, d) => Some (mkSet c v b a o) end end end end end.
Lemma toy_text s : toy_decode (toy_encode s) = Some s.
Proof.
  unfold toy_decode, toy_encode. rewrite (rw_opt w_bytes r_bytes rw_bytes), (rw_opt w_n r_n rw_n), (rw_opt w_n r_n rw_n),
    (rw_opt w_bytes r_bytes rw_bytes), (rw_opt w_bytes r_bytes rw_bytes). now destruct s.
Qed.

Definition here : option bytes := Some (lit "/home/me").
Definition anywhere (p : bytes) : bool := true.
Definition nothing : files := fun _ => None.
Definition at_home := storm toy_encode toy_decode here anywhere None.
Definition set (k v : bytes) : option format * command := (None, SetKey k v).
Definition three : list (option format * command) :=
  [ set (lit "default_compression") (lit "lzma"); set (lit "default_version") (lit "+02");
    set (lit "default_block_size") (lit "24"); set (lit "default_output") (lit "json") ].
Definition later : files := after (fun c => at_home (fst c) (snd c)) three nothing.
Definition no_flags : flags := mkFlags None None None false None.
Definition some_flags : flags := mkFlags None (Some ChNone) (Some 0) true None.
