(** * Vocabulary for statements about the calls that fill a builder *)
From Verif Require Import Bytes Header Compress Builder FileSystem BuildIo BuilderApi.
Open Scope N_scope.

(** What a call sets, if it is a setting of the kind in question *)
Definition version_set (m : method) : option version := match m with MVersion v => Some v | _ => None end.
Definition block_set (m : method) : option N := match m with MBlock n => Some n | _ => None end.
Definition default_set (m : method) : option N := match m with MDefault n => Some n | _ => None end.
Definition list_set (m : method) : option slist := match m with MList o => Some o | _ => None end.
Definition crcs_set (m : method) : option bool := match m with MCrcs b => Some b | _ => None end.
Definition tables_set (m : method) : option bool := match m with MTables b => Some b | _ => None end.
Definition tmethod_set (m : method) : option N := match m with MTableMethod n => Some n | _ => None end.

(** [v] is what the last of the calls that set it has set, or else [d]. *)
Definition last_set {A} (pick : method -> option A) (d : A) (ms : list method) (v : A) : Prop :=
  (exists l1 m l2, ms = l1 ++ m :: l2 /\ pick m = Some v /\ forall x, In x l2 -> pick x = None) \/
  (v = d /\ forall x, In x ms -> pick x = None).

(** The calls that add a file *)
Definition adding (m : method) : bool :=
  match m with MAdd _ _ | MAddOptions _ _ _ _ _ | MAddEncryption _ _ _ _ _ => true | _ => false end.
Definition adds (ms : list method) : nat := length (filter adding ms).

(** The file a call adds, when [d] is the default method of compression *)
Definition file_added (m : method) (d : N) : option spending :=
  match m with
  | MAdd s n => Some (mkSP s n d false false 0)
  | MAddOptions s n c e l => Some (mkSP s n c e false l)
  | MAddEncryption s n c x l => Some (mkSP s n c true x l)
  | _ => None
  end.

(** The arguments are of the types of the interface. *)
Definition method_typed (m : method) : Prop :=
  match m with
  | MBlock n => n < 2 ^ 16
  | MDefault n | MTableMethod n => n < 256
  | MAddOptions _ _ c _ l | MAddEncryption _ _ c _ l => c < 256 /\ l < 2 ^ 16
  | _ => True
  end.
