(** * Specification: what inspection of an archive should report. *)
From Verif Require Import Bytes BlockTable Header HetBet Builder Listfile Attributes Archive Signature Info SpecHeader SpecDigest SpecFields SpecAnon
  InfoReport.
Open Scope N_scope.

(** The fields of the header, of the archive [a] in [file], and the table infos made of them *)
Section Fields.
Variables (file : bytes) (a : archive) (v : version).
Definition at_ (p n : N) : N := field file (a_off a + p) n.
Definition upper (p : N) : N := match v with V1 => 0 | _ => at_ p 2 * 2 ^ 32 end.
Definition in_v4 (p : N) : option N := match v with V4 => Some (at_ p 8) | _ => None end.
Definition hash_at : N := upper 40 + at_ 16 4.

(** Sizes, position, stored size (version 4) and that nothing failed *)
Definition hash_info : table_info := mkTI (Some (at_ 24 4)) hash_at (in_v4 68) false.
(** There may be only extended tables. *)
Definition block_info (t : table_info) : Prop :=
  ti_size t = Some (at_ 28 4) /\ ti_offset t = upper 42 + at_ 20 4 /\ ti_csize t = in_v4 76 /\
  (ti_failed t = true <-> a_block a = None /\ at_ 28 4 <> 0).
Definition hi_info : option table_info :=
  match v with
  | V1 => None
  | _ => if at_ 32 8 =? 0 then None else Some (mkTI (Some (at_ 28 4)) (at_ 32 8) (in_v4 84) false)
  end.
(** An extended table whose position is at [p]: in version 4 its stored size is at [q], in version 3
    it ends where [next] says. *)
Definition extended_info {T} (p q : N) (next : N -> N) (entries : T -> N) (t : option T) (r : option table_info) : Prop :=
  match v with
  | V1 | V2 => r = None
  | _ => (at_ p 8 = 0 -> r = None) /\
         (at_ p 8 <> 0 -> exists s, r = Some (mkTI (match t with Some t => Some (entries t) | None => None end) (at_ p 8) (Some s)
                                                  (match t with Some _ => false | None => true end)) /\
           match v with V4 => s = at_ q 8 | _ => at_ p 8 + s = next (at_ p 8) end)
  end.
Definition het_next (p : N) : N := if p <? at_ 52 8 then at_ 52 8 else hash_at.

(** The user data block that led to the archive: the sizes of its header and of its data *)
Definition user_info (u : option (N * N)) : Prop :=
  exists k, (forall j, (j < k)%nat -> passes file (512 * N.of_nat j)) /\
  let b := 512 * N.of_nat k in
  (magic_at file b archive_magic /\ a_off a = b /\ u = None) \/
  (exists dist, user_block file b dist /\ a_off a = b + dist /\ u = Some (field file (b + 12) 4, field file (b + 4) 4)).
End Fields.

(** There is a file of this name. *)
Definition there (a : archive) (name : bytes) : Prop := exists fi, find_file a name = Ok (Some fi).

(** What is told about files and flags *)
Definition told (file : bytes) (a : archive) (v : version) (i : info) : Prop :=
  i_version i = v /\ i_sector_size i = 512 * 2 ^ at_ file a 14 2 mod 2 ^ 64 /\
  i_file_count i = match a_bet a, a_block a with
                   | Some b, _ => bet_count b
                   | None, Some bt => lenN (filter (fun e => negb (be_size e =? 0)) bt)
                   | None, None => 0
                   end /\
  i_max_count i = match a_het a with Some t => het_max t | None => at_ file a 24 4 end /\
  (i_encrypted i = true <-> exists bt e, a_block a = Some bt /\ In e bt /\ N.testbit (be_flags e) 16 = true) /\
  (i_has_listfile i = true <-> there a (lit "(listfile)")) /\
  (i_has_signature i = true <-> there a (lit "(signature)")) /\
  (i_has_attributes i = true <-> a_attrs a <> None \/ there a (lit "(attributes)")) /\
  (i_has_signature i = false -> i_signature i = SigNone) /\
  (i_md5 i <> None <-> v = V4).

(** A number in decimal digits without needless zeros *)
Definition shown (n : N) (t : bytes) : Prop :=
  Forall digit t /\ dec_value t = n /\ t <> [] /\ (hd "0"%byte t = "0"%byte -> length t = 1%nat).

(** The words of a listing *)
Definition version_number (v : version) : N := match v with V1 => 1 | V2 => 2 | V3 => 3 | V4 => 4 end.
Definition yes_no (b : bool) : bytes := if b then lit "true" else lit "false".
Definition status_word (s : sig_status) : bytes :=
  match s with
  | SigNone => lit "None" | WeakValid => lit "WeakValid" | WeakInvalid => lit "WeakInvalid"
  | StrongValid => lit "StrongValid" | StrongInvalid => lit "StrongInvalid"
  end.
