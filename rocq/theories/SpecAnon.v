(** * Vocabulary for listings of archives without names. *)
From Coq Require Import Sorting.Sorted.
From Verif Require Import Bytes HashTable BlockTable HetBet Archive.
Open Scope N_scope.

(** Decimal numbers, most significant digit first. *)
Definition digit (b : byte) : Prop := 48 <= bN b <= 57.
Definition dec_value (d : bytes) : N := fold_left (fun acc b => acc * 10 + (bN b - 48)) d 0.
(** The name that stands for number [n]: at least eight digits, no more than needed. *)
Definition numbered (n : N) (s : bytes) : Prop :=
  exists d, s = lit "file_" ++ d ++ lit ".dat" /\ Forall digit d /\ dec_value d = n /\
    (8 <= length d)%nat /\ ((8 < length d)%nat -> hd "0"%byte d <> "0"%byte).

(** The file exists (bit 31 of the flags). *)
Definition exists_flag (flags : N) : Prop := N.testbit flags 31 = true.
(** The slot is taken by a name. *)
Definition taken (e : hentry) : Prop := he_block e < 0xFFFFFFFE.
(** Block [i] is a file: it exists and some slot refers to it. *)
Definition is_file (ht : list hentry) (bt : list bentry) (i : N) : Prop :=
  exists e b, In e ht /\ taken e /\ he_block e = i /\ nthN bt i = Some b /\ exists_flag (be_flags b).
(** Slot [i] refers to a file. *)
Definition is_file_slot (ht : list hentry) (bt : list bentry) (i : N) : Prop :=
  exists e b, nthN ht i = Some e /\ taken e /\ nthN bt (he_block e) = Some b /\ exists_flag (be_flags b).
(** The entry has the sizes and flags of the block. *)
Definition describes (b : bentry) (x : fentry) : Prop :=
  fe_size x = be_size b /\ fe_csize x = be_csize b /\ fe_flags x = be_flags b.
(** The first slot that refers to block [i]. *)
Definition first_slot (ht : list hentry) (i : N) (e : hentry) : Prop :=
  exists u v, ht = u ++ e :: v /\ taken e /\ he_block e = i /\ forall e', In e' u -> he_block e' <> i.

(** A line of the listing by slots: named after the slot. *)
Definition slot_row (ht : list hentry) (bt : list bentry) (i : N) (x : fentry) : Prop :=
  numbered i (fe_name x) /\ fe_hashes x = None /\
  exists e b, nthN ht i = Some e /\ nthN bt (he_block e) = Some b /\ describes b x.
(** A line of the listing by blocks: named after the block, with the hashes of the
    first slot that refers to it if they are wanted. *)
Definition block_row (hashes : bool) (ht : list hentry) (bt : list bentry) (i : N) (x : fentry) : Prop :=
  numbered i (fe_name x) /\ (exists b, nthN bt i = Some b /\ describes b x) /\
  exists e, first_slot ht i e /\ fe_hashes x = if hashes then Some (he_name1 e, he_name2 e) else None.
(** A line of the listing by entries of the extended tables. *)
Definition bet_row (t : bet) (i : N) (x : fentry) : Prop :=
  numbered i (fe_name x) /\ fe_hashes x = None /\
  exists bi, bet_get t i = Ok (Some bi) /\ fe_size x = bi_size bi /\ fe_csize x = bi_csize bi /\ fe_flags x = bi_flags bi.
