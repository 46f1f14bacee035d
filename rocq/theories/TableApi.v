(** * Tables made and changed by a caller (tables/hash.rs, tables/block.rs). *)
From Verif Require Import Bytes HashTable BlockTable.
Open Scope N_scope.

(** What a caller can do to a table: write through [get_mut] (or [entries_mut],
    at a place that exists), and [clear]. *)
Inductive tchange (A : Type) := TPut (i : N) (e : A) | TClear.
Arguments TPut {A}. Arguments TClear {A}.

(** hash.rs:200-202, block.rs:177-179 [get_mut]; block.rs:235-239
    [HiBlockTable::set]: nothing happens behind the end. *)
Definition table_put {A} (t : list A) (i : N) (e : A) : list A :=
  if i <? lenN t then upd t (N.to_nat i) e else t.
(** hash.rs:210-214, block.rs:187-196 [clear]; a hi-block table has no such
    function. *)
Definition table_clear {A} (blank : A) (t : list A) : list A := map (fun _ => blank) t.
Definition table_change {A} (blank : A) (t : list A) (c : tchange A) : list A :=
  match c with TPut i e => table_put t i e | TClear => table_clear blank t end.
Definition table_changes {A} (blank : A) (t : list A) (cs : list (tchange A)) : list A :=
  fold_left (table_change blank) cs t.

(** hash.rs:188-197 [HashTable::new_mut]: the size truncated to 32 bits is
    looked at, as in [new]. *)
Definition ht_new_mut (size : N) : res (list hentry) :=
  if is_power_of_two (w32 size) then Ok (repeat he_empty (N.to_nat size)) else Err EHashTable.
(** block.rs:96-108 [new], 163-174 [new_mut] *)
Definition be_blank : bentry := mkBE 0 0 0 0.
Definition bt_new_mut (size : N) : res (list bentry) := Ok (repeat be_blank (N.to_nat size)).
(** block.rs:229-233 [HiBlockTable::new] *)
Definition hi_new (size : N) : list N := repeat 0 (N.to_nat size).
