(** * Specification: which names the name table (HET) of a built archive confuses.

    The builder gives every file a place and writes there, in [hb + ib] bits, the lower bits of the
    hash of its name and its number; the reader looks at places of [hb] bits. *)
From Verif Require Import Bytes SpecCipher Builder.
Open Scope N_scope.

(** For [n] entries: the number of places, a power of two, and the widths of hashes and numbers *)
Definition widths (n m hb ib : N) : Prop :=
  (exists k, m = 2 ^ k) /\ 2 * n <= m /\ m < 4 * n /\ m < 2 ^ hb /\ 2 ^ hb <= 2 * m /\ n < 2 ^ ib /\ 2 ^ ib <= 2 * n.

(** One after the other, every file takes the first free place from the one of its hash on. *)
Definition seated (m : N) (names : list bytes) (places : list N) : Prop :=
  length places = length names /\
  forall i name s, nth_error names i = Some name -> nth_error places i = Some s ->
    exists d, d < m /\ s = (extended_hash name + d) mod m /\ ~ In s (firstn i places) /\
      forall e, e < d -> In ((extended_hash name + e) mod m) (firstn i places).

(** Bit [p] is set in what the builder writes. *)
Definition set_bit (hb ib : N) (names : list bytes) (places : list N) (p : N) : Prop :=
  exists i name s j, nth_error names i = Some name /\ nth_error places i = Some s /\
    j < hb + ib /\ p = s * (hb + ib) + j /\
    N.testbit (extended_hash name mod 2 ^ hb + N.of_nat i * 2 ^ hb) j = true.

(** What the reader sees at the place of [name] is the hash of [name], and the eight bytes from where it
    begins are in the table as it was announced, with [hb] bits for each place. *)
Definition confused (names : list bytes) (places : list N) (name : bytes) : Prop :=
  exists m hb ib, widths (lenN names) m hb ib /\
    let q := extended_hash name mod m in
    8 * (q * hb / 8) + 64 <= m * hb /\
    forall j, j < hb -> (N.testbit (extended_hash name) j = true <-> set_bit hb ib names places (q * hb + j)).

(** The names of the entries of an archive, in the order of its tables *)
Definition entry_names (c : config) (files : list pending) : list bytes :=
  map pf_name files ++ match c_listfile c with LNone => [] | _ => [lit "(listfile)"] end.

(** The name table takes [name] for one it holds. *)
Definition mistaken (c : config) (files : list pending) (name : bytes) : Prop :=
  exists m hb ib places, widths (lenN (entry_names c files)) m hb ib /\ seated m (entry_names c files) places /\
    confused (entry_names c files) places name.
(** Not so for any name that belongs to the archive or is looked up on its own account *)
Definition no_mistake (c : config) (files : list pending) : Prop :=
  forall n, In n (lit "(listfile)" :: lit "(attributes)" :: lit "(signature)" :: map pf_name files) -> ~ mistaken c files n.
