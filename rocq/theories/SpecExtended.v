(** * Specification: the extended tables of versions 3 and 4, whichever tool wrote them
    (docs/mopaq-format.md, "HET Table Structure" and "BET Table Structure"). *)
From Verif Require Import Bytes Compress SpecCompress SpecStored SpecBits SpecCipher.
Open Scope N_scope.

(** A table in a file: signature, version, the size of the data, and the data, packed or
    not, enciphered word by word. *)
Definition table_stored (L : codecs) (sig key : N) (stored body : bytes) : Prop :=
  exists ver p payload,
    stored = le32 sig ++ ver ++ le32 (lenN body) ++ payload /\ length ver = 4%nat /\
    enciphered false key p payload /\
    (p = body \/ lenN p < lenN body /\ exists m c, p = m :: c /\ meant L (bN m) c body).

(** Words by their place in the structure of the description, from [table_size] on *)
Definition at_word (ws : list N) (k : nat) : N := nth k ws 0.

(** ** Block entries: 19 words, the flags, the packed entries, hashes of names *)
Definition b_count (ws : list N) : N := at_word ws 1.
Definition b_width (ws : list N) : N := at_word ws 3.
Definition block_layout (body : bytes) (ws flags : list N) (table hashes : bytes) : Prop :=
  length ws = 19%nat /\ words_ok ws /\ words_ok flags /\
  body = bytes_of_words ws ++ bytes_of_words flags ++ table ++ hashes /\
  lenN flags = at_word ws 18 /\
  8 * lenN table < b_count ws * b_width ws + 8 /\ b_count ws * b_width ws <= 8 * lenN table /\
  lenN hashes = at_word ws 17.

(** Field number [k] of five: the words say where in an entry it is and how wide. *)
Definition field (ws : list N) (table : bytes) (i : N) (k : nat) (v : N) : Prop :=
  at_word ws (4 + k) + at_word ws (9 + k) <= b_width ws /\
  spells table (i * b_width ws + at_word ws (4 + k)) (at_word ws (9 + k)) v.
Definition block_entry_is (ws flags : list N) (table : bytes) (i pos size csize fl : N) : Prop :=
  i < b_count ws /\ field ws table i 0 pos /\ field ws table i 1 size /\ field ws table i 2 csize /\
  exists n, field ws table i 3 n /\ nth_error flags (N.to_nat n) = Some fl.

(** ** Names: 8 words, the hashes, the numbers of the files *)
Definition n_max (ws : list N) : N := at_word ws 1.
Definition n_bits (ws : list N) : N := at_word ws 3.
Definition name_layout (body : bytes) (ws : list N) (table numbers : bytes) : Prop :=
  length ws = 8%nat /\ words_ok ws /\ body = bytes_of_words ws ++ table ++ numbers /\
  lenN table = at_word ws 2 /\ at_word ws 4 <= 8 * lenN numbers.
(** How many hashes there are, and the one a name is looked up at *)
Definition n_slots (ws : list N) : N := 8 * at_word ws 2 / n_bits ws.
Definition slot_of (ws : list N) (name : bytes) : N := N.land (extended_hash name) (n_slots ws - 1).
(** The table says that the file called [name] has number [i]. *)
Definition numbered (ws : list N) (table numbers : bytes) (name : bytes) (i : N) : Prop :=
  spells table (slot_of ws name * n_bits ws) (n_bits ws) (extended_hash name mod 2 ^ n_bits ws) /\
  spells numbers (slot_of ws name * (at_word ws 5 + at_word ws 6)) (at_word ws 6) i.
