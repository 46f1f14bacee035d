(** * Words for the memory that opening and reading ask for. *)
From Verif Require Import Bytes Header Compress HetBet Archive.
Open Scope N_scope.

(** No single request is larger. *)
Definition none_above (limit : N) (asked : list N) : Prop := forall n, In n asked -> n <= limit.

(** The file has a header of version 1 or 2, and is not larger than files can be. *)
Definition of_version_1_or_2 (file : bytes) : Prop :=
  lenN file < 2 ^ 63 /\ exists off ud h, find_header file = Ok (off, ud, h) /\ (h_version h = V1 \/ h_version h = V2).

(** The size that the header states for an extended table: in version 4 a number, in version 3
    the distance to what follows. *)
Definition stated_size (h : header) (pos : option N) (size : v4data -> N) (n : N) : Prop :=
  (exists v, h_v4 h = Some v /\ n = size v) \/
  exists p q, pos = Some p /\ (q = get_hash_table_pos h \/ h_bet_pos h = Some q) /\ p + n = q.

(** Why opening an archive asks for [n] bytes *)
Inductive opening_request (L : codecs) (file : bytes) (a : archive) (n : N) : Prop :=
| request_size : n <= 25 * lenN file -> opening_request L file a n
| request_packed : n <= 2 ^ 34 -> opening_request L file a n
| request_het :                            (* a table that is of no use *)
    a_het a = None -> stated_size (a_header a) (h_het_pos (a_header a)) v4_het_size n -> opening_request L file a n
| request_bet : a_bet a = None -> stated_size (a_header a) (h_bet_pos (a_header a)) v4_bet_size n -> opening_request L file a n
| request_entries : a_bet a = None -> version_ge (h_version (a_header a)) V3 = true -> n <= 2 ^ 61 -> opening_request L file a n
| request_body : forall b, a_bet a = Some b -> n <= lenN (bet_table b) -> opening_request L file a n
| request_count : forall b, a_bet a = Some b -> a_block a = None -> n <= 400 * bet_count b -> opening_request L file a n
| request_attributes : forall fi d, find_file a (lit "(attributes)") = Ok (Some fi) -> read_file L a (lit "(attributes)") = Ok d ->
    n <= 4 * fi_size fi \/ n <= 2 * lenN d -> opening_request L file a n.

(** What unpacking [len] bytes into [size] asks for when the method is [m]: one step; steps that
    leave it to the library; Huffman and audio, where twice the larger size is taken; another
    method and audio, where four times the size is taken *)
Inductive steps_ask (size len : N) : N -> list N -> Prop :=
| ask_one m : In m [0x01; 0x02; 0x10; 0x12; 0x20; 0x40; 0x80] -> steps_ask size len m [size]
| ask_none m : In m [0x00; 0x04; 0x08] -> steps_ask size len m []
| ask_huffman m : In m [0x41; 0x81; 0xC1] -> steps_ask size len m [2 * N.max size len; size]
| ask_packed m : In m [0x42; 0x82; 0x50; 0x90; 0x60; 0xA0] -> steps_ask size len m [4 * size; size].
