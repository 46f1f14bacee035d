(** * Vocabulary for statements about file lists: text, and names that a list of
    one name per line can carry. *)
From Verif Require Import Bytes.
Open Scope N_scope.

(** Unicode scalar values and their UTF-8 encoding (RFC 3629). *)
Definition scalar (c : N) : Prop := c < 0xD800 \/ 0xE000 <= c < 0x110000.
Definition encode (c : N) : bytes :=
  if c <? 0x80 then [Nb c]
  else if c <? 0x800 then [Nb (0xC0 + c / 64); Nb (0x80 + c mod 64)]
  else if c <? 0x10000 then [Nb (0xE0 + c / 4096); Nb (0x80 + c / 64 mod 64); Nb (0x80 + c mod 64)]
  else [Nb (0xF0 + c / 262144); Nb (0x80 + c / 4096 mod 64); Nb (0x80 + c / 64 mod 64);
        Nb (0x80 + c mod 64)].
(** A byte string that is UTF-8 text, as every Rust [String] is. *)
Definition is_text (d : bytes) : Prop :=
  exists cs, Forall scalar cs /\ d = concat (map encode cs).

(** The characters with the Unicode property White_Space. *)
Definition white_space : list N :=
  [0x09; 0x0A; 0x0B; 0x0C; 0x0D; 0x20; 0x85; 0xA0; 0x1680; 0x2000; 0x2001; 0x2002; 0x2003; 0x2004;
   0x2005; 0x2006; 0x2007; 0x2008; 0x2009; 0x200A; 0x2028; 0x2029; 0x202F; 0x205F; 0x3000].

(** A name that survives in a list: not empty, on one line, no white space at
    either end, no semicolon, and not looking like a comment. *)
Definition listable (n : bytes) : Prop :=
  n <> [] /\ ~ In "010"%byte n /\ ~ In ";"%byte n /\
  (forall r, n <> "#"%byte :: r) /\
  forall w r, In w white_space -> n <> encode w ++ r /\ n <> r ++ encode w.
