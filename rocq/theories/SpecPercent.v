(** * Specification: what printed percentages, sizes and rows of a table should say. *)
From Verif Require Import Bytes Archive SpecReport SpecCliList.
Open Scope N_scope.

(** [h] is [a / b] to the nearest integer. *)
Definition is_nearest (h a b : N) : Prop := 2 * (h * b) <= 2 * a + b /\ 2 * a <= 2 * (h * b) + b.

(** [n] bytes: exactly if there are fewer than 1024, otherwise in the largest unit that is
    not more, to the nearest hundredth *)
Definition size_shown (n : N) (t : bytes) : Prop :=
  (n < 1024 /\ shown n t) \/
  exists j u whole d1 d2 tw t1 t2,
    In (j, u) [(1, lit "KB"); (2, lit "MB"); (3, lit "GB"); (4, lit "TB")] /\
    1024 ^ j <= n /\ (j < 4 -> n < 1024 ^ (j + 1)) /\
    d1 < 10 /\ d2 < 10 /\ shown whole tw /\ shown d1 t1 /\ shown d2 t2 /\
    t = tw ++ lit "." ++ t1 ++ t2 ++ lit " " ++ u /\ is_nearest (100 * whole + 10 * d1 + d2) (100 * n) (1024 ^ j).

(** [a] of [b] in hundredths, to the nearest tenth of one *)
Definition percent_shown (a b : N) (t : bytes) : Prop :=
  exists whole d tw td, d < 10 /\ shown whole tw /\ shown d td /\ t = tw ++ lit "." ++ td /\ is_nearest (10 * whole + d) (1000 * a) b.

(** [t] with spaces in front, or behind, up to [w] characters *)
Definition characters (t : bytes) : N := lenN (filter (fun b => negb ((128 <=? bN b) && (bN b <? 192))) t).
Definition right_aligned (w : N) (t r : bytes) : Prop :=
  exists k, r = repeat " "%byte k ++ t /\ N.of_nat k = w - characters t.
Definition left_aligned (w : N) (t r : bytes) : Prop :=
  exists k, r = t ++ repeat " "%byte k /\ N.of_nat k = w - characters t.

(** The words for the flags of a file *)
Definition flag_words : list (N * bytes) :=
  [(9, lit "Compressed"); (16, lit "Encrypted"); (24, lit "Single Unit"); (26, lit "Has CRC"); (17, lit "Fix Key"); (20, lit "Patch");
   (25, lit "Deleted")].
Inductive with_commas : list bytes -> bytes -> Prop :=
  | one_word w : with_commas [w] w
  | more_words w l t : with_commas l t -> with_commas (w :: l) (w ++ lit ", " ++ t).
Definition flags_shown (flags : N) (t : bytes) : Prop :=
  exists l, NoDup l /\ (forall w, In w l <-> exists k, In (k, w) flag_words /\ N.testbit flags k = true) /\
    (l = [] /\ t = lit "-" \/ with_commas l t).

(** [p] per hundred for [c] bytes of [s]: rounded down, but one too low for 29, 57 and 58 per
    hundred; for more than a hundred it may be one too low for any whole number. *)
Definition percent_of (c s p : N) : Prop :=
  (s = 0 -> p = 100) /\
  (0 < s -> c <= s ->
     (forall k, In k [29; 57; 58] -> 100 * c = k * s -> p + 1 = k) /\
     ((forall k, In k [29; 57; 58] -> 100 * c <> k * s) -> p = 100 * c / s)) /\
  (0 < s ->
     (100 * c mod s <> 0 -> p = N.min (2 ^ 32 - 1) (100 * c / s)) /\
     (forall k, 100 * c = k * s -> p = N.min (2 ^ 32 - 1) k \/ 0 < k /\ p = N.min (2 ^ 32 - 1) (k - 1))).

(** Hexadecimal digits without needless zeros *)
Definition hex_shown (n : N) (t : bytes) : Prop :=
  t <> [] /\ hex_number 0 t = Some n /\ (hd "0"%byte t = "0"%byte -> length t = 1%nat).

(** The row of a file: name, sizes, percentage, hashes (0 if there are none) and flags *)
Definition row_says (hashes : bool) (e : fentry) (row : bytes) : Prop :=
  exists n cn ts cs tc cc p tp cp th tf,
    (lenN (fe_name e) <= 39 /\ n = fe_name e \/ 39 < lenN (fe_name e) /\ n = firstn 36 (fe_name e) ++ lit "...") /\ left_aligned 40 n cn /\
    size_shown (fe_size e) ts /\ right_aligned 12 ts cs /\ size_shown (fe_csize e) tc /\ right_aligned 12 tc cc /\
    percent_of (fe_csize e) (fe_size e) p /\ shown p tp /\ right_aligned 6 tp cp /\
    (if hashes
     then exists t1 t2 c1 c2, let h := match fe_hashes e with Some h => h | None => (0, 0) end in
       hex_shown (fst h) t1 /\ hex_shown (snd h) t2 /\ right_aligned 10 t1 c1 /\ right_aligned 10 t2 c2 /\ th = c1 ++ lit " " ++ c2 ++ lit " "
     else th = []) /\
    flags_shown (fe_flags e) tf /\
    row = cn ++ lit " " ++ cs ++ lit " " ++ cc ++ lit " " ++ cp ++ lit "% " ++ th ++ tf.
(** The last row *)
Definition total_says (files size csize : N) (row : bytes) : Prop :=
  exists tf cn ts cs tc cc p tp cp,
    shown files tf /\ left_aligned 40 (lit "Total: " ++ tf ++ lit " files") cn /\
    size_shown size ts /\ right_aligned 12 ts cs /\ size_shown csize tc /\ right_aligned 12 tc cc /\
    percent_of csize size p /\ shown p tp /\ right_aligned 6 tp cp /\
    row = cn ++ lit " " ++ cs ++ lit " " ++ cc ++ lit " " ++ cp ++ lit "%".
(** How many files have a flag, and what was saved *)
Definition share_says (what : bytes) (k : N) (es : list fentry) (row : bytes) : Prop :=
  exists tn tp, let n := lenN (filter (fun e => N.testbit (fe_flags e) k) es) in
    shown n tn /\ percent_shown n (lenN es) tp /\ row = what ++ tn ++ lit " (" ++ tp ++ lit "%)".
Definition saved_says (size csize : N) (rows : list bytes) : Prop :=
  (size <= csize -> rows = []) /\
  (csize < size -> exists ts tp, size_shown (size - csize) ts /\ percent_shown (size - csize) size tp /\
     rows = [lit "Space saved:       " ++ ts ++ lit " (" ++ tp ++ lit "%)"]).
(** The lines above the rows and the rule below them *)
Definition columns (hashes : bool) : bytes :=
  if hashes then lit "Name                                             Size   Compressed   Ratio      Hash1      Hash2 Flags"
  else lit "Name                                             Size   Compressed   Ratio Flags".
Definition rule_of (hashes : bool) : bytes := repeat "-"%byte (if hashes then 120 else 100).
Definition heading_of (hashes : bool) : list bytes :=
  [lit "File Listing (Verbose Mode)"; repeat "="%byte 120; columns hashes; rule_of hashes].
Definition statistics : list bytes := [[]; lit "Additional Statistics"; repeat "-"%byte 50].
(** Hashes are shown if any file has some *)
Definition shows_hashes (hashes : bool) (es : list fentry) : Prop := hashes = true <-> exists e, In e es /\ fe_hashes e <> None.
(** The whole table; [vv] adds the statistics *)
Definition table_says (vv : bool) (es : list fentry) (lines : list bytes) : Prop :=
  exists hashes rows last more, shows_hashes hashes es /\
    lines = heading_of hashes ++ rows ++ [rule_of hashes; last] ++ more /\
    Forall2 (row_says hashes) es rows /\ total_says (lenN es) (total fe_size es) (total fe_csize es) last /\
    (vv = false -> more = []) /\
    (vv = true -> es <> [] -> exists r1 r2 r3 saved, more = statistics ++ [r1; r2; r3] ++ saved /\
       share_says (lit "Compressed files:  ") 9 es r1 /\ share_says (lit "Encrypted files:   ") 16 es r2 /\
       share_says (lit "Single unit files: ") 24 es r3 /\ saved_says (total fe_size es) (total fe_csize es) saved).
(** Less than a terabyte together, and hashes of four bytes *)
Definition modest (es : list fentry) : Prop :=
  Forall (fun e => match fe_hashes e with Some (a, b) => a < 2 ^ 32 /\ b < 2 ^ 32 | None => True end) es /\
  total fe_size es < 2 ^ 40 /\ total fe_csize es < 2 ^ 40 /\ lenN es < 2 ^ 40.
