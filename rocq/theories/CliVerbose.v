(** * The verbose table of a listing (storm-cli/src/output.rs:377-560), without colours. *)
From Verif Require Import Bytes Compress BlockTable Archive CliList Percent.
Open Scope N_scope.

(** [{:<w}] and [{:>w}]: the width of a text is the number of its characters *)
Definition width (t : bytes) : N := lenN (filter (fun b => (bN b <? 128) || (192 <=? bN b)) t).
Definition pad_right (w : N) (t : bytes) : bytes := t ++ repeat " "%byte (N.to_nat (w - width t)).
Definition pad_left (w : N) (t : bytes) : bytes := repeat " "%byte (N.to_nat (w - width t)) ++ t.
(** [{:X}] of a [u32]: without zeros in front *)
Fixpoint drop_zeros (d : bytes) : bytes :=
  match d with
  | [b] => [b]
  | b :: t => if beqb b "0"%byte then drop_zeros t else d
  | [] => []
  end.
Definition hex_upper (n : N) : bytes := drop_zeros (hex8 n).

(** output.rs:423-445 *)
Definition flag_names (flags : N) : list bytes :=
  let when m w := if negb (N.land flags m =? 0) then [w] else [] in
  when FLAG_COMPRESS (lit "Compressed") ++ when FLAG_ENCRYPTED (lit "Encrypted") ++ when FLAG_SINGLE_UNIT (lit "Single Unit") ++
  when FLAG_SECTOR_CRC (lit "Has CRC") ++ when FLAG_FIX_KEY (lit "Fix Key") ++ when FLAG_PATCH_FILE (lit "Patch") ++
  when FLAG_DELETE_MARKER (lit "Deleted").
(** [[T]::join] *)
Fixpoint join_with (sep : bytes) (l : list bytes) : bytes :=
  match l with
  | [] => []
  | [w] => w
  | w :: t => w ++ sep ++ join_with sep t
  end.
(** output.rs:447-451 *)
Definition flags_text (flags : N) : bytes :=
  match flag_names flags with [] => lit "-" | l => join_with (lit ", ") l end.

(** output.rs:460-482 *)
Definition verbose_row (hashes : bool) (name : bytes) (e : fentry) : bytes :=
  pad_right 40 name ++ lit " " ++ pad_left 12 (format_size (fe_size e)) ++ lit " " ++
  pad_left 12 (format_size (fe_csize e)) ++ lit " " ++ pad_left 6 (decimal (ratio (fe_csize e) (fe_size e))) ++ lit "% " ++
  (if hashes
   then let (h1, h2) := match fe_hashes e with Some h => h | None => (0, 0) end in
        pad_left 10 (hex_upper h1) ++ lit " " ++ pad_left 10 (hex_upper h2) ++ lit " "
   else []) ++ flags_text (fe_flags e).
(** output.rs:414-486: the loop; the rows and the sums *)
Fixpoint verbose_rows (hashes : bool) (es : list fentry) (size csize : N) : res (list bytes * N * N) :=
  match es with
  | [] => Ok ([], size, csize)
  | e :: t =>
      n <- display_name (fe_name e) ;;
      size <- add64 size (fe_size e) ;;
      csize <- add64 csize (fe_csize e) ;;
      ' (rows, size, csize) <- verbose_rows hashes t size csize ;;
      Ok (verbose_row hashes n e :: rows, size, csize)
  end.
Definition has_bit (m : N) (e : fentry) : bool := negb (N.land (fe_flags e) m =? 0).
(** output.rs:502-551: what [-vv] adds.  Without files the percentages are not numbers. *)
Definition verbose_more (es : list fentry) (size csize : N) : list bytes :=
  let share m := lenN (filter (has_bit m) es) in
  let row t m := t ++ decimal (share m) ++ lit " (" ++
                 (match es with [] => lit "NaN" | _ => fixed1 (per_hundred (share m) (lenN es)) end) ++ lit "%)" in
  [[]; lit "Additional Statistics"; repeat "-"%byte 50;
   row (lit "Compressed files:  ") FLAG_COMPRESS; row (lit "Encrypted files:   ") FLAG_ENCRYPTED;
   row (lit "Single unit files: ") FLAG_SINGLE_UNIT] ++
  (if csize <? size
   then [lit "Space saved:       " ++ format_size (size - csize) ++ lit " (" ++ fixed1 (per_hundred (size - csize) size) ++ lit "%)"]
   else []).
(** output.rs:377-560 [print_file_list_verbose]: the lines *)
Definition verbose_table (vv : bool) (es : list fentry) : res (list bytes) :=
  let hashes := existsb (fun e => match fe_hashes e with Some _ => true | None => false end) es in
  let rule := repeat "-"%byte (if hashes then 120 else 100) in
  ' (rows, size, csize) <- verbose_rows hashes es 0 0 ;;
  Ok ([lit "File Listing (Verbose Mode)"; repeat "="%byte 120;
       pad_right 40 (lit "Name") ++ lit " " ++ pad_left 12 (lit "Size") ++ lit " " ++ pad_left 12 (lit "Compressed") ++ lit " " ++
       pad_left 7 (lit "Ratio") ++ lit " " ++
       (if hashes then pad_left 10 (lit "Hash1") ++ lit " " ++ pad_left 10 (lit "Hash2") ++ lit " " else []) ++ lit "Flags"; rule] ++
      rows ++
      [rule;
       pad_right 40 (lit "Total: " ++ decimal (lenN es) ++ lit " files") ++ lit " " ++ pad_left 12 (format_size size) ++ lit " " ++
       pad_left 12 (format_size csize) ++ lit " " ++ pad_left 6 (decimal (ratio csize size)) ++ lit "%"] ++
      (if vv then verbose_more es size csize else [])).
