(** * The (listfile): its text and its parser
    (mopaq/src/special_files/listfile.rs, mopaq/src/builder.rs:567-607). *)
From Verif Require Import Bytes.
Open Scope N_scope.

(** ** UTF-8 (core::str): one step of the decoder.
    [utf8_step d] looks at the first byte of [d]: [(true, n)] if the first [n]
    bytes are one encoded character, [(false, n)] if the first [n] bytes are a
    broken sequence that the lossy conversion replaces as one. *)
Definition cont (d : bytes) (i : nat) : bool :=
  match nth_error d i with Some c => N.land (bN c) 192 =? 128 | None => false end.

Definition in_range (lo hi : N) (d : bytes) (i : nat) : bool :=
  match nth_error d i with Some c => (lo <=? bN c) && (bN c <=? hi) | None => false end.

Definition utf8_step (d : bytes) : bool * nat :=
  match d with
  | [] => (false, 0%nat)
  | c :: _ =>
      let b := bN c in
      if b <? 128 then (true, 1%nat)
      else if (0xC2 <=? b) && (b <=? 0xDF) then
        if cont d 1 then (true, 2%nat) else (false, 1%nat)
      else if (0xE0 <=? b) && (b <=? 0xEF) then
        let second :=
          if b =? 0xE0 then in_range 0xA0 0xBF d 1
          else if b =? 0xED then in_range 0x80 0x9F d 1
          else in_range 0x80 0xBF d 1 in
        if negb second then (false, 1%nat)
        else if cont d 2 then (true, 3%nat) else (false, 2%nat)
      else if (0xF0 <=? b) && (b <=? 0xF4) then
        let second :=
          if b =? 0xF0 then in_range 0x90 0xBF d 1
          else if b =? 0xF4 then in_range 0x80 0x8F d 1
          else in_range 0x80 0xBF d 1 in
        if negb second then (false, 1%nat)
        else if negb (cont d 2) then (false, 2%nat)
        else if cont d 3 then (true, 4%nat) else (false, 3%nat)
      else (false, 1%nat)
  end.

(** U+FFFD *)
Definition replacement : bytes := [xef; xbf; xbd].

(** listfile.rs:13-20: [from_utf8] or else [from_utf8_lossy]; on valid text both
    give the text itself (ListfileFacts.utf8_lossy_valid). *)
Fixpoint utf8_lossy_loop (fuel : nat) (d : bytes) : bytes :=
  match fuel with
  | O => []
  | S f =>
      match d with
      | [] => []
      | _ => match utf8_step d with
             | (true, n) => firstn n d ++ utf8_lossy_loop f (skipn n d)
             | (false, n) => replacement ++ utf8_lossy_loop f (skipn n d)
             end
      end
  end.
Definition utf8_lossy (d : bytes) : bytes := utf8_lossy_loop (length d) d.

(** ** [str::trim]: the characters with the White_Space property, encoded. *)
Definition white : list bytes :=
  [[x09]; [x0a]; [x0b]; [x0c]; [x0d]; [x20]; [xc2; x85]; [xc2; xa0]; [xe1; x9a; x80];
   [xe2; x80; x80]; [xe2; x80; x81]; [xe2; x80; x82]; [xe2; x80; x83]; [xe2; x80; x84];
   [xe2; x80; x85]; [xe2; x80; x86]; [xe2; x80; x87]; [xe2; x80; x88]; [xe2; x80; x89];
   [xe2; x80; x8a]; [xe2; x80; xa8]; [xe2; x80; xa9]; [xe2; x80; xaf]; [xe2; x81; x9f];
   [xe3; x80; x80]].

(** [strip w d]: [d] without the prefix [w]. *)
Fixpoint strip (w d : bytes) : option bytes :=
  match w, d with
  | [], _ => Some d
  | x :: w', y :: d' => if beqb x y then strip w' d' else None
  | _, _ => None
  end.
Fixpoint strip_any (ws : list bytes) (d : bytes) : option bytes :=
  match ws with
  | [] => None
  | w :: r => match strip w d with Some d' => Some d' | None => strip_any r d end
  end.
Fixpoint trim_loop (fuel : nat) (ws : list bytes) (d : bytes) : bytes :=
  match fuel with
  | O => d
  | S f => match strip_any ws d with Some d' => trim_loop f ws d' | None => d end
  end.
Definition trim_start (d : bytes) : bytes := trim_loop (length d) white d.
Definition trim_end (d : bytes) : bytes := rev (trim_loop (length d) (map (@rev byte) white) (rev d)).
Definition trim (d : bytes) : bytes := trim_end (trim_start d).

(** ** [str::lines]: pieces between line feeds.  The carriage return before a
    line feed, which [lines] removes, is left to the [trim] that follows
    (listfile.rs:24-25). *)
Fixpoint split_lines (d : bytes) : list bytes :=
  match d with
  | [] => [[]]
  | c :: t =>
      if beqb c x0a then [] :: split_lines t
      else match split_lines t with
           | l :: r => (c :: l) :: r
           | [] => [[c]]
           end
  end.

(** [line.find(';')] and [line[..pos]] *)
Fixpoint before_semicolon (d : bytes) : bytes :=
  match d with
  | [] => []
  | c :: t => if beqb c x3b then [] else c :: before_semicolon t
  end.

(** listfile.rs:24-46: one line *)
Definition parse_line (line : bytes) : option bytes :=
  let line := trim line in
  match line with
  | [] => None
  | c :: _ =>
      if beqb c x3b || beqb c x23 then None
      else
        let name := if existsb (beqb x3b) line then trim (before_semicolon line) else line in
        match name with [] => None | _ => Some name end
  end.

Fixpoint filter_map {A B} (f : A -> option B) (l : list A) : list B :=
  match l with
  | [] => []
  | x :: t => match f x with Some y => y :: filter_map f t | None => filter_map f t end
  end.

(** listfile.rs:12-50 [parse_listfile]; it never fails. *)
Definition parse_listfile (data : bytes) : list bytes :=
  filter_map parse_line (split_lines (utf8_lossy data)).

(** builder.rs:571-580: the generated text *)
Definition LISTFILE : bytes := lit "(listfile)".
Definition listfile_content (names : list bytes) : bytes :=
  concat (map (fun n => n ++ [x0d; x0a]) names) ++ LISTFILE ++ [x0d; x0a].
