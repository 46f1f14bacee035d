(** * One round of each loop of the library.

    The functions of the other files recurse on a number that bounds the rounds
    of a [loop] or [while].  Here a round is a function of its own: it ends the
    loop with a result or gives the state of the next round.  The loops of
    crypto/keys.rs:9-11 count to constants and are not repeated here. *)
From Verif Require Import Bytes HashTable Header HetBet Sparse Adpcm Huffman Signature Percent.
Open Scope N_scope.

Inductive outcome (S R : Type) : Type := Again (s : S) | Done (r : R).
Arguments Again {S R}. Arguments Done {S R}.
(** The operator [?] within a loop *)
Definition try {A S R : Type} (x : res A) (k : A -> outcome S (res R)) : outcome S (res R) :=
  match x with Ok v => k v | Err e => Done (Err e) | Panic => Done Panic end.

(** hash.rs:159-183: the index *)
Definition find_round (t : list hentry) (a b loc start : N) (idx : N) : outcome N (res (option (N * hentry))) :=
  match nthN t idx with
  | None => Done Panic
  | Some e =>
      if he_matches a b loc e then Done (Ok (Some (idx, e)))
      else if is_empty e then Done (Ok None)
      else
        let idx' := N.land (idx + 1) (lenN t - 1) in
        if idx' =? start then Done (Ok None) else Again idx'
  end.

(** builder.rs:1128-1155: the index *)
Definition add_round (t : list hentry) (a b loc blk : N) (idx : N) : outcome N (res (list hentry)) :=
  match nthN t idx with
  | None => Done (Err EInvalidFormat)
  | Some e =>
      if is_empty e then Done (Ok (upd t (N.to_nat idx) (mkHE a b loc 0 blk)))
      else if (he_name1 e =? a) && (he_name2 e =? b) && (he_locale e =? loc) then Done (Err EInvalidFormat)
      else Again (N.land (idx + 1) (lenN t - 1))
  end.

(** builder.rs:1477-1497: the slot *)
Definition slot_round (used : list bool) (entries start : N) (cur : N) : outcome N (res N) :=
  match nthN used cur with
  | None => Done Panic
  | Some false => Done (Ok cur)
  | Some true =>
      let cur := (cur + 1) mod entries in
      if cur =? start then Done (Err EInvalidFormat) else Again cur
  end.

(** header.rs:286-341: the place looked at *)
Definition header_round (file : bytes) (offset : N) : outcome N (res (N * option user_data * header)) :=
  let next := Again (offset + HEADER_ALIGNMENT) in
  if lenN file <=? offset then Done (Err EInvalidFormat)
  else
    match take_le 4 (from file offset) with
    | Ok (sig, d) =>
        if sig =? MPQ_HEADER_SIGNATURE then
          try (header_read (from file offset)) (fun h => Done (Ok (offset, None, h)))
        else if sig =? MPQ_USERDATA_SIGNATURE then
          try (take_le 4 d) (fun '(us, d) =>
          try (take_le 4 d) (fun '(ho, d) =>
          try (take_le 4 d) (fun '(uh, d) =>
          let mpq := offset + ho in
          if mpq <? lenN file then
            try (take_le 4 (from file mpq)) (fun '(sig2, _) =>
            if sig2 =? MPQ_HEADER_SIGNATURE then
              try (header_read (from file mpq)) (fun h => Done (Ok (mpq, Some (mkUD us ho uh), h)))
            else next)
          else next)))
        else next
    | _ => next
    end.

(** signature.rs:198-243: the position and what the hasher was fed *)
Definition digest_round (rd : N -> N -> N) (file : bytes) (si : sig_info) (s : N * bytes) : outcome (N * bytes) (res bytes) :=
  let '(pos, fed) := s in
  if pos <? si_end si then
    let n := rd pos (N.min (si_end si - pos) DIGEST_UNIT_SIZE) in
    if n =? 0 then Done (Ok fed)
    else
      try (of_option EIo (slice pos n file)) (fun chunk =>
      try (if (pos <? si_xend si) && (si_xbegin si <? pos + n)
           then blank (if pos <? si_xbegin si then si_xbegin si - pos else 0)
                      (if si_xend si <? pos + n then si_xend si - pos else n) chunk
           else Ok chunk) (fun chunk =>
      Again (pos + n, fed ++ chunk)))
  else Done (Ok fed).
(** signature.rs:297-305, 340-348: position, bytes still wanted, what the hasher was fed *)
Definition stream_round (rd : N -> N -> N) (file : bytes) (s : N * N * bytes) : outcome (N * N * bytes) (res bytes) :=
  let '(pos, n, fed) := s in
  if 0 <? n then
    let m := rd pos (N.min n 65536) in
    if m =? 0 then Done (Ok fed)
    else try (of_option EIo (slice pos m file)) (fun chunk => Again (pos + m, n - m, fed ++ chunk))
  else Done (Ok fed).

(** sparse.rs:11-35: the unread input and the output *)
Definition unsparse_round (expected : N) (s : bytes * bytes) : outcome (bytes * bytes) (res bytes) :=
  let '(data, out) := s in
  match data with
  | [] => Done (Ok out)
  | control :: rest =>
      if lenN out <? expected then
        if bN control =? 0xFF then Done (Ok out)
        else if negb (N.land (bN control) 0x80 =? 0)
        then Again (rest, out ++ zeros (N.land (bN control) 0x7F))
        else
          let count := bN control in
          if lenN rest <? count then Done (Err ECompression)
          else Again (skipn (N.to_nat count) rest, out ++ firstn (N.to_nat count) rest)
      else Done (Ok out)
  end.
(** sparse.rs:54-56: the zeros counted and the input *)
Definition zeros_round (s : nat * bytes) : outcome (nat * bytes) (nat * bytes) :=
  let '(n, d) := s in
  match d with
  | c :: d' => if bN c =? 0 then Again (S n, d') else Done (n, d)
  | [] => Done (n, [])
  end.
(** sparse.rs:61-65: the zeros left and the output *)
Definition chunk_round (s : N * bytes) : outcome (N * bytes) bytes :=
  let '(count, out) := s in
  if 0 <? count then
    let chunk := N.min count 0x7F in
    Again (count - chunk, out ++ [Nb (N.lor 0x80 chunk)])
  else Done out.
(** sparse.rs:70-72: the bytes taken and the input *)
Definition literal_round (s : bytes * bytes) : outcome (bytes * bytes) (bytes * bytes) :=
  let '(l, d) := s in
  match d with
  | c :: d' => if negb (bN c =? 0) && (lenN l <? 0x7F) then Again (l ++ [c], d') else Done (l, d)
  | [] => Done (l, [])
  end.
(** sparse.rs:51-80: the input and the output *)
Definition sparse_round (s : bytes * bytes) : outcome (bytes * bytes) bytes :=
  let '(d, out) := s in
  match d with
  | [] => Done out
  | _ =>
      let (z, r) := zero_run d in
      let (l, r') := lit_run 127 r in
      Again (r', out ++ zero_chunks (S z) (N.of_nat z) ++ match l with [] => [] | _ => Nb (lenN l) :: l end)
  end.

(** adpcm.rs:120-133: the step index and the output *)
Definition grow_round (difference : Z) (s : N * bytes) : outcome (N * bytes) (res (bytes * N)) :=
  let '(idx, out) := s in
  try (step_at idx) (fun step =>
  if (difference >? step * 2)%Z then
    if 0x58 <=? idx then Done (Ok (out, idx)) else Again (N.min (idx + 8) 0x58, out ++ [Nb 0x81])
  else Done (Ok (out, idx))).
(** adpcm.rs:150-157: [step_size_work], [total_step_size], [bit_val] ([u8]), [encoded_sample] *)
Definition bits_round (difference : Z) (max : N) (s : Z * Z * N * N) : outcome (Z * Z * N * N) (Z * N) :=
  let '(work, total, b, enc) := s in
  if b <=? max then
    let '(total', enc') := if (total + work <=? difference)%Z then (total + work, N.lor enc b)%Z else (total, enc) in
    Again (Z.shiftr work 1, total', (b * 2) mod 256, enc')
  else Done (total, enc).
(** adpcm.rs:94-175: the states of the channels, the channel, the samples left, the output *)
Definition audio_round (level bit_shift : N) (cc : nat) (s : list (Z * N) * nat * list Z * bytes)
  : outcome (list (Z * N) * nat * list Z * bytes) (res bytes) :=
  let '(sts, ch, samples, out) := s in
  match samples with
  | [] => Done (Ok out)
  | x :: rest =>
      let ch' := ((ch + 1) mod cc)%nat in
      match nth_error sts ch' with
      | None => Done Panic
      | Some st => try (enc_one level bit_shift st x) (fun '(o, st') => Again (upd sts ch' st', ch', rest, out ++ o))
      end
  end.
(** adpcm.rs:240-277: the states of the channels, the channel, the unread input, the output *)
Definition unaudio_round (bit_shift : N) (cc : nat) (size : N) (s : list (Z * N) * nat * bytes * bytes)
  : outcome (list (Z * N) * nat * bytes * bytes) (res bytes) :=
  let '(sts, ch, input, out) := s in
  match input with
  | [] => Done (Ok out)
  | b :: rest =>
      if lenN out <? size then
        let enc := bN b in
        let ch' := ((ch + 1) mod cc)%nat in
        match nth_error sts ch' with
        | None => Done Panic
        | Some (pred, idx) =>
            if enc =? 0x80 then Again (upd sts ch' (pred, idx - 1), ch', rest, out ++ write_sample pred)
            else if enc =? 0x81 then Again (upd sts ch' (pred, N.min (idx + 8) 0x58), ((ch' + cc - 1) mod cc)%nat, rest, out)
            else
              try (step_at idx) (fun step =>
              try (sar32 step bit_shift) (fun base =>
              try (next_step_index idx enc) (fun idx' =>
              let pred' := decode_sample pred enc step base in
              Again (upd sts ch' (pred', idx'), ch', rest, out ++ write_sample pred'))))
        end
      else Done (Ok out)
  end.

(** huffman.rs:122-129 *)
Definition peek_round (r : reader) : outcome reader (option N * reader) :=
  if rd_count r <? 7 then
    match rd_rest r with
    | [] => Done (None, r)
    | b :: t => Again (mkReader t (N.lor (rd_buf r) (w32 (N.shiftl (bN b) (rd_count r)))) (rd_count r + 8))
    end
  else Done (Some (N.land (rd_buf r) 0x7F), r).
(** huffman.rs:283-308: the items and how many are left to work on *)
Definition parent_round (s : list hitem * nat) : outcome (list hitem * nat) (list hitem) :=
  let '(items, work) := s in
  match work with
  | O | S O => Done items
  | S w => Again (items ++ [mkItem 0 0 (Some (N.of_nat w))], w)
  end.
(** huffman.rs:329-359: the item and the reader *)
Definition tree_round (items : list hitem) (s : option N * reader) : outcome (option N * reader) (res (N * reader)) :=
  let '(cur, r) := s in
  match cur with
  | None => Done (Err ECompression)
  | Some i =>
      match nthN items i with
      | None => Done (Err ECompression)
      | Some it =>
          match it_child_lo it with
          | None => Done (Ok (it_value it, r))
          | Some lo =>
              try (get_bit r) (fun '(bit, r') =>
              Again (if bit =? 0 then Some lo else Some (if lo + 1 <? lenN items then lo + 1 else lo), r'))
          end
      end
  end.
(** huffman.rs:389-422: the reader and the output *)
Definition huff_round (items : list hitem) (expected : N) (s : reader * bytes) : outcome (reader * bytes) (res bytes) :=
  let '(r, out) := s in
  try (decode_one items r) (fun '(v, r1) =>
  if v =? 0x100 then Done (Ok out)
  else if v =? 0x1FF then Done (Err ECompression)
  else if v =? 0x101 then try (get_8_bits r1) (fun '(b, r2) => Again (r2, out ++ [Nb b]))
  else if 255 <? v then Done (Err ECompression)
  else if expected <=? lenN out + 1 then Done (Ok (out ++ [Nb v]))
  else Again (r1, out ++ [Nb v])).

(** output.rs:194-197: the size and the units left *)
Definition size_round (s : N * list bytes) : outcome (N * list bytes) (N * bytes) :=
  let '(x, units) := s in
  match units with
  | u :: (_ :: _) as t => if 1024 * UNIT <=? x then Again (fdiv x (1024 * UNIT), tl units) else Done (x, u)
  | [u] => Done (x, u)
  | [] => Done (x, [])
  end.
