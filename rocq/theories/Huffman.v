(** * Model of Huffman decompression
    (mopaq/src/compression/algorithms/huffman.rs). *)
From Verif Require Import Bytes.
Open Scope N_scope.

(** huffman.rs:14-32 *)
Definition BYTE_TO_WEIGHT_00 : list N :=
  [10; 0; 0; 0; 0; 0; 0; 0; 0; 0; 0; 0; 0; 0; 0; 0; 0; 0; 0; 0; 0; 0; 0; 0;
   0; 0; 0; 0; 0; 0; 0; 0; 0; 0; 0; 0; 0; 0; 0; 0; 0; 0; 0; 0; 0; 0; 0; 0;
   0; 0; 0; 0; 0; 0; 0; 0; 0; 0; 0; 0; 0; 0; 0; 0; 0; 0; 0; 0; 0; 0; 0; 0;
   0; 0; 0; 0; 0; 0; 0; 0; 0; 0; 0; 0; 0; 0; 0; 0; 0; 0; 0; 0; 0; 0; 0; 0;
   0; 0; 0; 0; 0; 0; 0; 0; 0; 0; 0; 0; 0; 0; 0; 0; 0; 0; 0; 0; 0; 0; 0; 0;
   0; 0; 0; 0; 0; 0; 0; 0; 0; 0; 0; 0; 0; 0; 0; 0; 0; 0; 0; 0; 0; 0; 0; 0;
   0; 0; 0; 0; 0; 0; 0; 0; 0; 0; 0; 0; 0; 0; 0; 0; 0; 0; 0; 0; 0; 0; 0; 0;
   0; 0; 0; 0; 0; 0; 0; 0; 0; 0; 0; 0; 0; 0; 0; 0; 0; 0; 0; 0; 0; 0; 0; 0;
   0; 0; 0; 0; 0; 0; 0; 0; 0; 0; 0; 0; 0; 0; 0; 0; 0; 0; 0; 0; 0; 0; 0; 0;
   0; 0; 0; 0; 0; 0; 0; 0; 0; 0; 0; 0; 0; 0; 0; 0; 0; 0; 0; 0; 0; 0; 0; 0;
   0; 0; 0; 0; 0; 0; 0; 0; 0; 0; 0; 0; 0; 0; 0; 2; 0; 0].
(** huffman.rs:34-52 *)
Definition BYTE_TO_WEIGHT_01 : list N :=
  [84; 22; 22; 13; 12; 8; 6; 5; 6; 5; 6; 3; 4; 4; 3; 5; 14; 11; 20; 19; 19; 9; 11; 6;
   5; 4; 3; 2; 3; 2; 2; 2; 13; 7; 9; 6; 6; 4; 3; 2; 4; 3; 3; 3; 3; 3; 2; 2;
   9; 6; 4; 4; 4; 4; 3; 2; 3; 2; 2; 2; 2; 3; 2; 4; 8; 3; 4; 7; 9; 5; 3; 3;
   3; 3; 2; 2; 2; 3; 2; 2; 3; 2; 2; 2; 2; 2; 2; 2; 2; 1; 1; 1; 2; 1; 2; 2;
   6; 10; 8; 8; 6; 7; 4; 3; 4; 4; 2; 2; 4; 2; 3; 3; 4; 3; 7; 7; 9; 6; 4; 3;
   3; 2; 1; 2; 2; 2; 2; 2; 10; 2; 2; 3; 2; 2; 1; 1; 2; 2; 2; 6; 3; 5; 2; 3;
   2; 1; 1; 1; 1; 1; 1; 1; 1; 1; 1; 2; 3; 1; 1; 1; 2; 1; 1; 1; 1; 1; 1; 2;
   4; 4; 4; 7; 9; 8; 12; 2; 1; 1; 1; 1; 1; 1; 1; 1; 1; 1; 1; 1; 2; 1; 1; 3;
   4; 1; 2; 4; 5; 1; 1; 1; 1; 1; 1; 1; 2; 1; 1; 1; 4; 1; 1; 1; 1; 1; 2; 1;
   1; 1; 1; 1; 1; 1; 1; 1; 2; 1; 1; 1; 1; 1; 1; 1; 3; 1; 1; 1; 1; 1; 1; 1;
   2; 1; 1; 1; 1; 1; 1; 2; 2; 1; 1; 2; 2; 2; 6; 75; 0; 0].
(** huffman.rs:54-72 *)
Definition BYTE_TO_WEIGHT_02 : list N :=
  [0; 0; 0; 0; 0; 0; 0; 0; 0; 3; 39; 0; 0; 35; 0; 0; 0; 0; 0; 0; 0; 0; 0; 0;
   0; 0; 0; 0; 0; 0; 0; 0; 255; 1; 1; 1; 1; 1; 1; 1; 2; 2; 1; 1; 6; 14; 16; 4;
   6; 8; 5; 4; 4; 3; 3; 2; 2; 3; 3; 1; 1; 2; 1; 1; 1; 4; 2; 4; 2; 2; 2; 1;
   1; 4; 1; 1; 2; 3; 3; 2; 3; 1; 3; 6; 4; 1; 1; 1; 1; 1; 1; 2; 1; 2; 1; 1;
   1; 41; 7; 22; 18; 64; 10; 10; 17; 37; 1; 3; 23; 16; 38; 42; 16; 1; 35; 35; 47; 16; 6; 7;
   2; 9; 1; 1; 1; 1; 1; 0; 0; 0; 0; 0; 0; 0; 0; 0; 0; 0; 0; 0; 0; 0; 0; 0;
   0; 0; 0; 0; 0; 0; 0; 0; 0; 0; 0; 0; 0; 0; 0; 0; 0; 0; 0; 0; 0; 0; 0; 0;
   0; 0; 0; 0; 0; 0; 0; 0; 0; 0; 0; 0; 0; 0; 0; 0; 0; 0; 0; 0; 0; 0; 0; 0;
   0; 0; 0; 0; 0; 0; 0; 0; 0; 0; 0; 0; 0; 0; 0; 0; 0; 0; 0; 0; 0; 0; 0; 0;
   0; 0; 0; 0; 0; 0; 0; 0; 0; 0; 0; 0; 0; 0; 0; 0; 0; 0; 0; 0; 0; 0; 0; 0;
   0; 0; 0; 0; 0; 0; 0; 0; 0; 0; 0; 0; 0; 0; 0; 0; 0; 0].
(** huffman.rs:75 *)
Definition WEIGHT_TABLES : list (list N) := [BYTE_TO_WEIGHT_00; BYTE_TO_WEIGHT_01; BYTE_TO_WEIGHT_02].

(** huffman.rs:78-93 [BitReader]: the unread input, the bit buffer, its fill. *)
Record reader := mkReader { rd_rest : bytes; rd_buf : N; rd_count : N }.

(** huffman.rs:95-109 [get_bit] *)
Definition get_bit (r : reader) : res (N * reader) :=
  r1 <- (if rd_count r =? 0 then
           match rd_rest r with
           | [] => Err ECompression
           | b :: t => Ok (mkReader t (bN b) 8)
           end
         else Ok r) ;;
  Ok (N.land (rd_buf r1) 1, mkReader (rd_rest r1) (N.shiftr (rd_buf r1) 1) (rd_count r1 - 1)).

(** huffman.rs:111-118 [get_8_bits] (ignores the bit buffer) *)
Definition get_8_bits (r : reader) : res (N * reader) :=
  match rd_rest r with
  | [] => Err ECompression
  | b :: t => Ok (bN b, mkReader t (rd_buf r) (rd_count r))
  end.

(** huffman.rs:120-132 [peek_7_bits]: one more byte always suffices for the
    [while]; a failure leaves the reader as it was. *)
Definition peek_7_bits (r : reader) : option N * reader :=
  if rd_count r <? 7 then
    match rd_rest r with
    | [] => (None, r)
    | b :: t =>
        let buf := N.lor (rd_buf r) (w32 (N.shiftl (bN b) (rd_count r))) in
        (Some (N.land buf 0x7F), mkReader t buf (rd_count r + 8))
    end
  else (Some (N.land (rd_buf r) 0x7F), r).

(** huffman.rs:152-173: the fields of a tree item that are ever read: the
    value, the weight (for sorting), the low child. *)
Record hitem := mkItem { it_value : N; it_weight : N; it_child_lo : option N }.

(** huffman.rs:249: [sort_by_key] is stable *)
Fixpoint insert_item (x : hitem) (l : list hitem) : list hitem :=
  match l with
  | [] => [x]
  | y :: t => if it_weight y <=? it_weight x then y :: insert_item x t else x :: l
  end.
Definition sort_items (l : list hitem) : list hitem := fold_left (fun acc x => insert_item x acc) l [].

(** huffman.rs:231-246: items for the non-zero weights, then the two special
    entries. *)
Fixpoint weight_items (i : N) (table : list N) : list hitem :=
  match table with
  | [] => []
  | w :: t => (if w =? 0 then [] else [mkItem i w None]) ++ weight_items (i + 1) t
  end.
Definition leaf_items (table : list N) : list hitem :=
  weight_items 0 table ++ [mkItem 0x100 1 None; mkItem 0x101 1 None].

(** huffman.rs:271-311 [build_internal_tree]: parents are appended behind the
    leaves, the parent made in round [work_items] has low child
    [work_items - 1].  (The combined weight is never read.) *)
Fixpoint parents (work : nat) : list hitem :=
  match work with
  | O | S O => []
  | S w => mkItem 0 0 (Some (N.of_nat w)) :: parents w
  end.

(** huffman.rs:217-269 [build_tree] *)
Definition build_tree (ctype : N) : res (list hitem) :=
  match nth_error WEIGHT_TABLES (N.to_nat (N.land ctype 0x0F)) with
  | None => Err ECompression
  | Some table =>
      let leaves := sort_items (leaf_items table) in
      Ok (leaves ++ (if (length leaves <? 2)%nat then [] else parents (length leaves)))
  end.

(** huffman.rs:183-191, 209: every quick link is zero initialised and never
    assigned; huffman.rs:212,267 [min_valid_value] is 1. *)
Definition quick_link_valid_value : N := 0.
Definition min_valid_value : N := 1.

(** huffman.rs:326-360: the walk down the tree *)
Fixpoint tree_walk (fuel : nat) (items : list hitem) (cur : option N) (r : reader) : res (N * reader) :=
  match fuel with
  | O => Panic
  | S f =>
      match cur with
      | None => Err ECompression
      | Some i =>
          match nthN items i with
          | None => Err ECompression
          | Some it =>
              match it_child_lo it with
              | None => Ok (it_value it, r)
              | Some lo =>
                  ' (bit, r') <- get_bit r ;;
                  tree_walk f items
                    (if bit =? 0 then Some lo
                     else Some (if lo + 1 <? lenN items then lo + 1 else lo)) r'
              end
          end
      end
  end.

(** huffman.rs:313-361 [decode_one_byte]; [first] is item 0 (huffman.rs:260).
    A usable quick link cannot occur and is not modelled further. *)
Definition decode_one (items : list hitem) (r : reader) : res (N * reader) :=
  let (link, r1) := peek_7_bits r in
  match link with
  | Some _ =>
      if min_valid_value <? quick_link_valid_value then Panic
      else tree_walk 2000 items (Some 0) r1
  | None => tree_walk 2000 items (Some 0) r1
  end.

(** huffman.rs:389-422: the decoding loop, [out] bytes so far *)
Fixpoint huff_loop (fuel : nat) (items : list hitem) (r : reader) (out expected : N) : res bytes :=
  match fuel with
  | O => Panic
  | S f =>
      ' (v, r1) <- decode_one items r ;;
      if v =? 0x100 then Ok []
      else if v =? 0x1FF then Err ECompression
      else if v =? 0x101 then
        ' (b, r2) <- get_8_bits r1 ;;
        rest <- huff_loop f items r2 (out + 1) expected ;;
        Ok (Nb b :: rest)
      else if 255 <? v then Err ECompression
      else if expected <=? out + 1 then Ok [Nb v]
      else
        rest <- huff_loop f items r1 (out + 1) expected ;;
        Ok (Nb v :: rest)
  end.

(** huffman.rs:365-431 [decompress].  Each round produces a byte; the rounds are
    bounded by the expected size plus the literal bytes in the input. *)
Definition huffman_decompress (data : bytes) (expected : N) : res bytes :=
  match data with
  | [] => Ok []
  | t :: rest =>
      items <- build_tree (bN t) ;;
      huff_loop (S (S (N.to_nat expected + length data))) items (mkReader rest 0 0) 0 expected
  end.

(** huffman.rs:434-443 [compress] *)
Definition huffman_compress (data : bytes) : res bytes :=
  match data with [] => Ok [] | _ => Err ECompression end.
