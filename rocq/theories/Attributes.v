(** * The (attributes) file (mopaq/src/special_files/attributes.rs). *)
From Verif Require Import Bytes.
Open Scope N_scope.

(** attributes.rs:16-24 *)
Definition A_CRC32 : N := 1.
Definition A_FILETIME : N := 2.
Definition A_MD5 : N := 4.
Definition A_PATCH : N := 8.
Definition a_has (flags f : N) : bool := negb (N.land flags f =? 0).

(** attributes.rs:58-67 *)
Record fattr := mkFA {
  fa_crc : option N; fa_time : option N; fa_md5 : option bytes; fa_patch : option bool }.
(** attributes.rs:89-96 *)
Record attrs := mkAttrs { at_version : N; at_flags : N; at_files : list fattr }.

Definition EXPECTED_VERSION : N := 100.

Definition if_n (b : bool) (n : N) : N := if b then n else 0.

(** attributes.rs:123-137: the size of a file for [n] blocks, in [usize]: the
    partial sums only grow, so some operation overflows exactly if the total
    does. *)
Definition attr_size (flags n : N) : res N :=
  let s := 8 + if_n (a_has flags A_CRC32) (n * 4) + if_n (a_has flags A_FILETIME) (n * 8)
           + if_n (a_has flags A_MD5) (n * 16) + if_n (a_has flags A_PATCH) (div_ceil n 8) in
  if s <? M64 then Ok s else Panic.

(** attributes.rs:297-318: [read_exact] of [k] bytes *)
Definition take (k : nat) (d : bytes) : res (bytes * bytes) :=
  if (length d <? k)%nat then Err EIo else Ok (firstn k d, skipn k d).

(** attributes.rs:151-186: [n] values of [k] bytes each, and what is left *)
Fixpoint take_values (k n : nat) (d : bytes) : res (list bytes * bytes) :=
  match n with
  | O => Ok ([], d)
  | S n' => '(x, d) <- take k d ;;
            '(r, d) <- take_values k n' d ;;
            Ok (x :: r, d)
  end.
Definition opt_values (present : bool) (k n : nat) (d : bytes) : res (option (list bytes) * bytes) :=
  if present then '(v, d) <- take_values k n d ;; Ok (Some v, d) else Ok (None, d).

(** [values[i]] *)
Definition val_at (v : option (list bytes)) (i : nat) : res (option bytes) :=
  match v with
  | Some l => match nth_error l i with Some x => Ok (Some x) | None => Panic end
  | None => Ok None
  end.
(** attributes.rs:217-221 *)
Definition bit_at (bits : option bytes) (i : nat) : res (option bool) :=
  match bits with
  | Some b => match nth_error b (i / 8) with
              | Some x => Ok (Some (N.testbit (bN x) (N.of_nat (i mod 8))))
              | None => Panic
              end
  | None => Ok None
  end.

(** attributes.rs:201-225 *)
Definition combine_attr (crcs times md5s : option (list bytes)) (bits : option bytes) (i : nat) : res fattr :=
  c <- val_at crcs i ;;
  t <- val_at times i ;;
  m <- val_at md5s i ;;
  b <- bit_at bits i ;;
  Ok (mkFA (option_map le_dec c) (option_map le_dec t) m b).
Fixpoint combine_all (crcs times md5s : option (list bytes)) (bits : option bytes) (l : list nat)
  : res (list fattr) :=
  match l with
  | [] => Ok []
  | i :: t => f <- combine_attr crcs times md5s bits i ;;
              r <- combine_all crcs times md5s bits t ;;
              Ok (f :: r)
  end.

(** attributes.rs:103-233 [parse] *)
Definition attr_parse (data : bytes) (n : N) : res attrs :=
  if lenN data <? 8 then Err EInvalidFormat
  else
    '(v, d) <- take 4 data ;;
    if negb (le_dec v =? EXPECTED_VERSION) then Err EInvalidFormat
    else
      '(fl, d) <- take 4 d ;;
      let flags := le_dec fl in
      size <- attr_size flags n ;;
      if lenN data <? size then Err EInvalidFormat
      else
        let cnt := N.to_nat n in
        '(crcs, d) <- opt_values (a_has flags A_CRC32) 4 cnt d ;;
        '(times, d) <- opt_values (a_has flags A_FILETIME) 8 cnt d ;;
        '(md5s, d) <- opt_values (a_has flags A_MD5) 16 cnt d ;;
        bits <- (if a_has flags A_PATCH
                 then '(b, _) <- take (N.to_nat (div_ceil n 8)) d ;; Ok (Some b)
                 else Ok None) ;;
        fs <- combine_all crcs times md5s bits (seq 0 cnt) ;;
        Ok (mkAttrs (le_dec v) flags fs).

(** attributes.rs:236-238 *)
Definition get_attr (a : attrs) (i : N) : option fattr := nthN (at_files a) i.

(** [unwrap_or] *)
Definition dflt {A} (d : A) (o : option A) : A := match o with Some x => x | None => d end.

(** attributes.rs:277-288: file [i] sets bit [i % 8] of byte [i / 8] *)
Fixpoint set_bits (l : list bool) (i : nat) (bits : bytes) : res bytes :=
  match l with
  | [] => Ok bits
  | b :: t =>
      bits <- (if b then
                 match nth_error bits (i / 8) with
                 | Some x => Ok (upd bits (i / 8) (Nb (N.lor (bN x) (N.shiftl 1 (N.of_nat (i mod 8))))))
                 | None => Panic
                 end
               else Ok bits) ;;
      set_bits t (S i) bits
  end.

(** attributes.rs:243-294 [to_bytes] *)
Definition attr_bytes (a : attrs) : res bytes :=
  let fs := at_files a in
  bits <- (if a_has (at_flags a) A_PATCH
           then set_bits (map (fun f => dflt false (fa_patch f)) fs) 0 (zeros (div_ceil (lenN fs) 8))
           else Ok []) ;;
  Ok (le32 (at_version a) ++ le32 (at_flags a)
      ++ (if a_has (at_flags a) A_CRC32 then concat (map (fun f => le32 (dflt 0 (fa_crc f))) fs) else [])
      ++ (if a_has (at_flags a) A_FILETIME then concat (map (fun f => le64 (dflt 0 (fa_time f))) fs) else [])
      ++ (if a_has (at_flags a) A_MD5
          then concat (map (fun f => dflt (repeat x00 16) (fa_md5 f)) fs) else [])
      ++ bits).
