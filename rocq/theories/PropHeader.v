(** * Properties C08 and C09: headers and the header search. *)
From Verif Require Import Bytes Header HeaderFacts SpecHeader HeaderSearch.
Open Scope N_scope.

(** C08: every field the reader uses comes back as given to the writer. *)
Theorem C08_header_round_trip : forall (p : hparams) (w rest : bytes),
  hp_ok p -> write_header p = Ok w ->
  exists h, header_read (w ++ rest) = Ok h /\ lenN w = header_size_of (p_version p) /\
    h_version h = p_version p /\ h_size h = lenN w /\
    h_block_size h = p_block_size p /\
    h_hash_count h = p_hash_count p /\ h_block_count h = p_block_count p /\
    (pos_fits (p_version p) (p_hash_pos p) -> get_hash_table_pos h = p_hash_pos p) /\
    (pos_fits (p_version p) (p_block_pos p) -> get_block_table_pos h = p_block_pos p) /\
    (p_archive_size p < 2 ^ 32 \/ version_ge (p_version p) V3 = true ->
       get_archive_size h = p_archive_size p) /\
    (version_ge (p_version p) V2 = true -> h_hi_pos h = Some (or0 (p_hi_pos p))) /\
    (version_ge (p_version p) V3 = true ->
       h_bet_pos h = Some (or0 (p_bet_pos p)) /\ h_het_pos h = Some (or0 (p_het_pos p))) /\
    (p_version p = V4 -> h_v4 h = p_v4 p).
Proof. exact header_round_trip. Qed.
Print Assumptions C08_header_round_trip.

(** A version 3 archive of more than 4 GiB. *)
Example C08_example :
  let p := mkHP V3 3 0x234567890AB 0x23456780000 0x23456790000 0x1000 77
             (Some 0x23456790040) (Some 99) None None in
  match write_header p with
  | Ok w =>
      match header_read (w ++ lit "rest") with
      | Ok h => get_hash_table_pos h = 0x23456780000 /\ get_block_table_pos h = 0x23456790000 /\
                get_archive_size h = 0x234567890AB /\ h_hi_pos h = Some 0x23456790040 /\
                h_het_pos h = Some 99 /\ h_bet_pos h = Some 0 /\ lenN w = 68
      | _ => False
      end
  | _ => False
  end.
Proof. vm_compute. repeat split; reflexivity. Qed.

(** C09: the archive is the one at the smallest boundary that leads to one. *)
Theorem C09_first_boundary : forall (file : bytes) (k : nat) (pos : N),
  (forall j, (j < k)%nat -> passes file (512 * N.of_nat j)) ->
  leads_to file (512 * N.of_nat k) pos ->
  exists ud, find_header file = (h <- header_read (from file pos) ;; Ok (pos, ud, h)) /\
    (ud = None <-> magic_at file (512 * N.of_nat k) archive_magic).
Proof. exact find_header_found. Qed.
Print Assumptions C09_first_boundary.

(** C09: nothing else is ever returned. *)
Theorem C09_found_only_there : forall (file : bytes) (pos : N) ud (h : header),
  find_header file = Ok (pos, ud, h) ->
  exists k, (forall j, (j < k)%nat -> passes file (512 * N.of_nat j)) /\
    leads_to file (512 * N.of_nat k) pos /\ header_read (from file pos) = Ok h.
Proof. exact find_header_result. Qed.
Print Assumptions C09_found_only_there.

(** C09: without any signature the open fails. *)
Theorem C09_none : forall (file : bytes),
  (forall j, 512 * N.of_nat j < lenN file -> passes file (512 * N.of_nat j)) ->
  find_header file = Err EInvalidFormat.
Proof. exact find_header_none. Qed.
Print Assumptions C09_none.

(** C09: leading data of whole boundaries without signatures only shifts the
    result. *)
Theorem C09_leading_data : forall (pre file : bytes) (k : nat),
  lenN pre = 512 * N.of_nat k ->
  (forall j, (j < k)%nat -> ~ magic_at (pre ++ file) (512 * N.of_nat j) archive_magic /\
                            ~ magic_at (pre ++ file) (512 * N.of_nat j) user_magic) ->
  find_header (pre ++ file) = shift_found (lenN pre) (find_header file).
Proof. exact find_header_leading. Qed.
Print Assumptions C09_leading_data.

(** C09: the search ends on every file (the model's fuel never runs out). *)
Theorem C09_terminates : forall (file : bytes), find_header file <> Panic.
Proof. exact find_header_noPanic. Qed.
Print Assumptions C09_terminates.

Example C09_example :
  let p := mkHP V1 3 32 0 0 0 0 None None None None in
  match write_header p with
  | Ok w =>
      (* junk, then a user-data block whose pointer leads to the header *)
      let file := zeros 512 ++ user_magic ++ le32 16 ++ le32 20 ++ le32 16 ++ zeros 4 ++ w in
      match find_header file with
      | Ok (pos, Some ud, h) => pos = 532 /\ ud_offset ud = 20 /\ h_version h = V1
      | _ => False
      end /\
      match find_header (zeros 1024 ++ w) with
      | Ok (pos, None, h) => pos = 1024
      | _ => False
      end /\ find_header (zeros 700) = Err EInvalidFormat
  | _ => False
  end.
Proof. vm_compute. repeat split; reflexivity. Qed.

(** The third outcome at a boundary, see [round_cases]: a user-data signature
    whose 16 bytes are cut off ends the search with an I/O error. *)
Example C09_cut_user_block : find_header (user_magic ++ zeros 8) = Err EIo.
Proof. vm_compute. reflexivity. Qed.

(** C09, a limit of the code: a user-data pointer into the last three bytes of
    the file ends the search with an I/O error although a later boundary
    carries an archive with a readable header. *)
Theorem C09_skip_unusable_pointer_refuted :
  exists file, (forall pos, ~ leads_to file 0 pos) /\ leads_to file 512 512 /\
    (exists h, header_read (from file 512) = Ok h) /\ find_header file = Err EIo.
Proof. exact (ex_intro _ dangling_file dangling_pointer). Qed.
Print Assumptions C09_skip_unusable_pointer_refuted.
