(** * Properties C08 and C19 for headers whoever wrote them. *)
From Verif Require Import Bytes Header Compress Archive HetBet Info SpecDigest SpecFields HeaderFields ToyCodec DemoArchive Demo34.
Open Scope N_scope.

(** C08 for the reader alone: it succeeds exactly on bytes that begin with a
    usable header of one of the four versions, and gives the numbers that lie
    at the places the format has for them. *)
Theorem C08_reader_fields : forall d h,
  header_read d = Ok h <-> exists v, begins_with_header d v /\ h = header_in d v.
Proof. exact header_read_fields. Qed.
Print Assumptions C08_reader_fields.

Example C08_reader_example :
  let d := lit "MPQ" ++ [x1a] ++ le32 44 ++ le32 1000 ++ le16 1 ++ le16 3 ++
           le32 500 ++ le32 600 ++ le32 16 ++ le32 4 ++ le64 77 ++ le16 1 ++ le16 2 in
  begins_with_header d V2 /\ header_read d = Ok (header_in d V2) /\
  get_block_table_pos (header_in d V2) = 2 * 2 ^ 32 + 600 /\ h_hi_pos (header_in d V2) = Some 77.
Proof.
  split; [repeat split; vm_compute; (reflexivity || discriminate)|].
  repeat split; vm_compute; reflexivity.
Qed.

(** C19 for whatever version 4 archive: a table is reported valid exactly if
    there is none or if the stored digest is the one of the bytes it lies in. *)
Theorem C19_every_digest : forall (L : codecs) (md5 : bytes -> bytes) g a s d,
  opened L g a -> validate_v4 md5 a = Ok (Some s) ->
  (flag s d = true <-> match digested_part g (a_off a) d with
                       | Some (p, n) => md5 (part g p n) = digest_at g (a_off a) d
                       | None => True
                       end).
Proof. exact any_digests. Qed.
Print Assumptions C19_every_digest.

Example C19_every_digest_example :
  exists a s p n, opened toy four_bad a /\ validate_v4 toy_md5 a = Ok (Some s) /\ flag s DBlock = false /\
    digested_part four_bad (a_off a) DBlock = Some (p, n) /\ n <> 0 /\
    toy_md5 (part four_bad p n) <> digest_at four_bad (a_off a) DBlock.
Proof.
  do 4 eexists. split; [left; vm_compute; reflexivity|]. split; [vm_compute; reflexivity|].
  split; [reflexivity|]. split; [vm_compute; reflexivity|]. split; [discriminate|].
  vm_compute. discriminate.
Qed.
