(** * Vocabulary for statements about file attributes: the layout of the
    (attributes) file, by bits of its flags word. *)
From Verif Require Import Bytes Attributes.
Open Scope N_scope.

(** Bits 0 to 3 of the flags announce checksums, times, digests, patch bits. *)
Definition has_crc (flags : N) : bool := N.testbit flags 0.
Definition has_time (flags : N) : bool := N.testbit flags 1.
Definition has_md5 (flags : N) : bool := N.testbit flags 2.
Definition has_patch (flags : N) : bool := N.testbit flags 3.

(** Where the four columns start for [n] files, and the whole size. *)
Definition crc_start : N := 8.
Definition time_start (flags n : N) : N := crc_start + (if has_crc flags then 4 * n else 0).
Definition md5_start (flags n : N) : N := time_start flags n + (if has_time flags then 8 * n else 0).
Definition patch_start (flags n : N) : N := md5_start flags n + (if has_md5 flags then 16 * n else 0).
Definition whole_size (flags n : N) : N := patch_start flags n + (if has_patch flags then (n + 7) / 8 else 0).

(** The types of the Rust fields. *)
Definition attrs_typed (a : attrs) : Prop :=
  at_flags a < 2 ^ 32 /\ lenN (at_files a) < 2 ^ 59 /\
  forall f, In f (at_files a) ->
    (forall v, fa_crc f = Some v -> v < 2 ^ 32) /\ (forall v, fa_time f = Some v -> v < 2 ^ 64) /\
    (forall v, fa_md5 f = Some v -> length v = 16%nat).

(** Every file carries exactly the announced fields. *)
Definition given {A} (o : option A) : bool := match o with Some _ => true | None => false end.
Definition carries (flags : N) (f : fattr) : Prop :=
  given (fa_crc f) = has_crc flags /\ given (fa_time f) = has_time flags /\
  given (fa_md5 f) = has_md5 flags /\ given (fa_patch f) = has_patch flags.

(** A field as it is stored in [k] bytes at [off]. *)
Definition number_at (present : bool) (off k : N) (data : bytes) (o : option N) : Prop :=
  if present then exists s, slice off k data = Some s /\ o = Some (le_dec s) else o = None.
Definition bytes_at (present : bool) (off k : N) (data : bytes) (o : option bytes) : Prop :=
  if present then exists s, slice off k data = Some s /\ o = Some s else o = None.
Definition bit_of (present : bool) (off i : N) (data : bytes) (o : option bool) : Prop :=
  if present then exists x, slice (off + i / 8) 1 data = Some [x] /\ o = Some (N.testbit (bN x) (i mod 8))
  else o = None.
(** The attributes of file [i] of [n] are the ones stored in [data]. *)
Definition file_at (data : bytes) (flags n i : N) (f : fattr) : Prop :=
  number_at (has_crc flags) (crc_start + 4 * i) 4 data (fa_crc f) /\
  number_at (has_time flags) (time_start flags n + 8 * i) 8 data (fa_time f) /\
  bytes_at (has_md5 flags) (md5_start flags n + 16 * i) 16 data (fa_md5 f) /\
  bit_of (has_patch flags) (patch_start flags n) i data (fa_patch f).
