(** * Properties: what errors mean (C73). *)
From Verif Require Import Bytes Header HashTable BlockTable Compress Archive ToyCodec SpecHostile SpecMemory
  Error SpecErrors ErrorFacts DemoHostile DemoErrors.
Open Scope N_scope.

(** ** C73: the error says what is wrong: [EFileNotFound] that there is no such file, [EIo] that the archive
    ends too early, [ECompression] that something cannot be decompressed, [EChecksum] that a
    checksum differs, and so on; the errors classed as corruption are those of a damaged archive,
    the ones classed as recoverable leave the archive usable.

    The part about corruption is false as worded (see below). *)

(** For any archive in memory, sound or not, with or without its tables *)
Theorem C73_not_found : forall L a name, plain_failures L ->
  read_file L a name = Err EFileNotFound <-> find_file a name = Ok None.
Proof. exact (fun L a name H => read_absent L H a name). Qed.
Print Assumptions C73_not_found.
Example C73_not_found_example :
  plain_failures toy /\ reads toy sound f = Ok (repeat (Nb 7) 10) /\ reads toy sound (lit "g") = Err EFileNotFound.
Proof. split; [exact toy_failures|]. split; vm_compute; reflexivity. Qed.

(** An opened archive of any version *)
Theorem C73_reading : forall L file a name e, plain_failures L -> lenN file < 2 ^ 63 -> open_archive L file = Ok a ->
  read_file L a name = Err e -> reason L a name e.
Proof. exact reading_reason. Qed.
Print Assumptions C73_reading.
Example C73_reading_example :
  (reads toy cut_off f = Err EIo /\ reads toy garbled f = Err ECompression /\ reads toy crossed f = Err EInvalidFormat /\
   reads toy altered f = Err EChecksum /\ reads toy astray f = Err EBlockTable /\ reads toy cut_off (lit "g") = Err EFileNotFound) /\
  plain_failures toy.
Proof. exact (conj (each_error toy) toy_failures). Qed.

(** Opening an archive; what lies at the place of an unreadable header is part of the reason. *)
Theorem C73_opening : forall L file e, plain_failures L -> lenN file < 2 ^ 63 ->
  open_archive L file = Err e -> open_reason L file e /\ is_recoverable e = false.
Proof. exact opening_reason. Qed.
Print Assumptions C73_opening.
Example C73_opening_example : forall L,
  open_archive L [] = Err EInvalidFormat /\ open_archive L other_number = Err EUnsupportedVersion /\
  open_archive L half_header = Err EIo /\ open_archive L six_slots = Err EHashTable /\ open_archive L half_tables = Err EIo /\
  open_archive L false_attributes = Err EInvalidFormat.
Proof. exact each_open_error. Qed.

(** A header that is refused, for all versions *)
Theorem C73_header : forall file e, find_header file = Err e -> header_reason file e.
Proof. exact find_header_err. Qed.
Print Assumptions C73_header.
Example C73_header_example :
  find_header [] = Err EInvalidFormat /\ find_header other_number = Err EUnsupportedVersion /\ find_header half_header = Err EIo.
Proof. vm_compute. auto. Qed.

(** The two classes, one direction: a recoverable error means that the file is not there, a
    corruption error that it is there and faulty. *)
Theorem C73_classes : forall L file a name e, plain_failures L -> lenN file < 2 ^ 63 -> open_archive L file = Ok a ->
  read_file L a name = Err e ->
  (is_recoverable e = true -> find_file a name = Ok None) /\
  (is_corruption e = true -> exists fi, find_file a name = Ok (Some fi) /\ fault L a fi (reading_key a name fi) e).
Proof. exact reading_kinds. Qed.
Print Assumptions C73_classes.
Example C73_classes_example :
  is_recoverable EFileNotFound = true /\ is_corruption EInvalidFormat = true /\ is_corruption EChecksum = true /\
  reads toy crossed f = Err EInvalidFormat /\ reads toy altered f = Err EChecksum.
Proof. repeat split; vm_compute; reflexivity. Qed.

(** The other direction is false: an archive with a byte changed and an archive cut short give errors that do not
    count as corruption, and a sound archive whose tables were not loaded gives one that does. *)
Theorem C73_corruption_refuted : exists L file,
  plain_failures L /\ reads L file f = Ok (repeat (Nb 7) 10) /\
  reads L (firstn 65 file ++ [x09] ++ skipn 66 file) f = Err ECompression /\ is_corruption ECompression = false /\
  reads L (firstn 66 file) f = Err EIo /\ is_corruption EIo = false /\
  (exists a, open_with_options L file false = Ok a /\ read_file L a f = Err EInvalidFormat) /\ is_corruption EInvalidFormat = true.
Proof. exact kinds_mislead. Qed.
Print Assumptions C73_corruption_refuted.

(** Disagreements of whatever kind count as corruption, refusals as recoverable, no error as both. *)
Theorem C73_kinds : forall e, (disagreement e -> is_corruption e = true) /\ (refusal e <-> is_recoverable e = true) /\
  ~ (is_corruption e = true /\ is_recoverable e = true).
Proof. exact kinds_apart. Qed.
Print Assumptions C73_kinds.
Example C73_kinds_example : disagreement ESignature /\ is_corruption ESignature = true /\ is_corruption ECompression = false.
Proof. split; [constructor|]. split; reflexivity. Qed.
