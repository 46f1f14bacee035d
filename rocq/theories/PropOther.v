(** * C69: archives with classic tables that other tools wrote, from opening to reading. *)
From Verif Require Import Bytes HashTable Header Compress SpecCompress ToyCodec SpecDigest SpecFields SpecStored Adler Listfile SpecAttributes Attributes Archive
  SpecOther OtherFacts DemoStored DemoOther.
Open Scope N_scope.

(** The archive is opened unless its attributes are wrong, and in one that was opened every
    file stored in one of the forms of C63 is read, every name without an entry is missing,
    and every listed name leads to what the tables say.  Missing: a neutral entry behind
    one in another language, and packed tables (see below). *)
Theorem C69_other_archives_partial : forall L file base ht bt hi,
  laid_out file base ht bt hi -> lenN file < 2 ^ 63 ->
  (attributes_good L file base ht bt hi -> exists a, open_archive L file = Ok a) /\
  forall a, open_archive L file = Ok a ->
    (forall name d, has_file L file base ht bt hi name d -> read_file L a name = Ok d) /\
    (forall name, has_no_file ht name -> find_file a name = Ok None /\ read_file L a name = Err EFileNotFound) /\
    (forall name pos csize size flags, listed ht bt hi name pos csize size flags -> base + pos < 2 ^ 64 ->
       exists fi, find_file a name = Ok (Some fi) /\
         fi_pos fi = base + pos /\ fi_csize fi = csize /\ fi_size fi = size /\ fi_flags fi = flags).
Proof. exact other_archive. Qed.
Print Assumptions C69_other_archives_partial.

(** Behind a user data block, with a full table whose first entry was deleted; an encrypted
    German file, a packed one and attributes.  The way of e.txt goes through the whole table. *)
Example C69_other_archives_example : exists a, open_archive toy o_file = Ok a /\
  read_file toy a (lit "a.txt") = Ok (lit "hello a!") /\ read_file toy a (lit "b.txt") = Ok o_b /\
  read_file toy a (lit "e.txt") = Err EFileNotFound.
Proof.
  destruct (C69_other_archives_partial toy o_file 512 o_ht o_bt o_hi o_laid_out eq_refl) as [O R].
  destruct (O o_attributes) as [a E]. exists a. split; [exact E|]. destruct (R a E) as (F & M & _).
  split; [exact (F _ _ o_has_a)|]. split; [exact (F _ _ o_has_b)|]. apply M. apply o_no_slot. vm_compute. reflexivity.
Qed.

(** Attributes of the known version that end too early: nothing of the archive is accessible. *)
Theorem C69_short_attributes : forall L file base ht bt hi,
  laid_out file base ht bt hi -> lenN file < 2 ^ 63 ->
  forall d, has_file L file base ht bt hi (lit "(attributes)") d -> slice 0 4 d = Some (le32 100) ->
  (forall s, slice 4 4 d = Some s -> lenN d < whole_size (le_dec s) (lenN bt / 16)) ->
  open_archive L file = Err EInvalidFormat.
Proof. exact other_short. Qed.
Print Assumptions C69_short_attributes.

(** One entry less than there are blocks *)
Example C69_short_attributes_example : open_archive toy s_file = Err EInvalidFormat.
Proof.
  apply (C69_short_attributes toy s_file 0 o_ht s_bt [] s_laid_out eq_refl o_attrs s_has_attrs eq_refl).
  intros s H. replace (slice 4 4 o_attrs) with (Some (le32 1)) in H by (vm_compute; reflexivity). injection H as <-. reflexivity.
Qed.

(** Good attributes are what the opened archive has, also if they were packed once more. *)
Theorem C69_attributes : forall L file base ht bt hi,
  laid_out file base ht bt hi -> lenN file < 2 ^ 63 ->
  forall x d s, has_file L file base ht bt hi (lit "(attributes)") x -> unpacked_attributes L x d ->
  slice 0 4 d = Some (le32 100) -> slice 4 4 d = Some s -> whole_size (le_dec s) (lenN bt / 16) <= lenN d ->
  exists a at_, open_archive L file = Ok a /\ a_attrs a = Some at_ /\ at_flags at_ = le_dec s /\ lenN (at_files at_) = lenN bt / 16 /\
    forall i f, nthN (at_files at_) i = Some f -> file_at d (le_dec s) (lenN bt / 16) i f.
Proof. exact other_attributes. Qed.
Print Assumptions C69_attributes.

Example C69_attributes_example : exists a at_, open_archive toy t_file = Ok a /\ a_attrs a = Some at_ /\ lenN (at_files at_) = 3.
Proof.
  destruct (C69_attributes toy t_file 0 o_ht t_bt [] t_laid_out eq_refl t_attrs o_attrs (le32 1) t_has_attrs t_unpacked eq_refl eq_refl)
    as (a & at_ & E & Ea & _ & El & _); [vm_compute; discriminate|].
  exists a, at_. split; [exact E|]. split; [exact Ea|exact El].
Qed.

(** Attributes of another version, not packed (or by a method whose number has
    no lower bit), or that cannot be unpacked: refused. *)
Theorem C69_attributes_refused : forall L file base ht bt hi,
  laid_out file base ht bt hi -> lenN file < 2 ^ 63 ->
  forall x, has_file L file base ht bt hi (lit "(attributes)") x -> slice 0 4 x <> Some (le32 100) ->
  (forall m c, x = m :: c -> N.land (bN m) 15 = 0 \/ bN m = 100 \/ lenN x < 4 \/ not_unpacked L m c) -> open_archive L file = Err EInvalidFormat.
Proof. exact other_refused. Qed.
Print Assumptions C69_attributes_refused.

Example C69_attributes_refused_example : open_archive toy w_file = Err EInvalidFormat /\ open_archive toy u_file = Err EInvalidFormat.
Proof.
  split.
  - apply (C69_attributes_refused toy w_file 0 o_ht o_bt [] w_laid_out eq_refl w_attrs w_has_attrs); [vm_compute; discriminate|].
    intros m c [= <- <-]. left. reflexivity.
  - apply (C69_attributes_refused toy u_file 0 o_ht o_bt [] u_laid_out eq_refl u_attrs u_has_attrs); [vm_compute; discriminate|].
    intros m c [= <- <-]. right. right. right. exact u_not_unpacked.
Qed.

(** A file for no language in particular is not what its name gives, if one for another
    language comes before it. *)
Theorem C69_language_refuted : exists L file base ht bt hi name pos csize flags d a d',
  lossless L /\ laid_out file base ht bt hi /\ listed_neutral ht bt hi name pos csize (lenN d) flags /\
  stored_as L true file base (sector_bytes file base) name (base + pos) csize flags d /\
  open_archive L file = Ok a /\ read_file L a name = Ok d' /\ d' <> d.
Proof. exact german_read. Qed.
Print Assumptions C69_language_refuted.

(** With a packed hash table, no file is found, although the archive is opened. *)
Theorem C69_packed_tables_refuted : exists L file base ht bt hi name d a,
  lossless L /\ laid_out_packed L file base ht bt hi /\ has_file L file base ht bt hi name d /\
  open_archive L file = Ok a /\ find_file a name = Ok None.
Proof. exact packed_lost. Qed.
Print Assumptions C69_packed_tables_refuted.
