(** * Archives of the builder that have an (attributes) file among their files *)
From Coq Require Import Lia ZifyBool ZifyNat ZifyN.
From Verif Require Import Bytes Crypto SpecNames NameFacts HashTable BlockTable Header HeaderFacts SpecHeader HeaderSearch Compress
  SpecTables SpecCompress Listfile HetBet Builder BuilderFacts Attributes SpecAttributes AttributesFacts AcceptFacts Archive ReadFacts OpenFacts
  SpecArchive SpecArchive34 Open34Facts ArchiveFacts Archive34Facts SpecNameTable NameArchiveFacts OtherFacts.
Open Scope N_scope.

Section BuiltAttributes.
Variable L : codecs.
Variable md5 : bytes -> bytes.

(** What loading does with attributes of version 100 *)
Lemma load_short a bt d : a_attrs a = None -> a_block a = Some bt -> lenN bt < 2 ^ 59 -> read_file L a ATTRIBUTES = Ok d ->
  slice 0 4 d = Some (le32 100) -> (forall s, slice 4 4 d = Some s -> lenN d < whole_size (le_dec s) (lenN bt)) ->
  load_attributes L a = Err EInvalidFormat.
Proof.
  intros Ha Hb Hl Hr H0 Hw. unfold load_attributes. rewrite Ha, Hr, Hb. cbn [bind]. rewrite other_parsed by exact H0. cbn [bind].
  destruct (attr_parse_total d (lenN bt) Hl) as [E|(x & s & E & _ & _ & H4 & Ef & Hs & _)]; [now rewrite E|].
  specialize (Hw s H4). rewrite Ef in Hs. lia.
Qed.
Lemma load_good a bt d s : a_attrs a = None -> a_block a = Some bt -> lenN bt < 2 ^ 59 -> read_file L a ATTRIBUTES = Ok d ->
  slice 0 4 d = Some (le32 100) -> slice 4 4 d = Some s -> whole_size (le_dec s) (lenN bt) <= lenN d ->
  exists x, load_attributes L a = Ok (with_attrs a (Some x)) /\ at_flags x = le_dec s /\ lenN (at_files x) = lenN bt /\
    forall i f, nthN (at_files x) i = Some f -> file_at d (le_dec s) (lenN bt) i f.
Proof.
  intros Ha Hb Hl Hr H0 H4 Hw. unfold load_attributes. rewrite Ha, Hr, Hb. cbn [bind]. rewrite other_parsed by exact H0. cbn [bind].
  destruct (attr_accepts d (lenN bt) s Hl H0 H4 Hw) as (x & E).
  destruct (attr_parse_total d (lenN bt) Hl) as [E'|(x' & s' & E' & _ & _ & H4' & Ef & Hs & Hn & Hf)]; [congruence|].
  assert (x' = x) by congruence. subst x'. assert (s' = s) by congruence. subst s'. rewrite E. cbn [bind].
  exists x. split; [unfold with_attrs; now rewrite Hb|]. rewrite Ef in Hf. auto.
Qed.

(** Versions 1 and 2 *)
Lemma built_before c files arc pre post : built_at L md5 c files arc pre post ->
  exists a ss bt, open_archive L (pre ++ arc ++ post) = load_attributes L a /\ sector_size (c_block_size c) = Ok ss /\
    describes L a c ss (prepare_listfile c files) /\ a_het a = None /\ a_attrs a = None /\ a_block a = Some bt /\
    lenN bt = entry_count c files.
Proof.
  intros (Hv & Ht & Hn & Hb & Hfit & H63 & kk & Hp & Hl).
  destruct (find_header_found _ _ _ Hp Hl) as (ud & Hh & _).
  destruct (prepare_typed c files Ht) as (T1 & T2 & T3).
  assert (Hv3 : version_ge (c_version c) V3 = false) by (destruct Hv as [-> | ->]; reflexivity).
  unfold build in Hb. rewrite Hv3 in Hb.
  destruct (write_archive12_open L c (prepare_listfile c files) arc pre post ud)
    as (h & ss & t & bt & hi & Hss & Ho & Hd & Hlay); auto.
  - now apply prepare_count.
  - unfold pos_fits. unfold fits in Hfit. destruct Hv as [Ev|Ev]; rewrite Ev in Hfit |- *; exact Hfit.
  - set (a := mkA _ _ _ _ _ _ _ _ _ _) in Ho, Hd. exists a, ss, bt. do 6 (split; [first [assumption|reflexivity]|]).
    destruct Hlay as (body & es & Ebt & _ & Wf & _). pose proof (write_files_layout _ _ _ _ _ _ _ Wf) as [El _].
    rewrite Ebt, map_lenN, <- (entry_count_prepare md5). unfold lenN. now rewrite El.
Qed.

Lemma entry_count_small c files : lenN files < 2 ^ 30 - 2 -> entry_count c files < 2 ^ 59.
Proof.
  unfold entry_count. change (2 ^ 30 - 2) with 1073741822. change (2 ^ 59) with 576460752303423488.
  destruct (c_listfile c); lia.
Qed.

Lemma attributes12 c files arc pre post f :
  lossless L -> built_at L md5 c files arc pre post -> no_collision (LISTFILE :: map pf_name files) ->
  means files ATTRIBUTES f -> reads_back L c (pf_comp f) (pf_data f) -> slice 0 4 (pf_data f) = Some (le32 100) ->
  ((forall s, slice 4 4 (pf_data f) = Some s -> lenN (pf_data f) < whole_size (le_dec s) (entry_count c files)) ->
   open_archive L (pre ++ arc ++ post) = Err EInvalidFormat) /\
  (forall s, slice 4 4 (pf_data f) = Some s -> whole_size (le_dec s) (entry_count c files) <= lenN (pf_data f) ->
   exists a x, open_archive L (pre ++ arc ++ post) = Ok a /\ a_attrs a = Some x /\ at_flags x = le_dec s /\
     lenN (at_files x) = entry_count c files /\
     (forall i v, nthN (at_files x) i = Some v -> file_at (pf_data f) (le_dec s) (entry_count c files) i v) /\
     (forall name g, means files name g -> reads_back L c (pf_comp g) (pf_data g) -> read_file L a name = Ok (pf_data g)) /\
     (forall name, hashes_apart name (LISTFILE :: map pf_name files) ->
        find_file a name = Ok None /\ read_file L a name = Err EFileNotFound)).
Proof.
  intros HL HB Hcol Hm Hr H0.
  destruct (built_before c files arc pre post HB) as (a & ss & bt & Ho & Hss & Hd & Hhet & Hat & Hbt & Hn).
  assert (Hread : forall name g, means files name g -> reads_back L c (pf_comp g) (pf_data g) -> read_file L a name = Ok (pf_data g)).
  { intros name g Hg Hrg. eapply (classic_read L md5); eauto.
    - now apply find_is_classic.
    - eapply no_collision_incl; [apply prepare_names|exact Hcol].
    - now apply means_prepare.
    - destruct HB as (_ & Ht & _). eapply typed_comp; [exact Ht|]. eapply means_in; eauto. }
  assert (Hsm : lenN bt < 2 ^ 59) by (rewrite Hn; apply entry_count_small; apply HB).
  pose proof (Hread _ _ Hm Hr) as HA. rewrite Ho, <- Hn. split.
  - intros Hw. eapply load_short; eauto.
  - intros s H4 Hw. destruct (load_good a bt _ s Hat Hbt Hsm HA H0 H4 Hw) as (x & E & Ef & El & Hf).
    exists (with_attrs a (Some x)), x. split; [exact E|]. split; [reflexivity|]. split; [exact Ef|]. split; [exact El|]. split; [exact Hf|]. split.
    + intros name g. rewrite read_with_attrs. apply Hread.
    + intros name Hap. rewrite find_with_attrs, read_with_attrs.
      assert (E' : find_file a name = Ok None).
      { rewrite (find_is_classic a name Hhet). eapply find_classic_absent; [exact Hd|]. intros y Hy. apply Hap. now apply (prepare_names c files). }
      split; [exact E'|]. unfold read_file. now rewrite E'.
Qed.

(** Versions 3 and 4, unless the name table takes (attributes) for another name *)
Lemma attributes34 c files arc pre post f :
  lossless L -> built34_at L md5 c files arc pre post -> no_collision (LISTFILE :: map pf_name files) -> ~ mistaken c files ATTRIBUTES ->
  means files ATTRIBUTES f -> reads_back L c (pf_comp f) (pf_data f) -> slice 0 4 (pf_data f) = Some (le32 100) ->
  ((forall s, slice 4 4 (pf_data f) = Some s -> lenN (pf_data f) < whole_size (le_dec s) (entry_count c files)) ->
   open_archive L (pre ++ arc ++ post) = Err EInvalidFormat) /\
  (forall s, slice 4 4 (pf_data f) = Some s -> whole_size (le_dec s) (entry_count c files) <= lenN (pf_data f) ->
   exists a x, open_archive L (pre ++ arc ++ post) = Ok a /\ a_attrs a = Some x /\ at_flags x = le_dec s /\
     lenN (at_files x) = entry_count c files /\
     (forall i v, nthN (at_files x) i = Some v -> file_at (pf_data f) (le_dec s) (entry_count c files) i v) /\
     (forall name g, ~ mistaken c files name -> means files name g -> reads_back L c (pf_comp g) (pf_data g) ->
        read_file L a name = Ok (pf_data g)) /\
     (forall name, ~ mistaken c files name -> hashes_apart name (LISTFILE :: map pf_name files) ->
        find_file a name = Ok None /\ read_file L a name = Err EFileNotFound)).
Proof.
  intros HL HB Hcol Hmis Hm Hr H0.
  destruct (find34_mistaken L md5 c files arc pre post HB)
    as (a & ss & be & Ho & Hss & Hd & Hat & _ & _ & Hbe & (bt & Hbt & Hn) & Hall).
  assert (Hread : forall name g, ~ mistaken c files name -> means files name g -> reads_back L c (pf_comp g) (pf_data g) -> read_file L a name = Ok (pf_data g)).
  { intros name g Hc Hg Hrg. eapply (classic_read L md5); eauto.
    - apply (proj1 (Hall name)). now left.
    - eapply no_collision_incl; [apply prepare_names|exact Hcol].
    - now apply means_prepare.
    - destruct HB as (_ & _ & _ & Ht & _). eapply typed_comp; [exact Ht|]. eapply means_in; eauto. }
  assert (Hsm : lenN bt < 2 ^ 59) by (rewrite Hn; apply entry_count_small; apply HB).
  pose proof (Hread _ _ Hmis Hm Hr) as HA. rewrite Ho, <- Hn. split.
  - intros Hw. eapply load_short; eauto.
  - intros s H4 Hw. destruct (load_good a bt _ s Hat Hbt Hsm HA H0 H4 Hw) as (x & E & Ef & El & Hf).
    exists (with_attrs a (Some x)), x. split; [exact E|]. split; [reflexivity|]. split; [exact Ef|]. split; [exact El|]. split; [exact Hf|]. split.
    + intros name g. rewrite read_with_attrs. apply Hread.
    + intros name Hc Hap. rewrite find_with_attrs, read_with_attrs.
      assert (E' : find_file a name = Ok None).
      { rewrite (proj1 (Hall name) (or_introl Hc)). eapply find_classic_absent; [exact Hd|]. intros y Hy. apply Hap. now apply (prepare_names c files). }
      split; [exact E'|]. unfold read_file. now rewrite E'.
Qed.
End BuiltAttributes.
