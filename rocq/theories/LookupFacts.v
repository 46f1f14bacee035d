(** * Names enter lookups and keys through their hashes only. *)
From Verif Require Import Bytes Crypto SpecNames NameFacts HashTable BlockTable Header Compress HetBet HetBetFacts
  Listfile Adler Attributes Archive Builder.
Open Scope N_scope.

Section L.
Variable L : codecs.

Lemma ht_find_equiv t x y loc : name_equiv x y -> ht_find_file t x loc = ht_find_file t y loc.
Proof. intros H. unfold ht_find_file. now rewrite !(name_equiv_hash x y _ H). Qed.

Lemma find_classic_equiv a x y : name_equiv x y -> find_file_classic a x = find_file_classic a y.
Proof.
  intros H. unfold find_file_classic. destruct (a_hash a); [|reflexivity]. cbn [of_option bind].
  destruct (a_block a); [|reflexivity]. cbn [of_option bind]. now rewrite (ht_find_equiv _ x y 0 H).
Qed.

Lemma find_equiv a x y : name_equiv x y -> find_file a x = find_file a y.
Proof.
  intros H. unfold find_file. destruct (valid_het_bet a) as [[h b]|]; [|now apply find_classic_equiv].
  now rewrite (het_find_equiv h x y (name_equiv_jenkins x y H)), (find_classic_equiv a x y H).
Qed.

Lemma read_equiv a x y : name_equiv x y -> read_file L a x = read_file L a y.
Proof.
  intros H. unfold read_file. rewrite (find_equiv a x y H).
  unfold read_key. now rewrite (name_equiv_hash x y HT_FILE_KEY H).
Qed.

Lemma file_key_equiv x y pos size flags : name_equiv x y ->
  calculate_file_key x pos size flags = calculate_file_key y pos size flags.
Proof. intros H. unfold calculate_file_key. now rewrite (name_equiv_hash x y HT_FILE_KEY H). Qed.

Lemma lookups_equiv x y : name_equiv x y ->
  (forall t loc, ht_find_file t x loc = ht_find_file t y loc) /\
  (forall h, het_find h x = het_find h y) /\
  (forall a, find_file a x = find_file a y) /\
  (forall a, read_file L a x = read_file L a y) /\
  (forall pos size flags, calculate_file_key x pos size flags = calculate_file_key y pos size flags).
Proof.
  intros H. split; [intros; now apply ht_find_equiv|].
  split; [intros; now apply het_find_equiv, name_equiv_jenkins|].
  split; [intros; now apply find_equiv|]. split; [intros; now apply read_equiv|].
  intros; now apply file_key_equiv.
Qed.

End L.
