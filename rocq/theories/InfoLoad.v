(** * An archive whose tables are loaded on demand, inspected. *)
From Verif Require Import Bytes Crypto HashTable BlockTable Header Compress HetBet Builder Listfile
  Attributes Archive ArchiveFacts Archive34Facts Signature Info InfoFacts.
Open Scope N_scope.

Lemma load_attributes_tables L a b : load_attributes L a = Ok b -> a_hash b = a_hash a /\ a_het b = a_het a.
Proof. intros H. apply load_attributes_same in H as (x & ->). split; reflexivity. Qed.

Lemma load_tables_loaded L a b : load_tables L a = Ok b -> a_hash b <> None \/ a_het b <> None.
Proof.
  unfold load_tables. intros H.
  destruct (if version_ge _ _ then _ else _) as [[het bet]| |]; cbn [bind] in H; try discriminate.
  destruct (valid_het_bet _) as [[h' b']|] eqn:Ev.
  - destruct (if 0 <? _ then _ else _) as [[ht bt]| |]; cbn [bind] in H; try discriminate.
    destruct (match h_hi_pos _ with Some _ => _ | None => _ end) as [hi| |]; cbn [bind] in H; try discriminate.
    apply load_attributes_tables in H as [_ H]. cbn [a_het] in H. right. rewrite H.
    unfold valid_het_bet in Ev. cbn [a_het a_bet] in Ev. destruct het; [discriminate|discriminate Ev].
  - cbn iota in H.
    destruct (add64 _ _) as [o| |]; cbn [bind] in H; try discriminate.
    destruct (ht_read _ _ _) as [ht| |]; cbn [bind] in H; try discriminate.
    destruct (add64 _ (get_block_table_pos _)) as [o'| |]; cbn [bind] in H; try discriminate.
    destruct (bt_read _ _ _) as [bt| |]; cbn [bind] in H; try discriminate.
    destruct (match h_hi_pos _ with Some _ => _ | None => _ end) as [hi| |]; cbn [bind] in H; try discriminate.
    apply load_attributes_tables in H as [H _]. cbn [a_hash] in H. left. rewrite H. discriminate.
Qed.

Lemma deferred_info L md5 sha1 rd file a : open_with_options L file false = Ok a ->
  get_info L md5 sha1 rd a = (b <- open_archive L file ;; get_info L md5 sha1 rd b).
Proof.
  unfold open_archive, open_with_options. destruct (find_header file) as [[[off ud] h]| |]; cbn [bind]; try discriminate.
  intros H. apply Ok_inj in H. subst a.
  unfold get_info at 1. cbn [a_hash a_het].
  destruct (load_tables L _) as [b| |] eqn:E; cbn [bind]; try reflexivity.
  apply load_tables_loaded in E. unfold get_info.
  assert (H : match a_hash b with None => match a_het b with None => load_tables L b | _ => Ok b end | _ => Ok b end = Ok b).
  { destruct (a_hash b); [reflexivity|]. destruct (a_het b); [reflexivity|]. destruct E as [E|E]; now elim E. }
  rewrite H. reflexivity.
Qed.
