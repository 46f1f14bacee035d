(** * Listing and finding in archives of version 3 and 4 none of whose names is mistaken *)
From Coq Require Import Sorting.Permutation.
From Verif Require Import Bytes SpecNames NameFacts HashTable Header Compress SpecCompress SpecTables Listfile SpecListfile Builder Archive SpecArchive SpecArchive34
  CliList SpecCliList CliListFacts CliBuilt34 SpecNameTable.
Open Scope N_scope.

Section V.
Variable L : codecs.
Variable md5 : bytes -> bytes.
Variable compile : bool -> bytes -> option (bytes -> bool).
Variable lower : bytes -> bytes.
Variables (c : config) (files : list pending) (arc pre post : bytes).
Hypothesis HL : lossless L.
Hypothesis Hb : built34_at L md5 c files arc pre post.
Hypothesis Hm : no_mistake c files.
Hypothesis Hg : c_listfile c = LGenerate.
Hypothesis Hcol : no_collision (LISTFILE :: map pf_name files).
Hypothesis Ha : hashes_apart ATTRIBUTES (LISTFILE :: map pf_name files).
Hypothesis Hn : forall f, In f files -> is_text (pf_name f) /\ listable (pf_name f) /\ ~ name_equiv LISTFILE (pf_name f).
Hypothesis Hrb : reads_back L c (c_default c) (listfile_content (map pf_name files)).

Lemma list_cmd34 pattern regex hashes m :
  (match pattern with None => Some (fun _ => true) | Some p => compile regex p end) = Some m ->
  exists out, list_cmd L compile (pre ++ arc ++ post) false pattern regex hashes = Ok out /\
    in_order fe_name out /\
    Permutation (map fe_name out) (filter m (map pf_name files ++ [LISTFILE])).
Proof.
  intros Em. destruct (sure34_listing L md5 c files arc pre post HL Hb Hm Hg Hcol Ha Hn Hrb) as (a & l & Ho & Hl & Hnames & _).
  assert (exists es, list_source L false hashes a = Ok es /\ map fe_name es = map pf_name files ++ [LISTFILE])
    as (es & He & Hes).
  { unfold list_source. destruct hashes.
    - eexists. unfold list_with_hashes. rewrite Hl. cbn [bind]. split; [reflexivity|].
      rewrite map_map. cbn [fe_name]. rewrite <- Hnames. reflexivity.
    - exists l. auto. }
  exists (sort_entries (filter (fun e => m (fe_name e)) es)). split; [|split].
  - unfold list_cmd. rewrite Ho. cbn [bind]. rewrite He. cbn [bind]. destruct pattern as [p|].
    + rewrite Em. reflexivity.
    + injection Em as <-. cbn [bind]. do 2 f_equal. clear. induction es as [|e t IH]; cbn; [reflexivity|]. now f_equal.
  - apply sort_ordered.
  - rewrite <- Hes, <- map_filter_name. apply Permutation_map. symmetry. apply sort_perm.
Qed.

Lemma find_cmd34 pattern regex m :
  compile regex pattern = Some m ->
  find_cmd L compile lower (pre ++ arc ++ post) pattern regex false =
    Ok (filter m (map pf_name files ++ [LISTFILE])).
Proof.
  intros Em. destruct (sure34_listing L md5 c files arc pre post HL Hb Hm Hg Hcol Ha Hn Hrb) as (a & l & Ho & Hl & Hnames & _).
  unfold find_cmd. rewrite Ho. cbn [bind]. rewrite Hl. cbn [bind]. rewrite Hnames.
  destruct regex; rewrite Em; reflexivity.
Qed.
End V.
