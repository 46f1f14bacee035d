(** * Concrete archives for the statements about listings. *)
From Verif Require Import Bytes Crypto SpecNames NameFacts HashTable BlockTable Header Compress SpecTables
  SpecCompress ToyCodec Listfile SpecListfile ListfileFacts Builder Archive SpecArchive
  DemoArchive Demo34 Cli SpecCli CliFacts DemoCli CliList SpecCliList CliListFacts.
Open Scope N_scope.

(** Patterns as beginnings of names, and lower case for ASCII. *)
Fixpoint starts (p n : bytes) : bool :=
  match p, n with
  | [], _ => true
  | x :: p', y :: n' => beqb x y && starts p' n'
  | _, [] => false
  end.
Definition beginnings (_ : bool) (p : bytes) : option (bytes -> bool) := Some (starts p).
Definition small (b : byte) : byte := if (65 <=? bN b) && (bN b <=? 90) then Nb (bN b + 32) else b.
Definition lower_ascii (n : bytes) : bytes := map small n.
(** The same patterns with the mark that asks to ignore the case. *)
Definition marked (r : bool) (p : bytes) : option (bytes -> bool) :=
  if r && starts (lit "(?i)") p then Some (fun n => starts (lower_ascii (skipn 4 p)) (lower_ascii n)) else Some (starts p).

(** ** A long name with a character across the 36th byte *)
Definition long_name : bytes := repeat "a"%byte 35 ++ encode 0xE9 ++ lit "-page.txt".
Definition long_arc : bytes :=
  Eval vm_compute in match build toy no_md5 cli_cfg [plain long_name (lit "text")] with Ok a => a | _ => [] end.
Lemma long_panics : is_text long_name /\ build toy no_md5 cli_cfg [plain long_name (lit "text")] = Ok long_arc /\
  exists es, list_cmd toy beginnings long_arc false None false false = Ok es /\ print_verbose es 0 0 = Panic.
Proof.
  split.
  { apply text_app; [apply text_ascii; vm_compute; repeat constructor|].
    apply text_app; [|apply text_ascii; vm_compute; repeat constructor].
    exists [0xE9]. split; [constructor; [left; reflexivity|constructor]|reflexivity]. }
  split; [vm_compute; reflexivity|]. eexists. split; [vm_compute; reflexivity|]. vm_compute. reflexivity.
Qed.

(** ** A name with a comma *)
Definition comma_arc : bytes :=
  Eval vm_compute in match build toy no_md5 cli_cfg [plain (lit "a,b.txt") (lit "text")] with Ok a => a | _ => [] end.
Lemma comma_wrong : build toy no_md5 cli_cfg [plain (lit "a,b.txt") (lit "text")] = Ok comma_arc /\
  exists es, list_cmd toy beginnings comma_arc false None false false = Ok es /\
    map fe_name es = [lit "(listfile)"; lit "a,b.txt"] /\
    csv_text [[lit "filename"]; [lit "(listfile)"]; [lit "a"; lit "b.txt"]] (print_names_csv (map fe_name es)) /\
    ~ csv_text [[lit "filename"]; [lit "(listfile)"]; [lit "a,b.txt"]] (print_names_csv (map fe_name es)).
Proof.
  split; [vm_compute; reflexivity|]. eexists. split; [vm_compute; reflexivity|]. split; [reflexivity|].
  change (map fe_name _) with [lit "(listfile)"; lit "a,b.txt"]. split.
  - change (print_names_csv [lit "(listfile)"; lit "a,b.txt"]) with
      (lit "filename" ++ ["010"%byte] ++ lit "(listfile)" ++ ["010"%byte] ++
        (lit "a" ++ [","%byte] ++ lit "b.txt") ++ ["010"%byte] ++ []).
    apply text_lf; [apply record_last, field_plain, csv_plainb; reflexivity|].
    apply text_lf; [apply record_last, field_plain, csv_plainb; reflexivity|].
    apply text_lf; [|constructor]. apply record_more; [apply field_plain, csv_plainb; reflexivity|].
    apply record_last, field_plain, csv_plainb; reflexivity.
  - intros H. apply (names_csv [lit "(listfile)"; lit "a,b.txt"]) in H.
    inversion H as [|? ? _ H']; subst. inversion H' as [|? ? K _]; subst.
    destruct (K ","%byte) as [N _]; [right; left; reflexivity|]. now apply N.
Qed.

(** ** Files stored with zlib and with a method that [analyze] calls unsupported *)
Definition mixed_files :=
  [mkPF (repeat x41 100) (lit "z.bin") ZLIB false false 0; mkPF (repeat x42 100) (lit "p.bin") PKWARE false false 0].
Definition mixed_arc : bytes :=
  Eval vm_compute in match build toy no_md5 cli_cfg mixed_files with Ok a => a | _ => [] end.
Lemma mixed_wrong : build toy no_md5 cli_cfg mixed_files = Ok mixed_arc /\
  exists a z p rows, open_archive toy mixed_arc = Ok a /\
    find_file a (lit "z.bin") = Ok (Some z) /\ N.testbit (fi_flags z) 9 = true /\
    slice (fi_pos z) 1 mixed_arc = Some [Nb ZLIB] /\
    find_file a (lit "p.bin") = Ok (Some p) /\ N.testbit (fi_flags p) 9 = true /\
    slice (fi_pos p) 1 mixed_arc = Some [Nb PKWARE] /\
    analyze toy mixed_arc = Ok rows /\
    In (lit "z.bin", MNone, true) rows /\ In (lit "p.bin", MNone, true) rows /\
    supported (from_flags PKWARE) = false.
Proof.
  split; [vm_compute; reflexivity|].
  assert (exists a, open_archive toy mixed_arc = Ok a) as (a & Ho) by (eexists; vm_compute; reflexivity).
  exists a.
  assert (exists z, find_file a (lit "z.bin") = Ok (Some z) /\ N.testbit (fi_flags z) 9 = true /\
    slice (fi_pos z) 1 mixed_arc = Some [Nb ZLIB]) as (z & Hz1 & Hz2 & Hz3).
  { vm_compute in Ho. apply Ok_inj in Ho. subst a. eexists. split; [vm_compute; reflexivity|]. split; vm_compute; reflexivity. }
  assert (exists p, find_file a (lit "p.bin") = Ok (Some p) /\ N.testbit (fi_flags p) 9 = true /\
    slice (fi_pos p) 1 mixed_arc = Some [Nb PKWARE]) as (p & Hp1 & Hp2 & Hp3).
  { vm_compute in Ho. apply Ok_inj in Ho. subst a. eexists. split; [vm_compute; reflexivity|]. split; vm_compute; reflexivity. }
  exists z, p, [(lit "z.bin", MNone, true); (lit "p.bin", MNone, true); (lit "(listfile)", MNone, true)].
  split; [exact Ho|]. split; [exact Hz1|]. split; [exact Hz2|]. split; [exact Hz3|].
  split; [exact Hp1|]. split; [exact Hp2|]. split; [exact Hp3|].
  split; [vm_compute; reflexivity|]. split; [left; reflexivity|]. split; [right; left; reflexivity|]. reflexivity.
Qed.

(** ** As the theorems word it *)
Lemma table_refuted :
  exists n arc es, is_text n /\ build toy no_md5 cli_cfg [plain n (lit "text")] = Ok arc /\
    list_cmd toy beginnings arc false None false false = Ok es /\ print_verbose es 0 0 = Panic.
Proof.
  destruct long_panics as (H1 & H2 & es & H3 & H4). exists long_name, long_arc, es. auto.
Qed.
Lemma comma_refuted :
  exists n arc es, build toy no_md5 cli_cfg [plain n (lit "text")] = Ok arc /\
    list_cmd toy beginnings arc false None false false = Ok es /\
    map fe_name es = [lit "(listfile)"; n] /\
    ~ csv_text [[lit "filename"]; [lit "(listfile)"]; [n]] (print_names_csv (map fe_name es)) /\
    csv_text [[lit "filename"]; [lit "(listfile)"]; [lit "a"; lit "b.txt"]] (print_names_csv (map fe_name es)).
Proof.
  destruct comma_wrong as (H1 & es & H2 & H3 & H4 & H5). exists (lit "a,b.txt"), comma_arc, es.
  split; [exact H1|]. split; [exact H2|]. split; [exact H3|]. split; [exact H5|exact H4].
Qed.
