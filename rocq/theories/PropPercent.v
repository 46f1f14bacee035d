(** * C71: printed percentages and sizes, and the verbose table. *)
From Verif Require Import Bytes BlockTable Archive CliList SpecCliList SpecReport SpecPercent Percent PercentFacts CliVerbose VerboseFacts DemoPercent.
Open Scope N_scope.

(** ** Percentages without decimals.  Missing: they are rounded down, but three of them come out one
    too low ([C71_percent_refuted]). *)
Theorem C71_percent_partial : forall c s, s < 2 ^ 53 -> c < 2 ^ 45 -> percent_of c s (ratio c s).
Proof. exact ratio_right. Qed.
Print Assumptions C71_percent_partial.

Example C71_percent_example : ratio 1 3 = 33 /\ ratio 29 100 = 28 /\ ratio 1000 1 = 100000 /\ ratio 7 0 = 100 /\ ratio (2 ^ 44) 1 = 2 ^ 32 - 1.
Proof. vm_compute. repeat split. Qed.

Theorem C71_percent_refuted : exists c s, 0 < s /\ c <= s /\ 100 * c = 29 * s /\ ratio c s = 28.
Proof. exists 29, 100. vm_compute. repeat split; discriminate. Qed.
Print Assumptions C71_percent_refuted.

(** The arithmetic of the model is the one of [Coq.Floats.SpecFloat] where both were tried. *)
Example C71_floats_example :
  forallb (fun c => match float_per_hundred c 100 with Some u => u =? per_hundred c 100 | None => false end) (first 300) = true /\
  forallb (fun c => match float_per_hundred c 7919 with Some u => u =? per_hundred c 7919 | None => false end) (first 300) = true.
Proof. split; vm_compute; reflexivity. Qed.

(** ** Percentages with one decimal are the nearest *)
Theorem C71_tenths : forall c s, 0 < s -> s < 2 ^ 53 -> c < 2 ^ 40 -> percent_shown c s (fixed1 (per_hundred c s)).
Proof. exact tenth_right. Qed.
Print Assumptions C71_tenths.

Example C71_tenths_example : fixed1 (per_hundred 2 3) = lit "66.7" /\ fixed1 (per_hundred 29 100) = lit "29.0" /\ fixed1 (per_hundred 0 5) = lit "0.0".
Proof. vm_compute. repeat split. Qed.

(** ** Sizes *)
Theorem C71_size : forall n, n < 2 ^ 53 -> size_shown n (format_size n).
Proof. exact size_right. Qed.
Print Assumptions C71_size.

Example C71_size_example : format_size 1023 = lit "1023" /\ format_size 1536 = lit "1.50 KB" /\ format_size (5 * 2 ^ 40) = lit "5.00 TB".
Proof. vm_compute. repeat split. Qed.

(** Close below the next unit the size is shown as 1024 of the unit. *)
Theorem C71_size_refuted : exists n, n < 1024 ^ 2 /\ format_size n = lit "1024.00 KB".
Proof. exists 1048575. split; [reflexivity|vm_compute; reflexivity]. Qed.
Print Assumptions C71_size_refuted.

(** ** The table.  Missing: see the percentages and what follows. *)
Theorem C71_table_partial : forall vv es lines, modest es -> verbose_table vv es = Ok lines -> table_says vv es lines.
Proof. exact table_right. Qed.
Print Assumptions C71_table_partial.

Example C71_table_example : modest v_list /\
  exists lines, verbose_table true v_list = Ok lines /\
    nth 4 lines [] = lit "war3map.j                                         100           29     28%          0          0 Compressed, Encrypted" /\
    nth 5 lines [] = lit "units\textures\a very long name of a...    1024.00 KB      1.50 KB      0%        ABC          0 Single Unit" /\
    nth 8 lines [] = lit "Total: 3 files                                1.00 MB      1.53 KB      0%" /\
    nth 15 lines [] = lit "Space saved:       1022.57 KB (99.9%)".
Proof.
  split.
  - split; [|vm_compute; repeat split]. repeat (apply Forall_cons; [cbn; try exact I; split; reflexivity|]). apply Forall_nil.
  - exists (match verbose_table true v_list with Ok l => l | _ => [] end). vm_compute. repeat split.
Qed.

(** It fails where C45 says, and nowhere else *)
Theorem C71_fails_iff : forall vv es, (verbose_table vv es = Panic <-> print_verbose es 0 0 = Panic) /\ forall x, verbose_table vv es <> Err x.
Proof. exact table_panic. Qed.
Print Assumptions C71_fails_iff.

Example C71_fails_example : verbose_table false [mkFE (lit "a") (2 ^ 63) 0 0 None; mkFE (lit "b") (2 ^ 63) 0 0 None] = Panic.
Proof. vm_compute. reflexivity. Qed.

(** An imploded file is compressed and not called so. *)
Theorem C71_imploded_refuted : exists e row, N.testbit (fe_flags e) 8 = true /\ fe_csize e < fe_size e /\
  verbose_rows false [e] 0 0 = Ok ([row], fe_size e, fe_csize e) /\ row = lit "a                                             1.00 KB          512     50% -".
Proof.
  exists (mkFE (lit "a") 1024 512 (FLAG_EXISTS + FLAG_IMPLODE) None),
    (lit "a                                             1.00 KB          512     50% -"). vm_compute. repeat split.
Qed.
Print Assumptions C71_imploded_refuted.

(** Of no files, [-vv] prints percentages that are not numbers. *)
Theorem C71_nothing_refuted : exists lines, verbose_table true [] = Ok lines /\ In (lit "Compressed files:  0 (NaN%)") lines.
Proof. exists (match verbose_table true [] with Ok l => l | _ => [] end). vm_compute. split; [reflexivity|]. do 9 right. left. reflexivity. Qed.
Print Assumptions C71_nothing_refuted.
