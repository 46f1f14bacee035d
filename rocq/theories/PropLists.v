(** * C67: lists of names written by other tools. *)
From Verif Require Import Bytes Compress Listfile ToyCodec SpecListfile SpecLists Archive SpecArchive ListsFacts DemoLists.
Open Scope N_scope.

(** Whatever the bytes of a list are, the names read from it are those it lists. *)
Theorem C67_lists : forall data names, lists data names <-> parse_listfile data = names.
Proof. exact lists_parsed. Qed.
Print Assumptions C67_lists.

(** Broken text alone: what comes out is the text with every longest broken sequence replaced. *)
Theorem C67_repaired : forall d t, repaired d t <-> t = utf8_lossy d.
Proof. exact repaired_exactly. Qed.
Print Assumptions C67_repaired.

(** The listing of any archive with a list follows it. *)
Theorem C67_listing : forall L a fi d names,
  find_file a special_listfile = Ok (Some fi) -> read_file L a special_listfile = Ok d -> lists d names ->
  forall l, list_files L a = Ok l <->
    exists rows,
      Forall2 (fun n r =>
        (exists fi, find_file a n = Ok (Some fi) /\
           r = [mkFE n (fi_size fi) (fi_csize fi) (fi_flags fi) None]) \/
        (find_file a n = Ok None /\ r = [])) names rows /\
      l = concat rows.
Proof. exact lists_listed. Qed.
Print Assumptions C67_listing.

(** A list with both ends of lines, comments, sizes behind semicolons, an indented
    name, and three bytes of a character of four, with one more broken byte *)
Example C67_lists_example :
  lists (lit "a.txt" ++ [x0d; x0a] ++ lit "; nothing" ++ [x0a; x0a] ++ lit "  b.txt ; 12" ++ [x0a] ++ lit "# c" ++ [x0a; xe3; x80; x80]
         ++ lit "d" ++ [xf0; x9f; x98; xff] ++ lit ".txt")
    [lit "a.txt"; lit "b.txt"; lit "d" ++ encode 0xFFFD ++ encode 0xFFFD ++ lit ".txt"].
Proof. apply C67_lists. vm_compute. reflexivity. Qed.

(** Two names in the list, of which one is a file *)
Example C67_listing_example : open_archive toy listed_file = Ok listed_arc /\
  list_files toy listed_arc = Ok [mkFE (lit "(LISTFILE)") 29 29 0x81000000 None].
Proof.
  split; [exact listed_opens|].
  apply (C67_listing toy listed_arc listed_info listed_text [lit "gone.txt"; lit "(LISTFILE)"]);
    [vm_compute; reflexivity|vm_compute; reflexivity|apply C67_lists; vm_compute; reflexivity|].
  exists [[]; [mkFE (lit "(LISTFILE)") 29 29 0x81000000 None]]. split; [|reflexivity].
  constructor; [right; split; vm_compute; reflexivity|]. constructor; [|constructor].
  left. exists listed_info. split; vm_compute; reflexivity.
Qed.
