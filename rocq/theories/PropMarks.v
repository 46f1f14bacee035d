(** * C85: what an archive tells about how a file is stored. *)
From Verif Require Import Bytes Crypto SpecNames HashTable Header Compress SpecTables SpecCompress ToyCodec Builder Archive
  SpecArchive SpecArchive34 SpecConform SpecialInfo SpecMarks MarksFacts DemoArchive Demo34 DemoConform MarksDemo.
Open Scope N_scope.

(** C85: what the record found for a file tells is how it was added. *)
Theorem C85_told :
  forall (L : codecs) (md5 : bytes -> bytes) (c : config) (files : list pending) (arc pre post : bytes),
  built_at L md5 c files arc pre post ->
  no_collision (special_listfile :: map pf_name files) ->
  hashes_apart special_attributes (special_listfile :: map pf_name files) ->
  exists a, open_archive L (pre ++ arc ++ post) = Ok a /\
    forall name f, means files name f ->
      exists fi, find_file a name = Ok (Some fi) /\ told L c f fi /\ nothing_else (fi_flags fi).
Proof. exact told_files12. Qed.
Print Assumptions C85_told.

(** The same in version 3 and 4 where there are few entries; with more of them the
    record found can be that of another file (C18). *)
Theorem C85_told_few_entries_partial :
  forall (L : codecs) (md5 : bytes -> bytes) (c : config) (files : list pending) (arc pre post : bytes),
  built34_at L md5 c files arc pre post -> entry_count c files <= 4 ->
  no_collision (special_listfile :: map pf_name files) ->
  hashes_apart special_attributes (special_listfile :: map pf_name files) ->
  exists a, open_archive L (pre ++ arc ++ post) = Ok a /\
    forall name f, means files name f ->
      exists fi, find_file a name = Ok (Some fi) /\ told L c f fi /\ nothing_else (fi_flags fi).
Proof. exact told_files34. Qed.
Print Assumptions C85_told_few_entries_partial.

(** With more of them: what is told is right for the file, or for the first one. *)
Theorem C85_told_or_first_partial :
  forall (L : codecs) (md5 : bytes -> bytes) (c : config) (files : list pending) (arc pre post : bytes) (a : archive),
  built34_at L md5 c files arc pre post ->
  no_collision (special_listfile :: map pf_name files) ->
  open_archive L (pre ++ arc ++ post) = Ok a ->
  forall name f, means files name f ->
    find_file a name = Panic \/
    exists fi g, find_file a name = Ok (Some fi) /\ (g = f \/ hd_error files = Some g) /\
      flags_told L c g (fi_flags fi) /\ nothing_else (fi_flags fi) /\ fi_size fi = lenN (pf_data g) mod 2 ^ 32.
Proof. exact told_or_first. Qed.
Print Assumptions C85_told_or_first_partial.

(** Two sectors encrypted with an altered key, a short file encrypted, one that
    compression helps, and two sectors as they are *)
Example C85_example :
  built_at toy no_md5 conf_cfg conf_files conf_bytes [] [] /\
  open_archive toy conf_bytes = Ok conf_arc /\
  map (fun n => match find_file conf_arc n with
                | Ok (Some fi) => Some (is_encrypted (fi_flags fi), has_fix_key (fi_flags fi), is_single_unit (fi_flags fi),
                                        has_sector_crc (fi_flags fi), is_compressed (fi_flags fi), fi_size fi)
                | _ => None
                end)
    [lit "DIR/Fit.bin"; lit "five.txt"; lit "even.txt"; lit "plain.bin"] =
  [Some (true, true, false, true, true, 612); Some (true, false, true, true, false, 5);
   Some (false, false, true, true, true, 4); Some (false, false, false, true, false, 600)].
Proof. split; [exact conf_built|]. split; [exact conf_opens|]. vm_compute. reflexivity. Qed.

Example C85_few_entries_example :
  built34_at toy toy_md5 four_cfg four_files four_arc demo_pre demo_post /\ entry_count four_cfg four_files <= 4 /\
  exists a, open_archive toy four_file = Ok a /\
    match find_file a (lit "DIR/A.TXT") with Ok (Some fi) => fi_size fi = 11 /\ is_encrypted (fi_flags fi) = pf_encrypt file_a | _ => False end.
Proof.
  split; [exact four_built|]. split; [vm_compute; discriminate|]. eexists. split; [vm_compute; reflexivity|].
  vm_compute. split; reflexivity.
Qed.

(** Files of four and five bytes: the first is told as the two bytes of the first file. *)
Example C85_told_or_first_example :
  built34_at toy no_md5 five_cfg five_files five_arc [] [] /\ no_collision (special_listfile :: map pf_name five_files) /\
  open_archive toy five_arc = Ok five_open /\ means five_files (lit "c.txt") five_c /\
  map (fun n => match find_file five_open n with Ok (Some fi) => Some (fi_size fi) | _ => None end)
    [lit "c.txt"; lit "d.txt"] = [Some 2; Some 5].
Proof.
  split; [exact five_built|]. split; [exact five_no_collision|]. split; [exact five_opens|].
  split; [exact five_means_c|]. vm_compute. reflexivity.
Qed.

(** The entries of a listing tell the same. *)
Theorem C85_listed :
  forall (L : codecs) (md5 : bytes -> bytes) (c : config) (files : list pending) (arc pre post : bytes) (a : archive)
    (es : list fentry),
  built_at L md5 c files arc pre post ->
  no_collision (special_listfile :: map pf_name files) ->
  hashes_apart special_attributes (special_listfile :: map pf_name files) ->
  open_archive L (pre ++ arc ++ post) = Ok a -> find_file a special_listfile <> Ok None -> list_files L a = Ok es ->
  forall x f, In x es -> means files (fe_name x) f ->
    flags_told L c f (fe_flags x) /\ nothing_else (fe_flags x) /\ fe_size x = lenN (pf_data f) mod 2 ^ 32.
Proof. exact told_listed. Qed.
Print Assumptions C85_listed.

Example C85_listed_example : exists a es,
  built_at toy no_md5 demo_cfg demo_files demo_arc demo_pre demo_post /\
  open_archive toy demo_file = Ok a /\ find_file a special_listfile <> Ok None /\ list_files toy a = Ok es /\
  map (fun x => (fe_size x, is_encrypted (fe_flags x), is_compressed (fe_flags x))) es =
    map (fun f => (lenN (pf_data f), pf_encrypt f, 100 <? lenN (pf_data f))) demo_files ++ [(48, false, false)].
Proof. exact demo_listed. Qed.

(** In version 3 and 4 an entry tells this of its file, or of the first one. *)
Theorem C85_listed_or_first_partial :
  forall (L : codecs) (md5 : bytes -> bytes) (c : config) (files : list pending) (arc pre post : bytes) (a : archive)
    (es : list fentry),
  built34_at L md5 c files arc pre post ->
  no_collision (special_listfile :: map pf_name files) ->
  open_archive L (pre ++ arc ++ post) = Ok a -> find_file a special_listfile <> Ok None -> list_files L a = Ok es ->
  forall x f, In x es -> means files (fe_name x) f ->
    exists g, (g = f \/ hd_error files = Some g) /\
      flags_told L c g (fe_flags x) /\ nothing_else (fe_flags x) /\ fe_size x = lenN (pf_data g) mod 2 ^ 32.
Proof. exact listed_or_first. Qed.
Print Assumptions C85_listed_or_first_partial.

(** The third file is listed with the size of the first. *)
Example C85_listed_or_first_example : exists es,
  built34_at toy no_md5 five_cfg five_files five_arc [] [] /\ open_archive toy five_arc = Ok five_open /\
  find_file five_open special_listfile <> Ok None /\ list_files toy five_open = Ok es /\
  map (fun x => (fe_name x, fe_size x)) (firstn 4 es) =
    [(lit "a.txt", 2); (lit "b.txt", 3); (lit "c.txt", 2); (lit "d.txt", 5)].
Proof.
  eexists. split; [exact five_built|]. split; [exact five_opens|]. split; [vm_compute; discriminate|].
  split; vm_compute; reflexivity.
Qed.

(** A file told to be compressed need not take less room than its content, and one
    told not to be can take more. *)
Theorem C85_smaller_refuted :
  exists L md5 c files arc a x y, lossless L /\ built_at L md5 c files arc [] [] /\ open_archive L arc = Ok a /\
    In (pf_name x) (map pf_name files) /\ In (pf_name y) (map pf_name files) /\
    exists fx fy, find_file a (pf_name x) = Ok (Some fx) /\ find_file a (pf_name y) = Ok (Some fy) /\
      is_compressed (fi_flags fx) = true /\ fi_csize fx = fi_size fx /\
      is_compressed (fi_flags fy) = false /\ fi_size fy < fi_csize fy.
Proof. exact not_smaller. Qed.
Print Assumptions C85_smaller_refuted.

(** A key altered by the position, asked for without encryption, is not told. *)
Theorem C85_fix_key_refuted :
  exists L md5 c f arc a fi, lossless L /\ built_at L md5 c [f] arc [] [] /\ open_archive L arc = Ok a /\
    pf_fix f = true /\ find_file a (pf_name f) = Ok (Some fi) /\ has_fix_key (fi_flags fi) = false.
Proof. exact fix_not_told. Qed.
Print Assumptions C85_fix_key_refuted.

(** What is known about special files by their names: four of them, none
    encrypted. *)
Theorem C85_special_names :
  forall name, (exists si, special_info name = Some si) <->
    In name [lit "(listfile)"; lit "(attributes)"; lit "(signature)"; lit "(user data)"].
Proof. exact special_iff. Qed.
Print Assumptions C85_special_names.

Theorem C85_special_plain :
  forall name si, special_info name = Some si ->
    si_name si = name /\ si_encrypted si = false /\
    (si_compressed si = true <-> name = lit "(listfile)" \/ name = lit "(attributes)").
Proof. exact special_says. Qed.
Print Assumptions C85_special_plain.

Example C85_special_example :
  special_info (lit "(signature)") = Some (mkSI (lit "(signature)") false false) /\ special_info (lit "a.txt") = None.
Proof. vm_compute. split; reflexivity. Qed.

(** The list file the builder adds is never encrypted, as that says... *)
Theorem C85_listfile :
  forall (L : codecs) (md5 : bytes -> bytes) (c : config) (files : list pending) (arc pre post : bytes),
  built_at L md5 c files arc pre post ->
  no_collision (special_listfile :: map pf_name files) ->
  hashes_apart special_attributes (special_listfile :: map pf_name files) ->
  c_listfile c <> LNone -> (forall f, In f files -> ~ name_equiv special_listfile (pf_name f)) ->
  exists a fi, open_archive L (pre ++ arc ++ post) = Ok a /\ find_file a special_listfile = Ok (Some fi) /\
    is_encrypted (fi_flags fi) = false /\ has_fix_key (fi_flags fi) = false /\
    has_sector_crc (fi_flags fi) = c_crcs c /\ fi_locale fi = 0 /\
    (c_default c = 0 -> is_compressed (fi_flags fi) = false).
Proof. exact told_listfile. Qed.
Print Assumptions C85_listfile.

Example C85_listfile_example :
  built_at toy no_md5 demo_cfg demo_files demo_arc demo_pre demo_post /\ c_listfile demo_cfg <> LNone /\
  forall f, In f demo_files -> ~ name_equiv special_listfile (pf_name f).
Proof. exact demo_listfile_added. Qed.

(** ... but it need not be compressed, as that also says, and is found under other
    spellings that are not known. *)
Theorem C85_special_refuted :
  exists L md5 c files arc pre post a name fi si other,
    lossless L /\ built_at L md5 c files arc pre post /\ c_listfile c = LGenerate /\
    open_archive L (pre ++ arc ++ post) = Ok a /\ find_file a name = Ok (Some fi) /\
    special_info name = Some si /\ si_compressed si = true /\ is_compressed (fi_flags fi) = false /\
    find_file a other = Ok (Some fi) /\ special_info other = None.
Proof. exact special_wrong. Qed.
Print Assumptions C85_special_refuted.
