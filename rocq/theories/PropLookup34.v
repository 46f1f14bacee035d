(** * C18 and what follows from it for archives of version 3 and 4 with any number of entries. *)
From Verif Require Import Bytes Crypto SpecNames NameFacts HashTable BlockTable Header Compress SpecTables SpecCompress ToyCodec
  Listfile HetBet Builder BuilderFacts Attributes Archive SpecArchive SpecArchive34 ArchiveFacts Archive34Facts SpecListfile
  ListfileFacts Signature Info SpecDigest SpecBuilding BuildCalm BuildOk Cli SpecCli CliFacts CliBuilt34 CliCreate SpecCreate
  CreateFacts EndToEnd SpecNameTable NameTableFacts NameArchiveFacts DemoArchive Demo34 DemoSuccess DemoCli DemoCli34 DemoCreate DemoNames34.
Open Scope N_scope.

(** Which names are looked up wrongly is a matter of the names alone, see [mistaken]. A mistaken name is
    taken for that of the first file, or ends the program if the entries of the block table (BET) are of
    64 bits or more; unless that table has less than eight bytes. Every other name leads to its file. *)
Theorem C18_exact_partial :
  forall (L : codecs) (md5 : bytes -> bytes) (c : config) (files : list pending) (arc pre post : bytes),
  lossless L -> built34_at L md5 c files arc pre post ->
  no_collision (special_listfile :: map pf_name files) ->
  (hashes_apart special_attributes (special_listfile :: map pf_name files) -> ~ mistaken c files special_attributes ->
     exists a, open_archive L (pre ++ arc ++ post) = Ok a) /\
    forall a, open_archive L (pre ++ arc ++ post) = Ok a -> exists b, a_bet a = Some b /\
      forall name,
        (mistaken c files name /\ 8 <= lenN (bet_table b) ->
         (64 <= bet_entry_bits b -> find_file a name = Panic) /\
         (bet_entry_bits b < 64 -> exists fi f0, find_file a name = Ok (Some fi) /\
            hd_error (prepare_listfile c files) = Some f0 /\ points_to L c a f0 fi)) /\
        (~ mistaken c files name \/ lenN (bet_table b) < 8 ->
         (forall f, means files name f -> (exists fi, find_file a name = Ok (Some fi) /\ points_to L c a f fi) /\
            (reads_back L c (pf_comp f) (pf_data f) -> read_file L a name = Ok (pf_data f))) /\
         (hashes_apart name (special_listfile :: map pf_name files) ->
            find_file a name = Ok None /\ read_file L a name = Err EFileNotFound)).
Proof. exact lookups_exact. Qed.
Print Assumptions C18_exact_partial.

(** Every built archive has its places, and there is only one way to give them. *)
Theorem C18_places :
  forall (L : codecs) (md5 : bytes -> bytes) (c : config) (files : list pending) (arc pre post : bytes),
  built34_at L md5 c files arc pre post -> 0 < entry_count c files ->
  exists m hb ib places, widths (lenN (entry_names c files)) m hb ib /\ seated m (entry_names c files) places /\
    (forall m' hb' ib', widths (lenN (entry_names c files)) m' hb' ib' -> m' = m /\ hb' = hb /\ ib' = ib) /\
    forall other, seated m (entry_names c files) other -> other = places.
Proof. exact places_once. Qed.
Print Assumptions C18_places.

(** With at most four entries no name is mistaken. *)
Theorem C18_few_sure :
  forall (c : config) (files : list pending), entry_count c files <= 4 -> forall name, ~ mistaken c files name.
Proof. exact (fun c files H name => mistaken_few no_md5 c files name H). Qed.
Print Assumptions C18_few_sure.

(** Five files of which the third is mistaken for the first *)
Example C18_exact_example :
  exists a fi, open_archive toy (five_arc ++ []) = Ok a /\ mistaken five_cfg five_files (lit "c.txt") /\
    find_file a (lit "c.txt") = Ok (Some fi) /\ points_to toy five_cfg a (plain (lit "a.txt") (lit "AA")) fi /\
    read_file toy a (lit "d.txt") = Ok (lit "DDDDD").
Proof.
  destruct (C18_exact_partial toy no_md5 five_cfg five_files five_arc [] [] toy_lossless five_built five_no_collision) as [_ H].
  cbn [app] in H. rewrite app_nil_r in *. specialize (H five_open five_opens). destruct H as (b & Hb & H).
  assert (E : a_bet five_open = Some b) by exact Hb. vm_compute in E. injection E as <-.
  destruct five_mistaken as (Hc & _ & Hd).
  destruct (H (lit "c.txt")) as [Hm _]. destruct Hm as [_ Hm]; [split; [exact Hc|vm_compute; discriminate]|].
  destruct Hm as (fi & f0 & Hf & Hhd & Hpt); [vm_compute; reflexivity|]. vm_compute in Hhd. injection Hhd as <-.
  exists five_open, fi. split; [exact five_opens|]. split; [exact Hc|]. split; [exact Hf|]. split; [exact Hpt|].
  destruct (H (lit "d.txt")) as [_ Hn]. destruct Hn as [Hn _]; [left; exact Hd|].
  refine (proj2 (Hn (plain (lit "d.txt") (lit "DDDDD")) _) _).
  - eexists [_; _; _], []. split; [reflexivity|]. split; [apply name_equiv_refl|].
    intros g Hg K. apply name_equivb_complete in K. repeat (destruct Hg as [<-|Hg]; [vm_compute in K; discriminate K|]). destruct Hg.
  - left. split; [vm_compute; discriminate|]. split; [vm_compute; reflexivity|]. left. reflexivity.
Qed.

(** Opening, listing, verifying, unpacking, inspecting and the way from the files handed in to the files read back,
    all for archives none of whose names is mistaken *)
(** C37: the listing *)
Theorem C37_v3_v4_sure_partial :
  forall (L : codecs) (md5 : bytes -> bytes) (c : config) (files : list pending) (arc pre post : bytes),
  lossless L -> built34_at L md5 c files arc pre post -> no_mistake c files -> c_listfile c = LGenerate ->
  no_collision (special_listfile :: map pf_name files) ->
  hashes_apart special_attributes (special_listfile :: map pf_name files) ->
  (forall f, In f files ->
     is_text (pf_name f) /\ listable (pf_name f) /\ ~ name_equiv special_listfile (pf_name f)) ->
  reads_back L c (c_default c) (listfile_content (map pf_name files)) ->
  exists a l, open_archive L (pre ++ arc ++ post) = Ok a /\ list_files L a = Ok l /\
    map fe_name l = map pf_name files ++ [special_listfile] /\
    forall e f, In e l -> means files (fe_name e) f -> lenN (pf_data f) < 2 ^ 32 ->
      fe_size e = lenN (pf_data f).
Proof. exact sure34_listing. Qed.
Print Assumptions C37_v3_v4_sure_partial.

(** C41: the verification *)
Theorem C41_v3_v4_sure_partial :
  forall (L : codecs) (md5 sha1 : bytes -> bytes) (rd : N -> N -> N)
    (c : config) (files : list pending) (arc pre post : bytes) (cc : bool),
  lossless L -> built34_at L md5 c files arc pre post -> no_mistake c files -> c_listfile c = LGenerate ->
  no_collision (special_listfile :: map pf_name files) ->
  hashes_apart special_attributes (special_listfile :: map pf_name files) ->
  hashes_apart (lit "(signature)") (special_listfile :: map pf_name files) ->
  (forall f, In f files ->
     is_text (pf_name f) /\ listable (pf_name f) /\ ~ name_equiv special_listfile (pf_name f)) ->
  reads_back L c (c_default c) (listfile_content (map pf_name files)) ->
  (forall f, In f files -> reads_back L c (pf_comp f) (pf_data f)) ->
  verify L md5 sha1 rd (pre ++ arc ++ post) cc = Ok tt.
Proof. exact sure34_verify. Qed.
Print Assumptions C41_v3_v4_sure_partial.

(** C42: packing and unpacking *)
Theorem C42_v3_v4_sure_partial :
  forall (L : codecs) (md5 : bytes -> bytes) (c : config) (walk : list found) (arc pre post : bytes)
    (cwd : place) (dir : bytes) (dl : place),
  lossless L -> built34_at L md5 c (create_files c walk) arc pre post -> no_mistake c (create_files c walk) -> c_listfile c = LGenerate ->
  no_collision (special_listfile :: map pf_name (create_files c walk)) ->
  hashes_apart special_attributes (special_listfile :: map pf_name (create_files c walk)) ->
  (forall f, In f (create_files c walk) ->
     is_text (pf_name f) /\ listable (pf_name f) /\ ~ name_equiv special_listfile (pf_name f)) ->
  reads_back L c (c_default c) (listfile_content (map pf_name (create_files c walk))) ->
  (forall f, In f walk ->
     f_parts f <> [] /\ Forall component (f_parts f) /\ reads_back L c (c_default c) (f_data f)) ->
  leads cwd dir dl ->
  exists acts ws p d, extract L (pre ++ arc ++ post) None (Some dir) true = (acts, Ok tt) /\
    writes_of acts = ws ++ [(p, d)] /\
    Forall2 (fun f w => leads cwd (fst w) (dl ++ f_parts f) /\ snd w = f_data f) walk ws /\
    leads cwd p (dl ++ [special_listfile]).
Proof. exact (fun L md5 => sure34_pack L md5 md5 N.min). Qed.
Print Assumptions C42_v3_v4_sure_partial.

(** C49: inspection *)
Theorem C49_v3_v4_sure_partial :
  forall (L : codecs) (md5 sha1 : bytes -> bytes) (rd : N -> N -> N)
    (c : config) (files : list pending) (arc pre post : bytes),
  built34_at L md5 c files arc pre post -> no_mistake c files ->
  no_collision (special_listfile :: map pf_name files) ->
  hashes_apart special_attributes (special_listfile :: map pf_name files) ->
  hashes_apart (lit "(signature)") (special_listfile :: map pf_name files) ->
  exists a i, open_archive L (pre ++ arc ++ post) = Ok a /\ get_info L md5 sha1 rd a = Ok i /\
    i_version i = c_version c /\ i_sector_size i = (512 * 2 ^ c_block_size c) mod 2 ^ 64 /\
    i_file_count i = entry_count c files /\ i_max_count i = entry_count c files /\
    (i_encrypted i = true <-> exists f, In f files /\ pf_encrypt f = true) /\
    (i_has_listfile i = true <->
       c_listfile c <> LNone \/ exists f, In f files /\ name_equiv special_listfile (pf_name f)) /\
    i_has_signature i = false /\ i_signature i = SigNone /\ i_has_attributes i = false /\
    i_md5 i = match c_version c with V4 => Some (mkMS true true true true true true) | _ => None end.
Proof. exact sure34_info. Qed.
Print Assumptions C49_v3_v4_sure_partial.

(** C51: from the files handed in to the files read back *)
Theorem C51_v3_v4_sure_partial :
  forall (L : codecs) (md5 : bytes -> bytes) (c : config) (files : list pending),
  lossless L -> calm_encoders L -> c_version c = V3 \/ c_version c = V4 -> c_ctables c = false ->
  (forall x, lenN (md5 x) = 16) -> well_typed c files ->
  c_block_size c < 55 -> narrow (all_contents c files) -> no_mistake c files ->
  Forall (packable L c) (all_stored c files) -> all_distinct (all_names c files) ->
  no_collision (special_listfile :: map pf_name files) ->
  hashes_apart special_attributes (special_listfile :: map pf_name files) ->
  exists arc a, build L md5 c files = Ok arc /\ open_archive L arc = Ok a /\
    (forall name f, means files name f -> reads_back L c (pf_comp f) (pf_data f) ->
       read_file L a name = Ok (pf_data f)) /\
    (forall name, ~ mistaken c files name -> hashes_apart name (special_listfile :: map pf_name files) ->
       find_file a name = Ok None /\ read_file L a name = Err EFileNotFound).
Proof. exact end_to_end34_sure. Qed.
Print Assumptions C51_v3_v4_sure_partial.

(** C59: from a directory into an archive and back *)
Theorem C59_v3_v4_sure_partial :
  forall (L : codecs) (md5 : bytes -> bytes) (c : config) (src : bytes) (follow deep : bool) (pats : list bytes) (t : tree)
    (walk : list found),
  is_text src -> proper t ->
  added src follow deep pats true t = Ok (map (fun f => (f_parts f, Some (f_data f))) walk) ->
  (forall p d, file_at follow t p (Some d) -> wanted src deep pats p ->
     Forall component p /\ listable (with_slashes p) /\ ~ name_equiv (lit "(listfile)") (with_slashes p) /\
     reads_back L c (c_default c) d) ->
  lossless L -> calm_encoders L -> c_listfile c = LGenerate -> c_block_size c < 55 -> c_default c < 256 ->
  Forall (packable L c) (all_stored c (create_files c walk)) -> all_distinct (all_names c (create_files c walk)) ->
  no_collision (special_listfile :: map pf_name (create_files c walk)) ->
  hashes_apart special_attributes (special_listfile :: map pf_name (create_files c walk)) ->
  reads_back L c (c_default c) (listfile_content (map pf_name (create_files c walk))) ->
  forall (cwd : place) (dir : bytes) (dl : place), c_version c = V3 \/ c_version c = V4 -> c_ctables c = false ->
  (forall x, lenN (md5 x) = 16) -> no_mistake c (create_files c walk) ->
  narrow (all_contents c (create_files c walk)) -> leads cwd dir dl ->
  exists arc acts, create_archive L md5 c src follow deep pats (SDir true t) = Ok arc /\
    extract L arc None (Some dir) true = (acts, Ok tt) /\ restored src follow deep pats t cwd dl acts.
Proof. exact there_and_back34_sure. Qed.
Print Assumptions C59_v3_v4_sure_partial.

(** Eight files in version 4 *)
Example C51_v3_v4_sure_example :
  exists arc a, build toy no_md5 eight_cfg eight_files = Ok arc /\ open_archive toy arc = Ok a /\
    read_file toy a (lit "I.TXT") = Ok (lit "content of i.txt") /\ find_file a (lit "z.txt") = Ok None.
Proof.
  destruct (C51_v3_v4_sure_partial toy no_md5 eight_cfg eight_files toy_lossless toy_calm (or_intror eq_refl) eq_refl
    (fun _ => eq_refl) eight_typed eq_refl) as (arc & a & E & Ho & Hr & Ha).
  - apply narrow_small. vm_compute. discriminate.
  - exact eight_no_mistake.
  - exact eight_packable.
  - exact eight_distinct.
  - exact eight_no_collision.
  - apply eight_apart. left. reflexivity.
  - exists arc, a. split; [exact E|]. split; [exact Ho|]. split.
    + refine (Hr (lit "I.TXT") (mkPF (lit "content of i.txt") (lit "i.txt") ZLIB false false 0) _ _).
      * eexists [_; _; _; _; _; _; _], []. split; [reflexivity|]. split; [apply name_equivb_sound; vm_compute; reflexivity|].
        intros g Hg K. apply name_equivb_complete in K. repeat (destruct Hg as [<-|Hg]; [vm_compute in K; discriminate K|]). destruct Hg.
      * apply eight_reads. right. do 7 right. left. reflexivity.
    + apply Ha; [exact eight_other|]. apply eight_apart. right. right. left. reflexivity.
Qed.
Example C41_v3_v4_sure_example :
  exists arc, build toy no_md5 eight_cfg eight_files = Ok arc /\ forall sha1 rd cc, verify toy no_md5 sha1 rd arc cc = Ok tt.
Proof.
  destruct eight_arc as (arc & E & B). exists arc. split; [exact E|]. intros sha1 rd cc.
  pose proof (C41_v3_v4_sure_partial toy no_md5 sha1 rd eight_cfg eight_files arc [] [] cc toy_lossless B eight_no_mistake eq_refl
    eight_no_collision (eight_apart _ (or_introl eq_refl)) (eight_apart _ (or_intror (or_introl eq_refl))) eight_names
    (eight_reads _ (or_introl eq_refl))) as H.
  cbn [app] in H. rewrite app_nil_r in H. apply H.
  intros f Hf. apply in_map_iff in Hf as (x & <- & Hx). apply eight_reads. right. exact (in_map f_data _ _ Hx).
Qed.
Example C37_v3_v4_sure_example :
  exists arc a l, build toy no_md5 eight_cfg eight_files = Ok arc /\ open_archive toy (arc ++ []) = Ok a /\ list_files toy a = Ok l /\
    length l = 9%nat /\ In (lit "i.txt") (map fe_name l).
Proof.
  destruct eight_arc as (arc & E & B). exists arc.
  destruct (C37_v3_v4_sure_partial toy no_md5 eight_cfg eight_files arc [] [] toy_lossless B eight_no_mistake eq_refl
    eight_no_collision (eight_apart _ (or_introl eq_refl)) eight_names (eight_reads _ (or_introl eq_refl))) as (a & l & Ho & Hl & Hn & _).
  exists a, l. split; [exact E|]. split; [exact Ho|]. split; [exact Hl|]. split.
  - apply (f_equal (@length _)) in Hn. rewrite map_length in Hn. rewrite Hn. reflexivity.
  - rewrite Hn. vm_compute. auto 12.
Qed.
Example C49_v3_v4_sure_example :
  exists arc a i, build toy no_md5 eight_cfg eight_files = Ok arc /\ open_archive toy (arc ++ []) = Ok a /\
    get_info toy no_md5 no_md5 all_read a = Ok i /\ i_version i = V4 /\ i_file_count i = 9 /\ i_has_listfile i = true.
Proof.
  destruct eight_arc as (arc & E & B). exists arc.
  destruct (C49_v3_v4_sure_partial toy no_md5 no_md5 all_read eight_cfg eight_files arc [] [] B eight_no_mistake
    eight_no_collision (eight_apart _ (or_introl eq_refl)) (eight_apart _ (or_intror (or_introl eq_refl))))
    as (a & i & Ho & Hi & H1 & _ & H3 & _ & _ & H4 & _).
  exists a, i. split; [exact E|]. split; [exact Ho|]. split; [exact Hi|]. split; [exact H1|]. split; [exact H3|]. apply H4. left. discriminate.
Qed.
Example C42_v3_v4_sure_example :
  exists arc acts ws p d, build toy no_md5 eight_cfg eight_files = Ok arc /\
    extract toy (arc ++ []) None (Some (lit "out/")) true = (acts, Ok tt) /\ writes_of acts = ws ++ [(p, d)] /\
    Forall2 (fun f w => leads [lit "home"] (fst w) ([lit "home"; lit "out"] ++ f_parts f) /\ snd w = f_data f) eight_walk ws.
Proof.
  destruct eight_arc as (arc & E & B). exists arc.
  destruct (C42_v3_v4_sure_partial toy no_md5 eight_cfg eight_walk arc [] [] [lit "home"] (lit "out/") [lit "home"; lit "out"]
    toy_lossless B eight_no_mistake eq_refl eight_no_collision (eight_apart _ (or_introl eq_refl)) eight_names
    (eight_reads _ (or_introl eq_refl))) as (acts & ws & p & d & H1 & H2 & H3 & _).
  - intros f Hf. split; [|split].
    + repeat (destruct Hf as [<-|Hf]; [discriminate|]). destruct Hf.
    + repeat (destruct Hf as [<-|Hf]; [repeat constructor; apply componentb; vm_compute; reflexivity|]). destruct Hf.
    + apply eight_reads. right. exact (in_map f_data _ _ Hf).
  - now apply leads_loc.
  - exists acts, ws, p, d. auto.
Qed.
Example C59_v3_v4_sure_example :
  exists arc acts, create_archive toy no_md5 eight_cfg (lit "src") false true [] (SDir true eight_tree) = Ok arc /\
    extract toy arc None (Some (lit "out")) true = (acts, Ok tt) /\
    restored (lit "src") false true [] eight_tree [lit "home"] [lit "home"; lit "out"] acts.
Proof.
  apply (C59_v3_v4_sure_partial toy no_md5 eight_cfg (lit "src") false true [] eight_tree eight_walk src_text eight_proper
    eight_added eight_fine toy_lossless toy_calm eq_refl eq_refl eq_refl eight_packable eight_distinct eight_no_collision
    (eight_apart _ (or_introl eq_refl)) (eight_reads _ (or_introl eq_refl)) [lit "home"] (lit "out") [lit "home"; lit "out"]
    (or_intror eq_refl) eq_refl (fun _ => eq_refl) eight_no_mistake).
  - apply narrow_small. vm_compute. discriminate.
  - now apply leads_loc.
Qed.
