(** * Archives of version 3 and 4 for the command line tool. *)
From Verif Require Import Bytes Crypto SpecNames NameFacts HashTable Header SpecHeader Compress SpecTables SpecCompress
  ToyCodec Listfile Builder BuilderFacts Attributes Archive SpecArchive SpecArchive34 ArchiveFacts SpecListfile ListfileFacts
  Signature Info SpecDigest Cli SpecCli CliFacts CliBuilt DemoArchive Demo34 DemoCli.
Open Scope N_scope.

Definition cfg3 := mkCfg V3 3 LGenerate ZLIB false false ZLIB.

Lemma built34_start c files arc :
  (c_version c = V3 \/ c_version c = V4) -> c_ctables c = false -> well_typed c files -> lenN files < 2 ^ 30 - 2 ->
  build toy no_md5 c files = Ok arc -> lenN arc < 2 ^ 48 -> slice 0 4 arc = Some archive_magic ->
  built34_at toy no_md5 c files arc [] [].
Proof.
  intros Hv Hc Ht Hn Hb Hl Hs. split; [exact Hv|]. split; [exact Hc|]. split; [reflexivity|]. split; [exact Ht|].
  split; [exact Hn|]. split; [exact Hb|]. split; [exact Hl|].
  cbn [app]. rewrite app_nil_r. split; [change (2 ^ 48) with 281474976710656 in Hl; change (2 ^ 63) with 9223372036854775808; lia|].
  exists O. split; [intros j Hj; lia|]. left. split; [exact Hs|reflexivity].
Qed.

Ltac built34 :=
  apply built34_start; [first [left; reflexivity | right; reflexivity]|reflexivity| |reflexivity
    |vm_compute; reflexivity|vm_compute; reflexivity|vm_compute; reflexivity].
Ltac typed34 :=
  split; [reflexivity|]; split; [reflexivity|]; intros f Hf;
  repeat (destruct Hf as [<-|Hf]; [split; reflexivity|]); destruct Hf.

(** ** A directory of two files in version 4 *)
Definition cfg4 := mkCfg V4 3 LGenerate ZLIB false false ZLIB.
Definition walk4_arc : bytes :=
  Eval vm_compute in match build toy no_md5 cfg4 (create_files cfg4 walk_demo) with Ok a => a | _ => [] end.
Lemma walk4_built : built34_at toy no_md5 cfg4 (create_files cfg4 walk_demo) walk4_arc [] [].
Proof. built34. typed34. Qed.
Lemma walk4_reads : forall d, In d (listfile_content (map pf_name (create_files cfg4 walk_demo)) :: map f_data walk_demo) ->
  reads_back toy cfg4 (c_default cfg4) d.
Proof.
  intros d Hd. left.
  repeat (destruct Hd as [<-|Hd]; [split; [vm_compute; discriminate|]; split; [vm_compute; reflexivity|];
    right; left; vm_compute; auto|]). destruct Hd.
Qed.

(** ** A directory of four files in version 3: the third is unpacked with the
    content of the first *)
Definition walk3 :=
  [mkFound [lit "a.txt"] (lit "AA"); mkFound [lit "b.txt"] (lit "BBB");
   mkFound [lit "c.txt"] (lit "CCCC"); mkFound [lit "d.txt"] (lit "DDDDD")].
Definition walk3_arc : bytes :=
  Eval vm_compute in match build toy no_md5 cfg3 (create_files cfg3 walk3) with Ok a => a | _ => [] end.
Lemma walk3_built : built34_at toy no_md5 cfg3 (create_files cfg3 walk3) walk3_arc [] [].
Proof. built34. typed34. Qed.
Lemma walk3_no_collision : no_collision (LISTFILE :: map pf_name (create_files cfg3 walk3)).
Proof. apply no_collisionb_sound. vm_compute. reflexivity. Qed.
Lemma walk3_apart : hashes_apart ATTRIBUTES (LISTFILE :: map pf_name (create_files cfg3 walk3)).
Proof. apply hashes_apartb_sound. vm_compute. reflexivity. Qed.
Lemma walk3_wrong :
  exists (walk : list found) (arc : bytes),
    built34_at toy no_md5 cfg3 (create_files cfg3 walk) arc [] [] /\
    no_collision (LISTFILE :: map pf_name (create_files cfg3 walk)) /\
    hashes_apart ATTRIBUTES (LISTFILE :: map pf_name (create_files cfg3 walk)) /\
    verify toy no_md5 no_md5 all_read arc true = Ok tt /\
    exists acts, extract toy arc None (Some (lit "out")) true = (acts, Ok tt) /\
    exists f p d, In f walk /\ In (AWrite p d) acts /\
      leads [lit "home"] p ([lit "home"; lit "out"] ++ f_parts f) /\ d <> f_data f.
Proof.
  exists walk3, walk3_arc. split; [exact walk3_built|]. split; [exact walk3_no_collision|].
  split; [exact walk3_apart|]. split; [vm_compute; reflexivity|].
  eexists. split; [vm_compute; reflexivity|].
  exists (mkFound [lit "c.txt"] (lit "CCCC")), (lit "out/c.txt"), (lit "AA").
  split; [do 2 right; left; reflexivity|]. split; [do 5 right; left; reflexivity|].
  split; [apply leads_loc; vm_compute; reflexivity|]. vm_compute. discriminate.
Qed.

Lemma many_not_verified :
  exists (files : list pending) (arc : bytes),
    built34_at toy no_md5 five_cfg files arc [] [] /\ c_listfile five_cfg = LGenerate /\
    no_collision (LISTFILE :: map pf_name files) /\
    hashes_apart ATTRIBUTES (LISTFILE :: map pf_name files) /\
    verify toy no_md5 no_md5 all_read arc true = Err EInvalidFormat.
Proof.
  exists many_files, many_arc. split; [exact many_built|]. split; [reflexivity|].
  split; [exact many_no_collision|]. split; [exact many_apart|].
  unfold verify. rewrite many_fails. reflexivity.
Qed.
