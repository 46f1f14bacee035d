(** * Concrete archives for the statements about the command line tool. *)
From Verif Require Import Bytes Crypto SpecNames NameFacts HashTable BlockTable Header SpecHeader Compress SpecTables
  SpecCompress ToyCodec CompressFacts Listfile SpecListfile ListfileFacts Adler Builder Attributes Archive SpecArchive
  DemoArchive Demo34 Signature Info SpecDigest Cli SpecCli CliFacts CliBuilt.
Open Scope N_scope.

Definition all_read (n k : N) : N := N.min n k.
Definition cli_cfg := mkCfg V1 3 LGenerate ZLIB false false ZLIB.

(** ** Names that lead out of the output directory *)
Definition evil_files := [plain (lit "good.txt") (lit "good"); plain (lit "../evil.txt") (lit "evil")].
Definition evil_arc : bytes :=
  Eval vm_compute in match build toy no_md5 cli_cfg evil_files with Ok a => a | _ => [] end.
Definition abs_files := [plain (lit "/etc/evil.txt") (lit "evil")].
Definition abs_arc : bytes :=
  Eval vm_compute in match build toy no_md5 cli_cfg abs_files with Ok a => a | _ => [] end.
Definition up_arc : bytes :=
  Eval vm_compute in match build toy no_md5 cli_cfg [plain (lit "..") (lit "x")] with Ok a => a | _ => [] end.

Definition escapes (file : bytes) : Prop :=
  exists acts p d l, extract toy file None (Some (lit "out")) true = (acts, Ok tt) /\
    leads [lit "home"] (lit "out") [lit "home"; lit "out"] /\
    In (AWrite p d) acts /\ touches [lit "home"] (AWrite p d) l /\ ~ below [lit "home"; lit "out"] l.

Lemma escapes_by file acts p d :
  extract toy file None (Some (lit "out")) true = (acts, Ok tt) -> In (AWrite p d) acts ->
  firstn 2 (loc [lit "home"] p) <> [lit "home"; lit "out"] -> escapes file.
Proof.
  intros H Hin Hn. exists acts, p, d, (loc [lit "home"] p). split; [exact H|]. split; [now apply leads_loc|].
  split; [exact Hin|]. split; [constructor; now apply leads_loc|].
  intros (r & E). apply Hn. rewrite E. reflexivity.
Qed.
Lemma evil_escapes : escapes evil_arc.
Proof.
  eapply (escapes_by _ _ (lit "out/../evil.txt") (lit "evil")).
  - vm_compute. reflexivity.
  - do 3 right. left. reflexivity.
  - vm_compute. discriminate.
Qed.
Lemma abs_escapes : escapes abs_arc.
Proof.
  eapply (escapes_by _ _ (lit "/etc/evil.txt") (lit "evil")).
  - vm_compute. reflexivity.
  - right. left. reflexivity.
  - vm_compute. discriminate.
Qed.
Lemma up_crashes : extract toy up_arc None (Some (lit "out")) false = ([], Panic).
Proof. vm_compute. reflexivity. Qed.

(** ** Verification that succeeds *)
(** An archive whose own list names a file it does not have. *)
Definition ghost_cfg :=
  mkCfg V1 3 (LExternal (lit "good.txt" ++ ["010"%byte] ++ lit "gone.txt")) ZLIB false false ZLIB.
Definition ghost_arc : bytes :=
  Eval vm_compute in match build toy no_md5 ghost_cfg [plain (lit "good.txt") (lit "good")] with Ok a => a | _ => [] end.
Lemma ghost_verified :
  verify toy no_md5 no_md5 all_read ghost_arc true = Ok tt /\
  exists a d, open_archive toy ghost_arc = Ok a /\ read_file toy a LISTFILE = Ok d /\
    In (lit "gone.txt") (parse_listfile d) /\ find_file a (lit "gone.txt") = Ok None /\
    read_file toy a (lit "gone.txt") = Err EFileNotFound.
Proof.
  split; [vm_compute; reflexivity|].
  eexists. exists (lit "good.txt" ++ ["010"%byte] ++ lit "gone.txt"). split; [vm_compute; reflexivity|].
  split; [vm_compute; reflexivity|]. split; [vm_compute; right; left; reflexivity|].
  split; vm_compute; reflexivity.
Qed.

(** The archive of C11 whose file of two stored sectors is not read back. *)
Lemma raw_verified :
  verify toy no_md5 no_md5 all_read raw_arc true = Ok tt /\
  exists a l e d, open_archive toy raw_arc = Ok a /\ list_files toy a = Ok l /\ In e l /\
    read_file toy a (fe_name e) = Ok d /\ lenN d <> fe_size e.
Proof.
  split; [vm_compute; reflexivity|].
  assert (exists a, open_archive toy raw_arc = Ok a) as (a & Ho) by (eexists; vm_compute; reflexivity).
  assert (exists e r, list_files toy a = Ok (e :: r) /\ exists d, read_file toy a (fe_name e) = Ok d /\ lenN d <> fe_size e)
    as (e & r & Hl & d & Hd & Hn).
  { vm_compute in Ho. apply Ok_inj in Ho. subst a. do 2 eexists. split; [vm_compute; reflexivity|].
    eexists. split; [vm_compute; reflexivity|]. vm_compute. discriminate. }
  exists a, (e :: r), e, d. split; [exact Ho|]. split; [exact Hl|]. split; [left; reflexivity|]. split; [exact Hd|exact Hn].
Qed.

(** A version 4 archive with a changed byte in the header. *)
Definition four_soft : bytes := Eval vm_compute in flip four_file 520.
Lemma four_soft_verified :
  verify toy toy_md5 toy_md5 all_read four_soft true = Ok tt /\
  exists a i s, open_archive toy four_soft = Ok a /\ get_info toy toy_md5 toy_md5 all_read a = Ok i /\
    i_md5 i = Some s /\ flag s DHeader = false.
Proof.
  split; [vm_compute; reflexivity|].
  assert (exists a, open_archive toy four_soft = Ok a) as (a & Ho) by (eexists; vm_compute; reflexivity).
  exists a. assert (G : exists i s, get_info toy toy_md5 toy_md5 all_read a = Ok i /\ i_md5 i = Some s /\ flag s DHeader = false).
  { vm_compute in Ho. apply Ok_inj in Ho. subst a. do 2 eexists. split; [vm_compute; reflexivity|].
    split; [reflexivity|]. vm_compute. reflexivity. }
  destruct G as (i & s & G). exists i, s. split; [exact Ho|exact G].
Qed.

(** An archive with a made-up signature. *)
Definition unsigned_arc : bytes :=
  Eval vm_compute in match build toy no_md5 cli_cfg [plain (lit "(signature)") (repeat x07 72)] with Ok a => a | _ => [] end.
Lemma unsigned_verified :
  verify toy no_md5 no_md5 all_read unsigned_arc true = Ok tt /\
  exists a i, open_archive toy unsigned_arc = Ok a /\ get_info toy no_md5 no_md5 all_read a = Ok i /\
    i_has_signature i = true /\ i_signature i = WeakInvalid.
Proof.
  split; [vm_compute; reflexivity|].
  assert (exists a, open_archive toy unsigned_arc = Ok a) as (a & Ho) by (eexists; vm_compute; reflexivity).
  exists a. assert (G : exists i, get_info toy no_md5 no_md5 all_read a = Ok i /\ i_has_signature i = true /\ i_signature i = WeakInvalid).
  { vm_compute in Ho. apply Ok_inj in Ho. subst a. eexists. split; [vm_compute; reflexivity|].
    split; reflexivity. }
  destruct G as (i & G). exists i. split; [exact Ho|exact G].
Qed.

(** ** Verification that fails on a freshly built archive: one without list *)
Definition bare_cfg := mkCfg V1 3 LNone ZLIB false false ZLIB.
Definition bare_file := plain (lit "a.txt") (lit "content").
Definition bare_arc : bytes :=
  Eval vm_compute in match build toy no_md5 bare_cfg [bare_file] with Ok a => a | _ => [] end.
Lemma bare_built : built_at toy no_md5 bare_cfg [bare_file] bare_arc [] [].
Proof.
  apply one_file_built; [left; reflexivity| |vm_compute; reflexivity|vm_compute; reflexivity].
  split; [reflexivity|]. split; [reflexivity|]. intros f [<-|[]]. split; reflexivity.
Qed.
Lemma bare_fails : verify toy no_md5 no_md5 all_read bare_arc false = Err EInvalidFormat.
Proof. vm_compute. reflexivity. Qed.

(** ** A directory packed and unpacked *)
Definition walk_demo :=
  [mkFound [lit "readme.txt"] (lit "read me"); mkFound [lit "sub"; lit "deep"; lit "x.bin"] (repeat x41 100)].
Definition walk_arc : bytes :=
  Eval vm_compute in match build toy no_md5 cli_cfg (create_files cli_cfg walk_demo) with Ok a => a | _ => [] end.
Lemma walk_built : built_at toy no_md5 cli_cfg (create_files cli_cfg walk_demo) walk_arc [] [].
Proof.
  split; [left; reflexivity|]. split.
  { split; [reflexivity|]. split; [reflexivity|]. intros f Hf.
    repeat (destruct Hf as [<-|Hf]; [split; reflexivity|]). destruct Hf. }
  split; [reflexivity|]. split; [vm_compute; reflexivity|].
  split; [vm_compute; reflexivity|]. split; [vm_compute; reflexivity|].
  apply (reached_start toy no_md5 cli_cfg (create_files cli_cfg walk_demo) walk_arc []); [reflexivity|vm_compute; reflexivity].
Qed.
Lemma walk_no_collision : no_collision (LISTFILE :: map pf_name (create_files cli_cfg walk_demo)).
Proof. apply no_collisionb_sound. vm_compute. reflexivity. Qed.
Lemma walk_apart n : n = ATTRIBUTES \/ n = SIGNATURE ->
  hashes_apart n (LISTFILE :: map pf_name (create_files cli_cfg walk_demo)).
Proof. intros [-> | ->]; apply hashes_apartb_sound; vm_compute; reflexivity. Qed.

(** Packing a file whose name has a backslash, which is an ordinary character
    on Unix. *)
Definition back_walk := [mkFound [lit "a\b.txt"] (lit "text")].
Definition back_arc : bytes :=
  Eval vm_compute in match build toy no_md5 cli_cfg (create_files cli_cfg back_walk) with Ok a => a | _ => [] end.
Lemma back_moves : exists acts p,
  extract toy back_arc None (Some (lit "out")) true = (acts, Ok tt) /\
  In (AWrite p (lit "text")) acts /\ leads [lit "home"] p [lit "home"; lit "out"; lit "a"; lit "b.txt"] /\
  forall w, In w (writes_of acts) -> ~ leads [lit "home"] (fst w) [lit "home"; lit "out"; lit "a\b.txt"].
Proof.
  eexists. exists (lit "out/a/b.txt"). split; [vm_compute; reflexivity|].
  split; [right; left; reflexivity|]. split; [apply leads_loc; vm_compute; reflexivity|].
  intros w Hw. vm_compute in Hw. destruct Hw as [<-|[<-|[]]]; intros K; apply leads_loc in K; vm_compute in K; discriminate.
Qed.
Lemma back_built : built_at toy no_md5 cli_cfg (create_files cli_cfg back_walk) back_arc [] [].
Proof.
  apply one_file_built; [left; reflexivity| |vm_compute; reflexivity|vm_compute; reflexivity].
  split; [reflexivity|]. split; [reflexivity|]. intros f [<-|[]]. split; reflexivity.
Qed.

(** The demands on the packed files. *)
Lemma walk_names : forall f, In f (create_files cli_cfg walk_demo) ->
  is_text (pf_name f) /\ listable (pf_name f) /\ ~ name_equiv LISTFILE (pf_name f).
Proof.
  intros f Hf. split; [|split].
  - repeat (destruct Hf as [<-|Hf]; [apply text_ascii; vm_compute; repeat constructor|]). destruct Hf.
  - apply (parsed_listable (listfile_content (map pf_name (create_files cli_cfg walk_demo)))).
    repeat (destruct Hf as [<-|Hf]; [vm_compute; auto 6|]). destruct Hf.
  - intros H. apply name_equivb_complete in H.
    repeat (destruct Hf as [<-|Hf]; [vm_compute in H; discriminate|]). destruct Hf.
Qed.
Lemma walk_reads : forall d, In d (listfile_content (map pf_name (create_files cli_cfg walk_demo)) :: map f_data walk_demo) ->
  reads_back toy cli_cfg (c_default cli_cfg) d.
Proof.
  intros d Hd. left.
  repeat (destruct Hd as [<-|Hd]; [split; [vm_compute; discriminate|]; split; [vm_compute; reflexivity|];
    right; left; vm_compute; auto|]). destruct Hd.
Qed.
Lemma componentb s :
  negb (bytes_eqb s []) && negb (bytes_eqb s (lit ".")) && negb (bytes_eqb s (lit "..")) &&
  forallb (fun b => negb (beqb b "/"%byte) && negb (beqb b "\"%byte)) s = true -> component s.
Proof.
  intros H. apply andb_prop in H as [H H4]. apply andb_prop in H as [H H3]. apply andb_prop in H as [H1 H2].
  rewrite forallb_forall in H4.
  assert (G : forall t, negb (bytes_eqb s t) = true -> s <> t).
  { intros t E K. apply bytes_eqb_eq' in K. rewrite K in E. discriminate. }
  split; [now apply G|]. split; [now apply G|]. split; [now apply G|].
  split; intros K; specialize (H4 _ K); discriminate H4.
Qed.

(** ** Inspection does not count an empty file *)
Definition empty_files := [plain (lit "a.txt") []; plain (lit "b.txt") (lit "text")].
Lemma count_refuted :
  exists (files : list pending) (arc : bytes) (a : archive) (i : info),
    c_listfile cli_cfg = LGenerate /\ lenN files = 2 /\
    build toy no_md5 cli_cfg files = Ok arc /\ open_archive toy arc = Ok a /\
    (forall f, In f files -> read_file toy a (pf_name f) = Ok (pf_data f)) /\
    get_info toy no_md5 no_md5 all_read a = Ok i /\ i_file_count i = 2.
Proof.
  assert (exists arc, build toy no_md5 cli_cfg empty_files = Ok arc) as (arc & Hb) by (eexists; vm_compute; reflexivity).
  assert (exists a, open_archive toy arc = Ok a) as (a & Ho).
  { vm_compute in Hb. apply Ok_inj in Hb. subst arc. eexists. vm_compute. reflexivity. }
  assert (exists i, get_info toy no_md5 no_md5 all_read a = Ok i /\ i_file_count i = 2 /\
    forall f, In f empty_files -> read_file toy a (pf_name f) = Ok (pf_data f)) as (i & Hi & Hc & Hr).
  { vm_compute in Hb. apply Ok_inj in Hb. subst arc. vm_compute in Ho. apply Ok_inj in Ho. subst a.
    eexists. split; [vm_compute; reflexivity|]. split; [reflexivity|].
    intros f [<-|[<-|[]]]; vm_compute; reflexivity. }
  exists empty_files, arc, a, i. split; [reflexivity|]. split; [reflexivity|]. split; [exact Hb|]. split; [exact Ho|].
  split; [exact Hr|]. split; [exact Hi|exact Hc].
Qed.
