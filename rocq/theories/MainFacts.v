(** * What the commands print as a whole *)
From Verif Require Import Bytes Crypto CryptoFacts Header Compress Listfile Builder Archive Signature Info Cli SpecCli CliCreate CliList CliConfig CliHash CliVerbose
  SpecNames SpecHash HashFacts SpecCipher CipherFacts Json CliInfo CliVerify CliTold SpecTold ToldFacts CliAnalyze CliAnalyzed SpecInfoText SpecVerifyText SpecReport VerifyTextFacts VerifyPrintFacts FindFacts
  DemoAnalyzed CliTold SpecTold ToldFacts CliMain SpecMain.
Open Scope N_scope.

Lemma out_outs l : out_lines (outs l) = l.
Proof. induction l as [|x l IH]; [reflexivity|]. unfold outs, out_lines in *. cbn [map flat_map app]. now rewrite IH. Qed.
Lemma err_outs l : err_lines (outs l) = [].
Proof. induction l as [|x l IH]; [reflexivity|]. exact IH. Qed.
Lemma changes_outs l : changes (outs l) = [].
Proof. induction l as [|x l IH]; [reflexivity|]. exact IH. Qed.

(** ** Creating: quiet or not *)
Section Created.
Variable L : codecs.
Variable md5 : bytes -> bytes.
Lemma entries_calm q dir pats l : changes (fst (add_entries_told q dir pats l)) = [] /\ err_lines (fst (add_entries_told q dir pats l)) = [].
Proof.
  induction l as [|[e|] t IH]; cbn [add_entries_told]; [now split| |now split].
  destruct (en_dir e); [exact IH|]. destruct (ignored _ _ _); [exact IH|]. destruct (bytes_eqb _ _); [|now split].
  destruct (add_entries_told q dir pats t) as [evs r]. destruct q; exact IH.
Qed.
Lemma changes_app a b : changes (a ++ b) = changes a ++ changes b.
Proof. apply flat_map_app. Qed.
Lemma err_app a b : err_lines (a ++ b) = err_lines a ++ err_lines b.
Proof. apply flat_map_app. Qed.
Lemma changes_tell q l : changes (tell q l) = [].
Proof. now destruct q. Qed.
Lemma err_tell q l : err_lines (tell q l) = [].
Proof. now destruct q. Qed.
(** What is written depends on the result alone. *)
Lemma create_changes q c path src follow deep pats s :
  changes (fst (create_told L md5 q c path src follow deep pats s)) =
    match create_archive L md5 c src follow deep pats s with Ok arc => [AWrite path arc] | _ => [] end /\
  err_lines (fst (create_told L md5 q c path src follow deep pats s)) = [].
Proof.
  rewrite <- (create_same L md5 q c path src follow deep pats s). unfold create_told.
  set (p := match s with SFile _ => _ | _ => _ end).
  assert (P : changes (fst p) = [] /\ err_lines (fst p) = []).
  { subst p. destruct s as [d|ok t|]; [destruct (file_name src); [destruct q|]; now split| |now split].
    pose proof (entries_calm q src pats (if ok then walk_tree follow deep [] t else [None])) as E.
    destruct (add_entries_told q src pats _) as [evs r]. exact E. }
  destruct p as [evs r]. cbn [fst] in P. destruct P as [P1 P2].
  destruct r as [l|e|]; [destruct (bind (read_all _ _) _) as [arc|e|]| |]; cbn [fst snd];
    repeat rewrite ?changes_app, ?err_app, ?changes_tell, ?err_tell, ?P1, ?P2; cbn [app]; try (now split).
  cbn [changes err_lines flat_map app]. fold (changes (tell q (TICK ++ lit " Archive created successfully"))).
  fold (err_lines (tell q (TICK ++ lit " Archive created successfully"))). rewrite changes_tell, err_tell. now split.
Qed.
End Created.

Section Run.
Variable L : codecs.
Variable md5 sha1 : bytes -> bytes.
Variable rd : N -> N -> N.
Variable show : json -> bytes.
Variable why : bytes -> error -> bytes.
Variable compile : bool -> bytes -> option (bytes -> bool).
Variable lower : bytes -> bytes.
Variable walk : map_of -> forall A : Type, list A -> list A.
Variable as_json : report -> bytes.
Notation run := (run L md5 sha1 rd show why compile lower walk as_json).

Lemma printed_calm r : changes (fst (printed r)) = [] /\ err_lines (fst (printed r)) = [].
Proof. destruct r; cbn [printed fst]; [|now split|now split]. split; [apply changes_outs|apply err_outs]. Qed.
Lemma list_calm o file all pattern regex hashes : let x := list_printed L show compile o file all pattern regex hashes in
  changes (fst x) = [] /\ err_lines (fst x) = [].
Proof.
  cbv zeta. unfold list_printed. destruct (list_cmd _ _ _ _ _ _ _) as [es|e|]; [|now split|now split].
  destruct (o_format o); [destruct (0 <? o_verbose o); [destruct (verbose_table _ _); [|now split|now split]|]| |]; cbn [fst];
    (split; [apply changes_outs|apply err_outs]).
Qed.

(** ** Only creating and extracting change anything; only extracting prints errors of its own. *)
Lemma reads_only o t : ~ writing t -> changes (fst (run o t)) = [] /\ err_lines (fst (run o t)) = [].
Proof.
  intros H. destruct t; cbn [CliMain.run]; try (exfalso; apply H; constructor; fail); try (now split).
  - apply printed_calm.
  - destruct (archive_verify _ _ _ _ _ _ _ _ _ _ _ _ _) as [d r]. split; [apply changes_outs|apply err_outs].
  - apply list_calm.
  - split; [apply changes_outs|apply err_outs].
  - apply printed_calm.
  - destruct (file_info _ _ _ _ _); [|now split|now split]. split; [apply changes_outs|apply err_outs].
  - unfold table_show. destruct (open_archive L file); [|now split|now split]. destruct (o_quiet o); now split.
  - unfold table_analyze. destruct (open_archive L file); [|now split|now split]. destruct (o_quiet o); [now split|].
    split; [apply changes_outs|apply err_outs].
  - split; [apply changes_outs|apply err_outs].
  - split; [apply changes_outs|apply err_outs].
  - destruct (o_quiet o); now split.
  - split; [apply changes_outs|apply err_outs].
Qed.

(** ** Being quiet changes nothing but what is printed on the standard output. *)
Lemma quiet_same o t : snd (run (quietly o) t) = snd (run (loudly o) t) /\
  changes (fst (run (quietly o) t)) = changes (fst (run (loudly o) t)) /\
  err_lines (fst (run (quietly o) t)) = err_lines (fst (run (loudly o) t)).
Proof.
  assert (R : ~ writing t -> snd (run (quietly o) t) = snd (run (loudly o) t) -> snd (run (quietly o) t) = snd (run (loudly o) t) /\
    changes (fst (run (quietly o) t)) = changes (fst (run (loudly o) t)) /\
    err_lines (fst (run (quietly o) t)) = err_lines (fst (run (loudly o) t))).
  { intros H E. split; [exact E|]. destruct (reads_only (quietly o) t H) as [-> ->], (reads_only (loudly o) t H) as [-> ->]. now split. }
  destruct t; try (apply R; [solve [intros X; inversion X]|]; cbn [CliMain.run quietly loudly o_quiet o_verbose o_format]).
  - clear R. cbn [CliMain.run quietly loudly o_quiet o_verbose o_format].
    pose proof (create_same L md5 true c path src follow deep pats s) as E1. pose proof (create_same L md5 false c path src follow deep pats s) as E2.
    pose proof (create_changes L md5 true c path src follow deep pats s) as [C1 F1].
    pose proof (create_changes L md5 false c path src follow deep pats s) as [C2 F2].
    destruct (create_told L md5 true _ _ _ _ _ _ _) as [e1 r1], (create_told L md5 false _ _ _ _ _ _ _) as [e2 r2].
    cbn [fst snd] in *. rewrite E1, E2, C1, C2, F1, F2. now split.
  - reflexivity.
  - pose proof (outcome L md5 sha1 rd show why (o_format o) true (0 <? o_verbose o) contents crc path file) as E1.
    pose proof (outcome L md5 sha1 rd show why (o_format o) false (0 <? o_verbose o) contents crc path file) as E2.
    destruct (archive_verify _ _ _ _ _ _ _ true _ _ _ _ _) as [d1 r1], (archive_verify _ _ _ _ _ _ _ false _ _ _ _ _) as [d2 r2].
    cbn [snd] in *. now rewrite E1, E2.
  - reflexivity.
  - unfold lines_and. cbn [snd]. now rewrite !analysis_ends.
  - clear R. cbn [CliMain.run quietly loudly o_quiet o_verbose o_format].
    destruct (extract_same L why true file name output preserve) as [-> ->], (extract_same L why false file name output preserve) as [-> ->].
    split; [reflexivity|]. split; [reflexivity|]. apply extract_quiet.
  - reflexivity.
  - reflexivity.
  - destruct (find_cmd _ _ _ _ _ _ _); reflexivity.
  - reflexivity.
  - unfold table_show. now destruct (open_archive L file).
  - unfold table_analyze. now destruct (open_archive L file).
  - reflexivity.
  - reflexivity.
  - reflexivity.
  - reflexivity.
Qed.

Lemma silent_says o t : silent t -> out_lines (fst (run (quietly o) t)) = [].
Proof.
  intros H. destruct H; cbn [CliMain.run quietly o_quiet o_verbose o_format]; try reflexivity.
  - pose proof (create_quiet L md5 c path src follow deep pats s) as E. destruct (create_told L md5 true _ _ _ _ _ _ _). exact E.
  - pose proof (quiet_says L md5 sha1 rd show why (o_format o) (0 <? o_verbose o) contents crc path file) as E.
    destruct (archive_verify _ _ _ _ _ _ _ _ _ _ _ _ _) as [d r]. cbn [fst] in E. subst d. reflexivity.
  - apply extract_quiet.
  - unfold table_show. now destruct (open_archive L file).
  - unfold table_analyze. now destruct (open_archive L file).
Qed.

Lemma careless_says o t : careless t -> run (quietly o) t = run (loudly o) t.
Proof. intros H. now destruct H. Qed.

Lemma find_quietly o file pattern regex icase names : find_cmd L compile lower file pattern regex icase = Ok names -> lenN names < 2 ^ 64 ->
  run (quietly o) (DoFind file pattern regex icase) = (map Out names, Ok tt).
Proof.
  intros H B. cbn [CliMain.run quietly o_quiet o_verbose o_format]. rewrite H. cbn [bind printed].
  destruct (find_says L compile lower file pattern regex icase names true (0 <? o_verbose o) H B) as (_ & E & S).
  destruct names as [|n names]; [now rewrite (E eq_refl eq_refl)|]. destruct S as (k & _ & S); [discriminate|].
  rewrite S, andb_false_r, app_nil_r. reflexivity.
Qed.

Lemma every_task t : silent t \/ careless t \/ (exists f p r i, t = DoFind f p r i) \/ (exists d b n s p f, t = DoAnalyze d b n s p f).
Proof.
  destruct t; first [left; constructor; fail | right; left; constructor; fail | right; right; left; do 4 eexists; reflexivity | do 3 right; do 6 eexists; reflexivity].
Qed.

(** ** The commands that are not there yet *)
Lemma stubs o : 
  (forall t, t = DoAdd \/ t = DoRemove -> run o t = ([], Err ENotSupported)) /\
  (snd (run o DoJenkins) = Ok tt /\ out_lines (fst (run (loudly o) DoJenkins)) =
    [lit "Jenkins hash generation not yet implemented"; lit "This will be available when HET table support is added"]) /\
  (forall file k, snd (run o (DoShow file k)) = (_ <- open_archive L file ;; Ok tt)) /\
  (forall file d, snd (run o (DoTables file d)) = (_ <- open_archive L file ;; Ok tt)) /\
  (forall file a k, open_archive L file = Ok a -> exists l, out_lines (fst (run (loudly o) (DoShow file k))) = [l ++ lit " table display not yet implemented"]) /\
  (forall file a d, open_archive L file = Ok a -> In (lit "Table analysis not yet implemented") (out_lines (fst (run (loudly o) (DoTables file d))))).
Proof.
  split; [now intros t [-> | ->]|]. split; [split; [reflexivity|reflexivity]|].
  split; [intros; cbn [CliMain.run]; unfold table_show; now destruct (open_archive L file)|].
  split; [intros; cbn [CliMain.run]; unfold table_analyze; now destruct (open_archive L file)|].
  split.
  - intros file a k Ho. cbn [CliMain.run loudly o_quiet]. unfold table_show. rewrite Ho. eexists. reflexivity.
  - intros file a d Ho. cbn [CliMain.run loudly o_quiet]. unfold table_analyze. rewrite Ho. cbn [fst]. rewrite out_outs.
    apply in_app_iff. left. do 3 right. now left.
Qed.
End Run.

(** ** The tests of the ciphers *)
Lemma words_eqb_eq x : forall y, words_eqb x y = true <-> x = y.
Proof.
  induction x as [|a x IH]; intros [|b y]; cbn [words_eqb]; try (split; [reflexivity||discriminate|easy]).
  rewrite andb_true_iff, N.eqb_eq, IH. split; [now intros [-> ->]|intros [= -> ->]; auto].
Qed.
Lemma encrypt_exact hash enc dec : let sample := [0x48656c6c; 0x6f2c2057; 0x6f726c64; 0x21212121] in
  (snd (crypto_test hash enc dec (Some (lit "encrypt"))) = Ok tt <-> dec (enc sample 0x12345678) 0x12345678 = sample) /\
  (snd (crypto_test hash enc dec None) = Ok tt <-> dec (enc sample 0x12345678) 0x12345678 = sample).
Proof.
  cbv zeta. rewrite <- words_eqb_eq. fold test_data test_key.
  assert (E : snd (test_encrypt enc dec) = if words_eqb (dec (enc test_data test_key) test_key) test_data then Ok tt else Err EInvalidFormat).
  { unfold test_encrypt. now destruct (words_eqb _ _). }
  split.
  - change (crypto_test hash enc dec (Some (lit "encrypt"))) with (test_encrypt enc dec). rewrite E. destruct (words_eqb _ _); split; easy.
  - unfold crypto_test, and_then, test_hash, say_line. cbn [fst snd]. rewrite E. destruct (words_eqb _ _); cbn [fst snd]; [split; easy|].
    rewrite E. split; easy.
Qed.
Lemma others_pass hash enc dec : snd (crypto_test hash enc dec (Some (lit "hash"))) = Ok tt /\ snd (crypto_test hash enc dec (Some (lit "decrypt"))) = Ok tt.
Proof. split; reflexivity. Qed.

Lemma hash_type_said name i j : i = N.of_nat j -> (j < 5)%nat -> shows (hex10 (hash_string name i)) (name_hash j name).
Proof. intros -> H. rewrite <- hash_is by exact H. apply hex10_shows. apply hash_string_lt. Qed.
Lemma four_shown w a b c d : w = [a; b; c; d] -> Forall (fun x => x < 2 ^ 32) w ->
  Forall2 (fun w h => shows (lit "0x" ++ h) w) w [low_digits 8 a; low_digits 8 b; low_digits 8 c; low_digits 8 d].
Proof.
  intros -> B. inversion B as [|? ? B1 B']; subst. inversion B' as [|? ? B2 B'']; subst.
  inversion B'' as [|? ? B3 B3']; subst. inversion B3' as [|? ? B4 _]; subst.
  apply Forall2_cons; [now apply (hex10_shows a)|]. apply Forall2_cons; [now apply (hex10_shows b)|].
  apply Forall2_cons; [now apply (hex10_shows c)|]. apply Forall2_cons; [now apply (hex10_shows d)|]. apply Forall2_nil.
Qed.
Lemma tests_said : exists gs e1 e2 e3 e4 ks,
  Forall2 (hashes_said name_hash)
    [lit "(listfile)"; lit "(attributes)"; lit "(signature)"; lit "war3map.j"; lit "Scripts\Common.j"; lit "Units\NightElf\Wisp\Wisp.mdx"] gs /\
  Forall2 (fun w h => shows (lit "0x" ++ h) w) (cipher_of 0x12345678 [0x48656c6c; 0x6f2c2057; 0x6f726c64; 0x21212121]) [e1; e2; e3; e4] /\
  Forall2 (key_said name_hash) [lit "war3map.j"; lit "(listfile)"; lit "(attributes)"] ks /\
  crypto_test hash_string encrypt_block decrypt_block None =
  ([lit "Running all crypto tests..."; []; lit "Hash Function Tests"; repeat "="%byte 50] ++ concat gs ++
   [[]; tick ++ lit " Hash tests completed"; []; lit "Encryption Tests"; repeat "="%byte 50;
    lit "Original data: [48656c6c, 6f2c2057, 6f726c64, 21212121]"; lit "Key: 0x12345678";
    lit "Encrypted: [" ++ e1 ++ lit ", " ++ e2 ++ lit ", " ++ e3 ++ lit ", " ++ e4 ++ lit "]"; tick ++ lit " Encryption/Decryption cycle successful"; [];
    lit "Decryption Tests"; repeat "="%byte 50; lit "Testing decryption with known values..."] ++ ks ++
   [[]; tick ++ lit " Decryption tests completed"], Ok tt).
Proof.
  exists (map (fun s => [[]; lit "Input: " ++ s; lit "  Table offset: " ++ hex10 (hash_string s HT_TABLE_OFFSET);
     lit "  Name A:       " ++ hex10 (hash_string s HT_NAME_A); lit "  Name B:       " ++ hex10 (hash_string s HT_NAME_B);
     lit "  File key:     " ++ hex10 (hash_string s HT_FILE_KEY)]) test_strings).
  pose (w := encrypt_block test_data test_key).
  exists (low_digits 8 (nth 0 w 0)), (low_digits 8 (nth 1 w 0)), (low_digits 8 (nth 2 w 0)), (low_digits 8 (nth 3 w 0)).
  exists (map (fun s => lit "File key for '" ++ s ++ lit "': " ++ hex10 (hash_string s HT_FILE_KEY)) [lit "war3map.j"; lit "(listfile)"; lit "(attributes)"]).
  split; [|split; [|split]].
  - change [lit "(listfile)"; lit "(attributes)"; lit "(signature)"; lit "war3map.j"; lit "Scripts\Common.j"; lit "Units\NightElf\Wisp\Wisp.mdx"] with test_strings.
    generalize test_strings. intros l. induction l as [|s l IH]; constructor; [|exact IH].
    do 4 eexists. split; [apply hash_type_said; [reflexivity|lia]|]. split; [apply hash_type_said; [reflexivity|lia]|].
    split; [apply hash_type_said; [reflexivity|lia]|]. split; [apply hash_type_said; [reflexivity|lia]|reflexivity].
  - rewrite <- cipher_is. fold test_data test_key. fold w.
    assert (W : w = [nth 0 w 0; nth 1 w 0; nth 2 w 0; nth 3 w 0]) by (subst w; vm_compute; reflexivity).
    assert (B : Forall (fun x => x < 2 ^ 32) w).
    { apply encrypt_block_ok. unfold test_data. repeat (apply Forall_cons; [reflexivity|]). apply Forall_nil. }
    exact (four_shown _ _ _ _ _ W B).
  - generalize [lit "war3map.j"; lit "(listfile)"; lit "(attributes)"]. intros l. induction l as [|s l IH]; constructor; [|exact IH].
    eexists. split; [apply hash_type_said; [reflexivity|lia]|reflexivity].
  - vm_compute. reflexivity.
Qed.
