(** * C80, C81: the commands as a whole: what [--quiet] means, what changes files, what is not there yet;
    and what [crypto test] tests. *)
From Verif Require Import Bytes Crypto Header Compress SpecCompress ToyCodec Builder Archive Signature Info Cli SpecCli CliCreate CliList CliConfig CliHash SpecHash SpecCipher
  Json CliInfo SpecVerifyText CliAnalyze CliAnalyzed DemoArchive DemoCli DemoOther DemoReport DemoJson DemoVerify DemoAnalyzed CliTold SpecTold CliMain SpecMain MainFacts.
Open Scope N_scope.

(** ** C80: [--quiet] and the commands that write *)

(** Whatever the command, being quiet changes neither how it ends nor what is written nor what is
    printed on the standard error output. *)
Theorem C80_same : forall L md5 sha1 rd show why compile lower walk as_json o t,
  let q := run L md5 sha1 rd show why compile lower walk as_json (quietly o) t in
  let l := run L md5 sha1 rd show why compile lower walk as_json (loudly o) t in
  snd q = snd l /\ changes (fst q) = changes (fst l) /\ err_lines (fst q) = err_lines (fst l).
Proof. exact quiet_same. Qed.
Print Assumptions C80_same.

(** Every command is of one of four kinds: some say nothing when quiet, *)
Theorem C80_kinds : forall t, silent t \/ careless t \/ (exists f p r i, t = DoFind f p r i) \/ (exists d b n s p f, t = DoAnalyze d b n s p f).
Proof. exact every_task. Qed.
Print Assumptions C80_kinds.
Theorem C80_silent_partial : forall L md5 sha1 rd show why compile lower walk as_json o t,
  silent t -> out_lines (fst (run L md5 sha1 rd show why compile lower walk as_json (quietly o) t)) = [].
Proof. exact silent_says. Qed.
Print Assumptions C80_silent_partial.
(** some do not care, *)
Theorem C80_careless : forall L md5 sha1 rd show why compile lower walk as_json o t,
  careless t -> run L md5 sha1 rd show why compile lower walk as_json (quietly o) t = run L md5 sha1 rd show why compile lower walk as_json (loudly o) t.
Proof. exact careless_says. Qed.
Print Assumptions C80_careless.
(** [find] prints the names that were found and nothing else, *)
Theorem C80_find : forall L md5 sha1 rd show why compile lower walk as_json o file pattern regex ignore_case names,
  find_cmd L compile lower file pattern regex ignore_case = Ok names -> lenN names < 2 ^ 64 ->
  run L md5 sha1 rd show why compile lower walk as_json (quietly o) (DoFind file pattern regex ignore_case) = (map Out names, Ok tt).
Proof. exact find_quietly. Qed.
Print Assumptions C80_find.
(** and [analyze] is C79_quiet.  "Suppress all output except errors" is not what happens: *)
Theorem C80_quiet_refuted : exists t, forall L md5 sha1 rd show why compile lower walk as_json o, o_format o <> Json ->
  run L md5 sha1 rd show why compile lower walk as_json (quietly o) t = ([Out (lit "0xbe094604")], Ok tt).
Proof.
  exists (DoGenerate (lit "a.txt") (Some TableOffset) false). intros L md5 sha1 rd show why compile lower walk as_json [q v []] H;
  [vm_compute; reflexivity|now destruct H|vm_compute; reflexivity].
Qed.
Print Assumptions C80_quiet_refuted.

(** ** No other command than [create] and [extract] changes a file or prints lines of errors. *)
Theorem C80_reads_only : forall L md5 sha1 rd show why compile lower walk as_json o t, ~ writing t ->
  changes (fst (run L md5 sha1 rd show why compile lower walk as_json o t)) = [] /\
  err_lines (fst (run L md5 sha1 rd show why compile lower walk as_json o t)) = [].
Proof. exact reads_only. Qed.
Print Assumptions C80_reads_only.
(** [create] writes the archive if it succeeds, and otherwise nothing. *)
Theorem C80_create_writes : forall L md5 quiet c path src follow deep pats s,
  changes (fst (create_told L md5 quiet c path src follow deep pats s)) =
    match create_archive L md5 c src follow deep pats s with Ok arc => [AWrite path arc] | _ => [] end /\
  err_lines (fst (create_told L md5 quiet c path src follow deep pats s)) = [].
Proof. exact create_changes. Qed.
Print Assumptions C80_create_writes.

(** ** The commands that are not there yet: adding and removing fail; the others end in success, with
    nothing but a line that says so, for every archive that can be opened. *)
Theorem C80_stubs_partial : forall L md5 sha1 rd show why compile lower walk as_json o,
  let go := run L md5 sha1 rd show why compile lower walk as_json in
  (forall t, t = DoAdd \/ t = DoRemove -> go o t = ([], Err ENotSupported)) /\
  (snd (go o DoJenkins) = Ok tt /\ out_lines (fst (go (loudly o) DoJenkins)) =
    [lit "Jenkins hash generation not yet implemented"; lit "This will be available when HET table support is added"]) /\
  (forall file k, snd (go o (DoShow file k)) = (_ <- open_archive L file ;; Ok tt)) /\
  (forall file d, snd (go o (DoTables file d)) = (_ <- open_archive L file ;; Ok tt)) /\
  (forall file a k, open_archive L file = Ok a -> exists l, out_lines (fst (go (loudly o) (DoShow file k))) = [l ++ lit " table display not yet implemented"]) /\
  (forall file a d, open_archive L file = Ok a -> In (lit "Table analysis not yet implemented") (out_lines (fst (go (loudly o) (DoTables file d))))).
Proof. exact stubs. Qed.
Print Assumptions C80_stubs_partial.

Example C80_example :
  let go := run toy no_md5 no_md5 every_read pretty a_reason (fun _ _ => Some (fun _ => true)) (fun e => e) as_is no_json in
  let o := mkOpts true 0 Text in
  lenN (writes_of (changes (fst (go o (DoExtract hurt None (Some (lit "out")) false))))) = 2 /\
  err_lines (fst (go o (DoExtract hurt None (Some (lit "out")) false))) = [lit "Failed to extract a.txt: it cannot be read"] /\
  go o (DoFind demo_arc (lit "*") false false) =
    (map Out [lit "dir\a.txt"; lit "dir\b.txt"; lit "c.bin"; lit "d.txt"; lit "(listfile)"], Ok tt) /\
  go o (DoShow demo_arc None) = ([], Ok tt) /\ status (snd (go o DoAdd)) = 1 /\
  go (loudly o) (DoShow demo_arc (Some KBlock)) = ([Out (lit "Block table display not yet implemented")], Ok tt).
Proof.
  cbv zeta. split; [vm_compute; reflexivity|]. split; [vm_compute; reflexivity|]. split; [vm_compute; reflexivity|].
  split; [vm_compute; reflexivity|]. split; [vm_compute; reflexivity|]. vm_compute; reflexivity.
Qed.

(** ** C81: [crypto test] *)

(** It prints the hashes of six names, what a sample is enciphered to and three keys, all as the format
    has them, and succeeds. *)
Theorem C81_printed : exists gs e1 e2 e3 e4 ks,
  Forall2 (hashes_said name_hash)
    [lit "(listfile)"; lit "(attributes)"; lit "(signature)"; lit "war3map.j"; lit "Scripts\Common.j"; lit "Units\NightElf\Wisp\Wisp.mdx"] gs /\
  Forall2 (fun w h => shows (lit "0x" ++ h) w) (cipher_of 0x12345678 [0x48656c6c; 0x6f2c2057; 0x6f726c64; 0x21212121]) [e1; e2; e3; e4] /\
  Forall2 (key_said name_hash) [lit "war3map.j"; lit "(listfile)"; lit "(attributes)"] ks /\
  crypto_test hash_string encrypt_block decrypt_block None =
  ([lit "Running all crypto tests..."; []; lit "Hash Function Tests"; repeat "="%byte 50] ++ concat gs ++
   [[]; tick ++ lit " Hash tests completed"; []; lit "Encryption Tests"; repeat "="%byte 50;
    lit "Original data: [48656c6c, 6f2c2057, 6f726c64, 21212121]"; lit "Key: 0x12345678";
    lit "Encrypted: [" ++ e1 ++ lit ", " ++ e2 ++ lit ", " ++ e3 ++ lit ", " ++ e4 ++ lit "]"; tick ++ lit " Encryption/Decryption cycle successful"; [];
    lit "Decryption Tests"; repeat "="%byte 50; lit "Testing decryption with known values..."] ++ ks ++
   [[]; tick ++ lit " Decryption tests completed"], Ok tt).
Proof. exact tests_said. Qed.
Print Assumptions C81_printed.

(** Which functions pass: those whose two halves undo each other on the one sample; *)
Theorem C81_exact : forall hash enc dec, let sample := [0x48656c6c; 0x6f2c2057; 0x6f726c64; 0x21212121] in
  (snd (crypto_test hash enc dec (Some (lit "encrypt"))) = Ok tt <-> dec (enc sample 0x12345678) 0x12345678 = sample) /\
  (snd (crypto_test hash enc dec None) = Ok tt <-> dec (enc sample 0x12345678) 0x12345678 = sample).
Proof. exact encrypt_exact. Qed.
Print Assumptions C81_exact.

(** the tests of hashing and deciphering are passed by all functions whatever; a cipher that does
    nothing and hashes that are all 0 pass everything. *)
Theorem C81_catches_refuted :
  (forall hash enc dec, snd (crypto_test hash enc dec (Some (lit "hash"))) = Ok tt /\ snd (crypto_test hash enc dec (Some (lit "decrypt"))) = Ok tt) /\
  snd (crypto_test (fun _ _ => 0) (fun d _ => d) (fun d _ => d) None) = Ok tt.
Proof. exact (conj others_pass (proj2 (proj2 (encrypt_exact (fun _ _ => 0) (fun d _ => d) (fun d _ => d))) eq_refl)). Qed.
Print Assumptions C81_catches_refuted.

(** Functions that fail *)
Example C81_example : forall hash, snd (crypto_test hash encrypt_block (fun d _ => d) None) = Err EInvalidFormat.
Proof. intros hash. vm_compute. reflexivity. Qed.
