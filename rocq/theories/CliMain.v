(** * The command line tool as a whole: what every command prints and how it ends
    (storm-cli/src/main.rs:432-690; commands/table.rs, commands/hash.rs:103-117, commands/crypto.rs,
    commands/file.rs:150-164 on top of the other commands).

    Simplifications: those of the commands; [config] (see [CliConfig]) and [completion] are left out; of a
    verbose listing that panics the rows printed before are left out; [hash_type], [limit] and so on of
    commands that do not look at them are left out. *)
From Verif Require Import Bytes Crypto Header Compress Listfile Builder Archive Signature Info Cli CliCreate CliList CliConfig CliHash CliVerbose
  Json CliInfo CliVerify CliTold CliAnalyze CliAnalyzed SpecInfoText.
Open Scope N_scope.

(** ** [crypto test] (commands/crypto.rs), for any hash function and cipher *)
Section Crypto.
Variable hash : bytes -> N -> N.
Variable enc dec : list N -> N -> list N.

(** crypto.rs:44-51 *)
Definition test_strings : list bytes :=
  [lit "(listfile)"; lit "(attributes)"; lit "(signature)"; lit "war3map.j"; lit "Scripts\Common.j"; lit "Units\NightElf\Wisp\Wisp.mdx"].
(** crypto.rs:40-75 [test_hash_functions] *)
Definition test_hash : list bytes * res unit :=
  ([lit "Hash Function Tests"; repeat "="%byte 50] ++
   flat_map (fun s => [[]; lit "Input: " ++ s;
     lit "  Table offset: " ++ hex10 (hash s HT_TABLE_OFFSET);
     lit "  Name A:       " ++ hex10 (hash s HT_NAME_A);
     lit "  Name B:       " ++ hex10 (hash s HT_NAME_B);
     lit "  File key:     " ++ hex10 (hash s HT_FILE_KEY)]) test_strings ++
   [[]; TICK ++ lit " Hash tests completed"], Ok tt).

(** [{:08x?}] of a [Vec<u32>] *)
Definition words_text (l : list N) : bytes := lit "[" ++ join_with (lit ", ") (map (low_digits 8) l) ++ lit "]".
(** crypto.rs:82-83 *)
Definition test_data : list N := [0x48656c6c; 0x6f2c2057; 0x6f726c64; 0x21212121].
Definition test_key : N := 0x12345678.
Fixpoint words_eqb (x y : list N) : bool :=
  match x, y with
  | [], [] => true
  | a :: x', b :: y' => (a =? b) && words_eqb x' y'
  | _, _ => false
  end.
(** crypto.rs:77-110 [test_encryption] *)
Definition test_encrypt : list bytes * res unit :=
  let e := enc test_data test_key in
  let d := dec e test_key in
  let head := [lit "Encryption Tests"; repeat "="%byte 50; lit "Original data: " ++ words_text test_data; lit "Key: " ++ hex10 test_key;
               lit "Encrypted: " ++ words_text e] in
  if words_eqb d test_data
  then (head ++ [TICK ++ lit " Encryption/Decryption cycle successful"], Ok tt)
  else (head ++ [CROSS ++ lit " Encryption/Decryption cycle failed"; lit "Decrypted: " ++ words_text d], Err EInvalidFormat).

(** crypto.rs:112-128 [test_decryption] *)
Definition test_decrypt : list bytes * res unit :=
  ([lit "Decryption Tests"; repeat "="%byte 50; lit "Testing decryption with known values..."] ++
   map (fun s => lit "File key for '" ++ s ++ lit "': " ++ hex10 (hash s HT_FILE_KEY)) [lit "war3map.j"; lit "(listfile)"; lit "(attributes)"] ++
   [[]; TICK ++ lit " Decryption tests completed"], Ok tt).

(** one after the other, as [?] does it *)
Definition and_then (x y : list bytes * res unit) : list bytes * res unit :=
  match snd x with Ok _ => (fst x ++ fst y, snd y) | _ => x end.
Definition say_line (l : bytes) : list bytes * res unit := ([l], Ok tt).
(** crypto.rs:10-38 [test] *)
Definition crypto_test (name : option bytes) : list bytes * res unit :=
  match name with
  | Some n =>
      if bytes_eqb n (lit "hash") then test_hash
      else if bytes_eqb n (lit "encrypt") then test_encrypt
      else if bytes_eqb n (lit "decrypt") then test_decrypt
      else ([], Err EInvalidFormat)
  | None =>
      and_then ([lit "Running all crypto tests..."; []], Ok tt)
        (and_then test_hash (and_then (say_line []) (and_then test_encrypt (and_then (say_line []) test_decrypt))))
  end.
End Crypto.

(** ** The commands *)
(** main.rs:34-60 *)
Record options := mkOpts { o_quiet : bool; o_verbose : N; o_format : format }.
Inductive table_kind := KHash | KBlock | KHet | KBet.

(** The archives are given by the bytes of their files. *)
Inductive task :=
| DoCreate (c : config) (path src : bytes) (follow deep : bool) (pats : list bytes) (s : source)
| DoInfo (path file : bytes)
| DoVerify (contents crc : bool) (path file : bytes)
| DoList (file : bytes) (all : bool) (pattern : option bytes) (regex hashes : bool)
| DoAnalyze (detailed by_ext only stats : bool) (path file : bytes)
| DoExtract (file : bytes) (name output : option bytes) (preserve : bool)
| DoAdd | DoRemove
| DoFind (file pattern : bytes) (regex ignore_case : bool)
| DoFileInfo (file name : bytes)
| DoShow (file : bytes) (k : option table_kind)
| DoTables (file : bytes) (detailed : bool)
| DoGenerate (name : bytes) (t : option htype) (all : bool)
| DoCompare (a b : bytes)
| DoJenkins
| DoCrypto (name : option bytes).

Section Run.
Variable L : codecs.
Variable md5 sha1 : bytes -> bytes.
Variable rd : N -> N -> N.
Variable show : json -> bytes.
Variable why : bytes -> error -> bytes.
Variable compile : bool -> bytes -> option (bytes -> bool).
Variable lower : bytes -> bytes.
Variable walk : map_of -> forall A : Type, list A -> list A.
Variable as_json : report -> bytes.

Definition outs (ls : list bytes) : list event := map Out ls.
Definition printed (r : res bytes) : list event * res unit :=
  match r with Ok t => (outs (lines_of t), Ok tt) | Err e => ([], Err e) | Panic => ([], Panic) end.
Definition lines_and (x : list bytes * res unit) : list event * res unit := (outs (fst x), snd x).
Definition forget {A} (r : res A) : res unit := _ <- r ;; Ok tt.

(** commands/file.rs:13-73 [list] *)
Definition list_printed (o : options) (file : bytes) (all : bool) (pattern : option bytes) (regex hashes : bool) : list event * res unit :=
  match list_cmd L compile file all pattern regex hashes with
  | Ok es =>
      match o_format o with
      | Text => if 0 <? o_verbose o
                then match verbose_table (1 <? o_verbose o) es with
                     | Ok ls => (outs ls, Ok tt) | Err e => ([], Err e) | Panic => ([], Panic)
                     end
                else (outs (lines_of (print_listing show Text hashes es)), Ok tt)
      | f => (outs (lines_of (print_listing show f hashes es)), Ok tt)
      end
  | Err e => ([], Err e)
  | Panic => ([], Panic)
  end.

(** table.rs:11-48 [show] *)
Definition kind_name (k : table_kind) : bytes :=
  match k with KHash => lit "Hash" | KBlock => lit "Block" | KHet => lit "HET" | KBet => lit "BET" end.
Definition table_show (quiet : bool) (file : bytes) (k : option table_kind) : list event * res unit :=
  match open_archive L file with
  | Ok _ => (tell quiet (kind_name (match k with Some k => k | None => KHash end) ++ lit " table display not yet implemented"), Ok tt)
  | Err e => ([], Err e)
  | Panic => ([], Panic)
  end.
(** table.rs:51-71 [analyze] *)
Definition table_analyze (quiet : bool) (file : bytes) (detailed : bool) : list event * res unit :=
  match open_archive L file with
  | Ok _ => (if quiet then []
             else outs ([lit "Archive Table Analysis"; repeat "="%byte 50; []; lit "Table analysis not yet implemented"] ++
                        if detailed then [[]; lit "Detailed statistics would be shown here"] else []), Ok tt)
  | Err e => ([], Err e)
  | Panic => ([], Panic)
  end.
(** hash.rs:105-117 [jenkins] *)
Definition jenkins_told (quiet : bool) : list event * res unit :=
  (if quiet then []
   else outs [lit "Jenkins hash generation not yet implemented"; lit "This will be available when HET table support is added"], Ok tt).

(** main.rs:472-690: the command; an error is printed on the standard error output by the runtime *)
Definition run (o : options) (t : task) : list event * res unit :=
  let q := o_quiet o in
  match t with
  | DoCreate c path src follow deep pats s =>
      let (evs, r) := create_told L md5 q c path src follow deep pats s in (evs, forget r)
  | DoInfo path file => printed (archive_info L md5 sha1 rd show (o_format o) path file)
  | DoVerify contents crc path file =>
      let (d, r) := archive_verify L md5 sha1 rd show why (o_format o) q (0 <? o_verbose o) contents crc path file in (outs (lines_of d), r)
  | DoList file all pattern regex hashes => list_printed o file all pattern regex hashes
  | DoAnalyze detailed by_ext only stats path file =>
      lines_and (analyze_told L lower walk as_json (o_format o) q detailed by_ext only stats path file)
  | DoExtract file name output preserve => extract_told L why q file name output preserve
  | DoAdd | DoRemove => ([], Err ENotSupported)
  | DoFind file pattern regex ignore_case =>
      printed (names <- find_cmd L compile lower file pattern regex ignore_case ;; Ok (print_find q (0 <? o_verbose o) pattern names))
  | DoFileInfo file name =>
      match file_info L show (o_format o) file name with
      | Printed d => (outs (lines_of d), Ok tt) | Refused _ e => ([], Err e) | Crashed => ([], Panic)
      end
  | DoShow file k => table_show q file k
  | DoTables file detailed => table_analyze q file detailed
  | DoGenerate name t all => (outs (lines_of (generate (o_format o) name t all)), Ok tt)
  | DoCompare a b => (outs (lines_of (compare_cmd (0 <? o_verbose o) a b)), Ok tt)
  | DoJenkins => jenkins_told q
  | DoCrypto name => lines_and (crypto_test hash_string encrypt_block decrypt_block name)
  end.
(** The exit status: [main] returns the error, a panic ends the process with 101 *)
Definition status (r : res unit) : N := match r with Ok _ => 0 | Err _ => 1 | Panic => 101 end.
End Run.
