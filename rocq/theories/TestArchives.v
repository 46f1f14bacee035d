(** * Test archives (mopaq/src/test_utils/mpq_builder.rs).

    Simplifications: the name of an archive is one component of a path, neither empty
    nor [..]; the output of the seeded random generator is a parameter. *)
From Verif Require Import Bytes Header Compress Listfile Builder Archive FileSystem BuildIo BuilderApi.
Open Scope N_scope.

(** mpq_builder.rs:29-42 [TestFile] *)
Record tfile := mkTF { tf_name : bytes; tf_data : bytes; tf_comp : option N; tf_encrypted : bool; tf_fix : bool }.
(** mpq_builder.rs:10-27 [TestArchiveConfig] *)
Record tconfig := mkTC { tc_name : bytes; tc_version : version; tc_files : list tfile;
  tc_hash_size : option N; tc_block : option N; tc_listfile : bool; tc_attributes : bool }.

(** mpq_builder.rs:347-359 [generate_compressible_data] *)
Fixpoint fill (fuel : nat) (pattern : bytes) (size : N) : bytes :=
  match fuel with
  | O => []
  | S f => if size =? 0 then [] else
             let k := N.min size (lenN pattern) in firstn (N.to_nat k) pattern ++ fill f pattern (size - k)
  end.
Definition PATTERN : bytes :=
  lit "This is test data that should compress well because it has repeated patterns. ".
Definition generate_compressible_data (size : N) : bytes := fill (N.to_nat size) PATTERN size.

(** mpq_builder.rs:369-380 [generate_binary_pattern] *)
Fixpoint count_up (n : nat) (v : N) : bytes :=
  match n with O => [] | S k => Nb v :: count_up k ((v + 1) mod 256) end.
Definition generate_binary_pattern (size : N) : bytes := count_up (N.to_nat size) 0.

(** mpq_builder.rs:383-402 [generate_attributes] *)
Definition generate_attributes (files : list tfile) : bytes :=
  le32 100 ++ le32 3 ++ flat_map (fun f => le32 (w32 (lenN (tf_data f))) ++ le32 0x5F000000) files.

(** mpq_builder.rs:324-331: [join("\n")] *)
Fixpoint join_lines (l : list bytes) : bytes :=
  match l with [] => [] | [x] => x | x :: r => x ++ "010"%byte :: join_lines r end.

(** mpq_builder.rs:300-321 *)
Definition add_test_file (f : tfile) : method :=
  if tf_encrypted f
  then MAddEncryption (SData (tf_data f)) (tf_name f) (match tf_comp f with Some m => m | None => 0 end) (tf_fix f) 0
  else match tf_comp f with
       | Some m => MAddOptions (SData (tf_data f)) (tf_name f) m false 0
       | None => MAdd (SData (tf_data f)) (tf_name f)
       end.

(** mpq_builder.rs:282-338: what [create_test_archive] calls before [build] *)
Definition test_methods (t : tconfig) : list method :=
  [MList (if tc_listfile t then SNone else SGenerate); MVersion (tc_version t)] ++
  match tc_block t with Some n => [MBlock n] | None => [] end ++
  map add_test_file (tc_files t) ++
  (if tc_listfile t then [MAdd (SData (join_lines (map tf_name (tc_files t)))) LISTFILE] else []) ++
  (if tc_attributes t then [MAdd (SData (generate_attributes (tc_files t))) ATTRIBUTES] else []).

(** [Path::with_extension] of a single component: what is before the last dot, unless
    that is nothing *)
Definition DOT : byte := "."%byte.
Fixpoint until_dot (r : bytes) : option bytes :=
  match r with [] => None | b :: t => if beqb b DOT then Some t else until_dot t end.
Definition stem (n : bytes) : bytes :=
  match until_dot (rev n) with Some (x :: r) => rev (x :: r) | _ => n end.
(** mpq_builder.rs:341 *)
Definition archive_path (dir : bytes) (t : tconfig) : path := mkPath dir (stem (tc_name t) ++ lit ".mpq").

(** mpq_builder.rs:277-345 [create_test_archive] *)
Definition create_test_archive (L : codecs) (md5 : bytes -> bytes) (dir : bytes) (t : tconfig) : io path :=
  let p := archive_path dir t in
  _ <~ builder_build L md5 (builder_of (test_methods t)) p ;; Ret (Ok p).

(** [version as u8 + 1] *)
Definition version_digit (v : version) : bytes :=
  match v with V1 => lit "1" | V2 => lit "2" | V3 => lit "3" | V4 => lit "4" end.

(** mpq_builder.rs:62-79 [minimal] *)
Definition minimal (v : version) : tconfig :=
  mkTC (lit "minimal_v" ++ version_digit v) v [mkTF (lit "test.txt") (lit "Hello, MPQ!") None false false]
    (Some 16) (Some 3) (match v with V1 => true | _ => false end) false.

(** mpq_builder.rs:81-117 [compressed] *)
Definition compressed (kind : bytes) : tconfig :=
  let data := generate_compressible_data 51200 in
  let flag := if bytes_eqb kind (lit "zlib") then Some ZLIB else if bytes_eqb kind (lit "bzip2") then Some BZIP2
              else if bytes_eqb kind (lit "lzma") then Some LZMA else if bytes_eqb kind (lit "sparse") then Some SPARSE
              else None in
  mkTC (lit "compressed_" ++ kind) V2
    [mkTF (lit "compressed.dat") data flag false false;
     mkTF (lit "uncompressed.dat") (firstn (N.to_nat 1024) data) None false false]
    (Some 32) (Some 4) false false.

(** mpq_builder.rs:119-145 [encrypted] *)
Definition encrypted : tconfig :=
  mkTC (lit "encrypted") V2
    [mkTF (lit "secret.dat") (lit "This is encrypted data!") (Some ZLIB) true false;
     mkTF (lit "fixed_key.dat") (lit "This uses fix key encryption!") None true true]
    (Some 16) (Some 3) false false.

(** mpq_builder.rs:147-199 [edge_cases] *)
Definition edge_cases (random : N -> bytes) : tconfig :=
  mkTC (lit "edge_cases") V2
    [mkTF (lit "empty.txt") [] None false false;
     mkTF (lit "single_byte.dat") [Nb 0x42] (Some ZLIB) false false;
     mkTF (lit "file with spaces.txt") (lit "Spaces in filename!") None false false;
     mkTF (lit "folder/subfolder/nested.dat") (lit "Nested file") None false false;
     mkTF (lit "random.bin") (random 102400) (Some ZLIB) false false]
    (Some 64) (Some 5) true false.

(** mpq_builder.rs:201-255 [comprehensive] *)
Definition NL : bytes := ["010"%byte].
Definition comprehensive (v : version) : tconfig :=
  mkTC (lit "comprehensive_v" ++ version_digit v) v
    ([mkTF (lit "readme.txt") (lit "MPQ Archive Test Suite" ++ NL ++ NL ++ lit "This archive contains various test files.")
        None false false;
      mkTF (lit "data/config.ini") (lit "[Settings]" ++ NL ++ lit "version=1.0" ++ NL ++ lit "test=true") (Some ZLIB) false false;
      mkTF (lit "data/binary.dat") (generate_binary_pattern 10240) (Some BZIP2) false false;
      mkTF (lit "secure/encrypted.bin") (lit "Secret data") None true false] ++
     if version_ge v V2
     then [mkTF (lit "large/bigfile.dat") (generate_compressible_data 1048576) (Some LZMA) false false] else [])
    (Some 128) (Some 7) true (version_ge v V2).

(** mpq_builder.rs:257-274 [with_crc] *)
Definition with_crc : tconfig :=
  mkTC (lit "crc_test") V2 [mkTF (lit "crc_protected.dat") (lit "This file has CRC protection") (Some ZLIB) false false]
    (Some 16) (Some 3) false false.

(** mpq_builder.rs:404-449 [create_all_test_archives]: the archives, in order *)
Definition all_configs (random : N -> bytes) : list tconfig :=
  map minimal [V1; V2; V3; V4] ++
  map compressed [lit "zlib"; lit "bzip2"; lit "lzma"; lit "sparse"] ++
  [encrypted; edge_cases random; comprehensive V2; comprehensive V4; with_crc].

(** mpq_builder.rs:404-449: one after the other, the first failure ends it; the making
    of the directory is left out, as the file system has none *)
Fixpoint create_each (L : codecs) (md5 : bytes -> bytes) (dir : bytes) (ts : list tconfig) : io (list path) :=
  match ts with
  | [] => Ret (Ok [])
  | t :: r => p <~ create_test_archive L md5 dir t ;; ps <~ create_each L md5 dir r ;; Ret (Ok (p :: ps))
  end.
Definition create_all_test_archives (L : codecs) (md5 : bytes -> bytes) (random : N -> bytes) (dir : bytes) : io (list path) :=
  create_each L md5 dir (all_configs random).
