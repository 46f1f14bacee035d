# Formal model of mopaq in Coq

The model is in `rocq/theories` (Coq 8.16.1, standard library only), the property
list in `properties.jsonl`, the claim table in `MANIFEST.json`, the log of seeded
bugs in `seeded/LOG.jsonl`.

## Trusted base

* The Coq kernel (8.16.1), including its virtual machine (`vm_compute` is used
  for concrete computations).
* Axioms: none of our own.  `Print Assumptions` stands below every property
  theorem and prints `Closed under the global context` for each.  `coqchk`
  additionally lists the module axioms `Coq.ssr.ssrunder.Under_rel.*` of the
  standard library, which `lia`'s imports pull in; no theorem depends on them.
* That the definitions below say what the Rust code does.  Each carries the file
  and the lines it was read from.  Nothing was built or run.
* That the parameters stand for what the third-party crates do (see below).

## Representation

* Bytes are `Byte.byte`, byte strings are `list byte`.
* Fixed width words are `N` with an explicit `mod 2^k` at every operation that
  wraps in Rust (`wrapping_*`, casts, bits shifted out).  Arithmetic that
  *panics* on overflow in a build with overflow checks, a shift by at least the
  width, and an access out of range are an explicit `Panic` outcome.
* `Result<T, Error>` is `Ok | Err e | Panic`; error kinds that matter are kept
  apart, messages are dropped.  Logging is dropped.
* `usize` has 64 bits.
* A file is its whole content; seek and `read_exact` are a slice with an
  end-of-file error.  Files are shorter than 2^63 bytes.
* Loops become structural recursion, where needed with fuel; running out of fuel
  is `Panic` and is proved not to happen.
* zlib, bzip2, LZMA and PKWare (crates `flate2`, `bzip2`, `lzma-rs`, `pklib`) are
  a record `codecs` of functions; MD5, SHA-1 and CRC-32 are functions from bytes
  to bytes or numbers.  Each theorem quantifies over them; laws it needs
  (`lossless`, `calm`, digest length) are premises.  Sparse, ADPCM, Huffman,
  Adler-32 and RSA's arithmetic are concrete.
* Short reads of a `Read` are an oracle `rd` that every theorem about the digest
  loop quantifies over.

## What is modelled

| files of the model | code |
|---|---|
| `Bytes` | words, little endian, results, slices |
| `Crypto` | `crypto/{keys,hash,encryption,decryption,types}.rs`, `archive.rs:1764-1819`, `builder.rs:1326-1379`, `tables/common.rs` |
| `HashTable`, `BlockTable`, `HetBet` | `tables/*.rs`, table parts of `builder.rs` |
| `Header` | `header.rs`, `builder.rs:1239-1323` |
| `Sparse`, `Adpcm`, `Huffman`, `Compress` | `compression/**` |
| `Adler` | crate `adler` |
| `Listfile`, `Attributes` | `special_files/{listfile,attributes}.rs` |
| `Builder` | `builder.rs`: from the pending files to the bytes of the archive, all four versions |
| `BuildIo`, `FileSystem` | `builder.rs:525-733` as a program of system calls, each of which may fail, write less, or be the last before a crash |
| `Create` | `archive.rs:243-255`: `OpenOptions::create` |
| `Archive` | `archive.rs`: opening, lookup, reading, listing, attributes |
| `Info` | `archive.rs:35-133, 526-840`: digests and inspection |
| `InfoReport` | `archive.rs:635-840`: the table infos of an inspection; `output.rs:278-295`: printing it as CSV |
| `Loops` | one round of each `loop`/`while`: `hash.rs:159-183`, `builder.rs:1128-1155,1477-1497`, `header.rs:286-341`, `signature.rs:198-243,297-305,340-348`, `sparse.rs`, `adpcm.rs`, `huffman.rs`, `output.rs:194-197` |
| `Signature` | `crypto/signature.rs`, `archive.rs:1633-1757` |
| `Ffi` | all exported functions of `storm-ffi/src/lib.rs` as programs over atomic actions, any number of threads, all interleavings |
| `Cli` | `storm-cli`: `archive extract`, `archive verify`, `archive create`, `file extract` |
| `CliList` | `storm-cli`: `file list`, `file find`, `archive analyze`; `output.rs`: names as text, as CSV, as table column |
| `CliConfig` | `storm-cli`: `config.rs`, `config` commands, the options of `archive create` (`main.rs`) |
| `CliHash` | `storm-cli`: `hash generate`, `hash compare` |
| `CliCreate` | `storm-cli`: `archive create` from a file or a directory tree |
| `Stream` | `io.rs` |
| `CliAnalyze` | the statistics of `archive analyze` |
| `Percent`, `CliVerbose` | `output.rs:189-204, 377-560`: sizes, percentages and the verbose table of `file list`; the percentages of `archive.rs:683-892` are the same function |
| `Memory` | the sizes of the vectors that opening and reading make with a length from the archive (`hash.rs:92-131`, `block.rs:109-217`, `het.rs:59-140`, `bet.rs:70-184`, `archive.rs:289-498, 1213-1565`, `attributes.rs:125-193`, the decoders) |
| `Error` | `error.rs:132-149` the two classes of errors |
| `Json`, `CliInfo` | `output.rs:7-277, 300-375, 552-574`: inspections as text and JSON, listings as text with hashes and as JSON, `file info`; `commands/archive.rs:148-156`, `commands/file.rs:203-234` |
| `CliVerify` | `commands/archive.rs:158-608`: what `archive verify` prints, in the three forms; the messages of errors are an oracle |
| `CliTold` | `commands/file.rs:75-148`, `commands/archive.rs:41-146`: what extracting and creating print, in which order with what they write |
| `CliAnalyzed` | `commands/archive.rs:611-987`: what `archive analyze` prints as text and CSV; the order in which a `HashMap` is walked through is an oracle, any permutation |
| `CliMain` | `main.rs:432-690`: all commands but `config` and `completion`, with `commands/crypto.rs`, `commands/table.rs`, `hash jenkins` |
| `BuilderApi` | `builder.rs:93-507`: the calls that set options and add files, and the builder they leave |
| `TestArchives` | `test_utils/mpq_builder.rs`: configurations, generated contents, `create_test_archive`, `create_all_test_archives` |
| `TestData` | `test_utils/data_generator.rs`: configurations, contents, `generate_test_data` as calls on a disk with directories |
| `SpecialInfo` | `special_files/info.rs`: `get_special_file_info` |
| `TableApi` | `tables/{hash,block}.rs`: `new_mut`, `get_mut`, `clear`, `HiBlockTable::{new,set}` as changes of a list |

Not modelled: low and high compressibility in `test_utils/data_generator.rs` (no call asks for them), `OpenOptions::create`'s path
handling, colours and progress bars of the command line tool, the
JSON output of `archive analyze`, `completion`, the modules `commands/{extract,verify,create,list,find}.rs` (not
declared in `commands/mod.rs`, so not part of the program), the `user_data`
content, what happens when memory is exhausted (what is asked for: `Memory`), compiler and operating system.

### Simplifications

* `BuilderApi`: a builder is the list of calls made on it; values have the width of their Rust types (`method_typed`).
* `TestArchives`: the name of an archive is one component of a path, neither empty nor `..`; the output of the
  seeded random generator is a parameter.
* `TestData`: Unix paths without links, `x/..` leads back also if there is no `x`; the base path has a component; of a
  call that fails only what it may have changed is known; the random bytes are a parameter.
* `CliTold`, `CliAnalyzed`, `CliMain`: text without colours; of a verbose listing that panics the rows printed before
  are left out; the report of the error a command ends with is that of the runtime.
* `Json`: the numbers are unsigned; `serde_json::to_string_pretty` is a parameter of which only the
  grammar is asked, and which does not fail on these values.

* `Memory` lists single requests, not what is held at the same time; copies of data at hand and the
  requests of third-party decoders are left out, those of the later steps of several compressions
  are listed even if an earlier one fails.  The rest of the model assumes that every request
  below 2^63 bytes is met.
* `f64` (in `Percent` only): non-negative numbers as multiples of 2^-128, correctly rounded to 53 bits,
  ties to even; smaller or larger exponents do not come up.  `{:.1}` and `{:.2}` round the exact
  value, ties to even (the claims hold for either direction).
* `Vec::with_capacity(n)` and `vec![0; n]` succeed for n < 2^63; running out of
  memory is not modelled.  (Sizes of single files are below 2^63: BET fields of 64
  bits already panic.)  Where `decompress` multiplies the expected size, the
  product and the capacity are checked (`scaled`, `room`).
* Strings: names are byte strings; where Rust demands `str` the UTF-8 decoder is
  modelled (`Listfile`, `Ffi`); names passed by a Rust caller are any bytes.
* The archive file does not change while it is open.
* File system (C24): names are flat; a call acts atomically; a crash keeps what
  was written.  The code never calls `fsync`: that a *power failure* may leave a
  renamed but empty file is outside the model (and a weakness of the code).
* C API: the mutex is not fair, `lock()` on a poisoned mutex and panics inside a
  lock end the run (`Abort`); thread-local storage is a map from thread to value;
  raw pointers are modelled by whether they are null and by the buffer size.
* `archive create`: the source is a finite tree (a link to a directory shows what it
  leads to; `walkdir`'s refusal of cycles is not modelled), files do not change between
  the walk and the reading, every name is the one the file system has.
* Command line: Unix paths, no symbolic links (C59 has them), the output directory exists.  What
  a glob or regex pattern matches and `to_lowercase` are parameters.  The TOML text of
  settings is a pair of parameters of which only the round trip is assumed.

## How a property is stated

`Spec*.v` files hold the vocabulary of the statements, apart from the model.
`Prop*.v` files hold nothing but theorems, each closed by `exact`, with
`Print Assumptions` below and an `Example` whose hypotheses are met by concrete
data (`Demo*.v`, `ToyCodec.v`).  `*Facts.v` and the rest hold the proofs.
Suffixes: `_partial` proves a part (the comment says what is missing), `_refuted`
proves that the statement as worded is false of the model, with a witness.

| id | statement files | idea |
|----|----|----|
| C01, C02, C04 | `PropCrypto` | induction over the words, key stream depends on key and plain text only; padding lemma for the tail |
| C03 | `PropCrypto`, `PropPacked` | per-character normal form; hashes are the only way a name enters a lookup |
| C05, C06, C07, C35 | `PropTables` | loop = search along the probe path; invariant over insertions, contents of every slot; word round trips |
| C08, C09 | `PropHeader` | field round trips; induction over the boundaries |
| C10, C11, C16, C17, C20, C25 | `PropArchive` | layout lemma, then the above |
| C12-C15, C38, C40 | `PropCompress` | case analysis, simulation for ADPCM, runs for sparse |
| C16, C18, C19 | `PropArchive34` | layout of versions 3 and 4, digests |
| C36 | `PropPacked` | `testbit` reasoning |
| C21 | `PropHostile` | every panic of the reader is traced to its cause |
| C22, C23, C37 | `PropSpecial` | induction over names / fields |
| C37 without names | `PropListing` | induction over slots / blocks / entries, permutation under the sort |
| C24 | `PropBuild` | weakest preconditions over the tree of system calls |
| C26, C27 | `PropSignature` | loop invariant; big integer arithmetic |
| C28-C33 | `PropFfi` | automaton per call, invariants over all interleavings, lock order |
| C34, C39, C41-C43 | `PropCli` | places that paths lead to; composition of the archive theorems |
| C44-C47 | `PropCliList`, `PropList34` | a stable sort is determined by its groups; length argument for CSV |
| C48 | `PropBuilding` | every source of a panic in the builder bounded; the widths of the packed table |
| C49 | `PropInfo` | composition of the layout and lookup theorems |
| C53, C54, C55 | `PropAnswers` | the same automaton with what each call saw; one history of all opens that the answers refer to |
| C57 | `PropWrites` | executions with a journal of what each thread did; an automaton over a thread's own journal |
| C56 | `PropConfig` | what is stored is what is loaded next, what is shown is what is used; invariant over command sequences |
| C58 | `PropHash` | a JSON grammar; an escape shortens, so text that stands for itself has none |
| C59 | `PropCreate` | what the walk yields, by induction over the tree; then C42 |
| C60 | `PropStream` | a part of the content is unique; induction over the partial reads |
| C61 | `PropAnalyze` | tallies extended one entry at a time; the method names by computing all 256 |
| C62 | `PropNested` | zlib and sparse over PKWare step by step; the rest refuted |
| C63 | `PropStored` | the layouts of the format, from the format description (`SpecStored`); four of them refuted |
| C64 | `PropConform` | the same layouts (`SpecStored`), for what the builder wrote (`SpecConform`); three cases refuted |
| C65 | `PropCipher` | arithmetic of the description (`SpecCipher`) against the bit operations of the code, by induction over names and words; the table by its draws |
| C66 | `PropExtended` | documented layouts of the extended tables (`SpecExtended`) against `bet_read`/`bet_get` and `het_read`/`het_find`; a lookup in any archive by cases |
| C67 | `PropLists` | a relation between bytes and names (`SpecLists`) that does not mention the parser, and its functionality |
| C68 | `PropAudio` | streams cut into units, each channel played by itself (`SpecAudio`), against the decoder that alternates between channels |
| C69 | `PropOther` | header, tables and names read off the file by positions (`SpecOther`) against `open_archive`, `find_file` and `read_file`; files as in C63 |
| C70 | `PropReport` | fields of the header at their positions in the file, lookups and flags (`SpecReport`) against `get_report`; `csv_text` against the printed text |
| C71 | `PropPercent` | integer inequalities for nearest values, digits and columns (`SpecPercent`) against rounding of floating point numbers; exact quotients up to 100 reduced to the hundred quotients `k / 100` |
| C72 | `PropMemory` | limits in terms of the sizes of the file and of the declared sizes (`SpecMemory`), exact requests in the examples |
| C73 | `PropErrors` | what is wrong with the bytes, error by error: `fault`, `reason`, `header_reason`, `open_reason` (`SpecErrors`) |
| C74 | `PropFailures` | what is wrong with which file, over all undisturbed runs of the tree of system calls (`SpecFailures`) |
| C75 | `PropLoops` | one round of each loop as a function of its own (`Loops`), number of rounds (`SpecLoops`); against the functions of the model, which recurse on a bound |
| C76 | `PropInfoText` | the JSON grammar and what is found on a way through a value (`SpecJson`), lines, sections and labels of a text (`SpecInfoText`); against the printing functions, for every writer of JSON that follows the grammar (`writes_json`; `pretty_writes` shows that there is one) |
| C77 | `PropVerifyText` | what there is to say about a file (`judged`), the lines, fields and rows expected (`SpecVerifyText`); against the command and what it prints |
| C78 | `PropTold` | the lines and changes of a run, what is told about a name (`SpecTold`); against the commands |
| C79 | `PropAnalyzed` | the rows of the methods, their order, the parts of the text (`SpecAnalyzed`); against the command, for every order of the maps |
| C80, C81 | `PropMain` | the kinds of commands (`SpecMain`), the hashes and the cipher of the format (`SpecCipher`); against all commands, and for C81 all hashes and ciphers |
| C82 | `PropApi` | the last call that sets an option, the file a call adds (`SpecApi`); against the builder after any list of calls, and against all runs of `build` |
| C83 | `PropTest` | the options and files a configuration amounts to (`SpecTest`), contents byte by byte; against `create_test_archive` and what opening and reading give |
| C84 | `PropData` | successive states of a disk of files and directories; what stays, what comes from which call; places by following paths (`SpecCli`) |
| C85 | `PropMarks` | what the questions about a record answer, in terms of the file as added (`SpecMarks`); compression helps a unit (`SpecConform`, `SpecArchive`) |
| C86 | `PropArray` | arrays by the sequence of writes and clears (`SpecArray`); lookups as for C05 (`SpecTables`) |
| C20, C12, C23: checksums, imploded streams, attributes packed twice | `PropChecksum` | the sums of RFC 1950, the six heads (`SpecChecksum`) |
| C23 in built archives | `PropAttributes` | the size that the flags announce (`SpecAttributes`); against building and opening |
| C44, printed | `PropFind` | the lines of the text |
| C08, C19 for any header | `PropFields` | each read is the part of the bytes at the next place |
| C50, C51, C52 | `PropSuccess` | the builder followed step by step; sizes bounded so that the round trips apply |
| C37, C41, C42, C49 in V3/V4 | `PropCli34` | with at most four entries the lookup is the classic one |
| C18 exactly; C37, C41, C42, C49, C51, C59 in V3/V4 | `PropLookup34` | which names the name table mistakes, from the names alone (`SpecNameTable`: places, widths, bits); everything else works |

## Findings

Each is a theorem with a concrete witness (the names are those of the theorems).

* **C09** a user-data block that is cut off or points into the last bytes makes
  the open fail instead of being passed over (`C09_skip_unusable_pointer_refuted`).
* **C10** a file called `(attributes)` makes the archive unopenable
  (`C10_attributes_name_refuted`).
* **C11** a file of several sectors stored without compression never reads back;
  a sector that compression shortens by exactly one byte is misread
  (`C11_uncompressed_refuted`, `C11_uncompressed_always_refuted`, `C11_compressed_refuted`).
* **C13** a run of 127 zeros is written as the sparse end marker
  (`C13_sparse_lossless_refuted`; `C13_sparse_lossless_iff` gives the exact criterion;
  the writer is right, `C13_stream_stands_for_data`, it is the reader that stops).
* **C14** ADPCM levels from 10 on overflow a shift in the encoder.
* **C15** some combinations accepted by the compressor are not undone
  (`C15_combination_refuted`, `C15_bzip2_refuted`, `C15_lost_refuted`: twenty
  method bytes; `C15_every_method_classified` shows there are no others).
* **C18** in versions 3 and 4, from five entries on a name can resolve to the
  first file of the archive, an absent name can be "found", a built archive can
  be unopenable, a large file cannot be built (`C18_*_refuted`). Exactly which
  names go wrong is a matter of the names alone (`C18_exact_partial`): the
  builder gives each entry `hb + ib` bits, the reader looks at `hb` bits.
* **C20** checksum mismatches in files of several sectors are only logged
  (`C20_several_sectors_refuted`); and not every change alters an Adler-32
  (`C20_all_changes_refuted`), though one wrong byte always does (`C20_one_byte`).
* **C21** small crafted files make opening or reading panic
  (`C21_reading_refuted`, `C21_opening_refuted`, `C21_lookup_refuted`,
  `C21_vast_file_refuted`).
* **C22** a name with a semicolon, a leading blank and so on is lost in the list
  (`C22_every_name_refuted`).
* **C25** with deferred table loading every request fails
  (`C25_deferred_loading_refuted`).
* **C27** no weak signature is ever accepted (`C27_weak_never_valid`).  The two public keys have
  the length and exponent they are said to have and no small factor (`C27_keys`).
* **C30** a seek before the start goes to the end; a 64-bit offset whose low half
  is 2^31 or more loses its high half (`C30_*_refuted`).
* **C31** a file opened while its archive is being closed stays readable
  (`C31_race_refuted`).
* **C32** `SFileVerifyArchive` with all-files deadlocks with itself, as does an
  enumeration callback that uses an archive handle (`C32_verify_refuted`,
  `C32_enum_refuted`).
* **C34** with `--preserve-path` names such as `../evil.txt` and `/etc/evil.txt`
  are written outside the output directory; without it a name ending in `..`
  panics (`C34_*`).
* **C36** the last entries of the BET table are never read back, wide entries are
  cut, compressed extended tables are not read (`C36_*_refuted`).
* **C37** of an archive of version 4 with three files `list_all` shows one
  (`C37_all_files_refuted`): the BET reader cannot decode the others (C36), and the
  classic tables are only asked when it gives nothing.
* **C38** the Huffman decoder ignores its payload (`C38_payload_ignored_refuted`).
* **C39, C43** `verify` passes over listed names without a file, does not compare
  sizes, and only prints the results for digests and signature
  (`C39_absent_name_refuted`, `C39_size_refuted`, `C43_*_refuted`).
* **C41** an archive built without a list never verifies (`C41_without_list_refuted`), and an archive of version 3
  with seventeen files and a list may not either (`C41_version_3_refuted`).
* **C42** a backslash in a file name becomes a directory (`C42_backslash_refuted`).  A directory of four files packed
  in version 3 is unpacked with a wrong content, and both verification and extraction report success
  (`C42_version_3_refuted`).
* **C45** `file list --verbose` panics on a name of more than 39 bytes with a
  character across its 36th byte (`C45_table_refuted`).
* **C46** the CSV output does not quote names (`C46_comma_refuted`).
* **C47** `archive analyze` takes the low byte of the block flags for the method:
  every file of a built archive is reported as not compressed
  (`C47_always_none`, `C47_method_refuted`).
* **C48** building panics for a block size of 55 or more (nothing enforces the
  documented limit of 31), in versions 3 and 4 for a file of two megabytes followed
  by another, and for an encrypted file of four gigabytes (`C48_*_refuted`).  For versions 3
  and 4 it is said exactly when: if the widths of the largest position, size and stored size are
  64 bits or more together (`C48_v3_v4_iff`, `C50_v3_v4_iff`).
* **C50** the generated list is compressed with the default method as well: with an
  ADPCM default (the tool offers it) building fails whenever the list has an odd
  length (`C50_adpcm_list_refuted`); Huffman and implode fail for every content
  that is not empty (`C50_closed_methods`).
* **C52** `OpenOptions::create` with tables loaded on demand returns an archive on
  which every request fails (`C52_deferred_refuted`).
* **C53** `SFileGetFileSize` tells the size in the tables, also for a file from which
  another number of bytes can be read (`C53_size_refuted`).
* **C54** enumeration masks are no wildcards: the stars are removed and the rest may
  be anywhere in the name, so `*.t` gives `d.txt`; a question mark stands for itself
  (`C54_wildcards_refuted`).
* **C55** `SFileVerifyFile` passes a file with a wrong sector checksum
  (`C55_wrong_checksum_refuted`).
* **C57** two calls of `SFileCreateArchive` with CREATE_NEW for the same path can both
  succeed, the second replacing what the first made, because the file's existence is
  looked up before and apart from the write (`C57_create_new_refuted`); the hash table
  size is validated and then not used (`C57_table_size_refuted`).
* **C56** the setting `default_output` is stored and shown, but never used
  (`C56_output_refuted`); settings that cannot be parsed make every command fail,
  `config reset` too (`C56_malformed_refuted`); the values in the file are not checked:
  a block size of 64 makes `archive create` panic, version 9 is shown while version 1
  is used (`C56_block_size_refuted`, `C56_version_refuted`).
* **C58** `hash generate` with JSON output does not escape names: `Scripts\Common.j`
  gives malformed JSON, `dir\new.txt` another name (`C58_backslash_refuted`,
  `C58_other_name_refuted`); all hashes are printed as text also if JSON was asked for
  (`C58_all_json_refuted`).
* **C59** `archive create --ignore`: patterns are searched literally anywhere in the path,
  the path of the source directory included.  The documented `--ignore "*.tmp"` leaves
  nothing out (`C59_star_refuted`, `C59_star_keeps_all`), `--ignore tmp` on `/tmp/src`
  leaves out everything (`C59_own_path_refuted`).  A file name that is not UTF-8 makes
  the command panic (`C59_not_text_refuted`).
* **C61** `archive analyze` on an archive without a list counts nothing and says that all
  methods are supported, because it looks up the made-up names (`C61_no_list_refuted`);
  extensions are cut with the separator of the operating system, so that
  `Scripts.v1\common` has the extension `v1\common` (`C61_backslash_refuted`).
* **C62** A flag byte with two general methods is undone by half: data coded sparsely and
  then packed with zlib (0x22) come back as the sparse stream, without an error
  (`C62_inner_step_left_refuted`, `C62_two_general_refuted`); bzip2 beside sparse or implode
  never unpacks anything, because the size insisted on is first four times and then once the
  expected one (`C62_bzip2_refuted`), and bzip2 over PKWare fails unless the PKWare stream is exactly four times as long
  as the data (`C62_bzip2_over_pkware_refuted`). Sparse over PKWare hands the PKWare decoder its stream padded with
  zero bytes: right only if the decoder takes no notice of them (`C62_sparse_over_pkware_partial`, `…_refuted`).
* **C63** Files stored by other tools.  The TODO file says that decompression of PKWare
  implode (flag 0x100) is "implemented and working", but such files have no method byte:
  in binary mode the first byte of every stream, a zero, is taken for "not compressed" and
  the rest of the stream is returned as the content, without an error
  (`C63_imploded_refuted`, for every such file).  The cipher of the format works on words
  and leaves a remainder of one to three bytes as it is; the reader decrypts it, the
  builder encrypts it (`C63_tail_refuted`).  Encrypted sectors without compression have a
  key each, but all are decrypted with the first (`C63_sector_keys_refuted`).  A single
  unit marked as compressed that did not become shorter is unpacked nevertheless
  (`C63_not_shorter_refuted`).  Method 0x04 leaves out the head of the stream; the first
  head that fits decides, not the one left out (`C63_head_refuted`).
* **C64** What the builder stores.  A file of several sectors of which none shrinks (always
  with compression off) has a sector table but is not marked as compressed, so by the
  format the table is content (`C64_uncompressed_refuted`).  The one to three bytes behind
  the last word are encrypted, by the format they stay (`C64_tail_refuted`; the reader has
  the same error, so the library does not notice).  Data that shrink by exactly one byte are
  stored packed, with the method byte as long as before; the format knows packed data by
  their being shorter (`C64_one_byte_refuted`).  With checksums, the size recorded for a file
  of several sectors leaves them out though they lie between the table and the data, so the
  sectors end behind it (`C64_checksums_refuted`; exactly which size is recorded: `C64_sizes`).
* **C65** The test vectors of docs/mopaq-format.md (lines 1401-1497), of which "a working
  implementation should produce identical results", are wrong one and all: 29 name hashes, 10
  table entries, the cipher text and the Jenkins hash differ from what the algorithms of the
  same document give, and from the code, which agrees with those algorithms
  (`C65_vectors_refuted`).
* **C66** Extended tables of other tools.  The array of file numbers in the name table (HET)
  is read but never looked at: for every documented table, every name that is found leads to
  entry 0 of the block table (BET) (`C66_all_first_refuted`), so in an archive of four files the
  second name gives the content of the first file without an error (`C66_wrong_file_refuted`).
  Hashes of 64 bits panic when one matches (`C66_names_partial`).  Block entries are read from
  eight bytes: an entry reaching into a ninth loses its upper bits (`C66_cut_entry_refuted`),
  entries starting in the last eight bytes of the table do not exist for the code, which always
  includes the last one if it is shorter than that (`C66_last_entry_refuted`), and entries of 64
  bits or more, which archives of large games have, panic (`C66_block_entries_partial`).
* **C69** Archives of other tools with classic tables.  Lookups take the first entry of a name
  in any language, so a German file hides the neutral one behind it (`C69_language_refuted`).
  Packed hash tables (versions 3 and 4) are read as if they were plain when enough bytes follow:
  the archive is opened and no file is found (`C69_packed_tables_refuted`).  Attributes that end
  too early make the whole archive inaccessible (`C69_short_attributes`).
* **C70** Inspection of any archive.  The number of files counts block entries with a size, also
  those of deleted files (`C70_deleted_refuted`).  An archive with extended tables only is
  called not encrypted although every file in it is (`C70_sealed_refuted`).  The CSV output is
  right for exactly the paths without comma, quote and line end (`C70_csv`).  A signature that
  cannot be read is told as an invalid weak one (`C70_signature`).
* **C71** The verbose table.  Percentages are rounded down after a floating point division, and
  exactly 29, 57 and 58 percent are printed as 28, 56 and 57 (`C71_percent_refuted`; proved to be
  the only ones up to 100).  1048575 bytes are `1024.00 KB` (`C71_size_refuted`).  Imploded files
  are not called compressed (`C71_imploded_refuted`).  Of no files, `-vv` prints `NaN%`
  (`C71_nothing_refuted`).
* **C72** Sizes are believed before anything is read: 32 bytes with the right header make opening ask
  for 32 GB (`C72_open_refuted`), a version 4 header for 2^62 bytes, for a table whose absence would
  not even be an error (`C72_open34_refuted`), and a file of three bytes can make reading ask for
  4 GB although it is read without complaint (`C72_read_refuted`).  A failed request ends the
  process.  Proved: 64 GB and 16 GB are the most in versions 1 and 2.  For all versions, every request of an
  opening that succeeds is given its reason (`C72_open_all_versions_partial`).
* **C73** Every error of opening and reading is traced to what is wrong (`C73_reading`, `C73_opening`,
  `C73_header`), but the classes do not fit: damage inside compressed data and an archive cut short
  give errors that `is_corruption` does not know, and a sound archive whose tables were not loaded
  is called corrupt (`C73_corruption_refuted`).
* **C74** Every error of building is traced to the file that causes it (`C74_v1_v2`,
  `C74_v3_v4`, in which the panic of C48 is one of the outcomes); which of several problems is told depends on the version, because versions
  3 and 4 enter the names last (`C74_example`).  A name that occurs twice is `invalid format`.
* **C75** Every loop ends.  The loop of `add_to_hash_table` has no check for a full table and
  would run for ever on one (`C75_full_table_refuted`); the builder's tables are never full
  (`C75_entering`).  The Huffman decoder works as long as the stated size says, whatever is stored:
  one byte can ask for 2^32 - 1 rounds (`C75_huffman_refuted`).
* **C76** What is printed about an archive says what the inspection found, as text and as JSON, but the
  size of an archive of 1536 bytes is given as "1.50 KB bytes" (`C76_size_refuted`).  `file info` says
  "File not found" whenever a file cannot be read, also when it is there and damaged
  (`C76_reason_refuted`).
* **C77** `archive verify` says what it found, but an archive without a `(listfile)` always fails: its files
  are listed under made-up names and called missing though they can be read (`C77_unlisted_refuted`), while
  with a list nothing is ever missing, since listed names without a file are passed over
  (`C77_never_missing`).  "PASSED" is printed below a digest or a signature that is invalid
  (`C77_passed_refuted`).  `--check-crc` without `--check-contents` does nothing and says nothing
  (`C77_crc_ignored`).  In the JSON output the signature status is `Some(None)`, `Some(WeakValid)` and so on.
* **C78** `file extract` ends in success and says "Extracted 3 files" though one of them could not be read
  (`C78_count_refuted`); the number is right exactly if every listed name can be read.  `archive create` says
  "Added" before it looks at the file (`C78_added_refuted`).
* **C79** `archive analyze` prints "All compression methods in this archive are supported!" for an archive with a
  PKWARE-compressed file (`C79_all_supported_refuted`), and a total of 0 bytes and 100% for an archive without
  a `(listfile)` (`C79_size_refuted`).
* **C80** `--quiet` ("Suppress all output except errors") has no effect on `info`, `list`, `file info`, the hash
  commands and `crypto test`, and hardly any on `analyze` (`C80_careless`, `C80_quiet_refuted`, `C79_quiet`).
  `table show`, `table analyze` and `hash jenkins` end in success without doing anything (`C80_stubs_partial`).
* **C81** `crypto test` passes whatever the hash function is; only the round trip of one sample is tested
  (`C81_catches_refuted`).
* **C82** A file added with the default method gets the one set at the time of the call; `default_compression`
  called afterwards does not reach it, while every other option does (`C82_default_refuted`, `C82_order`).
* **C83** Test archives with attributes (`comprehensive_v2`, `comprehensive_v4`) are created but can never be
  opened: two words per file are written where the parser expects, for the flags 3, three words per entry,
  special files included; `Archive::open` then fails with `InvalidFormat` (`C83_openable_refuted`,
  `C83_refused_v1_v2`, `C83_refused_v3_v4`). `compression: None` means zlib for what is not encrypted
  (`C83_uncompressed_refuted`). `hash_table_size` is not used (`C83_hash_size_refuted`). The archive `crc_test` has
  no checksums (`C83_checksums_refuted`). `with_extension` drops what is behind a dot, so two configurations may be
  written to one path (`C83_same_path_refuted`).
* **C84** `generate_test_data` removes `base/name` before it writes. With an empty name that is the base directory with
  all that is in it (`C84_base_kept_refuted`); with an absolute name `join` leaves the base out. Paths with `..` overwrite
  files outside (`C84_elsewhere_refuted`). A configuration with a file below a file ends in an error after half of
  it was written (`C84_succeeds_refuted`). None of the predefined ones is of this kind (`C84_predefined`).
* **C85** A file marked compressed can take exactly as much room as its content, and a file of several sectors that is not
  takes more, because of the table of sectors (`C85_smaller_refuted`); a fixed key without encryption is dropped
  (`C85_fix_key_refuted`). In version 3 and 4 with more than four entries what is told can be that of the first file
  (`C85_told_or_first_partial`, `C85_listed_or_first_partial`, see C18). `get_special_file_info` says the list file is compressed, which depends on the default method and
  on whether it helps, and knows one spelling only, where the archive knows all (`C85_special_refuted`).
* **C86** `HashTable::new` and `new_mut` check the size after `as u32`: 2^32+1 passes as 1, and a lookup in such a table masks
  with 2^32, so that it looks at place 0 only (`C86_hash_sizes_refuted`).
* **C23** An `(attributes)` file that is too short makes the whole archive impossible to open
  (`C23_built_v1_v2`, `C23_built_v3_v4`); a missing one does not.
* **C49** the reported number of files leaves out the empty ones (`C49_count_refuted`).

## Seeded bugs

`seeded/LOG.jsonl` records, one per line, the edits made to a scratch copy of the
model, the claim each breaks, and the theorems that failed to prove afterwards.
Entries whose edit begins with "generated" come from a script that changes one
number, comparison, operator or truth value of a definition and rebuilds everything;
for these `failed_theorems` names the first lemma or theorem that failed.  A `note`
says why nothing failed, where that is so.
