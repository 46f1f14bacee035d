{"id": "C01", "title": "Block cipher round trip", "statement": "Encrypting any sequence of 32-bit words with any 32-bit key and then decrypting it with the same key gives back exactly the original words, and decrypting first and encrypting second does too. Neither direction changes the number of words. With key 0 both directions leave the data as it is.", "quantifier": "every list of 32-bit words of every length and every 32-bit key", "why_tests_cant": "The key space and the data space are each 2^32 per word and the cipher state chains from word to word; unit tests try a few keys and short blocks.", "anchors": ["mopaq/src/crypto/encryption.rs:encrypt_block", "mopaq/src/crypto/decryption.rs:decrypt_block", "mopaq/src/crypto/keys.rs:ENCRYPTION_TABLE"]}
{"id": "C02", "title": "Byte-level file encryption round trip", "statement": "File data encrypted by the archive builder with some key is restored byte for byte by the archive reader's decryption with that key, for every length including lengths that are not a multiple of four; the length never changes.", "quantifier": "every byte string of every length and every 32-bit key", "why_tests_cant": "The 1-3 byte tail is handled by a separate code path on each side (re-keyed, zero padded); tests cover a few lengths and keys only.", "anchors": ["mopaq/src/builder.rs:encrypt_data", "mopaq/src/archive.rs:decrypt_file_data", "mopaq/src/crypto/decryption.rs:decrypt_dword"]}
{"id": "C03", "title": "File names are case- and separator-insensitive", "statement": "Two spellings of a file name that differ only in ASCII letter case and in using '/' instead of '\\' have the same name hashes (of every kind the format uses, including the 64-bit HET hash), the same encryption key, and therefore looking either up in any archive table gives the same answer.", "quantifier": "every pair of byte strings that agree after case folding and separator normalisation, every hash kind, every table", "why_tests_cant": "Universal over all names; tests try a handful of spellings.", "anchors": ["mopaq/src/crypto/hash.rs:hash_string", "mopaq/src/crypto/hash.rs:jenkins_hash", "mopaq/src/crypto/keys.rs:ASCII_TO_UPPER", "mopaq/src/tables/hash.rs:find_file"]}
{"id": "C04", "title": "Single-word decryption agrees with block decryption", "statement": "Decrypting one 32-bit word on its own gives the same value as decrypting a block consisting of that word only, for every key, and hence a one-word encrypted block can be read back word-wise.", "quantifier": "every 32-bit word and every 32-bit key, zero included", "why_tests_cant": "2^64 combinations; the two code paths are separate implementations of the cipher.", "anchors": ["mopaq/src/crypto/decryption.rs:decrypt_dword", "mopaq/src/crypto/decryption.rs:decrypt_block", "mopaq/src/crypto/encryption.rs:encrypt_block"]}
{"id": "C05", "title": "Name lookup in a hash table terminates and returns exactly the first live match", "statement": "Looking a name up in any loaded hash table always finishes. It returns an entry exactly when some slot on the probe path (starting at the name's home slot, wrapping around once) is live, matches the name and the requested locale, and no never-used slot lies before it; the entry returned is the first such slot. Deleted slots never stop the search.", "quantifier": "every table whose size is a power of two, with arbitrary entries (also full of deleted or foreign entries), every name, every locale", "why_tests_cant": "Termination and exactness over arbitrary table contents, including full tables with no empty slot, cannot be enumerated.", "anchors": ["mopaq/src/tables/hash.rs:find_file", "mopaq/src/tables/hash.rs:HashEntry"]}
{"id": "C06", "title": "The builder's name table behaves like a map", "statement": "Adding any list of files to a fresh name table either fails with a duplicate error because two of the files have equal name hashes and equal locale, or succeeds; the table never fills up; after success, looking up each added name (under every spelling) with its own locale gives the block number of a file that was added under those name hashes, and a name whose hashes were never added is reported absent.", "quantifier": "every list of names with locales, of every length, in every order", "why_tests_cant": "Probing behaviour depends on all collisions between all inserted names; the statement is about every insertion history.", "anchors": ["mopaq/src/builder.rs:add_to_hash_table", "mopaq/src/builder.rs:calculate_hash_table_size", "mopaq/src/tables/hash.rs:find_file"]}
{"id": "C07", "title": "Hash and block tables survive being written and read", "statement": "A hash table or block table written by the builder (encrypted) and loaded by the reader from that position yields exactly the same entries in the same order, for every table contents.", "quantifier": "every table (every length; power of two for the hash table), every entry value, every position in a file", "why_tests_cant": "All field values and all table lengths; also requires key agreement between the two sides.", "anchors": ["mopaq/src/builder.rs:write_hash_table", "mopaq/src/builder.rs:write_block_table", "mopaq/src/tables/hash.rs:read", "mopaq/src/tables/block.rs:read"]}
{"id": "C08", "title": "Archive headers survive being written and read", "statement": "A header written by the builder for any format version and any field values is parsed by the reader to the same field values, including 64-bit table positions that are split in a low and a high part.", "quantifier": "every combination of header field values the builder can write, format versions 1 to 4", "why_tests_cant": "Field values range over up to 2^64 each; tests use a few archives.", "anchors": ["mopaq/src/builder.rs:write_header", "mopaq/src/header.rs:read", "mopaq/src/header.rs:get_hash_table_pos", "mopaq/src/header.rs:get_block_table_pos"]}
{"id": "C09", "title": "The archive is found at the first 512-byte boundary carrying an archive or user-data signature", "statement": "Opening a file locates the archive at the smallest multiple of 512 that carries an archive signature or a usable user-data pointer; arbitrary data in front of the archive does not change what is found as long as no earlier boundary carries one of the signatures; if there is none the open fails. The search always terminates.", "quantifier": "every file content and every amount and content of leading data", "why_tests_cant": "All prefixes and all file contents.", "anchors": ["mopaq/src/header.rs:find_header", "mopaq/src/archive.rs:open_with_options"]}
{"id": "C10", "title": "Small files are read back exactly (V1/V2)", "statement": "For every V1 or V2 archive built from files that each fit in one sector, reading any added name (in any spelling) from the resulting archive file returns exactly the bytes that were added, for every mix of compression (with any lossless codec), encryption, position-dependent keys and checksums. (Known exception, proved: no file may be called \"(attributes)\", which the reader takes for its own metadata.)", "quantifier": "every list of files with distinct name hashes, every content up to a sector each, every per-file option combination, every sector size", "why_tests_cant": "Composes layout, encryption keys that depend on the position, compression fallbacks, table construction and lookup; the interaction space is unbounded.", "anchors": ["mopaq/src/builder.rs:build", "mopaq/src/builder.rs:write_file", "mopaq/src/archive.rs:open", "mopaq/src/archive.rs:read_file"]}
{"id": "C11", "title": "Files of every size are read back exactly (V1/V2)", "statement": "For every V1 or V2 archive the builder produces, reading any added name returns exactly the bytes that were added, whatever the file's size, its compressibility and its options.", "quantifier": "every list of files, every content of every size, every per-file option combination, every sector size", "why_tests_cant": "Depends on the per-sector outcome of compression for unbounded contents.", "anchors": ["mopaq/src/builder.rs:write_file", "mopaq/src/archive.rs:read_file", "mopaq/src/archive.rs:read_sectored_file"]}
{"id": "C12", "title": "Compression container is lossless", "statement": "Compressing data with a single method and decompressing the result with that method and the original size gives back the data whenever the compressor reported a gain, for any lossless codec; output is never longer than the input, and if there is no gain the input itself is returned.", "quantifier": "every byte string, every single method", "why_tests_cant": "All inputs; and the result has to be distinguishable from stored data by its consumer.", "anchors": ["mopaq/src/compression/compress.rs:compress", "mopaq/src/compression/decompress.rs:decompress"]}
{"id": "C13", "title": "Sparse compression is lossless", "statement": "Decompressing the sparse-compressed form of any byte string with the original size gives back that byte string.", "quantifier": "every byte string", "why_tests_cant": "Run lengths interact with the control byte encoding; only specific run lengths go wrong.", "anchors": ["mopaq/src/compression/algorithms/sparse.rs:compress", "mopaq/src/compression/algorithms/sparse.rs:decompress"]}
{"id": "C14", "title": "ADPCM decoding tracks the encoder exactly", "statement": "For every valid 16-bit mono or stereo sample sequence, the decoder run on the encoder's output produces as many bytes as went in, starts with the exact first sample of every channel, and every decoded sample equals the prediction the encoder had for it (the two never drift apart). (Known exception, proved: from level 10 on a shift in the encoder overflows.)", "quantifier": "every sample sequence of every length, one or two channels, every compression level below 32", "why_tests_cant": "State carried over the whole stream; drift shows only on particular histories.", "anchors": ["mopaq/src/compression/algorithms/adpcm.rs:compress_internal", "mopaq/src/compression/algorithms/adpcm.rs:decompress_internal"]}
{"id": "C15", "title": "Multi-method compression is undone by decompression", "statement": "Whatever combination of methods the compressor accepts, decompressing the result with the same combination and the original size undoes it (up to ADPCM's lossy step).", "quantifier": "every method combination and every input", "why_tests_cant": "All 2^8 combinations times all inputs; several combinations take different orders or different size hints on the two sides.", "anchors": ["mopaq/src/compression/compress.rs:compress_multiple", "mopaq/src/compression/decompress.rs:decompress_multiple"]}
{"id": "C16", "title": "Stored regions do not overlap", "statement": "In every archive that the builder produces, the header, the stored region of each file, the two extended tables (V3, V4), the name table, the block table and the high-position table occupy pairwise disjoint byte ranges that all lie inside the archive, in that order, and the recorded positions and sizes describe exactly these ranges.", "quantifier": "every list of files and options", "why_tests_cant": "Layout depends on every file's stored size.", "anchors": ["mopaq/src/builder.rs:write_archive", "mopaq/src/builder.rs:write_file"]}
{"id": "C17", "title": "Absent names are reported absent", "statement": "In every V1/V2 archive the builder produces, a name whose hashes equal those of no added name is not found, reading it fails with a not-found error, and it never yields another file's data.", "quantifier": "every list of files and every other name without a triple hash collision", "why_tests_cant": "All names and all archives.", "anchors": ["mopaq/src/archive.rs:find_file", "mopaq/src/archive.rs:read_file"]}
{"id": "C18", "title": "V3/V4 archives return the right file", "statement": "For every V3 or V4 archive the builder produces, looking up any added name resolves to the file that was added under this name.", "quantifier": "every list of files", "why_tests_cant": "The extended (HET) table uses truncated hashes; wrong answers appear only for particular name sets.", "anchors": ["mopaq/src/builder.rs:create_het_table", "mopaq/src/tables/het.rs:find_file", "mopaq/src/archive.rs:find_file"]}
{"id": "C19", "title": "V4 digests of a built archive verify", "statement": "Every V4 archive that the builder produces reports all of its digests as valid when inspected, and changing any byte of a digested region makes the corresponding digest invalid unless the change is an MD5 collision.", "quantifier": "every list of files and options, every modification of a digested region", "why_tests_cant": "All contents; tests check one archive.", "anchors": ["mopaq/src/builder.rs:finalize_v4_header_md5", "mopaq/src/archive.rs:validate_v4_md5"]}
{"id": "C20", "title": "Checksums expose corruption of stored files", "statement": "If a file was stored with checksums and its stored bytes are altered so that the content read would differ (and the checksum of the altered content differs from the stored one), reading it fails instead of returning altered content.", "quantifier": "every file content and every alteration", "why_tests_cant": "All alterations of all contents.", "anchors": ["mopaq/src/archive.rs:read_file", "mopaq/src/archive.rs:read_sectored_file", "mopaq/src/builder.rs:write_file"]}
{"id": "C21", "title": "Reading never crashes on a hostile archive", "statement": "Opening an arbitrary byte string as an archive and looking up or reading any name either succeeds or returns an error; it never aborts by arithmetic overflow or out-of-range access.", "quantifier": "every byte string and every name", "why_tests_cant": "All malformed inputs.", "anchors": ["mopaq/src/archive.rs:read_file", "mopaq/src/archive.rs:read_sectored_file", "mopaq/src/archive.rs:load_tables", "mopaq/src/header.rs:sector_size"]}
{"id": "C22", "title": "Generated file lists are parsed back", "statement": "The file list generated into an archive, when parsed, gives exactly the names of the added files followed by the list file's own name, in order.", "quantifier": "every list of file names", "why_tests_cant": "Depends on every character of every name (comments, separators, blanks, line ends).", "anchors": ["mopaq/src/builder.rs:prepare_listfile", "mopaq/src/special_files/listfile.rs:parse_listfile"]}
{"id": "C23", "title": "File attributes survive being serialised and parsed", "statement": "Serialising any attributes record and parsing the result with the matching number of files gives back the same checksums, times, digests and patch flags for every file; parsing arbitrary bytes never crashes and never accepts truncated data.", "quantifier": "every attribute set, every flag combination, every number of files; every byte string for the robustness half", "why_tests_cant": "All flag combinations with all values and counts, including bit packing of patch flags.", "anchors": ["mopaq/src/special_files/attributes.rs:to_bytes", "mopaq/src/special_files/attributes.rs:parse"]}
{"id": "C24", "title": "Building an archive is all or nothing", "statement": "If building an archive is interrupted at any point (error or process crash), the destination path still holds what it held before; once building has succeeded it holds the complete new archive. No state in between is ever visible at the destination.", "quantifier": "every archive content, every previous destination content, every crash point, every error point", "why_tests_cant": "Every crash point of every build.", "anchors": ["mopaq/src/builder.rs:build"]}
{"id": "C25", "title": "Opening with deferred table loading gives the same answers", "statement": "An archive opened with table loading switched off answers find, list and read requests as if the tables had been loaded at open (loading them on demand).", "quantifier": "every archive, every name, every sequence of requests", "why_tests_cant": "All archives and all request histories.", "anchors": ["mopaq/src/archive.rs:OpenOptions", "mopaq/src/archive.rs:find_file", "mopaq/src/archive.rs:list"]}
{"id": "C26", "title": "Signature digests cover exactly the archive without its signature", "statement": "The digest used for weak signatures depends only on the archive's bytes outside the signature file: it equals the digest of the archive with the signature's bytes replaced by zeros, whatever the chunk boundaries; changing bytes inside the signature region never changes it and changing a byte outside changes the digested data.", "quantifier": "every archive content, position and size of the signature, archive length", "why_tests_cant": "Chunk boundary and overlap cases for all positions and sizes.", "anchors": ["mopaq/src/crypto/signature.rs:calculate_mpq_hash_md5", "mopaq/src/crypto/signature.rs:SignatureInfo"]}
{"id": "C27", "title": "Signature verification accepts exactly the well-formed signed digest", "statement": "Strong signature verification reports success exactly when the decrypted signature is the fixed padding followed by the archive's digest; weak verification reports success for every properly padded signature of the archive's digest and for nothing else.", "quantifier": "every archive digest and every signature value", "why_tests_cant": "All signature values; leading-zero handling matters only for big-integer conversions.", "anchors": ["mopaq/src/crypto/signature.rs:verify_weak_signature_stormlib", "mopaq/src/crypto/signature.rs:verify_strong_signature", "mopaq/src/crypto/signature.rs:verify_pkcs1_v15_md5"]}
{"id": "C28", "title": "Handles are never confused", "statement": "In any history of C API calls, every handle returned by an open or create call is new: it differs from every archive or file handle returned before, so a closed handle never becomes valid again, and using a handle that is closed, or of the other kind, fails with an invalid-handle error.", "quantifier": "every history of API calls (below 2^64 opens)", "why_tests_cant": "All call histories.", "anchors": ["storm-ffi/src/lib.rs:SFileOpenArchive", "storm-ffi/src/lib.rs:SFileOpenFileEx", "storm-ffi/src/lib.rs:SFileCloseArchive", "storm-ffi/src/lib.rs:SFileCloseFile"]}
{"id": "C29", "title": "Sequential reads reproduce the file", "statement": "Reading an opened file through the C API with any sequence of chunk sizes returns consecutive pieces whose concatenation is the file's content from the start position, never reads past the end, and reports success with zero bytes at the end; other handles' positions are unaffected.", "quantifier": "every file content and every sequence of requested sizes, interleaved with calls on other handles", "why_tests_cant": "All request sequences.", "anchors": ["storm-ffi/src/lib.rs:SFileReadFile"]}
{"id": "C30", "title": "Seeking moves to the requested position", "statement": "Setting the file position relative to start, current position or end moves to exactly the requested place when it lies inside the file; a request before the start fails or stops at the start, a request past the end stops at the end.", "quantifier": "every file size below 2^63, current position, 64-bit offset and origin", "why_tests_cant": "All offsets including negative and 64-bit split ones.", "anchors": ["storm-ffi/src/lib.rs:SFileSetFilePointer"]}
{"id": "C31", "title": "Closing an archive invalidates its files", "statement": "After an archive is closed through the C API no file handle opened from it is usable, whatever calls other threads make at the same time.", "quantifier": "every history of calls and every interleaving of threads", "why_tests_cant": "Schedules cannot be enumerated by tests.", "anchors": ["storm-ffi/src/lib.rs:SFileCloseArchive", "storm-ffi/src/lib.rs:SFileOpenFileEx"]}
{"id": "C32", "title": "The C API never deadlocks", "statement": "No interleaving of C API calls from any number of threads leaves a thread waiting forever.", "quantifier": "every number of threads, every program of API calls, every schedule", "why_tests_cant": "Deadlocks depend on the schedule.", "anchors": ["storm-ffi/src/lib.rs:SFileVerifyArchive", "storm-ffi/src/lib.rs:SFileEnumFiles", "storm-ffi/src/lib.rs:SFileGetFileInfo"]}
{"id": "C33", "title": "Error codes and locale are per thread", "statement": "The last-error code and the locale a thread observes are determined by that thread's own calls only.", "quantifier": "every number of threads and every interleaving", "why_tests_cant": "Schedules cannot be enumerated by tests.", "anchors": ["storm-ffi/src/lib.rs:SFileGetLastError", "storm-ffi/src/lib.rs:SFileSetLocale"]}
{"id": "C34", "title": "Extraction stays inside the output directory", "statement": "Extracting an archive with the command line tool writes only to paths inside the chosen output directory.", "quantifier": "every archive (hence every file name an archive may contain) and every output directory", "why_tests_cant": "File names are attacker controlled.", "anchors": ["storm-cli/src/commands/file.rs:extract"]}
{"id": "C35", "title": "File positions beyond 4 GiB are kept", "statement": "A file position split by the builder into a 32-bit low part and a 16-bit high part is recombined by the reader to the same position, relative to the archive start, for all positions below 2^48, and the high-position table is only omitted when all high parts are zero.", "quantifier": "every position and every mixture of positions in one archive", "why_tests_cant": "Requires archives of many gigabytes to test.", "anchors": ["mopaq/src/builder.rs:write_archive", "mopaq/src/tables/block.rs:HiBlockTable", "mopaq/src/archive.rs:find_file_classic"]}
{"id": "C36", "title": "Bit-packed table entries are read back", "statement": "Every entry written into a bit-packed table by the builder is read back with the same field values by the reader, for every field width and every number of entries, and writing one entry does not disturb the others.", "quantifier": "every field width, entry count, index and value", "why_tests_cant": "All widths, alignments and counts; errors appear at unaligned boundaries and at the table end only.", "anchors": ["mopaq/src/builder.rs:write_bit_entry", "mopaq/src/builder.rs:create_bet_table", "mopaq/src/tables/bet.rs:read_table_entry", "mopaq/src/tables/het.rs:read_hash_entry"]}
{"id": "C37", "title": "Listing shows exactly the retrievable listed names", "statement": "Listing an archive with a file list returns exactly the entries of that list that resolve to a file, each once per occurrence and in list order, with the sizes and flags of the file it resolves to. Listing without names gives one line per file of the tables, under a name made of its number.", "quantifier": "every archive state and every file list", "why_tests_cant": "All archives.", "anchors": ["mopaq/src/archive.rs:list"]}
{"id": "C38", "title": "Huffman-compressed data is decoded to its content", "statement": "Decompressing Huffman-compressed data depends on the compressed payload: two archives with different Huffman-compressed contents are not decoded to the same bytes.", "quantifier": "every Huffman stream", "why_tests_cant": "All streams.", "anchors": ["mopaq/src/compression/algorithms/huffman.rs:decompress"]}
{"id": "C39", "title": "Successful verification means every listed file is readable", "statement": "If the command line verification of an archive succeeds then every name of the archive's file list can be read and has its recorded size.", "quantifier": "every archive", "why_tests_cant": "All archives.", "anchors": ["storm-cli/src/commands/archive.rs:verify"]}
{"id": "C40", "title": "Sparse decompression is robust", "statement": "Sparse decompression of arbitrary bytes either fails or returns at least the expected number of bytes, of which the first part is determined by the input alone; it reads no byte past its input.", "quantifier": "every input byte string and every expected size", "why_tests_cant": "All malformed inputs.", "anchors": ["mopaq/src/compression/algorithms/sparse.rs:decompress"]}
{"id": "C41", "title": "A freshly built archive passes verification", "statement": "The command line verification succeeds on every archive the builder has just made, at whatever admissible position in a file it lies.", "quantifier": "every list of files and every configuration of the builder, with and without content check", "why_tests_cant": "All inputs of the builder.", "anchors": ["storm-cli/src/commands/archive.rs:verify", "mopaq/src/builder.rs:build"]}
{"id": "C42", "title": "Packing a directory and unpacking it restores it", "statement": "Extracting, with paths preserved, an archive created from a directory writes every file of the directory to the same relative path with the same content, and besides them only the file list.", "quantifier": "every directory content and every output directory", "why_tests_cant": "All directory trees and file names.", "anchors": ["storm-cli/src/commands/archive.rs:create", "storm-cli/src/commands/archive.rs:add_directory_to_archive", "storm-cli/src/commands/file.rs:extract"]}
{"id": "C43", "title": "Successful verification means the archive's own checks hold", "statement": "If the command line verification of an archive succeeds then the digests of a version 4 header agree with the digested bytes and a signature, if there is one, is valid.", "quantifier": "every archive", "why_tests_cant": "All archives.", "anchors": ["storm-cli/src/commands/archive.rs:verify", "mopaq/src/archive.rs:get_info"]}
{"id": "C44", "title": "Listing and finding show exactly the matching names", "statement": "The list command shows exactly the entries of the archive's listing whose names match the pattern, ordered by name; for a built archive these are the names that were added. The find command shows the matching names in listing order, and without regard to case it treats names that differ in case alike.", "quantifier": "every archive, every pattern and every meaning of patterns, all combinations of the switches", "why_tests_cant": "All archives and patterns.", "anchors": ["storm-cli/src/commands/file.rs:list", "storm-cli/src/commands/file.rs:find"]}
{"id": "C45", "title": "Printing the detailed listing never panics", "statement": "The detailed listing prints one row for each entry, with the name or its beginning, for every archive.", "quantifier": "every listing", "why_tests_cant": "All names and sizes.", "anchors": ["storm-cli/src/output.rs:print_file_list_verbose"]}
{"id": "C46", "title": "The listing as comma separated values says what it should", "statement": "Read as comma separated values, the CSV output of a listing has one record per entry with exactly its name (and its two hashes).", "quantifier": "every listing", "why_tests_cant": "All names.", "anchors": ["storm-cli/src/output.rs:print_file_list", "storm-cli/src/output.rs:print_file_list_with_hashes"]}
{"id": "C47", "title": "The analysis reports the method each file is stored with", "statement": "For every listed file the analyze command reports the compression method with which it is stored and whether it is supported.", "quantifier": "every archive", "why_tests_cant": "All archives and compression methods.", "anchors": ["storm-cli/src/commands/archive.rs:analyze"]}
{"id": "C48", "title": "Building an archive never panics", "statement": "Building an archive ends with an archive or an error, never with a panic.", "quantifier": "every configuration and every list of files, given encoders that do not panic", "why_tests_cant": "Sizes beyond what a test writes (gigabytes), every block size and table width.", "anchors": ["mopaq/src/builder.rs:build", "mopaq/src/builder.rs:write_file", "mopaq/src/builder.rs:create_bet_table", "mopaq/src/builder.rs:create_het_table"]}
{"id": "C49", "title": "Inspecting a built archive reports what was put in", "statement": "The information reported for a built archive gives its version, sector size, number of files, and whether it has encrypted files, a list, a signature and attributes.", "quantifier": "every configuration and list of files that builds, embedded anywhere", "why_tests_cant": "All file lists and configurations.", "anchors": ["mopaq/src/archive.rs:get_info", "mopaq/src/builder.rs:build"]}
{"id": "C50", "title": "Building succeeds exactly when the contents can be compressed and the names are distinct", "statement": "Building an archive succeeds if and only if every sector of every content is accepted by the method asked for and no two entries have equivalent names and the same locale; which contents each method accepts is known, and whether files can be archived does not depend on anything else.", "quantifier": "every version, configuration and list of files whose names have no hash collisions", "why_tests_cant": "All file lists; success depends on the contents of every sector and on the length of the generated list.", "anchors": ["mopaq/src/builder.rs:build", "mopaq/src/builder.rs:write_file", "mopaq/src/builder.rs:add_to_hash_table", "mopaq/src/compression/compress.rs:compress"]}
{"id": "C51", "title": "What is handed to the builder is what is read, with conditions on the input only", "statement": "For every list of files that satisfies the conditions of C50 and whose contents read back (C10, C11), building succeeds, the result opens, every file is read back under every spelling of its name, and every other name is absent.", "quantifier": "every version, configuration and list of files", "why_tests_cant": "All file lists, contents and spellings; nothing is assumed of the archive itself.", "anchors": ["mopaq/src/builder.rs:build", "mopaq/src/archive.rs:open_with_options", "mopaq/src/archive.rs:read_file"]}
{"id": "C52", "title": "A new archive can be opened and is empty but for its list", "statement": "OpenOptions::create returns, for every version, an open archive that lists its list file only, whose list names just itself, and that holds no other name; with or without loading the tables at once.", "quantifier": "every version, both settings of load_tables, every name", "why_tests_cant": "All names; and with tables loaded on demand, every request on the archive.", "anchors": ["mopaq/src/archive.rs:create", "mopaq/src/builder.rs:build"]}
{"id": "C53", "title": "Every answer of the C API is about the archive or file of its handle", "statement": "In any run of any number of threads, handles stand for fixed archives (each read from the file that was named when it was opened) and files (of the archive and with the name given when opened), and each call that asks about a handle - has file, size, name, info, archive name, enumeration, extraction, verification, opening a file - answers from the tables and content of exactly that archive or file, with the documented error codes; it fails without an answer only if the handle is not open, and a handle that was given out is not open only if somebody asked to close it. The size of a file is the number of bytes that can be read.", "quantifier": "every set of clients, every interleaving, every content of the disk, every call with usable arguments", "why_tests_cant": "All interleavings of all clients; the answers depend on the whole content of the archives.", "anchors": ["storm-ffi/src/lib.rs:SFileHasFile", "storm-ffi/src/lib.rs:SFileGetFileSize", "storm-ffi/src/lib.rs:SFileGetFileInfo", "storm-ffi/src/lib.rs:SFileGetArchiveName", "storm-ffi/src/lib.rs:SFileEnumFiles", "storm-ffi/src/lib.rs:SFileGetFileName", "storm-ffi/src/lib.rs:SFileExtractFile", "storm-ffi/src/lib.rs:SFileVerifyFile", "storm-ffi/src/lib.rs:SFileVerifyArchive"]}
{"id": "C54", "title": "Enumeration masks are wildcards", "statement": "SFileEnumFiles passes on exactly the listed names that match the mask, where a star stands for any string and a question mark for any byte.", "quantifier": "every mask and every name", "why_tests_cant": "All masks and names.", "anchors": ["storm-ffi/src/lib.rs:SFileEnumFiles"]}
{"id": "C55", "title": "File verification through the C API means that the checks hold", "statement": "SFileVerifyFile succeeds exactly if the file exists and each check that was asked for and is recorded in the archive - sector checksums, the file's CRC32 and MD5 from the attributes - holds for the stored data.", "quantifier": "every archive that opens, every name, every combination of flags", "why_tests_cant": "All contents of the archive and all flag values.", "anchors": ["storm-ffi/src/lib.rs:SFileVerifyFile", "mopaq/src/archive.rs:read_file"]}
{"id": "C57", "title": "The C API writes only what it was asked to write, where it was asked to", "statement": "In every execution, every write to the disk happens in a call of SFileCreateArchive whose disposition and the existence of the file call for it, with an empty archive to the named path, or in a call of SFileExtractFile, with the content that the archive of the handle - as an earlier call read it from the disk - has for the named file, to the named path; the results of these calls tell whether the write was made. CREATE_NEW never replaces a file that some call has made, and a new archive has the hash table size that was asked for.", "quantifier": "all call sequences in all threads, all interleavings, all answers of the file system", "why_tests_cant": "Unbounded executions, threads, interleavings, nested callbacks and archives; tests see a few.", "anchors": ["storm-ffi/src/lib.rs:SFileCreateArchive", "storm-ffi/src/lib.rs:SFileExtractFile", "storm-ffi/src/lib.rs:SFileEnumFiles", "storm-ffi/src/lib.rs:SFileOpenArchive"]}
{"id": "C56", "title": "The settings of the command line tool take effect", "statement": "config set accepts exactly the documented values, changes only the settings file that config path names, and changes only that setting; what is set is what config show tells and what archive create then uses for version, compression and block size, and for the output format of every command; flags on the command line win; config reset restores the defaults; whatever is stored, the tool does not panic and settings can be reset.", "quantifier": "all keys and values, all flags, all sequences of commands, with and without a home directory or --config, all contents of the settings files", "why_tests_cant": "All strings as values and all command sequences; interaction of stored state, defaults and flags.", "anchors": ["storm-cli/src/main.rs:main", "storm-cli/src/main.rs:handle_config_command", "storm-cli/src/config.rs:load_config", "storm-cli/src/config.rs:save_config"]}
{"id": "C58", "title": "The hash commands tell the hashes that archives are searched with", "statement": "hash generate prints for every name and type the hash that the tables use, as text or as a JSON object with the file name, type and value; hash compare shows a match exactly for the hashes that agree, five matches for names that mean the same file, and names matching in the first three are found alike in every hash table.", "quantifier": "all names, all hash types, all output formats", "why_tests_cant": "All strings, including those with characters that JSON reserves.", "anchors": ["storm-cli/src/commands/hash.rs:generate", "storm-cli/src/commands/hash.rs:compare"]}
{"id": "C59", "title": "Packing a directory packs exactly the files asked for", "statement": "archive create puts into the archive exactly the files of the source directory tree that are not left out by depth or --ignore patterns, each once and under its path below the directory, or fails; unpacking the archive gives these files back with their contents; patterns written as documented leave out what they name and nothing else.", "quantifier": "all directory trees (with links, unreadable files and directories), all options, patterns, contents and format versions", "why_tests_cant": "Unbounded trees and contents; names that are not text, links, patterns that match the source path itself.", "anchors": ["storm-cli/src/commands/archive.rs:create", "storm-cli/src/commands/archive.rs:add_directory_to_archive"]}
{"id": "C60", "title": "Reading at a place gives the bytes of that place", "statement": "BufferedMpqReader::read_at returns exactly the bytes that stand at the offset if all are there and an error otherwise, whatever was read and sought before and however few bytes single reads return; plain reads give the content from the position on without gap or overlap, and seeks go to the computed place or fail and stay.", "quantifier": "all contents, positions, offsets, lengths, sequences of calls and sizes of partial reads", "why_tests_cant": "Every possible splitting of reads into partial reads, and every history of calls.", "anchors": ["mopaq/src/io.rs:read_at", "mopaq/src/io.rs:BufferedMpqReader"]}
{"id": "C61", "title": "The statistics of an archive are those of its files", "statement": "archive analyze counts every file of the listing once under its method and its extension, names exactly the files stored with an unsupported method, and adds up the sizes; the extension is what follows the last dot of the file name.", "quantifier": "all archives, built or not, all names, methods and sizes", "why_tests_cant": "Unbounded listings, names with several separators and dots, archives without a list, sums that overflow.", "anchors": ["storm-cli/src/commands/archive.rs:analyze", "storm-cli/src/commands/archive.rs:get_file_extension", "storm-cli/src/commands/archive.rs:format_compression_method"]}
{"id": "C62", "title": "Data packed in several steps by another tool are unpacked to what was packed", "statement": "For a flag byte that names several methods, and data packed in the documented order (audio coding first, then PKWare, then one general method), decompression returns the data (up to the audio coding, if any); if the byte names two general methods, both are undone.", "quantifier": "all data, all flag bytes, all lossless codecs, whatever tool packed the data", "why_tests_cant": "The library cannot produce such data itself (it refuses more than one general method), so its own round-trip tests never reach these paths.", "anchors": ["mopaq/src/compression/decompress.rs:decompress_multiple"]}
{"id": "C63", "title": "Files stored by other tools in the documented layout are read", "statement": "If a file is stored as the format description says (in a single unit or in sectors, with a sector table if packed; each piece packed by any lossless method or left as it is when packing does not help; compressed pieces with a method byte, imploded ones (flag 0x100) without; encrypted in whole words, each sector with its own key; key altered by the position or not), then reading it by name returns its content.", "quantifier": "all archives, names, contents, sector sizes, flags, per-sector choices and codecs, whatever tool wrote the archive", "why_tests_cant": "The tests read what the library itself wrote; layouts that only other tools produce (imploded files, unpacked encrypted sectors, pieces that did not shrink, unencrypted remainders) never occur in them.", "anchors": ["mopaq/src/archive.rs:read_file", "mopaq/src/archive.rs:read_sectored_file", "mopaq/src/archive.rs:decrypt_file_data", "mopaq/src/compression/algorithms/implode.rs:decompress"]}
{"id": "C64", "title": "What the builder stores is in the documented layout", "statement": "Every file of a built archive is stored as the format description says: the hash table and the block table lead to it under every spelling of its name, with its size; the flags tell how it was added; its bytes are in a single unit or in sectors with a table, each piece packed with a method byte if that makes it shorter and otherwise unchanged, encrypted word by word with the key of the format; so a reader written from the format description returns the content; the size recorded covers it all. (False for files of which no sector shrinks, for encrypted remainders, for data one byte shorter, and, as to the recorded size, for several sectors with checksums.)", "quantifier": "all files, names, contents, sector sizes, options for compression, encryption, key adjustment and checksums, versions 1 to 4, any codec that is lossless", "why_tests_cant": "The tests read archives with the same library that wrote them, so a layout on which writer and reader agree but the format does not passes unnoticed.", "anchors": ["mopaq/src/builder.rs:write_file", "mopaq/src/builder.rs:encrypt_data", "mopaq/src/builder.rs:calculate_file_key", "docs/mopaq-format.md"]}
{"id": "C65", "title": "The cipher and the name hashes are those of the format", "statement": "For every name of any bytes the four name hashes and the extended (Jenkins) hash, and for every key and every list of words the cipher, are what the arithmetic of the format description gives: a table of 1280 words drawn from a linear congruence and read by columns, letters folded to one case and slashes to backslashes, all sums modulo 2^32 or 2^64; key 0 leaves words unchanged; a hash type outside the five is a panic.", "quantifier": "all names, hash types, keys and lists of words; all 1280 table entries", "why_tests_cant": "The tests compare a handful of values; most of them the code computed itself. A wrong entry of the table or a wrong fold of one letter agrees with itself when the same library writes and reads.", "anchors": ["mopaq/src/crypto/keys.rs", "mopaq/src/crypto/hash.rs", "mopaq/src/crypto/encryption.rs", "docs/mopaq-format.md"]}
{"id": "C66", "title": "Extended tables written by other tools", "statement": "For a name table (HET) and a block table (BET) laid out as the format description says - plain or packed, enciphered with the table keys - every entry of the block table is read with the position, sizes and flags it spells, and every name that the name table numbers is found as the file of that number. Whatever the tables contain, a lookup gives an entry of them, the answer of the classic tables, or nothing. (The first two are false: entries that reach a ninth byte are cut, those in the last eight bytes are not seen, widths from 64 bits on panic, and the numbers in the name table are never read, so every name leads to the first file.)", "quantifier": "all table bodies of the documented layout, all entry and hash widths, all names, all archives with extended tables", "why_tests_cant": "The tests build the tables with the same library, which writes one file first or falls back to the classic tables; archives of other tools with numbers in the name table are not among them.", "anchors": ["mopaq/src/tables/het.rs", "mopaq/src/tables/bet.rs", "mopaq/src/archive.rs: find_file", "docs/mopaq-format.md: HET and BET table structure"]}
{"id": "C67", "title": "Lists of names written by other tools", "statement": "For any bytes of a (listfile), whatever tool wrote them, the names read are exactly those of its lines in order: broken UTF-8 is replaced by U+FFFD, one for each longest broken sequence; lines end at line feeds; white space (all characters of that Unicode property) at the ends of a line is dropped; empty lines and lines that begin with a semicolon or # have no name; what follows a semicolon is not part of the name. The listing of an archive follows that list.", "quantifier": "all byte strings as lists; all archives with a list", "why_tests_cant": "The tests parse five short ASCII lists. Partial and overlong UTF-8 sequences, surrogates, exotic white space and carriage returns in every position are unlimited in number.", "anchors": ["mopaq/src/special_files/listfile.rs", "mopaq/src/archive.rs: list"]}
{"id": "C68", "title": "Audio streams are decoded as the format says", "statement": "For every stream of the adaptive differential audio format, with one or two channels, the samples decoded for each channel are what the codes of that channel alone say: the step sizes of the IMA recommendation, the index raised by eight for each 0x81 and lowered for 0x80, differences by the bits of the code, samples and index kept within their bounds. Decoding stops when enough samples are there. Every string of bytes long enough for the first samples is such a stream.", "quantifier": "all streams, shifts below 32, all first samples, both channel counts, all output sizes", "why_tests_cant": "The tests only compare the decoder with the encoder of the same file, which share their tables; a wrong table entry or channel order that both have goes unnoticed.", "anchors": ["mopaq/src/compression/algorithms/adpcm.rs", "mopaq/src/compression/decompress.rs"]}
{"id": "C69", "title": "Archives written by other tools, from opening to reading", "statement": "An archive of any version with classic tables, laid out as the format description says - anywhere in a file, behind user data blocks, with deleted entries, upper halves of positions, attributes - is opened, and each file in it is read back exactly; a name without an entry is missing. If attributes of the known version end too early, the whole archive is refused. (Two parts are false: a file for no language in particular is hidden by one for another language that comes first, and with the packed hash tables that versions 3 and 4 allow no file is found.)", "quantifier": "all files with an archive of the documented layout, all base positions, table sizes, names, flags, codecs", "why_tests_cant": "All archives of the tests were written by the library itself: tables without deleted entries, in one language, never packed, at position 0.", "anchors": ["mopaq/src/archive.rs: open_with_options, load_tables, find_file, read_file", "mopaq/src/header.rs", "mopaq/src/tables/hash.rs", "docs/mopaq-format.md: Locating MPQ Headers to Hi-Block Table"]}
{"id": "C70", "title": "Inspection of any archive", "statement": "Whatever archive opens, inspecting it tells what is in it: position and sizes, version, the positions, sizes and entry counts of its tables as its header says (in version 3 as far as the next table), the user data block that led to it, which special files it has, and the number of files and whether any is encrypted. An archive opened without its tables is reported alike. Printed as comma separated values it can be read back. (Three parts are false: deleted files are counted, archives with extended tables only are called not encrypted, and a path with a comma breaks the output.)", "quantifier": "all files that open, all table contents, digests, codecs, paths", "why_tests_cant": "The tests inspect a handful of archives of the library, without deleted files, user data or extended tables alone.", "anchors": ["mopaq/src/archive.rs: get_info, read_het_table_size, read_bet_table_size", "storm-cli/src/output.rs: print_archive_info_csv"]}
{"id": "C71", "title": "Printed percentages, sizes and the verbose table", "statement": "The verbose table of a listing has a line for every file with its name, both sizes in the right unit to the nearest hundredth, the percentage rounded down, its hashes and a word for each flag, and a last line with the sums; -vv adds how many files have a flag and what was saved, to the nearest tenth of a percent. The table fails only for the names and sums of C45. (Four parts are false: 29, 57 and 58 percent are printed one too low, 1048575 bytes are 1024.00 KB, imploded files are not called compressed, and without files the shares are NaN.)", "quantifier": "all lists of files of less than a terabyte together; percentages for all sizes below 2^53 (compressed below 2^45)", "why_tests_cant": "The values that are rounded wrongly are few among millions; no test looks at the printed percentages.", "anchors": ["storm-cli/src/output.rs: format_size, print_file_list_verbose", "storm-cli/src/commands/archive.rs: analyze (percentages)"]}
{"id": "C72", "title": "How much memory opening and reading ask for", "statement": "No single request for memory while an archive is opened or a file is read is larger than a small multiple of the archive. (False: a header alone can make opening ask for 32 GB, or 2^62 bytes in version 4, and a file of a few bytes can make reading ask for 4 GB and succeed. Proved: an opening that succeeds asks for no more than the archive takes, or with attributes 25 times that, four times their declared size or twice their content; one that fails for no more than 64 GB. Reading an uncompressed file that is there asks for no more than the archive takes; a compressed one for twice that or four times the declared size; never for more than 16 GB in versions 1 and 2.)", "quantifier": "all files taken for archives of versions 1 and 2 (opening, failing reads), all archives of all versions (successful reads), all names and codecs", "why_tests_cant": "The requests are invisible to tests as long as memory suffices; hostile headers are not tried, and the tests' archives are honest about their sizes.", "anchors": ["mopaq/src/tables/hash.rs: read", "mopaq/src/tables/block.rs: read", "mopaq/src/tables/het.rs: read", "mopaq/src/tables/bet.rs: read", "mopaq/src/archive.rs: read_file, read_sectored_file, load_tables, load_attributes", "mopaq/src/special_files/attributes.rs: parse", "mopaq/src/compression/decompress.rs"]}
{"id": "C73", "title": "What the errors of opening and reading mean", "statement": "Every error that opening an archive or reading a file returns is true: 'file not found' exactly if there is no such name, an input/output error only if the archive ends before something it needs, 'compression' only if some piece cannot be decompressed, 'checksum' only if the stored checksum differs, and so on for the tables, the header and the attributes. A recoverable error means the file is absent, opening never gives one, a corruption error means the file is there and faulty. (That damage always gives a corruption error is false, and a sound archive with its tables not loaded gives one.)", "quantifier": "all files of less than 2^63 bytes taken for archives of all versions, all names, all codecs that fail with compression errors only; C73_not_found: all archives in memory", "why_tests_cant": "Tests provoke a handful of errors; none checks that an error never appears for another reason, in particular that 'file not found' is never the answer for a damaged file.", "anchors": ["mopaq/src/error.rs: is_corruption, is_recoverable", "mopaq/src/archive.rs: read_file, read_sectored_file, find_file, load_tables, load_attributes", "mopaq/src/header.rs: find_header, MpqHeader::read"]}
{"id": "C74", "title": "Why building an archive failed", "statement": "A build during which no system call fails without cause succeeds, or its error tells what is wrong: an input/output error that the list or the first unusable file cannot be read, a compression error that the first unusable file is refused by its method, 'invalid format' that a name occurs twice. In versions 1 and 2 the first file in the order of adding with any of these problems decides; in versions 3 and 4 the names are looked at only after all files, and the build panics before that exactly if the places and sizes of the files do not fit the table of blocks.", "quantifier": "all configurations, lists, sources, contents of the file system and executions; codecs that do not panic and fail with compression errors only; no two different names with equal hashes; versions 3 and 4: less than 2^17 files", "why_tests_cant": "Tests make one build fail in one way; which of several problems is reported, and that no other error appears for a sound input, is never checked.", "anchors": ["mopaq/src/builder.rs: build, prepare_listfile, write_archive, write_archive_with_het_bet, write_file, add_to_hash_table", "mopaq/src/compression/compress.rs: compress"]}
{"id": "C75", "title": "Every loop ends", "statement": "Each loop of the library that is not over a fixed collection (looking for a name, entering one, finding a free slot, looking for the header, reading what is signed, the sparse, audio and Huffman codecs, printing sizes) ends after a number of rounds bounded by the table, the file or the stored bytes, with the result that the functions of the model give; none depends on the contents in a way that makes it run on, and the rounds of a decoder are bounded by the stored bytes.", "quantifier": "all files, tables, names, contents and stated sizes, and readers that give arbitrarily little at a time", "why_tests_cant": "A test of a loop that never ends for some table or some input does not fail, it hangs, and only if that input is tried.", "anchors": ["mopaq/src/tables/hash.rs: find_file", "mopaq/src/builder.rs: add_to_hash_table, create_het_table", "mopaq/src/header.rs: find_header", "mopaq/src/crypto/signature.rs: calculate_mpq_hash_md5, verify_strong_signature", "mopaq/src/compression/algorithms/sparse.rs", "mopaq/src/compression/algorithms/adpcm.rs", "mopaq/src/compression/algorithms/huffman.rs", "storm-cli/src/output.rs: format_size"]}
{"id": "C76", "title": "Printed inspections, file infos and listings say what was found", "statement": "Every JSON text has one meaning. If `archive info` prints, the archive opened and the inspection succeeded, and conversely; the text, read back by its empty lines, rules and labels, has exactly the sections, labels and values of the inspection report (tables that failed to load say so, sizes and positions are right) if and only if the path has no line feed; the JSON document has exactly the fields of the report with their values, and two archives whose JSON is the same have the same path and the same report. Listings as JSON and as text give the names, and the hashes where asked for, in the order of the listing. `file info` prints exactly when the file can be read, with the size of its content. The size of an archive in the text is its number of bytes. `file info` says that a file was not found only when it is not there.", "quantifier": "all codecs, all files, paths and names, all writers of JSON that follow RFC 8259", "why_tests_cant": "unbounded inputs; output is compared by eye in tests if at all; the order of members and white space are up to a library", "anchors": ["storm-cli/src/output.rs:7-277", "storm-cli/src/output.rs:300-375", "storm-cli/src/output.rs:552-574", "storm-cli/src/commands/archive.rs:148-156", "storm-cli/src/commands/file.rs:203-234"]}
{"id": "C77", "title": "What archive verify prints is true", "statement": "`archive verify` finds something out about every listed file (read, damaged, known, missing), exactly one thing about each; the text printed has exactly the lines that say so, with the counts, the percentage, the warnings and the errors, if and only if the path has no line feed; the JSON document has exactly the fields, and the CSV output the rows, for the same counts; nothing is printed when quiet; if verification stops before there is a report, the text has the files checked until then and JSON and CSV nothing. It ends in success exactly when every listed file is fine, whatever the form of the output. Files that are in the archive and can be read are not reported missing. PASSED is printed only if every digest and signature in the report is valid. --check-crc checks checksums or says that it does not.", "quantifier": "all codecs, digests, files, paths, error messages of one line; all writers of JSON that follow RFC 8259; all combinations of switches", "why_tests_cant": "unbounded inputs; a test compares a few outputs; the last three sentences need archives of unusual make", "anchors": ["storm-cli/src/commands/archive.rs:158-608", "storm-cli/src/output.rs:7-40"]}
{"id": "C78", "title": "What extract and create say on the way is true", "statement": "`file extract` of everything says for every listed name, in order, either that it was extracted, right after its content was written, or why not, and then how many files were extracted; of one name it writes the content and says so, or does nothing. `archive create` says which names it adds, in the order in which they are stored, and that it succeeded after the archive was written; without success nothing is written. What is said changes neither what is written nor how it ends; nothing is said on the standard output when quiet, and the complaints stay. The number of files said to be extracted is the number of files written; after a successful verification of the contents nothing is complained about. A file said to be added is in the archive.", "quantifier": "all codecs, archive files, names, output paths and switches; all directory trees", "why_tests_cant": "unbounded inputs; the order of writing and saying is not visible in a captured output", "anchors": ["storm-cli/src/commands/file.rs:75-148", "storm-cli/src/commands/archive.rs:41-146"]}
{"id": "C79", "title": "What archive analyze prints is true", "statement": "As text: for every file found its method, whether it is supported and its sizes if asked for, then the number of files of every method, the most frequent first, their share in per cent, the sums of the sizes, the same by extension, and the files that are not supported, whatever order the maps are walked through in; as CSV a row for every method. It ends as the computation of the statistics does. A listing without entries is said to be empty. --quiet leaves out the first line and nothing else. All methods are said to be supported only if they are, and the sums are those of the files of the archive.", "quantifier": "all codecs, archive files, switches, orders of walking through the maps; sums below 2^45 (text), 2^64 (CSV)", "why_tests_cant": "the order of HashMap differs from run to run; unbounded inputs", "anchors": ["storm-cli/src/commands/archive.rs:611-987"]}
{"id": "C80", "title": "What --quiet means, which commands write, and what is not there yet", "statement": "For every command of the tool: --quiet changes neither how it ends nor what is written nor the lines on the standard error output; create, extract, verify, the table commands and hash jenkins then print nothing, find prints the names found and nothing else, the others do not care; --quiet suppresses all output except errors. Only create and extract write files; create writes the archive exactly if it succeeds. Every command that ends in success did what it is for.", "quantifier": "all commands, options, codecs, archive files and oracles", "why_tests_cant": "a statement about all commands at once, with unbounded inputs", "anchors": ["storm-cli/src/main.rs:34-60", "storm-cli/src/main.rs:432-690", "storm-cli/src/commands/table.rs:1-72", "storm-cli/src/commands/hash.rs:103-117", "storm-cli/src/commands/file.rs:150-165"]}
{"id": "C81", "title": "crypto test tests the ciphers", "statement": "`crypto test` prints the hashes of six names, the ciphertext of a sample and three file keys as the format defines them, and succeeds; given other functions it fails if they are wrong.", "quantifier": "all hash functions and ciphers", "why_tests_cant": "quantifies over all wrong implementations", "anchors": ["storm-cli/src/commands/crypto.rs:10-128"]}
{"id": "C82", "title": "What the calls of the builder's interface amount to", "statement": "After any sequence of calls every option of the builder is what the last call that sets it has set, or the documented default; every adding call has added one file, in the order of the calls, with its own method of compression or the builder's default, and no other call has added any. The order of calls that set different things does not matter. A file with a position-dependent key is encrypted. If building succeeds, the destination holds the archive of exactly these options and files.", "quantifier": "every sequence of calls of the builder's methods; every state of the disk at the time of building", "why_tests_cant": "Sequences of calls are unbounded, and tests set each option once.", "anchors": ["mopaq/src/builder.rs:93-507"]}
{"id": "C83", "title": "The archives made for tests are what their configurations say", "statement": "Creating a test archive leaves, at a path of its own, an archive that can be opened and in which every file of the configuration is found with its contents; files without a method of compression are not compressed, the hash table has the size asked for, the archive for checksums has checksums. The generated contents have the sizes and patterns their names promise.", "quantifier": "every configuration, every size of generated contents, every lossless set of encoders", "why_tests_cant": "The test suite uses these archives as inputs; nothing tests them.", "anchors": ["mopaq/src/test_utils/mpq_builder.rs:10-449"]}
{"id": "C84", "title": "Generated test data is what the configuration says, and nothing else is touched", "statement": "Generating test data leaves below base/name exactly the configured directories and files (and what leads to them), each file with the kind and the size of content asked for, whatever was there before; generating it again leaves the same. It succeeds for every configuration unless a file is in the way or the system fails. Nothing outside base/name is changed, also when it fails; the predefined configurations can always be generated and do not disturb each other.", "quantifier": "every configuration, base path and disk, every point of failure", "why_tests_cant": "Tests look at two predefined configurations in an empty directory.", "anchors": ["mopaq/src/test_utils/data_generator.rs:9-399"]}
{"id": "C85", "title": "What an archive tells about how a file is stored is how it was added", "statement": "For a file found in an archive the builder made, is_encrypted, has_fix_key, is_single_unit, has_sector_crc and is_compressed answer as the file was added: encrypted if asked, with a key altered by the position if asked, in a single unit exactly if it fits in a sector, with checksums exactly if configured, compressed exactly if compression made the file or one of its sectors shorter; size and language are those given and no other flag is set. A file told to be compressed takes less room than its content. What get_special_file_info says about a special name holds of the file of that name the builder adds.", "quantifier": "every codec, configuration, list of files, name in any spelling, and file around the archive", "why_tests_cant": "The one test of these functions fills in a FileInfo by hand with a constant for the flags.", "anchors": ["mopaq/src/archive.rs:1841-1925", "mopaq/src/builder.rs:897-1110", "mopaq/src/special_files/info.rs:14-39"]}
{"id": "C86", "title": "Tables made and changed through the public interface are arrays, and lookups in them end", "statement": "A HashTable, BlockTable or HiBlockTable made with new_mut or new has the number of entries asked for, all blank; after any sequence of writes and clears its size is the same, every place holds what was written to it last (or is blank since the last clear), and nothing is there behind the end. A hash table is made exactly if its size is a power of two, and then every lookup ends with the first entry on its way that answers, whatever was written. A hi-block table is needed exactly if one of its entries is not zero.", "quantifier": "every size, sequence of changes, name and locale", "why_tests_cant": "The tests write one or two entries to small tables; sizes above 2^32 and full tables are not tried.", "anchors": ["mopaq/src/tables/hash.rs:149-214", "mopaq/src/tables/block.rs:152-251", "mopaq/src/lib.rs:105-107"]}
