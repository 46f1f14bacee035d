{
 "claims": [
  {
   "property": "C01",
   "status": "proved",
   "theorems": [
    "C01_block_cipher_round_trip",
    "C01_block_cipher_words"
   ],
   "note": ""
  },
  {
   "property": "C02",
   "status": "proved",
   "theorems": [
    "C02_file_encryption_round_trip"
   ],
   "note": ""
  },
  {
   "property": "C03",
   "status": "proved",
   "theorems": [
    "C03_names_case_and_separator_insensitive",
    "C03_hash_ranges",
    "C03_lookups_insensitive"
   ],
   "note": "hashes, both kinds of tables, lookup and reading in any archive state, encryption keys"
  },
  {
   "property": "C04",
   "status": "proved",
   "theorems": [
    "C04_single_word_decryption"
   ],
   "note": ""
  },
  {
   "property": "C05",
   "status": "proved",
   "theorems": [
    "C05_lookup_first_match"
   ],
   "note": "every power-of-two table, any contents"
  },
  {
   "property": "C06",
   "status": "proved",
   "theorems": [
    "C06_name_table_by_hashes",
    "C06_name_table_is_a_map",
    "C06_slots"
   ],
   "note": "by-hashes form has no collision assumption; map form assumes no 64-bit hash collision between inequivalent names; fewer than 2^30 files"
  },
  {
   "property": "C07",
   "status": "proved",
   "theorems": [
    "C07_hash_table_round_trip",
    "C07_block_table_round_trip"
   ],
   "note": ""
  },
  {
   "property": "C35",
   "status": "proved",
   "theorems": [
    "C35_large_positions",
    "C35_omitted_only_when_small"
   ],
   "note": ""
  },
  {
   "property": "C08",
   "status": "proved",
   "theorems": [
    "C08_header_round_trip",
    "C08_reader_fields"
   ],
   "note": "positions must fit the format (48 bits, 32 bits in V1), otherwise the writer truncates; the reader alone is characterised on all byte strings"
  },
  {
   "property": "C09",
   "status": "proved",
   "theorems": [
    "C09_first_boundary",
    "C09_found_only_there",
    "C09_none",
    "C09_leading_data",
    "C09_terminates",
    "C09_skip_unusable_pointer_refuted"
   ],
   "note": "a user-data block that is cut off, or that points into the last 3 bytes, makes the open fail with an I/O error instead of being passed over (refuted theorem gives the witness)"
  },
  {
   "property": "C12",
   "status": "proved",
   "theorems": [
    "C12_container_lossless",
    "C12_never_longer",
    "C12_no_gain_is_stored",
    "C12_imploded"
   ],
   "note": "third party codecs are parameters with the premise that decoding undoes encoding; sparse is C13, ADPCM (lossy) is C14"
  },
  {
   "property": "C13",
   "status": "partial",
   "theorems": [
    "C13_stream_stands_for_data",
    "C13_reader_follows_runs",
    "C13_sparse_lossless_refuted",
    "C13_sparse_lossless_iff"
   ],
   "note": "REFUTED as worded (finding): a run of 127 zeros is encoded as the end marker. Proved instead: the exact criterion (iff) for when it is lossless"
  },
  {
   "property": "C14",
   "status": "proved",
   "theorems": [
    "C14_decoder_follows_encoder",
    "C14_encoder_accepts",
    "C14_accuracy"
   ],
   "note": "levels above 9 overflow a u8 shift in the encoder (panic in checked builds); accuracy bound for the level the crate uses"
  },
  {
   "property": "C15",
   "status": "partial",
   "theorems": [
    "C15_every_method_classified",
    "C15_undone_partial",
    "C15_sparse_undone_partial",
    "C15_lost_refuted",
    "C15_combination_refuted",
    "C15_bzip2_refuted"
   ],
   "note": "REFUTED as worded (finding). Exact classification: every accepted method byte is a lone method, undone for every input, sparse, or one of twenty lost combinations, each with a witness"
  },
  {
   "property": "C38",
   "status": "partial",
   "theorems": [
    "C38_payload_ignored_refuted",
    "C38_constant_output_refuted"
   ],
   "note": "REFUTED (finding): the decoder ignores the payload; its exact output is proved"
  },
  {
   "property": "C40",
   "status": "proved",
   "theorems": [
    "C40_sparse_robust",
    "C40_sparse_prefix"
   ],
   "note": ""
  },
  {
   "property": "C10",
   "status": "proved",
   "theorems": [
    "C10_small_files_round_trip",
    "C10_attributes_name_refuted"
   ],
   "note": "V1/V2, any position in a file the header search reaches; premises: codecs lossless, no 64-bit hash collision between inequivalent names, nobody called (attributes) (refuted theorem shows why), lossless method"
  },
  {
   "property": "C11",
   "status": "partial",
   "theorems": [
    "C11_big_files_round_trip_partial",
    "C11_uncompressed_refuted",
    "C11_uncompressed_always_refuted",
    "C11_compressed_refuted",
    "C11_big_files_iff"
   ],
   "note": "REFUTED as worded (finding): multi-sector files stored uncompressed never read back right; a sector that compression shortens by exactly one byte is misread. Proved for multi-sector files up to 4e9 bytes outside these cases; the exact criterion for reading back is an equivalence (C11_big_files_iff)"
  },
  {
   "property": "C16",
   "status": "proved",
   "theorems": [
    "C16_regions_disjoint",
    "C16_regions_disjoint_v3_v4"
   ],
   "note": "all four versions; sizes exact for files up to 4e9 bytes (32-bit fields); V3/V4 with uncompressed extended tables and where opening succeeds (see C18)"
  },
  {
   "property": "C17",
   "status": "proved",
   "theorems": [
    "C17_absent_names"
   ],
   "note": ""
  },
  {
   "property": "C20",
   "status": "partial",
   "theorems": [
    "C20_single_sector",
    "C20_several_sectors_refuted",
    "C20_adler32",
    "C20_one_byte",
    "C20_swapped",
    "C20_all_changes_refuted"
   ],
   "note": "The checksum is the Adler-32 of RFC 1950; it tells apart all data that differ in one byte or in the order of two neighbours. REFUTED as worded for files of several sectors (finding): a mismatch is only logged. Proved for files of one sector"
  },
  {
   "property": "C25",
   "status": "partial",
   "theorems": [
    "C25_deferred_loading_refuted",
    "C25_inspection_loads"
   ],
   "note": "REFUTED (finding): finding, reading and listing load nothing on demand, every such request fails; only inspection (get_info) loads the tables and answers as if they had been loaded at once, which is proved"
  },
  {
   "property": "C22",
   "status": "partial",
   "theorems": [
    "C22_generated_list_parsed_back",
    "C22_parsed_names_listable",
    "C22_every_name_refuted"
   ],
   "note": "REFUTED as worded (finding: a name with a semicolon). Proved instead: the generated list is parsed back if and only if every name is listable (not empty, no line feed, no semicolon, no leading #, no white space at the ends)"
  },
  {
   "property": "C23",
   "status": "proved",
   "theorems": [
    "C23_attributes_round_trip",
    "C23_arbitrary_bytes",
    "C23_accepted",
    "C23_truncation_refused",
    "C23_built_v1_v2",
    "C23_built_v3_v4",
    "C23_packed_twice"
   ],
   "note": "Also for archives of the builder that hold such a file: they open with these attributes, or, if it is too short, not at all. Round trip for every record whose files carry the announced fields; the parser on arbitrary bytes either refuses or returns the values at their places; for fewer than 2^59 files (beyond, the size computation overflows)."
  },
  {
   "property": "C37",
   "status": "proved",
   "theorems": [
    "C37_listing",
    "C37_built_archive_lists_its_files",
    "C37_v3_v4_few_entries_partial",
    "C37_v3_v4_sure_partial",
    "C37_listing_by_slot",
    "C37_listing_by_block",
    "C37_listing_by_entry",
    "C37_all_files_refuted"
   ],
   "note": "Listing characterised for every archive state with a readable list file, and for archives listed without names (one line per slot, block or BET entry; refuted for 'all files' of a V4 archive, where list_all stops at what the BET reader decodes), and end to end for built V1/V2 archives, and for V3/V4 archives none of whose names is mistaken (C18), as with at most four entries."
  },
  {
   "property": "C26",
   "status": "proved",
   "theorems": [
    "C26_digest_data",
    "C26_depends_exactly_on_the_rest",
    "C26_archive_digest"
   ],
   "note": "for every reader behaviour (short reads), every range and every exclusion; MD5 itself is a parameter, the theorem is about the digested bytes"
  },
  {
   "property": "C27",
   "status": "partial",
   "theorems": [
    "C27_strong_signature",
    "C27_weak_padding",
    "C27_weak_rejects_valid_refuted",
    "C27_weak_never_valid",
    "C27_keys"
   ],
   "note": "strong half proved as an equivalence (SHA-1 a parameter, RSA arithmetic concrete); the weak half is refuted (finding): no weak signature is ever accepted"
  },
  {
   "property": "C28",
   "status": "proved",
   "theorems": [
    "C28_handles_never_confused"
   ],
   "note": "All interleavings of any number of threads; every call of storm-ffi/src/lib.rs is modelled."
  },
  {
   "property": "C29",
   "status": "proved",
   "theorems": [
    "C29_sequential_reads",
    "C29_reads_succeed"
   ],
   "note": "For a handle used by one thread; the other threads do anything else, including closing the archive (then reads fail, and nothing wrong is returned)."
  },
  {
   "property": "C30",
   "status": "partial",
   "theorems": [
    "C30_seeking_partial",
    "C30_before_start_refuted",
    "C30_halved_offset_refuted"
   ],
   "note": "REFUTED as worded: a seek to a place before the start goes to the end of the file, and a halved offset whose low half is 2^31 or more loses its high half (sign extension). Proved for all other seeks; a sum that overflows i64 ends the process (needs a position of 2^31 or more)."
  },
  {
   "property": "C31",
   "status": "partial",
   "theorems": [
    "C31_closed_archive_partial",
    "C31_race_refuted"
   ],
   "note": "REFUTED as worded: SFileCloseArchive drops the file handles and then the archive under two separate locks, so that a file opened in between stays readable. Proved for files opened before the close began."
  },
  {
   "property": "C32",
   "status": "partial",
   "theorems": [
    "C32_no_deadlock_partial",
    "C32_verify_refuted",
    "C32_enum_refuted"
   ],
   "note": "REFUTED as worded: SFileVerifyArchive with VERIFY_ALL_FILES locks ARCHIVES twice in one thread, and an enumeration callback that uses an archive handle waits for the lock its own thread holds. Proved for all other programs: every run ends, and ends with all threads finished or in a panic."
  },
  {
   "property": "C33",
   "status": "proved",
   "theorems": [
    "C33_per_thread"
   ],
   "note": ""
  },
  {
   "property": "C18",
   "status": "partial",
   "theorems": [
    "C18_few_entries_partial",
    "C18_exact_partial",
    "C18_places",
    "C18_few_sure",
    "C18_right_or_first_partial",
    "C18_reads_right_or_first_partial",
    "C18_wrong_file_refuted",
    "C18_absent_name_refuted",
    "C18_unopenable_refuted",
    "C18_large_file_refuted"
   ],
   "note": "REFUTED as worded (finding): from five entries on a name can resolve to the first file, an absent name to the first file, the archive may not open, and large first files cannot be built at all. Proved: archives of at most four entries are right; and for every archive which lookups go wrong and how: the names the table mistakes are described by the names alone (widths, places, bits), such a name leads to the first file or a crash, every other name to its own file or nowhere"
  },
  {
   "property": "C19",
   "status": "proved",
   "theorems": [
    "C19_built_digests_valid",
    "C19_change_detected",
    "C19_header_change_detected",
    "C19_inspection_reports",
    "C19_every_digest"
   ],
   "note": "MD5 is a parameter (16 bytes long); extended tables not compressed; and for archives whoever wrote them"
  },
  {
   "property": "C36",
   "status": "partial",
   "theorems": [
    "C36_entry_written",
    "C36_block_entries_partial",
    "C36_long_entry_refuted",
    "C36_long_entry_cut",
    "C36_last_entry_refuted",
    "C36_wide_entries_refuted",
    "C36_name_entries_refuted",
    "C36_compressed_tables_refuted"
   ],
   "note": "REFUTED as worded (finding): the last block entries are never read back, name entries are written and read with different widths, entries of 64 bits crash the builder, entries across nine bytes lose bits. Proved: single entries that end within eight bytes, and block entries of at most 57 bits that have eight bytes left"
  },
  {
   "property": "C24",
   "status": "proved",
   "theorems": [
    "C24_all_or_nothing",
    "C24_nothing_else_changes",
    "C24_succeeds",
    "C24_ends"
   ],
   "note": "the build as a program of system calls that may fail or be cut off at any point; the destination must not itself be named like a temporary file (.tmp and six letters or digits). Losing power before the data is on the disk is outside the model: the code does not call fsync"
  },
  {
   "property": "C34",
   "status": "partial",
   "theorems": [
    "C34_flat_inside",
    "C34_single_inside",
    "C34_single_output",
    "C34_tame_names_inside_partial",
    "C34_preserve_path_refuted",
    "C34_absolute_name_refuted",
    "C34_dotdot_name_crashes"
   ],
   "note": "REFUTED as worded with --preserve-path (finding): names such as ../evil.txt and /etc/evil.txt are written outside; proved without that option for every archive, and with it for names that never go up. Unix paths without symbolic links"
  },
  {
   "property": "C39",
   "status": "partial",
   "theorems": [
    "C39_success_means",
    "C39_listed_readable_partial",
    "C39_absent_name_refuted",
    "C39_size_refuted"
   ],
   "note": "REFUTED as worded (finding): listed names without file are skipped silently and sizes are not compared; what success does mean is stated exactly"
  },
  {
   "property": "C41",
   "status": "partial",
   "theorems": [
    "C41_built_archive_verifies_partial",
    "C41_without_list_refuted",
    "C41_v3_v4_few_entries_partial",
    "C41_v3_v4_sure_partial",
    "C41_version_3_refuted"
   ],
   "note": "proved for versions 1 and 2, and for versions 3 and 4 if no name is mistaken (C18), as with at most four entries, with a generated list and contents that C10/C11 read back; REFUTED for archives built without a list and for version 3 with many files (findings)"
  },
  {
   "property": "C42",
   "status": "partial",
   "theorems": [
    "C42_pack_unpack_partial",
    "C42_backslash_refuted",
    "C42_v3_v4_few_files_partial",
    "C42_v3_v4_sure_partial",
    "C42_version_3_refuted"
   ],
   "note": "proved for versions 1 and 2, and for versions 3 and 4 if no name is mistaken (C18), as with at most three files, contents that C10/C11 read back, listable names without backslash; REFUTED for names with a backslash and for four files in version 3 (findings)"
  },
  {
   "property": "C43",
   "status": "partial",
   "theorems": [
    "C43_bad_digest_refuted",
    "C43_bad_signature_refuted",
    "C39_success_means"
   ],
   "note": "REFUTED (finding): the digests and the signature are printed but do not decide; what success does mean is C39_success_means"
  },
  {
   "property": "C44",
   "status": "proved",
   "theorems": [
    "C44_list_shows_matching",
    "C44_built_archive",
    "C44_built_archive_find",
    "C44_v3_v4_sure_partial",
    "C44_v3_v4_find_partial",
    "C44_find_ignores_case",
    "C44_find_regex_ignores_case",
    "C44_find_printed"
   ],
   "note": "what a pattern matches and how letters are lowered (the glob and regex crates, to_lowercase) are parameters; the end to end statements are for built archives with a generated list, of version 1 and 2, and of version 3 and 4 if no name is mistaken (C18)"
  },
  {
   "property": "C45",
   "status": "partial",
   "theorems": [
    "C45_table_panics_iff",
    "C45_table_refuted"
   ],
   "note": "REFUTED as worded (finding): a name of more than 39 bytes with a character across its 36th byte makes the tool panic. Proved: the exact condition under which it panics, and the rows otherwise"
  },
  {
   "property": "C46",
   "status": "partial",
   "theorems": [
    "C46_names_iff",
    "C46_hashes_iff",
    "C46_comma_refuted"
   ],
   "note": "REFUTED as worded (finding): names are not quoted. Proved: the output is right if and only if no name has a comma, a quote or a line end; likewise with hashes"
  },
  {
   "property": "C47",
   "status": "partial",
   "theorems": [
    "C47_always_none",
    "C47_method_refuted"
   ],
   "note": "REFUTED (finding): the low byte of the block flags is taken for the method, so every file of a built V1/V2 archive is reported as not compressed"
  },
  {
   "property": "C21",
   "status": "partial",
   "theorems": [
    "C21_header_search_never_panics",
    "C21_no_header",
    "C21_lookup_never_panics_partial",
    "C21_reading_partial",
    "C21_uncompressed_never_panics_partial",
    "C21_listing_partial",
    "C21_opening_partial",
    "C21_expanding",
    "C21_audio",
    "C21_reading_refuted",
    "C21_opening_refuted",
    "C21_lookup_all_versions_partial",
    "C21_reading_all_versions_partial",
    "C21_listing_all_versions_partial",
    "C21_opening_all_versions_partial",
    "C21_lookup_refuted",
    "C21_vast_file_refuted"
   ],
   "note": "REFUTED as worded: small crafted files make reading or opening panic (sector size exponent >= 55, checked compressed file of no bytes, sector expanding beyond the file, audio shift >= 32, hi-block position overflow, HET table behind the hash table). Proved for versions 1 and 2: lookup never panics, and reading, listing and opening panic only at one of these causes. For all versions the same with the further causes in the HET and BET tables (bit counts of 0 or at least 64, positions that overflow, tables behind the hash table or packed with an audio method, files of 2^61 bytes or more packed with several methods): every panic is traced to a cause, and each kind of cause has a witness."
  },
  {
   "property": "C48",
   "status": "partial",
   "theorems": [
    "C48_v1_v2_partial",
    "C48_v3_v4_partial",
    "C48_v3_v4_iff",
    "C48_block_size_refuted",
    "C48_sector_size_zero_refuted",
    "C48_two_megabytes_refuted",
    "C48_encrypted_refuted"
   ],
   "note": "REFUTED (finding) as stated: unchecked block size, two megabytes in versions 3 and 4, encrypted files of four gigabytes; proved below these limits; for versions 3 and 4 the panic is characterised exactly (positions, sizes and stored sizes need 64 bits or more together)"
  },
  {
   "property": "C49",
   "status": "partial",
   "theorems": [
    "C49_info_partial",
    "C49_v3_v4_few_entries_partial",
    "C49_v3_v4_sure_partial",
    "C49_count_refuted"
   ],
   "note": "REFUTED (finding) for the number of files: empty ones are not counted; the rest proved for versions 1 and 2, and for versions 3 and 4 if no name is mistaken (C18), as with at most four entries (there the number of files is right)"
  },
  {
   "property": "C50",
   "status": "partial",
   "theorems": [
    "C50_v1_v2",
    "C50_v3_v4_partial",
    "C50_v3_v4_iff",
    "C50_open_methods",
    "C50_closed_methods",
    "C50_adpcm_mono",
    "C50_adpcm_stereo",
    "C50_adpcm_list_refuted"
   ],
   "note": "the equivalence is proved for versions 1 and 2, and for versions 3 and 4 with accepted table compression and below 2^17 files (with the condition that positions and sizes fit the 64-bit word of the builder); the last clause of the statement is REFUTED (finding): the generated list is compressed with the default method too, so with ADPCM its length decides"
  },
  {
   "property": "C51",
   "status": "partial",
   "theorems": [
    "C51_v1_v2_partial",
    "C51_v3_v4_partial",
    "C51_v3_v4_sure_partial"
   ],
   "note": "versions 1 and 2 up to the limits of the format (contents of 4e9 bytes, archives of 2^32 resp. 2^48 bytes); versions 3 and 4 if no name is mistaken, as with at most four entries, and with narrow positions and sizes (otherwise C18 and C48 say exactly what goes wrong)"
  },
  {
   "property": "C52",
   "status": "partial",
   "theorems": [
    "C52_new_archive",
    "C52_deferred_refuted"
   ],
   "note": "proved when tables are loaded at once; REFUTED (finding) when they are to be loaded on demand: every request fails, as C25 says"
  },
  {
   "property": "C53",
   "status": "partial",
   "theorems": [
    "C53_answers_about_the_handle",
    "C53_size_refuted"
   ],
   "note": "proved but for the last clause, which is REFUTED (finding): the size told is the one in the tables, also for files whose content has another length; what an extraction writes to the disk is in C57"
  },
  {
   "property": "C54",
   "status": "partial",
   "theorems": [
    "C54_masks_iff",
    "C54_wildcards_refuted",
    "C53_answers_about_the_handle"
   ],
   "note": "REFUTED (finding): stars are removed and the rest is searched anywhere in the name, question marks are taken literally; proved: a mask has its common meaning for all names if and only if it is a text between stars or only stars (and by C53 what is passed on in general)"
  },
  {
   "property": "C55",
   "status": "partial",
   "theorems": [
    "C55_verify_file",
    "C55_wrong_checksum_refuted"
   ],
   "note": "proved for the digests of the attributes; REFUTED (finding) for sector checksums: checking them means reading the file, and reading only logs a wrong one (C20)"
  },
  {
   "property": "C57",
   "status": "partial",
   "theorems": [
    "C57_every_write",
    "C57_reported",
    "C57_journals",
    "C57_new_archive",
    "C57_create_new_refuted",
    "C57_table_size_refuted"
   ],
   "note": "proved but for the last sentence, which is REFUTED (two findings): two calls with CREATE_NEW for one path can both succeed because existence is checked before and apart from the write, and the hash table size is checked but not used"
  },
  {
   "property": "C56",
   "status": "partial",
   "theorems": [
    "C56_set_iff",
    "C56_changes",
    "C56_set_takes_effect",
    "C56_set_shown",
    "C56_reset",
    "C56_flags_win",
    "C56_file_takes_effect",
    "C56_shown_used",
    "C56_only_commands",
    "C56_only_commands_calm",
    "C56_output_refuted",
    "C56_malformed_refuted",
    "C56_block_size_refuted",
    "C56_version_refuted"
   ],
   "note": "proved but for the output format and the last clause, which are REFUTED (findings): default_output is stored and shown but never used; settings that cannot be parsed cannot be reset because every command loads them first; values in the file are not checked, a block size of 64 makes archive create panic and version 9 is shown while version 1 is used"
  },
  {
   "property": "C58",
   "status": "partial",
   "theorems": [
    "C58_text",
    "C58_all",
    "C58_json_partial",
    "C58_json_iff",
    "C58_compare",
    "C58_equivalent",
    "C58_matches_found_alike",
    "C58_backslash_refuted",
    "C58_other_name_refuted",
    "C58_all_json_refuted"
   ],
   "note": "proved but for JSON, which is REFUTED (findings): names are not escaped, so the JSON output is right exactly for names without quotes, backslashes and control characters, and all hashes are always printed as text"
  },
  {
   "property": "C59",
   "status": "partial",
   "theorems": [
    "C59_packs_the_tree",
    "C59_all_or_nothing",
    "C59_single_file",
    "C59_there_and_back_partial",
    "C59_there_and_back_v3_v4_partial",
    "C59_v3_v4_sure_partial",
    "C59_star_refuted",
    "C59_star_keeps_all",
    "C59_own_path_refuted",
    "C59_not_text_refuted"
   ],
   "note": "which files are packed is proved in full; there and back up to the limits of the format, versions 3 and 4 if no name is mistaken (C18), as with three files; the last clause is REFUTED (findings): the documented patterns with stars leave nothing out, a pattern that appears in the path of the source directory leaves out everything, and a wanted file whose path is not UTF-8 stops the program"
  },
  {
   "property": "C60",
   "status": "proved",
   "theorems": [
    "C60_read_at",
    "C60_whatever_before",
    "C60_reading_on",
    "C60_seek"
   ],
   "note": "the inner reader is content with a position, as Cursor and File are; partial reads by an oracle; read_at leaves the position behind what it read"
  },
  {
   "property": "C61",
   "status": "partial",
   "theorems": [
    "C79_text",
    "C79_csv",
    "C61_counts",
    "C61_ends_or_panics",
    "C61_with_list_all_counted",
    "C61_methods_apart",
    "C61_tables_agree",
    "C61_extension",
    "C61_backslash_refuted",
    "C61_built",
    "C61_no_list_refuted"
   ],
   "note": "what is counted for every archive; what is printed of it is C79; findings: nothing counted without a list, extensions over backslashes"
  },
  {
   "property": "C62",
   "status": "partial",
   "theorems": [
    "C62_zlib_over_pkware_partial",
    "C62_plain_partial",
    "C62_inner_step_left_refuted",
    "C62_two_general_refuted",
    "C62_sparse_over_pkware_partial",
    "C62_sparse_over_pkware_refuted",
    "C62_bzip2_over_pkware_refuted",
    "C62_bzip2_refuted"
   ],
   "note": "proved for zlib over PKWare, with audio coding or without; REFUTED (findings) for two general methods: with sparse inside zlib (0x22) the sparse stream itself is returned as the data, and bzip2 beside sparse or implode never unpacks anything, nor does bzip2 over PKWare unless the PKWare stream is exactly four times as long as the data; sparse over PKWare hands zero padding to the PKWare decoder, and is proved for decoders that take no notice of it, refuted for others; what Huffman does is in C38"
  },
  {
   "property": "C63",
   "status": "partial",
   "theorems": [
    "C63_stored_files_partial",
    "C63_imploded_is_stored",
    "C63_imploded_refuted",
    "C63_tail_refuted",
    "C63_sector_keys_refuted",
    "C63_not_shorter_refuted",
    "C63_first_head",
    "C63_head_refuted"
   ],
   "note": "proved for every layout of the format but four, each REFUTED (findings): imploded files (flag 0x100) in binary mode are never read back, a shorter content is returned without an error; the unencrypted remainder of encrypted data is decrypted; encrypted sectors without compression are decrypted with one key; a single unit marked compressed that did not shrink is unpacked. Sparse runs of 127 zeros as in C13; method 0x04 takes the first head that fits"
  },
  {
   "property": "C64",
   "status": "partial",
   "theorems": [
    "C64_built_files_stored_partial",
    "C64_built34_files_stored_partial",
    "C64_uncompressed_refuted",
    "C64_tail_refuted",
    "C64_one_byte_refuted",
    "C64_sizes",
    "C64_sizes34",
    "C64_checksums_refuted"
   ],
   "note": "proved for every file of which each unit shrinks by more than a byte or not at all, with whole words wherever it is encrypted and, if it has several sectors, one that shrinks; version 3 and 4 by the hash and block tables. REFUTED otherwise (findings): a file of several sectors of which none shrinks has a sector table without being marked compressed (always); the remainder of encrypted data is encrypted though the format leaves it; data that shrink by exactly one byte are stored packed with the original length"
  },
  {
   "property": "C65",
   "status": "proved",
   "theorems": [
    "C65_table",
    "C65_names",
    "C65_types",
    "C65_extended",
    "C65_cipher",
    "C65_vectors_refuted"
   ],
   "note": "the code computes what the algorithms of the description give, for all inputs. Finding besides: none of the 29 hashes, 10 table entries, the cipher text and the Jenkins hash that the description lists as test vectors is what its own algorithms (or the code) give"
  },
  {
   "property": "C66",
   "status": "partial",
   "theorems": [
    "C66_block_entries_partial",
    "C66_cut_entry_refuted",
    "C66_last_entry_refuted",
    "C66_names_partial",
    "C66_all_first_refuted",
    "C66_wrong_file_refuted",
    "C66_any_lookup"
   ],
   "note": "entries below 64 bits that lie within eight bytes are read as spelled; the rest is false of the code, with the exact behaviour proved for all tables: other entries are cut, not seen, or a panic; a name that is found is always file number 0, whatever the table says"
  },
  {
   "property": "C67",
   "status": "proved",
   "theorems": [
    "C67_lists",
    "C67_repaired",
    "C67_listing"
   ],
   "note": "the parser is the described one for all bytes, as an equivalence with a relational description (UTF-8 by RFC 3629 and the replacement practice of Unicode)"
  },
  {
   "property": "C68",
   "status": "proved",
   "theorems": [
    "C68_audio",
    "C68_every_stream"
   ],
   "note": "for shifts below 32; larger shifts are a panic (C21). The table of step sizes is the published one, not shared with the model"
  },
  {
   "property": "C69",
   "status": "partial",
   "theorems": [
    "C69_other_archives_partial",
    "C69_short_attributes",
    "C69_attributes",
    "C69_attributes_refused",
    "C69_language_refuted",
    "C69_packed_tables_refuted"
   ],
   "note": "opening and reading proved for every archive with plain classic tables, whichever language comes first on the way of a name; the preference for the neutral language and packed tables are false of the code, with witnesses. Stored forms of files are those of C63"
  },
  {
   "property": "C70",
   "status": "partial",
   "theorems": [
    "C70_report_partial",
    "C70_reported",
    "C70_signature",
    "C70_deferred",
    "C70_csv",
    "C70_deleted_refuted",
    "C70_sealed_refuted"
   ],
   "note": "every field of the report is proved to be what the header and the tables say, for every file that opens; that the number is one of files and that encryption is always noticed is false of the code, with witnesses. The CSV output is right exactly for plain paths"
  },
  {
   "property": "C71",
   "status": "partial",
   "theorems": [
    "C71_percent_partial",
    "C71_percent_refuted",
    "C71_tenths",
    "C71_size",
    "C71_size_refuted",
    "C71_table_partial",
    "C71_fails_iff",
    "C71_imploded_refuted",
    "C71_nothing_refuted"
   ],
   "note": "the whole table proved with the exact percentages: one too low for 29, 57 and 58 percent and otherwise right up to 100; the rest of the exceptions by witness. Colours off"
  },
  {
   "property": "C72",
   "status": "partial",
   "theorems": [
    "C72_open_partial",
    "C72_open_any_partial",
    "C72_open_refuted",
    "C72_open34_refuted",
    "C72_open_all_versions_partial",
    "C72_read_partial",
    "C72_read_any_partial",
    "C72_read_refuted",
    "C72_whole",
    "C72_packed_again"
   ],
   "note": "a limit by the size of the archive is false of the code, with witnesses; the limits that hold are proved. For all versions each request of a successful opening is traced to its reason"
  },
  {
   "property": "C73",
   "status": "partial",
   "theorems": [
    "C73_not_found",
    "C73_reading",
    "C73_opening",
    "C73_header",
    "C73_classes",
    "C73_corruption_refuted",
    "C73_kinds"
   ],
   "note": "proved for all versions, except that damage need not give an error of the class corruption, and that a sound archive can give one: both refuted with witnesses"
  },
  {
   "property": "C74",
   "status": "proved",
   "theorems": [
    "C74_v1_v2",
    "C74_v3_v4",
    "C74_narrow",
    "C74_runs"
   ],
   "note": "versions 3 and 4 with below 2^17 files; there the builder panics when all files could be written and their places are too wide, which is one of the listed outcomes"
  },
  {
   "property": "C75",
   "status": "partial",
   "theorems": [
    "C75_lookup",
    "C75_entering",
    "C75_full_table_refuted",
    "C75_slots",
    "C75_header",
    "C75_weak_digest",
    "C75_strong_digest",
    "C75_unsparse",
    "C75_sparse",
    "C75_audio",
    "C75_one_sample",
    "C75_unaudio",
    "C75_huffman",
    "C75_huffman_refuted",
    "C75_sizes"
   ],
   "note": "every loop is proved to end with the result of the model; that the stored bytes bound the work is false of the Huffman decoder (one byte, as many rounds as the stated size), and the loop that enters names ends only because the builder never fills its table"
  },
  {
   "property": "C76",
   "status": "partial",
   "theorems": [
    "C76_unambiguous",
    "C76_writer",
    "C76_printed",
    "C76_text",
    "C76_json",
    "C76_json_complete",
    "C76_listing_json",
    "C76_listing_text",
    "C76_file",
    "C76_file_text",
    "C76_file_json",
    "C76_file_csv",
    "C76_size_refuted",
    "C76_reason_refuted"
   ],
   "note": "All of it for archives below 2^53 bytes (text; beyond, sizes are rounded by f64) and 2^63 bytes (JSON), except the last two sentences, which are false: the size is shortened and then called bytes, and any failure of reading is called not found."
  },
  {
   "property": "C77",
   "status": "partial",
   "theorems": [
    "C77_cases",
    "C77_verdict",
    "C77_outcome",
    "C77_text",
    "C77_json",
    "C77_csv",
    "C77_quiet",
    "C77_stopped",
    "C77_stopped_else",
    "C77_counts",
    "C77_never_missing",
    "C77_unlisted_refuted",
    "C77_passed_refuted",
    "C77_crc_ignored"
   ],
   "note": "All of it except the last three sentences, which are false: an archive without a list always fails, its files being reported missing (with a list none ever is); PASSED is decided by the files alone; --check-crc without --check-contents does nothing and says nothing. Error messages are an oracle and taken to be single lines (text) or UTF-8 (JSON)."
  },
  {
   "property": "C78",
   "status": "partial",
   "theorems": [
    "C78_extract_same",
    "C78_create_same",
    "C78_extract_all",
    "C78_count_partial",
    "C78_count_refuted",
    "C78_verified",
    "C78_extract_one",
    "C78_create",
    "C78_added_seen",
    "C78_added_all",
    "C78_added_refuted",
    "C80_silent_partial",
    "C80_same"
   ],
   "note": "All of it except two sentences that are false: the number said to be extracted is that of the listed names, whether or not they could be read (it is right exactly if all can be read), and a file is said to be added before anybody looks whether it can be read."
  },
  {
   "property": "C79",
   "status": "partial",
   "theorems": [
    "C79_outcome",
    "C79_text",
    "C79_csv",
    "C79_empty",
    "C79_quiet",
    "C79_all_supported_refuted",
    "C79_size_refuted"
   ],
   "note": "All of it except the last sentence, which is false: the low byte of the flags is taken for the method, so a file packed with a method that is not supported is shown as not packed; without a list nothing is found and the sums are 0. The JSON output is not modelled."
  },
  {
   "property": "C80",
   "status": "partial",
   "theorems": [
    "C80_same",
    "C80_kinds",
    "C80_silent_partial",
    "C80_careless",
    "C80_find",
    "C80_quiet_refuted",
    "C80_reads_only",
    "C80_create_writes",
    "C80_stubs_partial"
   ],
   "note": "All of it except two sentences that are false: info, list, analyze, find, file info, the hash commands and crypto test print their output even if quiet; table show, table analyze and hash jenkins end in success without doing what they are for. The config and completion commands are left out."
  },
  {
   "property": "C81",
   "status": "partial",
   "theorems": [
    "C81_printed",
    "C81_exact",
    "C81_catches_refuted"
   ],
   "note": "The values are right; but only the round trip of one sample is tested: hashes that are all 0 and a cipher that does nothing pass every test."
  },
  {
   "property": "C82",
   "status": "partial",
   "theorems": [
    "C82_options",
    "C82_one_value",
    "C82_files",
    "C82_files_only",
    "C82_order",
    "C82_fix_key",
    "C82_built",
    "C82_default_refuted"
   ],
   "note": "All of it, except that the order matters in one case: a file added with the default method gets the default of the time of the call, not the one the builder has in the end."
  },
  {
   "property": "C83",
   "status": "partial",
   "theorems": [
    "C83_created",
    "C83_all_created",
    "C83_all_succeed",
    "C83_paths_distinct",
    "C83_compressible",
    "C83_binary",
    "C83_attributes",
    "C83_list",
    "C83_all_built",
    "C83_readable_partial",
    "C83_openable_refuted",
    "C83_refused_v1_v2",
    "C83_refused_v3_v4",
    "C83_uncompressed_refuted",
    "C83_hash_size_refuted",
    "C83_checksums_refuted",
    "C83_paths",
    "C83_presets",
    "C83_same_path_refuted"
   ],
   "note": "The contents are right and all thirteen configurations can be built; those without attributes open, and the files the format brings back (C10, C11) are read. The rest is refuted: with attributes the archive can never be opened; no method means zlib; the size of the hash table is ignored; the checksum archive has no checksums; two configurations may share a path."
  },
  {
   "property": "C84",
   "status": "partial",
   "theorems": [
    "C84_generated",
    "C84_ways",
    "C84_orderly",
    "C84_elsewhere_partial",
    "C84_elsewhere_refuted",
    "C84_base_kept_refuted",
    "C84_succeeds_partial",
    "C84_succeeds_refuted",
    "C84_predefined",
    "C84_same",
    "C84_again",
    "C84_side_by_side",
    "C84_predefined_distinct",
    "C84_predefined_sizes"
   ],
   "note": "What is left after success is proved for every configuration and disk; the predefined ones always succeed. REFUTED: paths that go up overwrite files outside, a configuration without a name removes the rest of the base directory, a file below a file never succeeds; without such paths and conflicts both claims are proved."
  },
  {
   "property": "C85",
   "status": "partial",
   "theorems": [
    "C85_told",
    "C85_told_few_entries_partial",
    "C85_told_or_first_partial",
    "C85_listed",
    "C85_listed_or_first_partial",
    "C85_smaller_refuted",
    "C85_fix_key_refuted",
    "C85_special_names",
    "C85_special_plain",
    "C85_listfile",
    "C85_special_refuted"
   ],
   "note": "Proved for versions 1 and 2, and for 3 and 4 with at most four entries; with more, what is told is right for the file or for the first one added (C18). REFUTED: compressed files need not be smaller, and others can take more room than their content; a fixed key asked for without encryption is not told; the list file is not always compressed and other spellings of special names are unknown."
  },
  {
   "property": "C86",
   "status": "partial",
   "theorems": [
    "C86_hash_array",
    "C86_block_array",
    "C86_hi_array",
    "C86_hi_outside",
    "C86_hi_needed",
    "C86_hash_sizes_partial",
    "C86_lookup_partial",
    "C86_hash_sizes_refuted"
   ],
   "note": "All of it for sizes below 2^32. REFUTED above: the size is checked after truncation to 32 bits, so that a table of 2^32+1 places is made, in which only place 0 is ever looked at."
  }
 ]
}