{
 "claims": [
  {
   "property": "C01",
   "status": "proved",
   "theorems": [
    "C01_checksum_is_crc16_arc"
   ],
   "note": ""
  },
  {
   "property": "C02",
   "status": "proved",
   "theorems": [
    "C02_checksum_independent_of_chunking"
   ],
   "note": ""
  },
  {
   "property": "C03",
   "status": "proved",
   "theorems": [
    "C03_checksum_detects_bursts"
   ],
   "note": ""
  },
  {
   "property": "C04",
   "status": "proved",
   "theorems": [
    "C04_bit_stream_round_trip"
   ],
   "note": ""
  },
  {
   "property": "C05",
   "status": "proved",
   "theorems": [
    "C05_compressed_not_larger",
    "C05_output_bounded"
   ],
   "note": ""
  },
  {
   "property": "C06",
   "status": "proved",
   "theorems": [
    "C06_decompression_stays_in_entry",
    "C06_reader_stays_in_packed_data",
    "C06_truncated_archive"
   ],
   "note": ""
  },
  {
   "property": "C07",
   "status": "proved",
   "theorems": [
    "C07_code_lengths_complete",
    "C07_single_symbol"
   ],
   "note": ""
  },
  {
   "property": "C08",
   "status": "proved",
   "theorems": [
    "C08_codewords_prefix_free",
    "C08_tree_codewords_prefix_free"
   ],
   "note": ""
  },
  {
   "property": "C09",
   "status": "proved",
   "theorems": [
    "C09_character_table_inverts_code",
    "C09_position_table_inverts_code"
   ],
   "note": ""
  },
  {
   "property": "C10",
   "status": "proved",
   "theorems": [
    "C10_bad_tables_rejected",
    "C10_complete_tables_accepted"
   ],
   "note": ""
  },
  {
   "property": "C100",
   "status": "partial",
   "theorems": [
    "C100_lh3_extracted_partial",
    "C100_lh3_extracted_refuted",
    "C100_lh3_long_word_refuted",
    "C100_lh3_long_distance_word_refuted",
    "C100_lh3_after_lh1_refuted"
   ],
   "note": "REFUTED of the code: with the ready-made code distances above 64 are decoded wrongly, words of more than 12 bits, and of more than 8 bits for distances, are decoded wrongly, and after an -lh1- entry in the same process even short entries are. Proved for a new process, words of at most 12 bits, and blocks whose distances are at most 64 (ready-made code) or whose code of distances has the symbols 0 to 16 and words of at most 8 bits, or a single symbol."
  },
  {
   "property": "C101",
   "status": "partial",
   "theorems": [
    "C101_program_extracted_partial",
    "C101_short_program_refuted",
    "C101_long_program_refuted",
    "C101_in_memory_refuted"
   ],
   "note": "REFUTED of the code: the search for the first header does not seek back, so that everything in the first 65536 bytes is skipped and success is reported; above 32768 bytes it crashes if it has found nothing. Proved for entries that follow exactly 65536 bytes in which something looks like a header with the checksum 0."
  },
  {
   "property": "C102",
   "status": "partial",
   "theorems": [
    "C102_pm2_extracted_partial",
    "C102_pm2_extracted_refuted"
   ],
   "note": "REFUTED of the code: the walk down a tree follows the right link whatever the bit is, so that a code with two words makes decompression panic. Proved for streams, of any length and with any renewals, all of whose codes have a single symbol, in any process."
  },
  {
   "property": "C103",
   "status": "partial",
   "theorems": [
    "C103_level2_refuted",
    "C103_level3_refuted",
    "C103_level1_extended_refuted",
    "C103_level1_extracted_partial",
    "C103_level1_printed_partial",
    "C103_level1_tested",
    "C103_level1_listed_partial"
   ],
   "note": "REFUTED of the code: the first header of level 2 or 3 crashes all four commands, whatever it says and whatever follows; a header of level 1 with an extended header ends them with status 1 or in a crash; of entries of level 1 without extended headers the last byte of the name is lost. What holds: the entries before such a header are listed, extracted, printed and tested as usual; archives of level 1 entries without extended headers are extracted, printed, tested and listed completely apart from the names. Not covered: which of status 1 and a crash a given extended header leads to; level 1 entries in which a name gets longer."
  },
  {
   "property": "C104",
   "status": "partial",
   "theorems": [
    "C104_headers_names_refuted",
    "C104_headers_same_object_refuted",
    "C104_bytes_same_object",
    "C104_file_same_object",
    "C104_earlier_names_refuted"
   ],
   "note": "REFUTED of the code for Headers and Compress: the names given to Compress stay in the object and select entries, none of which match because stored names end in NUL, so that Headers of the object that wrote the archive always returns an error; and a later Compress adds the earlier files again. Proved for DecompresBytes and Decompress."
  },
  {
   "property": "C105",
   "status": "partial",
   "theorems": [
    "C105_incompressible_refuted"
   ],
   "note": "REFUTED of the code: with level 0 and a Huffman method, every file of at most 8448 bytes that does not get shorter is put into the archive as an empty one, main returns the status 0, and every later extraction leaves an empty file. The header written announces fewer bytes than the file has for longer files too (lost_made)."
  },
  {
   "property": "C106",
   "status": "partial",
   "theorems": [
    "C106_directories_and_links_refuted"
   ],
   "note": "REFUTED of the code: no file is opened for a directory or a link, and closing it is a type assertion on nil, which panics; the program never ends with the status 0. Proved: every file except the temporary one stays as it is, the archive included."
  },
  {
   "property": "C107",
   "status": "partial",
   "theorems": [
    "C107_update_ignored_refuted",
    "C107_update_alone_refuted"
   ],
   "note": "REFUTED of the code: with -c or -a the run is the same as without -u, and -u alone always ends with the status 1 and changes nothing; the option sets a variable nothing reads."
  },
  {
   "property": "C108",
   "status": "partial",
   "theorems": [
    "C108_missing_files_refuted",
    "C108_existing_refuted"
   ],
   "note": "REFUTED of the code for a new archive: the program returns the status 0 and writes an archive that consists of the end mark only. For an archive that exists, too: the status is 0, and the archive is damaged, its first header is gone."
  },
  {
   "property": "C109",
   "status": "partial",
   "theorems": [
    "C109_method1_refuted"
   ],
   "note": "REFUTED of the code: each of -o 1 to -o 4 (and every value but 0, 5, 6 and 7) selects a method whose coder writes data of the form of the later methods under the name -lh1-. For a file of a hundred zero bytes, in new processes, both programs report success, and the file taken out has other contents. Whatever the contents, what is taken out is what the -lh1- decoder makes of the data (made_taken). Missing: which files come back."
  },
  {
   "property": "C11",
   "status": "proved",
   "theorems": [
    "C11_length_tables_survive"
   ],
   "note": ""
  },
  {
   "property": "C110",
   "status": "partial",
   "theorems": [
    "C110_lh2_extracted_partial",
    "C110_lh2_extracted_refuted"
   ],
   "note": "REFUTED of the code for copies of 32 bytes and more: startCDyn sets n1 to 512 for 286 symbols, so that symbol 285 is not followed by the eight bits of the length; the entry of abc and a copy of 32 bytes does not come back even in a new process. Proved for all sequences of bytes and copies of at most 31 bytes, of bodies of at most 1856 bytes (29 symbols for distances), in a process that decoded no -lh1- or -lh2- data before. Missing: longer bodies (more symbols for distances, halving of the counts), processes that decoded -lh1- or -lh2- data before."
  },
  {
   "property": "C111",
   "status": "partial",
   "theorems": [
    "C111_full_disk_noticed_partial",
    "C111_full_disk_noticed_refuted",
    "C111_stored_full_disk_partial",
    "C111_stored_added_panics"
   ],
   "note": "REFUTED of the code for every entry and every amount of room: decode drops the errors of fwriteCrc, which adds to the CRC before it writes, so that DecodeLzhuf returns the announced CRC and size for a file that was cut off. Proved: on every disk DecodeLzhuf returns, the file has the first bytes of the data, and with enough room the results are those without failures; for stored entries a full disk shows in the number of bytes read; adding a stored file on a full disk ends in a division by zero. Missing: disks that fill up while data are compressed (putcode)."
  },
  {
   "property": "C112",
   "status": "partial",
   "theorems": [
    "C112_one_after_the_other_partial",
    "C112_concurrent_compression_refuted"
   ],
   "note": "REFUTED of the code: the text, the hash table, the frequencies and the buffer of tokens are package variables. Whatever the first file is (7 to 16000 bytes, one that gets shorter), there is an interleaving with any second call of the same method in which its compressed data are seven zero bytes, whereas the CRC and the original size are right. Proved: both calls get what they get alone when the second starts after the first has finished. The model interleaves between iterations of the loop of encode only."
  },
  {
   "property": "C113",
   "status": "partial",
   "theorems": [
    "C113_full_disk_noticed_refuted",
    "C113_full_disk_noticed_partial",
    "C113_enough_room_partial"
   ],
   "note": "REFUTED of the code: every caller of putcode drops its error. For every file that gets shorter and every disk with too little room, EncodeLzhuf returns the CRC and the original size of the whole file, no error, and as the packed size the room there was. Proved: what is on the disk is exactly the first bytes of the compressed data, and with enough room the results are the same. Not covered: a disk too small for a file that does not get shorter (the missing part of the second theorem)."
  },
  {
   "property": "C114",
   "status": "partial",
   "theorems": [
    "C114_macintosh_header_partial",
    "C114_os9_header_partial",
    "C114_amiga_header_partial",
    "C114_amiga_directory_refuted"
   ],
   "note": "REFUTED for the directories of an Amiga: the test for a name that ends with a slash looks at the NUL after it, so the method stays -lh0- for all of them. Proved for the Macintosh, OS-9 and the files of an Amiga; the time is as in C87."
  },
  {
   "property": "C115",
   "status": "partial",
   "theorems": [
    "C115_long_name_refuted",
    "C115_same_header_refuted",
    "C115_names_told_apart_partial"
   ],
   "note": "REFUTED of the code for every long name: writeHeaderLevel0 prints a warning, cuts the name off after 221 bytes (233 in the generic format) and goes on; lharc ends with status 0, and -e makes a file under the shortened name. Proved: names of up to 221 bytes without backslash give different headers (and come back: C80)."
  },
  {
   "property": "C116",
   "status": "partial",
   "theorems": [
    "C116_archive_first_partial",
    "C116_moved_partial",
    "C116_excluded_refuted",
    "C116_unreadable_refuted",
    "C116_two_files_refuted"
   ],
   "note": "REFUTED of the code: files that are excluded or cannot be read are removed although the archive does not hold them, and so are both of two files, the first of which is overwritten in the archive (C35). Proved for every call and crash point: nothing is removed before the new archive is in place, and only named files are removed; and that files are moved if only the first has contents."
  },
  {
   "property": "C117",
   "status": "partial",
   "theorems": [
    "C117_owners_shown_partial",
    "C117_os9_permissions",
    "C117_link_line_refuted"
   ],
   "note": "REFUTED of the code for every link: the whole field (name, bar and target) is shown as the name, and the bar is shown with the target. Columns of names with fewer than five characters are filled with NUL bytes, not spaces. Proved: the first five characters are shown, and the letters of OS-9."
  },
  {
   "property": "C118",
   "status": "partial",
   "theorems": [
    "C118_extracting_partial",
    "C118_adding_partial",
    "C118_removed_refuted",
    "C118_crash_refuted",
    "C118_force_refuted"
   ],
   "note": "REFUTED of the code: CompressBytes with DeleteAfterAppend removes the file of that name, adding an existing file crashes, and with Force the times, permissions and owner of a file are changed. Proved for every call: extracting never changes the contents of files and does nothing at all without IgnoreDirectory and Force; adding does nothing at all without DeleteAfterAppend."
  },
  {
   "property": "C119",
   "status": "partial",
   "theorems": [
    "C119_backup_refuted"
   ],
   "note": "REFUTED of the code, of every call: the name of the backup is 1024 NUL bytes, renaming to it fails and the failure is only reported; every other file is what it was or gone, so the old contents are lost."
  },
  {
   "property": "C12",
   "status": "proved",
   "theorems": [
    "C12_block_round_trip"
   ],
   "note": ""
  },
  {
   "property": "C120",
   "status": "partial",
   "theorems": [
    "C120_ignore_partial",
    "C120_ignore_refuted"
   ],
   "note": "REFUTED of the code for names without a directory: the search for the last slash gives 0 and the start of the name is then moved on by one, so the first character is lost. Proved for names with a directory."
  },
  {
   "property": "C121",
   "status": "partial",
   "theorems": [
    "C121_last_component_partial",
    "C121_same_component_refuted"
   ],
   "note": "REFUTED of the code: of two files with the same last component only the second is left, and success is reported. Proved: with Force, what every path of the disk holds after any archive of intact entries whose names do not grow has been extracted over existing files."
  },
  {
   "property": "C122",
   "status": "partial",
   "theorems": [
    "C122_description_partial",
    "C122_description_refuted"
   ],
   "note": "REFUTED of the code: names are not quoted, so a name with a line break can forge the lines that follow. Proved: the description and the eight fields determine each other for all headers whose name, link and method have no line break."
  },
  {
   "property": "C123",
   "status": "partial",
   "theorems": [
    "C123_described_partial",
    "C123_plain_text_refuted"
   ],
   "note": "REFUTED of the code: every description has a NUL byte after the name and 1024 NUL bytes in the line of the link, because whole buffers are printed. Proved: without the NUL bytes every description is exactly what it should be."
  },
  {
   "property": "C124",
   "status": "partial",
   "theorems": [
    "C124_lh3_data_after_lh2_refuted",
    "C124_lh3_after_lh2_refuted"
   ],
   "note": "REFUTED of the code for all data: startCDyn leaves 512 in n1, and readTreeC then writes past the 510 code lengths. After any -lh2- decode in a new process every -lh3- decode of a non-empty entry panics, and so do DecompresBytes and Headers. What holds without an -lh2- entry before is C100_lh3_extracted_partial."
  },
  {
   "property": "C125",
   "status": "proved",
   "theorems": [
    "C125_not_into_itself"
   ],
   "note": "The names are compared as strings, as the code does: other spellings of the path of the archive are other names."
  },
  {
   "property": "C126",
   "status": "partial",
   "theorems": [
    "C126_after_lh2_partial",
    "C124_lh3_data_after_lh2_refuted"
   ],
   "note": "REFUTED of the code for -lh3- data, which always panic afterwards (C124). Proved for all methods but -lh1- and -lh3-. Missing: -lh1- (for entries that are intact see C64)."
  },
  {
   "property": "C127",
   "status": "partial",
   "theorems": [
    "C127_own_name_refuted",
    "C40_bytes_round_trip"
   ],
   "note": "REFUTED of the code: bytes stored under the name of the archive itself are lost without an error, for all bytes, methods and levels. For other names see C40."
  },
  {
   "property": "C128",
   "status": "partial",
   "theorems": [
    "C128_listed_partial",
    "C128_listed_refuted",
    "C128_ignored_refuted"
   ],
   "note": "REFUTED of the code for a value of -o other than 0, 5, 6 and 7: the file is still added, and -x makes no difference. Proved for the other values of -o."
  },
  {
   "property": "C13",
   "status": "proved",
   "theorems": [
    "C13_tokens_cover_input"
   ],
   "note": "For every compression that saves at least one byte; otherwise the packed data is discarded by the caller."
  },
  {
   "property": "C14",
   "status": "proved",
   "theorems": [
    "C14_round_trip_lh5_lh6"
   ],
   "note": "For all process histories on both sides. When compression returns is C16."
  },
  {
   "property": "C15",
   "status": "partial",
   "theorems": [
    "C15_round_trip_lh7_partial",
    "C15_round_trip_lh7_refuted"
   ],
   "note": "REFUTED of the code for inputs of 65536 bytes or more (the decoder keeps the window position in 16 bits and stops writing the window out). Proved for shorter inputs."
  },
  {
   "property": "C16",
   "status": "partial",
   "theorems": [
    "C16_compress_returns_partial",
    "C16_compress_never_panics_refuted"
   ],
   "note": "REFUTED of the code: compression panics whenever bit 5 of the first byte is set. Proved: otherwise it returns, if no earlier compression of the process used a smaller dictionary."
  },
  {
   "property": "C17",
   "status": "partial",
   "theorems": [
    "C17_history_independent_refuted",
    "C14_round_trip_lh5_lh6"
   ],
   "note": "REFUTED of the code: after a first compression with a smaller dictionary every later one with a larger one panics."
  },
  {
   "property": "C18",
   "status": "partial",
   "theorems": [
    "C18_incompressible_refuted",
    "C18_stored_method_refuted"
   ],
   "note": "REFUTED of the code: data that do not shrink are stored as an entry announcing fewer bytes than the data (none up to 8448 bytes), and success is reported."
  },
  {
   "property": "C19",
   "status": "partial",
   "theorems": [
    "C19_stored_partial",
    "C19_stored_refuted",
    "C19_stored_file_refuted"
   ],
   "note": "REFUTED of the code for every non-empty stored entry: copyfile writes whole buffers and does not stop at the size. Proved for empty entries."
  },
  {
   "property": "C20",
   "status": "proved",
   "theorems": [
    "C20_level0_round_trip"
   ],
   "note": ""
  },
  {
   "property": "C21",
   "status": "proved",
   "theorems": [
    "C21_corruption_detected"
   ],
   "note": "Never accepted; a change of the level byte itself to 1, 2 or 3 can end in a panic instead of an error (C23)."
  },
  {
   "property": "C22",
   "status": "partial",
   "theorems": [
    "C22_level1_written_refuted"
   ],
   "note": "REFUTED of the code: writing a level 1 header panics for every header that is not a symbolic link."
  },
  {
   "property": "C23",
   "status": "partial",
   "theorems": [
    "C23_level2_read_refuted",
    "C23_level3_read_refuted",
    "C23_read_returns_partial"
   ],
   "note": "REFUTED of the code: every level 2 or 3 header of valid size panics. Proved: no other level than 1, 2, 3 does."
  },
  {
   "property": "C24",
   "status": "partial",
   "theorems": [
    "C24_listing_ends",
    "C24_level0_listing_returns_partial",
    "C24_headers_refuted"
   ],
   "note": "Proved for CommandList. REFUTED for Headers, which decompresses every entry and panics on malformed data."
  },
  {
   "property": "C25",
   "status": "proved",
   "theorems": [
    "C25_written_names_have_no_separator"
   ],
   "note": ""
  },
  {
   "property": "C26",
   "status": "partial",
   "theorems": [
    "C26_reported_paths_have_dotdot",
    "C26_dotdot_reported_partial",
    "C26_dotdot_reported_refuted"
   ],
   "note": "REFUTED of the code for names with an empty component; proved for all others."
  },
  {
   "property": "C27",
   "status": "partial",
   "theorems": [
    "C27_extract_directory_refuted"
   ],
   "note": "REFUTED of the code: with a directory set, extraction panics."
  },
  {
   "property": "C28",
   "status": "proved",
   "theorems": [
    "C28_bytes_crc_checked"
   ],
   "note": ""
  },
  {
   "property": "C29",
   "status": "partial",
   "theorems": [
    "C29_file_crc_refuted"
   ],
   "note": "REFUTED of the code: the CRC is not compared when extracting to a file."
  },
  {
   "property": "C30",
   "status": "proved",
   "theorems": [
    "C30_decompressed_size"
   ],
   "note": ""
  },
  {
   "property": "C31",
   "status": "partial",
   "theorems": [
    "C31_malformed_never_panics_refuted",
    "C31_each_method_refuted",
    "C31_archive_refuted",
    "C31_lharc_refuted",
    "C97_decompression_ends_partial"
   ],
   "note": "REFUTED of the code: five bytes make the decoder of -lh4- to -lh7- index out of range, and an archive with such an entry makes DecompresBytes, Headers, lharc -t and lharc -p panic. Proved for -lh0-, -lh1-, -lzs-, -lz5-, -lz4- and -pm0-: any data, after any history, decompress without a panic (C97_decompression_ends_partial). What is guaranteed for the others when decompression returns: C06, C30. Missing: -lh2-, -lh3- and -pm2-."
  },
  {
   "property": "C32",
   "status": "partial",
   "theorems": [
    "C32_lh4_history_independent_refuted",
    "C32_lh4_after_lh5_partial"
   ],
   "note": "REFUTED of the code: the position code parameters of -lh4- are those of the previous entry. Proved when the previous entry was -lh5-."
  },
  {
   "property": "C33",
   "status": "partial",
   "theorems": [
    "C33_existing_archive_refuted"
   ],
   "note": "REFUTED of the code: both functions return success and change nothing when the archive exists."
  },
  {
   "property": "C34",
   "status": "proved",
   "theorems": [
    "C34_archive_never_torn",
    "C34_compress_never_torn",
    "C34_compressbytes_never_torn"
   ],
   "note": ""
  },
  {
   "property": "C35",
   "status": "partial",
   "theorems": [
    "C35_only_first_with_contents_partial",
    "C35_two_files_refuted"
   ],
   "note": "REFUTED of the code: a second file that the method shrinks overwrites the first entry. Proved when only the first file has contents."
  },
  {
   "property": "C36",
   "status": "partial",
   "theorems": [
    "C36_one_pattern_partial",
    "C36_exclusion_refuted"
   ],
   "note": "REFUTED of the code: a file is added once for every pattern that differs from its name. Proved for one pattern."
  },
  {
   "property": "C37",
   "status": "partial",
   "theorems": [
    "C37_terminated_names_partial",
    "C37_names_select_nothing_refuted"
   ],
   "note": "REFUTED of the code: stored names end in NUL, so names without NUL select nothing. Proved for names given with the NUL."
  },
  {
   "property": "C38",
   "status": "proved",
   "theorems": [
    "C38_history_is_move_to_front"
   ],
   "note": ""
  },
  {
   "property": "C39",
   "status": "proved",
   "theorems": [
    "C39_filetime_exact"
   ],
   "note": ""
  },
  {
   "property": "C40",
   "status": "proved",
   "theorems": [
    "C40_bytes_round_trip",
    "C40_empty_round_trip"
   ],
   "note": "For -lh5- and -lh6-, and for -lh7- below 65536 bytes (otherwise C15)."
  },
  {
   "property": "C41",
   "status": "proved",
   "theorems": [
    "C41_checksum_detects_odd_errors"
   ],
   "note": ""
  },
  {
   "property": "C42",
   "status": "partial",
   "theorems": [
    "C42_oversubscribed_table_rejected_refuted",
    "C42_oversubscribed_table_rejected_partial"
   ],
   "note": "REFUTED of the code: a Kraft sum of exactly twice the code space wraps to 0 and makes the table builder index past its table. Proved: sums above one that are not a whole number of times the code space are rejected."
  },
  {
   "property": "C43",
   "status": "partial",
   "theorems": [
    "C43_backslash_name_refuted",
    "C20_level0_round_trip"
   ],
   "note": "REFUTED of the code: the backslash comes back as a slash. Names without backslash: C20."
  },
  {
   "property": "C44",
   "status": "partial",
   "theorems": [
    "C44_level1_extended_refuted",
    "C44_level1_name_refuted",
    "C44_level1_empty_name_refuted"
   ],
   "note": "REFUTED of the code: with extended headers the header is never accepted, without them the last byte of the name is lost, and an empty base name panics. The second theorem also proves that the sizes, CRC and method are read right."
  },
  {
   "property": "C45",
   "status": "partial",
   "theorems": [
    "C45_level2_written_read_refuted"
   ],
   "note": "REFUTED of the code: always a panic."
  },
  {
   "property": "C46",
   "status": "partial",
   "theorems": [
    "C46_reused_header_refuted",
    "C47_layout_read"
   ],
   "note": "REFUTED of the code: a reused header object cuts the name to the previous one's length and misplaces the CRC. Proved (C47_layout_read): for any previous content with room for the name, level 0 headers read the same."
  },
  {
   "property": "C47",
   "status": "proved",
   "theorems": [
    "C47_written_layout",
    "C47_layout_read"
   ],
   "note": ""
  },
  {
   "property": "C48",
   "status": "partial",
   "theorems": [
    "C48_dos_time_refuted"
   ],
   "note": "REFUTED of the code for every date: the year is taken from 80, not 1980."
  },
  {
   "property": "C49",
   "status": "proved",
   "theorems": [
    "C49_existing_files_kept"
   ],
   "note": ""
  },
  {
   "property": "C50",
   "status": "proved",
   "theorems": [
    "C50_reading_changes_nothing"
   ],
   "note": ""
  },
  {
   "property": "C51",
   "status": "proved",
   "theorems": [
    "C51_file_round_trip"
   ],
   "note": "For -lh5- and -lh6-, and for -lh7- below 65536 bytes (otherwise C15)."
  },
  {
   "property": "C52",
   "status": "partial",
   "theorems": [
    "C52_no_write_through_link_partial",
    "C52_no_write_through_link_refuted"
   ],
   "note": "Proved without Force; REFUTED with Force: the target of the link is written."
  },
  {
   "property": "C53",
   "status": "partial",
   "theorems": [
    "C53_dotdot_entry_refused_refuted"
   ],
   "note": "REFUTED of the code: the entry is extracted under its base name without an error."
  },
  {
   "property": "C54",
   "status": "partial",
   "theorems": [
    "C54_entry_path_refuted"
   ],
   "note": "REFUTED of the code: the directory part is dropped."
  },
  {
   "property": "C55",
   "status": "proved",
   "theorems": [
    "C55_force_replaces"
   ],
   "note": ""
  },
  {
   "property": "C56",
   "status": "partial",
   "theorems": [
    "C56_listing_complete_partial",
    "C56_listing_complete_refuted",
    "C56_listing_exact_partial",
    "C56_listing_iff_partial"
   ],
   "note": "Proved when no name is longer than the previous one; REFUTED of every archive whose second name is longer than the first. C56_listing_exact_partial says what is shown in general, and C56_listing_iff_partial that the listing is right exactly if no name is longer than the previous one, for archives in which the third byte after the cut is not U, K, X or m."
  },
  {
   "property": "C57",
   "status": "proved",
   "theorems": [
    "C57_headers_complete"
   ],
   "note": ""
  },
  {
   "property": "C58",
   "status": "proved",
   "theorems": [
    "C58_file_compress_decompress"
   ],
   "note": "For -lh5- and -lh6-, and for -lh7- below 65536 bytes (otherwise C15)."
  },
  {
   "property": "C59",
   "status": "partial",
   "theorems": [
    "C59_permissions_recorded_refuted"
   ],
   "note": "REFUTED of the code: the recorded permission bits never equal those of the file."
  },
  {
   "property": "C60",
   "status": "partial",
   "theorems": [
    "C60_extract_all_partial",
    "C60_extract_all_refuted",
    "C60_extract_fitting_partial",
    "C60_longer_name_refuted"
   ],
   "note": "Proved when no name is longer than the previous one; REFUTED otherwise: exactly the entries with longer names are left out without an error, unless the third byte after the cut is U, K or X."
  },
  {
   "property": "C61",
   "status": "proved",
   "theorems": [
    "C61_lzs_extracted"
   ],
   "note": ""
  },
  {
   "property": "C62",
   "status": "proved",
   "theorems": [
    "C62_lz5_extracted"
   ],
   "note": ""
  },
  {
   "property": "C63",
   "status": "partial",
   "theorems": [
    "C63_after_larc_partial",
    "C63_after_larc_refuted"
   ],
   "note": "Proved for archives of -lzs-, -lh5- and -lh6- entries. REFUTED of the code for -lz5-: the decoder does not count what it reads, so the packed size is skipped twice."
  },
  {
   "property": "C64",
   "status": "partial",
   "theorems": [
    "C64_lh1_extracted_partial",
    "C64_lh1_extracted_refuted"
   ],
   "note": "Proved for copies of 3 to 59 bytes. REFUTED of the code for copies of 60 bytes, the longest the format allows: the symbol is taken for an escape and eight bits of the distance are added to the length."
  },
  {
   "property": "C65",
   "status": "proved",
   "theorems": [
    "C65_lh1_malformed",
    "C65_lh1_malformed_entry"
   ],
   "note": ""
  },
  {
   "property": "C66",
   "status": "partial",
   "theorems": [
    "C66_mixed_methods_partial",
    "C66_mixed_methods_refuted"
   ],
   "note": "REFUTED of the code for every archive in which a name is longer than the one before it: that entry is not extracted and no error is reported (exceptions: names in which a certain byte is U, K or X). Headers: proved. Extraction: proved when no name is longer than the previous one."
  },
  {
   "property": "C67",
   "status": "partial",
   "theorems": [
    "C67_conforming_extracted_partial",
    "C67_conforming_extracted_refuted"
   ],
   "note": "Proved for -lh5- and -lh6-, and for -lh7- below 65536 bytes. REFUTED of the code for every -lh7- entry of 65536 bytes or more (see C15)."
  },
  {
   "property": "C68",
   "status": "proved",
   "theorems": [
    "C68_output_conforms"
   ],
   "note": ""
  },
  {
   "property": "C69",
   "status": "proved",
   "theorems": [
    "C69_damage_reported"
   ],
   "note": "For level 0 entries of -lh1-, -lh5-, -lh6-, -lh7- (below 65536 bytes) and -lzs-."
  },
  {
   "property": "C70",
   "status": "proved",
   "theorems": [
    "C70_unknown_method_reported"
   ],
   "note": "CommandExtract: when no name is longer than the previous one (otherwise C60)."
  },
  {
   "property": "C71",
   "status": "partial",
   "theorems": [
    "C71_times_restored_refuted"
   ],
   "note": "REFUTED of the code for every archive of compressed files: extraction succeeds, but no time, mode or owner is ever set (extractOne returns before adjustInfo). Contents: proved in the same theorem."
  },
  {
   "property": "C72",
   "status": "partial",
   "theorems": [
    "C72_directories_refuted"
   ],
   "note": "REFUTED of the code for every directory: makeParentPath never creates one, and an existing directory makes addDirinfo panic."
  },
  {
   "property": "C73",
   "status": "partial",
   "theorems": [
    "C73_symlinks_refuted"
   ],
   "note": "REFUTED of the code for every link: the target is passed with 1024 bytes padded by NUL, which os.Symlink refuses."
  },
  {
   "property": "C74",
   "status": "proved",
   "theorems": [
    "C74_reading_commands_change_nothing"
   ],
   "note": ""
  },
  {
   "property": "C75",
   "status": "partial",
   "theorems": [
    "C75_list_command_partial",
    "C75_list_command_refuted"
   ],
   "note": "REFUTED of the code for archives in which a name is longer than the one before it (C56). Proved for level 0 headers and entries whose names do not grow, and that the listing is right exactly then."
  },
  {
   "property": "C76",
   "status": "partial",
   "theorems": [
    "C76_extract_command_partial",
    "C76_extract_fitting_partial"
   ],
   "note": "For level 0 entries of the compressed formats of C66 and archives not named .com or .exe. REFUTED when a name is longer than the previous one: exactly those entries are left out, with status 0."
  },
  {
   "property": "C77",
   "status": "partial",
   "theorems": [
    "C77_print_command_partial",
    "C77_longer_name_refuted"
   ],
   "note": "As C76. REFUTED when a name is longer than the previous one: printing ends there with status 1."
  },
  {
   "property": "C78",
   "status": "partial",
   "theorems": [
    "C78_test_intact_partial",
    "C78_test_damaged_partial",
    "C78_test_stored_refuted",
    "C78_longer_name_refuted",
    "C78_test_status_partial"
   ],
   "note": "Proved for archives of compressed entries, intact or with one damaged entry. REFUTED of the code for stored entries: -t prints their data, and damage in them is not noticed. REFUTED also when a name is longer than the previous one: status 1 although nothing is damaged (C78_test_status_partial: exactly then)."
  },
  {
   "property": "C79",
   "status": "proved",
   "theorems": [
    "C79_unopened_archive_status"
   ],
   "note": "Archive paths that name a directory are not covered: the model of os.Open is simplified there."
  },
  {
   "property": "C80",
   "status": "partial",
   "theorems": [
    "C80_create_extract_partial",
    "C80_default_options_refuted",
    "C80_level1_refuted",
    "C80_no_header_refuted"
   ],
   "note": "Proved for -g 5 with headers of level 0, -o 5, -o 6, -o 7 for files below 65536 bytes, or no -o, and files that get shorter. REFUTED of the code with the default options (-g 2 -h 2): the program reports success and every command that reads the archive crashes; with -g 1 or -h 1 it crashes and leaves its temporary file behind; with -g 3 or more it reports success and writes no header, so that an empty file or a short one is lost."
  },
  {
   "property": "C81",
   "status": "partial",
   "theorems": [
    "C81_delete_command_refuted"
   ],
   "note": "REFUTED of the code for every archive: -d does nothing and exits with status 0."
  },
  {
   "property": "C82",
   "status": "proved",
   "theorems": [
    "C82_adding_changes_only_the_archive"
   ],
   "note": ""
  },
  {
   "property": "C83",
   "status": "partial",
   "theorems": [
    "C83_move_refuted"
   ],
   "note": "REFUTED of the code for every file: -m sets a variable that nothing reads."
  },
  {
   "property": "C84",
   "status": "partial",
   "theorems": [
    "C84_extract_keeps_files",
    "C84_force_refuted"
   ],
   "note": "The first half is proved. The second half is REFUTED of the code: -f is never read."
  },
  {
   "property": "C85",
   "status": "partial",
   "theorems": [
    "C85_not_execute_refuted"
   ],
   "note": "REFUTED of the code: -n is never read."
  },
  {
   "property": "C86",
   "status": "partial",
   "theorems": [
    "C86_add_keeps_entries_refuted"
   ],
   "note": "REFUTED of the code for every archive in which what follows the first header is not itself the beginning of a header (its first byte is 0, or its 21st is above 3): the new archive holds the new file alone."
  },
  {
   "property": "C87",
   "status": "partial",
   "theorems": [
    "C87_any_system_header_partial",
    "C87_dos_time_refuted"
   ],
   "note": "Everything but the time is read, for every system named. REFUTED for the time: without an area for Unix the number MS-DOS stores is taken for seconds since 1970, for every date from 1980 to 2107 more than a day too early."
  },
  {
   "property": "C88",
   "status": "partial",
   "theorems": [
    "C88_any_system_listed_partial",
    "C88_any_system_listed_refuted"
   ],
   "note": "REFUTED of the code for archives, made on Unix, in which a name is longer than the one before it. Proved when no name is; the time column as in C87."
  },
  {
   "property": "C89",
   "status": "partial",
   "theorems": [
    "C89_any_system_extracted_partial",
    "C89_any_system_extracted_refuted"
   ],
   "note": "REFUTED of the code for archives, made on Unix, in which a name is longer than the one before it: that entry is left out with status 0. Proved when no name is longer than the one before it, for entries of the methods of C66."
  },
  {
   "property": "C90",
   "status": "partial",
   "theorems": [
    "C90_any_system_printed_partial",
    "C90_any_system_tested_partial",
    "C90_any_system_refuted"
   ],
   "note": "REFUTED of the code for archives, made on Unix, in which a name is longer than the one before it: both commands end with status 1. Proved when no name is, for entries of the methods of C66."
  },
  {
   "property": "C91",
   "status": "partial",
   "theorems": [
    "C91_create_generic_extract_partial",
    "C91_create_generic_extract_refuted"
   ],
   "note": "REFUTED of the code for files of at most 8448 bytes that do not get shorter: they come back empty. Proved for files that get shorter; with -o 7 too if they have fewer than 65536 bytes (otherwise C15)."
  },
  {
   "property": "C92",
   "status": "partial",
   "theorems": [
    "C92_generic_permissions_refuted"
   ],
   "note": "REFUTED of the code for every file: the generic format drops the mode and -l shows -rw-rw-rw-."
  },
  {
   "property": "C93",
   "status": "partial",
   "theorems": [
    "C93_list_text_partial"
   ],
   "note": "Proved up to NUL bytes in the output (C95) and the empty time column (C94), when no name is longer than the one before it (otherwise C56), no entry without an area follows one that is marked for a system (otherwise C96) and the sums of the sizes are below 2^46. Uses the axioms of Coq's standard library for the real numbers, through Flocq's theorems on floating point."
  },
  {
   "property": "C94",
   "status": "partial",
   "theorems": [
    "C94_times_shown_refuted"
   ],
   "note": "REFUTED of the code for every archive: archives that differ in their times alone are listed alike."
  },
  {
   "property": "C95",
   "status": "partial",
   "theorems": [
    "C95_nul_bytes_refuted",
    "C95_forged_line_refuted"
   ],
   "note": "REFUTED of the code: every listing of an entry contains NUL bytes, and for every text of up to 200 bytes there is an entry whose name makes it a line of the listing."
  },
  {
   "property": "C96",
   "status": "partial",
   "theorems": [
    "C96_system_shown_refuted"
   ],
   "note": "REFUTED of the code for every entry without an area that follows one marked for a system: it is shown as of that system. Where this does not happen: C93."
  },
  {
   "property": "C97",
   "status": "partial",
   "theorems": [
    "C97_decompression_ends_refuted",
    "C97_lh3_ends_refuted",
    "C97_pm2_ends_refuted",
    "C97_decompression_ends_partial"
   ],
   "note": "REFUTED of the code: for each of -lh4- to -lh7- some 40 bytes make the decompressor loop for ever in a new process, a code that fills the code space twice makes a symbol a node and the left links of two trees built one after the other form a cycle; so do 113 bytes of -lh3- data, where the left link of a node points to the node, and 2 bytes of -pm2- data, in whose tree the root points to itself. Proved for stored, -lh1-, -lzs- and -lz5- data, for all bytes. Missing: -lh2-."
  },
  {
   "property": "C98",
   "status": "partial",
   "theorems": [
    "C98_larc_malformed_partial",
    "C98_larc_malformed_refuted"
   ],
   "note": "Proved for -lzs-; for -lz5- all but the last part, which is REFUTED of the code: the data of -lz5- entries are read without counting, beyond the packed size."
  },
  {
   "property": "C99",
   "status": "partial",
   "theorems": [
    "C99_one_after_the_other_partial",
    "C99_concurrent_refuted"
   ],
   "note": "REFUTED of the code for any two files: the window, the tables and the count of bytes decoded are package variables. Proved for schedules in which the second call starts after the first has returned."
  }
 ]
}