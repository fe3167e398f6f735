{
 "claims": [
  {
   "property": "C01",
   "status": "proved",
   "theorems": [
    "C01_bcd_bytes_roundtrip",
    "C01_bcd_number_roundtrip"
   ],
   "note": "Packed decimal bytes -> number -> bytes and number -> bytes -> number, for every length, sign flag and trailing memory."
  },
  {
   "property": "C02",
   "status": "partial",
   "theorems": [
    "C02_numeric_text_roundtrip_partial",
    "C02_fraction_in_integer_field_refuted"
   ],
   "note": "REFUTED for every text with a fraction stored in a field without fraction digits: the digits are run together (\"1.5\" is stored as 15). For all other non-negative decimal texts that fit the full statement is proved."
  },
  {
   "property": "C03",
   "status": "partial",
   "theorems": [
    "C03_negative_text_refuted",
    "C03_stored_text_reads_positive_refuted",
    "C03_minus_five_refuted"
   ],
   "note": "REFUTED as stated: the minus sign is taken for a digit (nibble 0xD) and the stored sign is always positive, for every text."
  },
  {
   "property": "C04",
   "status": "partial",
   "theorems": [
    "C04_numeric_overflow_partial",
    "C04_overflow_writes_outside_refuted"
   ],
   "note": "REFUTED for every text with two or more fraction digits that overflows a field without fraction digits (writes past the field). Saturation of the integer part, kept fraction digits and exact byte count proved for all other overflowing texts."
  },
  {
   "property": "C05",
   "status": "proved",
   "theorems": [
    "C05_date_roundtrip",
    "C05_date_1c_roundtrip"
   ],
   "note": "Both spellings of dates, all 14-digit values."
  },
  {
   "property": "C06",
   "status": "partial",
   "theorems": [
    "C06_date_overread_refuted",
    "C06_date_depends_on_field_only_partial"
   ],
   "note": "REFUTED as stated: the 7-byte date constructor reads 10 bytes. The value shown nevertheless depends only on the 7 bytes (proved)."
  },
  {
   "property": "C07",
   "status": "proved",
   "theorems": [
    "C07_guid_1C_roundtrip",
    "C07_guid_flat_roundtrip",
    "C07_guid_MS_permutation",
    "C07_guid_texts_injective"
   ],
   "note": "1C, flat and Microsoft spellings."
  },
  {
   "property": "C08",
   "status": "proved",
   "theorems": [
    "C08_guid_order"
   ],
   "note": "Strict total order equal to the order of the 128-bit big-endian value."
  },
  {
   "property": "C09",
   "status": "partial",
   "theorems": [
    "C09_base64_roundtrip",
    "C09_line_breaks_are_noise",
    "C09_base64_alphabet",
    "C09_base64_line_width",
    "C09_linux_line_break_refuted"
   ],
   "note": "Round trip, alphabet and line width proved for every line break made of characters outside the alphabet. REFUTED on platforms with four-byte wchar_t only as to the character used: in every text of more than one line the line feed is written as U+0000."
  },
  {
   "property": "C10",
   "status": "proved",
   "theorems": [
    "C10_hex_lossless",
    "C10_hex_pairs_parse",
    "C10_hex_pairs_reject"
   ],
   "note": "Length, alphabet, parse back; and exactly the hexadecimal pairs are accepted."
  },
  {
   "property": "C11",
   "status": "partial",
   "theorems": [
    "C11_xml_escape_partial",
    "C11_xml_escape_refuted",
    "C11_replace_all_char",
    "C11_replace_empty_pattern_hangs"
   ],
   "note": "REFUTED as stated: only the first occurrence of each special character is escaped. Proved for texts where each occurs at most once."
  },
  {
   "property": "C12",
   "status": "partial",
   "theorems": [
    "C12_text_roundtrip",
    "C12_stored_text_exact",
    "C12_utf8_accepts_only_valid",
    "C12_decode_total",
    "C12_odd_length_refuted"
   ],
   "note": "Round trip in both directions, exact acceptance and totality proved for all texts and all even-length stored bytes. REFUTED only for an odd number of stored bytes: the last byte is dropped silently."
  },
  {
   "property": "C13",
   "status": "partial",
   "theorems": [
    "C13_equal_ic_equivalence",
    "C13_equal_ic_exact",
    "C13_lower_case",
    "C13_nul_truncates_refuted"
   ],
   "note": "Equivalence, exactness, idempotence and length preservation proved for all valid texts without NUL. REFUTED for names containing NUL (all text after it is ignored, for every such pair of names)."
  },
  {
   "property": "C14",
   "status": "proved",
   "theorems": [
    "C14_print_parse"
   ],
   "note": "For all printable trees (Tree_Spec.printable). Empty lists, which the text form cannot express, are the subject of C59."
  },
  {
   "property": "C15",
   "status": "proved",
   "theorems": [
    "C15_parse_result"
   ],
   "note": "For all texts without NUL (parse_1Cstream stops at NUL, so every stream is covered)."
  },
  {
   "property": "C16",
   "status": "proved",
   "theorems": [
    "C16_cache_transparent",
    "C16_out_of_range"
   ],
   "note": "Every history of reads, writes, appends, clean-ups and flushes, any clock, any uninitialised memory; requests outside the file throw."
  },
  {
   "property": "C17",
   "status": "proved",
   "theorems": [
    "C17_flush_writes_view"
   ],
   "note": ""
  },
  {
   "property": "C18",
   "status": "partial",
   "theorems": [
    "C18_close_loses_changes_refuted",
    "C18_flush_then_close_partial"
   ],
   "note": "REFUTED as stated, for every file and history: the destructor drops modified pages. Proved: nothing is lost when the last operation is a flush."
  },
  {
   "property": "C19",
   "status": "proved",
   "theorems": [
    "C19_header_count",
    "C19_open_exact"
   ],
   "note": "For all histories in which callers do not overwrite the count themselves; and open accepts exactly the files whose count is right."
  },
  {
   "property": "C20",
   "status": "proved",
   "theorems": [
    "C20_range_read"
   ],
   "note": "All formats (8.2.14, 8.3.8 flat and two-level, free list); reads of an object already held in memory are covered by C21; odd requests are C63."
  },
  {
   "property": "C21",
   "status": "proved",
   "theorems": [
    "C21_histories"
   ],
   "note": "Histories of overwrites, range reads and whole reads; whole reads only at lengths outside C62."
  },
  {
   "property": "C22",
   "status": "proved",
   "theorems": [
    "C22_file_offset"
   ],
   "note": ""
  },
  {
   "property": "C23",
   "status": "partial",
   "theorems": [
    "C23_older_refuted",
    "C23_newer_refuted",
    "C23_page_zero_refuted",
    "C23_grow_partial"
   ],
   "note": "REFUTED as stated: in the older format no change to a different length completes (vector overrun or endless loop), for every object and length; in the newer formats only some growth completes and then later writes can land in page 0. Proved when the overrun is harmless: growth of older-format objects to any length with at most 254 table pages."
  },
  {
   "property": "C24",
   "status": "partial",
   "theorems": [
    "C24_empty_refuted",
    "C24_double_refuted",
    "C24_delete_partial"
   ],
   "note": "REFUTED as stated: an empty object releases nothing; an object with more than one table page releases its header page several times, so it is handed out twice. Proved for objects with one table page (1 to 1023 data pages)."
  },
  {
   "property": "C25",
   "status": "proved",
   "theorems": [
    "C25_read_blob"
   ],
   "note": "On objects stored in pages, for every content. The length 2^32-1 means any length in the code."
  },
  {
   "property": "C26",
   "status": "partial",
   "theorems": [
    "C26_cycle_refuted",
    "C26_terminates_partial"
   ],
   "note": "REFUTED as stated: a cycle of chunks without data is followed for ever. Proved: this is the only way not to terminate (an equivalence), with a step bound otherwise."
  },
  {
   "property": "C27",
   "status": "proved",
   "theorems": [
    "C27_histories",
    "C27_growing",
    "C27_growing_reads"
   ],
   "note": "On objects stored in pages, files up to 2 GiB; also on a plain growing byte file. Files that must grow: see C71 and C23."
  },
  {
   "property": "C28",
   "status": "partial",
   "theorems": [
    "C28_overrun_refuted",
    "C28_zeros_refuted",
    "C28_whole_chunks_partial"
   ],
   "note": "REFUTED as stated: every buffer whose length is not a multiple of 250 is overrun; with room behind it its tail is stored as zeros and the buffer is cleared. Proved for multiples of 250."
  },
  {
   "property": "C29",
   "status": "proved",
   "theorems": [
    "C29_round_trip",
    "C29_sorted_total"
   ],
   "note": "Packing is total on strictly ascending keys and succeeds when the records fit; unpacking gives the records back. Equal keys and full pages are C78 and C79."
  },
  {
   "property": "C30",
   "status": "proved",
   "theorems": [
    "C30_key_order"
   ],
   "note": "Numbers, dates, logical and binary values; texts are C81, nullable fields C31, the offset used for records C80."
  },
  {
   "property": "C31",
   "status": "partial",
   "theorems": [
    "C31_null_overrun_refuted",
    "C31_null_size_refuted",
    "C31_null_first_partial",
    "C31_values_partial"
   ],
   "note": "REFUTED: NULL writes one byte more than the size of the field and returns 0; a value returns one less than the bytes it stores, so the next key part overwrites the last byte. Proved: with a spare byte NULL sorts first and values in order."
  },
  {
   "property": "C32",
   "status": "proved",
   "theorems": [
    "C32_walk"
   ],
   "note": "The walk over any stored and chained tree gives the numbers of the leaf records in order; the leaf records are what unpacking the page gives (C29)."
  },
  {
   "property": "C33",
   "status": "proved",
   "theorems": [
    "C33_layout"
   ],
   "note": "For the declared fields; the hidden version field is C82."
  },
  {
   "property": "C34",
   "status": "proved",
   "theorems": [
    "C34_set_data",
    "C34_set_null",
    "C34_assign"
   ],
   "note": "Non-nullable fields, NULL and whole records; values in nullable fields are C86."
  },
  {
   "property": "C35",
   "status": "proved",
   "theorems": [
    "C35_scan",
    "C35_index"
   ],
   "note": "For every file up to 4 GiB: after any number of steps the iterator shows that element of the list of records whose first byte is 0; the record index is the list of their numbers."
  },
  {
   "property": "C36",
   "status": "partial",
   "theorems": [
    "C36_large_refuted",
    "C36_small_refuted",
    "C36_write_partial",
    "C36_delete_middle_partial",
    "C36_delete_last_partial"
   ],
   "note": "REFUTED: the object instead of its data is stored (undefined when records have more than 24 bytes, else the stored bytes do not depend on the values), and a deleted record is not put on the free chain. Proved: the other records are kept when writing, deleting the last and deleting an inner record."
  },
  {
   "property": "C37",
   "status": "proved",
   "theorems": [
    "C37_edits"
   ],
   "note": "Refinement for every history of edits to a list of new records and a set of deleted numbers."
  },
  {
   "property": "C38",
   "status": "proved",
   "theorems": [
    "C38_histories"
   ],
   "note": "For every history of writes, removals, table rewrites and reopenings of a container that stays below 2 GiB (a file last written with no bytes is C95). The memory behind a header is assumed to have a zero somewhere (C94)."
  },
  {
   "property": "C39",
   "status": "proved",
   "theorems": [
    "C39_headers"
   ],
   "note": "For all values from 0 to 2^31-1 in the three places; the memory behind the header is assumed to have a zero somewhere (C94). Negative values: C97."
  },
  {
   "property": "C40",
   "status": "partial",
   "theorems": [
    "C40_times_refuted",
    "C40_reopen_partial"
   ],
   "note": "REFUTED: the modification time read is the creation time plus 8, for all times; the name is followed by two zero characters. Proved: order, creation time, name up to the two characters and contents survive saving and reopening, for every history."
  },
  {
   "property": "C41",
   "status": "proved",
   "theorems": [
    "C41_memory_stream"
   ],
   "note": "Positions, sizes and arguments below 2^61; seeks from the start not negative, from the end within the stream (C72 covers the rest)."
  },
  {
   "property": "C42",
   "status": "proved",
   "theorems": [
    "C42_copy_count",
    "C42_copy_all"
   ],
   "note": "Sources with at least one byte left, or count 0; C76 covers the exhausted source."
  },
  {
   "property": "C43",
   "status": "proved",
   "theorems": [
    "C43_round_trip",
    "C43_success"
   ],
   "note": "zlib itself is a parameter (any lossless codec, with an instance); modelled are the buffer loops around it."
  },
  {
   "property": "C44",
   "status": "proved",
   "theorems": [
    "C44_version_resolves",
    "C44_version_found"
   ],
   "note": "For tables of fewer than 2^32 versions in ascending order that fit an int, which is what index PK gives; the smallest 32-bit number is C104."
  },
  {
   "property": "C45",
   "status": "proved",
   "theorems": [
    "C45_export_exact"
   ],
   "note": "For every history sorted as its index gives it, with at least one row (none: C105); data comes from the row or from the packs (C50). A name that two objects would share is left open. Version identifiers, the lists root and versions, the snapshot shortcut and writing the result into the container (C38) are not part of it."
  },
  {
   "property": "C46",
   "status": "partial",
   "theorems": [
    "C46_old_depot_refuted",
    "C46_stale_refuted",
    "C46_skipped_refuted",
    "C46_unpacked_refuted",
    "C46_range_partial",
    "C46_order_partial"
   ],
   "note": "REFUTED: an object stored before the range and changed in it is undefined before depot version 6, and from version 6 on is written with the data of another object or not at all; data stored in the range is left out when a later row of the range keeps none. Proved exact (files and deleted objects, and the error) when no changed object has data kept in its last row before the range. Rows of EXTERNALS are not modelled for ranges."
  },
  {
   "property": "C47",
   "status": "proved",
   "theorems": [
    "C47_parts"
   ],
   "note": "For part numbers that are not negative and distinct within a file (C109 for the others). Names are compared by any lower-casing function (C13 for LowerCase)."
  },
  {
   "property": "C48",
   "status": "partial",
   "theorems": [
    "C48_path_partial",
    "C48_top_partial",
    "C48_nested_refuted",
    "C48_rooted_refuted"
   ],
   "note": "REFUTED for every nested path whose first name differs from itself without the last character, and for paths with a leading separator. C48_path_partial gives the result for every path of plain names; C48_top_partial for one name."
  },
  {
   "property": "C49",
   "status": "partial",
   "theorems": [
    "C49_in_use_partial",
    "C49_update_lost_refuted"
   ],
   "note": "REFUTED: the identifier of an update is read one character early, so no update but one with the zero identifier is recognised. Proved for files without updates: the one in use wins over a new version in every order."
  },
  {
   "property": "C50",
   "status": "proved",
   "theorems": [
    "C50_lookup"
   ],
   "note": "For packs with pairwise different hashes and non-empty data; empty data is C106."
  },
  {
   "property": "C51",
   "status": "partial",
   "theorems": [
    "C51_quotes_refuted",
    "C51_empty_refuted",
    "C51_unquote_partial",
    "C51_dispatch_partial"
   ],
   "note": "REFUTED: never ends when an argument ends in two quotes, undefined for an empty argument and for an argument of two quotes. Proved: exact result of unquoting for every text; every list made of keys in any letter case with their (possibly missing) parameters, unknown keys and file names is dispatched as the help says."
  },
  {
   "property": "C52",
   "status": "partial",
   "theorems": [
    "C52_loss_refuted",
    "C52_wide_refuted"
   ],
   "note": "REFUTED: with a 4-byte long every time loses 11643310 (or 11643309) seconds; with an 8-byte long the upper half is uninitialised."
  },
  {
   "property": "C53",
   "status": "partial",
   "theorems": [
    "C53_dot_refuted",
    "C53_question_refuted",
    "C53_wildcards_partial"
   ],
   "note": "REFUTED: a dot in the list matches any character and a question mark does not match a letter outside ASCII. Proved for every list without regular expression characters and every ASCII name: selected exactly when one of the words matches without regard to case; a list without words is reported. boost::regex is modelled for the expressions that arise."
  },
  {
   "property": "C54",
   "status": "partial",
   "theorems": [
    "C54_users_partial",
    "C54_outside_refuted",
    "C54_nokey_refuted"
   ],
   "note": "REFUTED for keys of 128 bytes and more, keys of no bytes and truncated lists (exactly these, C54_outside_refuted, C54_nokey_refuted). Proved for keys of 1 to 127 bytes and all texts."
  },
  {
   "property": "C55",
   "status": "proved",
   "theorems": [
    "C55_accepted_conforms"
   ],
   "note": "For non-overlapping fields as the layout of C33 gives them, field lengths below 65536, data up to 4 GiB; the verdict is sound whatever the uninitialised part of the buffer held. Slot 0 must be the free slot that heads the list."
  },
  {
   "property": "C56",
   "status": "partial",
   "theorems": [
    "C56_guid_text_length_checked_partial",
    "C56_guid_text_unchecked_refuted"
   ],
   "note": "REFUTED as stated, for every text: non-hexadecimal characters are read as digit 0. The length check is proved exact."
  },
  {
   "property": "C57",
   "status": "partial",
   "theorems": [
    "C57_ends_with_ic_partial",
    "C57_ends_with_ic_throws_refuted"
   ],
   "note": "REFUTED as stated: an exception is raised whenever the cut falls inside a multi-byte character. Proved exact in all other cases."
  },
  {
   "property": "C58",
   "status": "partial",
   "theorems": [
    "C58_to_int_def_digits_partial",
    "C58_to_int_def_throws_refuted"
   ],
   "note": "REFUTED as stated: out_of_range is not caught. Exact behaviour proved for every digit text."
  },
  {
   "property": "C59",
   "status": "partial",
   "theorems": [
    "C59_empty_lists_refuted",
    "C59_empty_list_refuted",
    "C59_single_empty_value_refuted",
    "C59_reparse_partial",
    "C59_unknown_value_refuted"
   ],
   "note": "REFUTED as stated: empty lists disappear or turn into empty values when printed, and an unknown last value is printed as nothing. Proved for all other parsed nodes."
  },
  {
   "property": "C60",
   "status": "proved",
   "theorems": [
    "C60_value_kind_exact"
   ],
   "note": "Exact characterisation of the classifier by explicit text forms; Boost.Regex is modelled by a derivative matcher proved equal to the denoted language."
  },
  {
   "property": "C61",
   "status": "partial",
   "theorems": [
    "C61_cached_page_not_cleared_refuted",
    "C61_appended_page_partial"
   ],
   "note": "REFUTED as stated, for every cached page: it keeps its old bytes. Proved for appended pages."
  },
  {
   "property": "C62",
   "status": "partial",
   "theorems": [
    "C62_last_page_lost_refuted",
    "C62_whole_read_partial"
   ],
   "note": "REFUTED as stated: when the last table page lists one data page after at least one full table, the last page is left uninitialised; this holds for every such object. Proved at all other lengths."
  },
  {
   "property": "C63",
   "status": "partial",
   "theorems": [
    "C63_empty_read_refuted",
    "C63_after_whole_read_refuted",
    "C63_wrap_refuted",
    "C63_empty_inside_partial"
   ],
   "note": "REFUTED as stated: empty read at the end of an object that fills its tables, any read beyond the end after a whole read, and wrap-around of offset + length (for every object). Proved: empty reads before the end; rejection otherwise is part of C20."
  },
  {
   "property": "C64",
   "status": "partial",
   "theorems": [
    "C64_offset_refuted",
    "C64_place"
   ],
   "note": "REFUTED as stated: the position is cut to 32 bits, so every reported offset is wrong (for every object whose data pages are distinct)."
  },
  {
   "property": "C65",
   "status": "proved",
   "theorems": [
    "C65_free_pages",
    "C65_no_page_twice"
   ],
   "note": "Older format; histories within the room of the list (C67 covers the full list)."
  },
  {
   "property": "C66",
   "status": "proved",
   "theorems": [
    "C66_replace"
   ],
   "note": "All formats; a two-level object of length 0 is excluded because the code reads a missing entry."
  },
  {
   "property": "C67",
   "status": "partial",
   "theorems": [
    "C67_full_refuted",
    "C67_newer_refuted"
   ],
   "note": "REFUTED as stated: releasing a page when the list is full never completes; in the newer format a release overwrites the first listed page number by a count."
  },
  {
   "property": "C68",
   "status": "proved",
   "theorems": [
    "C68_new_object"
   ],
   "note": ""
  },
  {
   "property": "C69",
   "status": "partial",
   "theorems": [
    "C69_last_page_kept_refuted"
   ],
   "note": "REFUTED as stated: for every such object the last page keeps its old bytes."
  },
  {
   "property": "C70",
   "status": "partial",
   "theorems": [
    "C70_short_refuted",
    "C70_table_read_partial"
   ],
   "note": "REFUTED as stated: a shorter blob is returned with a message only; a longer one is written behind the memory. Proved: when no message is given the bytes are a blob of exactly that length."
  },
  {
   "property": "C71",
   "status": "partial",
   "theorems": [
    "C71_no_room_refuted"
   ],
   "note": "REFUTED as stated: for every such file of the older format, and of the newer format with one level of pages, the write never completes, because growth by 4 bytes does not (C23)."
  },
  {
   "property": "C72",
   "status": "partial",
   "theorems": [
    "C72_negative_refuted",
    "C72_rejected_moves_refuted",
    "C72_beyond_end_refuted"
   ],
   "note": "REFUTED as stated: a negative offset from the start is accepted and the next read is out of bounds; a rejected seek from the end moves the cursor; a negative offset from the end goes behind it. Seeks as in C41 are proved there."
  },
  {
   "property": "C73",
   "status": "partial",
   "theorems": [
    "C73_write_lost_refuted",
    "C73_file_stream_partial"
   ],
   "note": "REFUTED as stated: after a read that met the end of the file a write is reported as done but lost. Proved for histories without such a write, without size changes and with the cursor inside."
  },
  {
   "property": "C74",
   "status": "partial",
   "theorems": [
    "C74_truncated_refuted"
   ],
   "note": "REFUTED as stated: for every lossless codec each cut stream is expanded without an error to a beginning of the data."
  },
  {
   "property": "C75",
   "status": "partial",
   "theorems": [
    "C75_rubbish_refuted",
    "C75_copy_partial"
   ],
   "note": "REFUTED as stated: when the input goes wrong after the first buffer, the output already written stays before the copy. Proved when it goes wrong within the first buffer."
  },
  {
   "property": "C76",
   "status": "partial",
   "theorems": [
    "C76_copy_at_end_refuted"
   ],
   "note": "REFUTED as stated: n zero bytes are written and n is returned."
  },
  {
   "property": "C77",
   "status": "partial",
   "theorems": [
    "C77_multiple_refuted"
   ],
   "note": "REFUTED as stated: compression fails exactly for lengths that are multiples of 16384, including 0."
  },
  {
   "property": "C78",
   "status": "partial",
   "theorems": [
    "C78_equal_keys_refuted"
   ],
   "note": "REFUTED: the prefix comparison of two equal keys reads the byte behind the buffer when they are the last ones."
  },
  {
   "property": "C79",
   "status": "partial",
   "theorems": [
    "C79_full_page_refuted"
   ],
   "note": "REFUTED: unpacking reads eight bytes per entry, past the end of the page whenever the last entry starts in its last seven bytes; exact condition, with a page of 4096 bytes as instance."
  },
  {
   "property": "C80",
   "status": "partial",
   "theorems": [
    "C80_double_offset_refuted",
    "C80_value_ignored_refuted"
   ],
   "note": "REFUTED: the offset of the field is added twice; exact key for fixed-size kinds, and independence of the value of the field whenever the field is not larger than its offset."
  },
  {
   "property": "C81",
   "status": "partial",
   "theorems": [
    "C81_text_keys_refuted"
   ],
   "note": "REFUTED: text fields are refused and contribute nothing; the key of every record is all zeros."
  },
  {
   "property": "C82",
   "status": "partial",
   "theorems": [
    "C82_hidden_version_refuted"
   ],
   "note": "REFUTED: the added field is not counted; offset 0 and no room in the record, for every table."
  },
  {
   "property": "C83",
   "status": "partial",
   "theorems": [
    "C83_overread_refuted",
    "C83_raw_bytes_refuted",
    "C83_short_partial"
   ],
   "note": "REFUTED: twice the number of UTF-8 bytes is copied, reading past the text when it has two or more bytes and fits the field; a longer text is stored byte for byte, not as UTF-16. Proved for at most one byte."
  },
  {
   "property": "C84",
   "status": "partial",
   "theorems": [
    "C84_shifted_refuted",
    "C84_trailing_refuted"
   ],
   "note": "REFUTED: conversion starts at the second digit, exact result for every value; the shown text has two characters 0 at the end."
  },
  {
   "property": "C85",
   "status": "partial",
   "theorems": [
    "C85_own_bytes_partial",
    "C85_next_field_refuted",
    "C85_last_field_refuted"
   ],
   "note": "REFUTED: a count beyond the declared length shows two bytes behind the field (undefined at the end of the record). Proved for counts within the length."
  },
  {
   "property": "C86",
   "status": "partial",
   "theorems": [
    "C86_next_byte_refuted",
    "C86_source_refuted",
    "C86_last_field_refuted"
   ],
   "note": "REFUTED: one byte too many is read and written, exact effect for every nullable field; undefined when the field is last or the value has exactly its size."
  },
  {
   "property": "C87",
   "status": "partial",
   "theorems": [
    "C87_alias_refuted",
    "C87_wrap_refuted"
   ],
   "note": "REFUTED: offsets are computed with 32 bits; two record numbers whose distance is a whole number of 4 GiB give the same record."
  },
  {
   "property": "C88",
   "status": "proved",
   "theorems": [
    "C88_indexed_scan"
   ],
   "note": "For every index, deletion pattern and file up to 4 GiB."
  },
  {
   "property": "C89",
   "status": "partial",
   "theorems": [
    "C89_versions_refuted",
    "C89_stored_refuted",
    "C89_new_refuted",
    "C89_update_refuted"
   ],
   "note": "REFUTED: every change of a stored value is undefined, as is storing a changed field of a kind without a blob, or storing anything in a table with a version field that was not changed."
  },
  {
   "property": "C90",
   "status": "partial",
   "theorems": [
    "C90_second_refuted"
   ],
   "note": "REFUTED: the count of records is not increased, the second insertion is refused, for every table whose free chain is empty and whose records have at most 24 bytes."
  },
  {
   "property": "C91",
   "status": "partial",
   "theorems": [
    "C91_nullable_refuted",
    "C91_plain_partial"
   ],
   "note": "REFUTED for fields that can be NULL: the mark is taken for part of the number, right for exactly one number. Proved for other fields."
  },
  {
   "property": "C92",
   "status": "partial",
   "theorems": [
    "C92_nullable_refuted",
    "C92_plain_partial"
   ],
   "note": "REFUTED for fields that can be NULL: nothing is released. Proved for other fields."
  },
  {
   "property": "C93",
   "status": "proved",
   "theorems": [
    "C93_recognised"
   ],
   "note": "For every history and every content of the uninitialised header."
  },
  {
   "property": "C94",
   "status": "partial",
   "theorems": [
    "C94_overread_refuted",
    "C94_depends_refuted",
    "C94_written_partial"
   ],
   "note": "REFUTED: without a zero behind the header every decoding is out of bounds; the value of a damaged header depends on that memory. Proved: a header as it is written gives the same whatever follows."
  },
  {
   "property": "C95",
   "status": "partial",
   "theorems": [
    "C95_overwrites_refuted",
    "C95_other_file_refuted"
   ],
   "note": "REFUTED: in every container with no free page, writing again to a file written with no bytes overwrites what follows its block; a witness shows another file emptied and a wrong length."
  },
  {
   "property": "C96",
   "status": "partial",
   "theorems": [
    "C96_cycle_refuted",
    "C96_outside_partial"
   ],
   "note": "REFUTED: a chain of blocks that comes back to itself, of any length and in any container, is read for ever, for every number of steps."
  },
  {
   "property": "C97",
   "status": "proved",
   "theorems": [
    "C97_negative_rejected"
   ],
   "note": "For all negative 32-bit numbers in the three places."
  },
  {
   "property": "C98",
   "status": "partial",
   "theorems": [
    "C98_delete_refuted",
    "C98_absent_partial"
   ],
   "note": "REFUTED: deleting a name that is present uses the deleted object, for every list and name. Proved: an absent name changes nothing."
  },
  {
   "property": "C99",
   "status": "partial",
   "theorems": [
    "C99_created_refuted"
   ],
   "note": "REFUTED: saving a container with such a file, whatever else it holds, and opening it is undefined."
  },
  {
   "property": "C100",
   "status": "partial",
   "theorems": [
    "C100_self_refuted",
    "C100_container_partial"
   ],
   "note": "REFUTED: a file marked as compressed in a container that is not is shown compressed. Proved for the other combinations, for every lossless compression."
  },
  {
   "property": "C101",
   "status": "partial",
   "theorems": [
    "C101_range_refuted",
    "C101_single_partial"
   ],
   "note": "REFUTED: the last digit of the first version is dropped, for all numbers. Proved for a single number."
  },
  {
   "property": "C102",
   "status": "partial",
   "theorems": [
    "C102_current_refuted"
   ],
   "note": "REFUTED: the stored time is 116561157455527 units (about 369 years) early, for all times of 32 bits (4-byte long)."
  },
  {
   "property": "C103",
   "status": "partial",
   "theorems": [
    "C103_plain_partial",
    "C103_description_partial",
    "C103_zipped_partial",
    "C103_other_partial",
    "C103_unreadable_partial",
    "C103_empty_refuted",
    "C103_nodescription_refuted"
   ],
   "note": "REFUTED for empty data (the tail of the stored value is written instead) and for an empty description (eight zero bytes). Proved for non-empty data, for a value that is a description only, compressed and not, and for values in other formats. Blobs over 10 MB go through temporary files, which are not modelled here; negative stored lengths are not covered."
  },
  {
   "property": "C104",
   "status": "partial",
   "theorems": [
    "C104_smallest_refuted",
    "C104_total_partial"
   ],
   "note": "REFUTED for the smallest 32-bit number (its negation overflows). Proved for all others."
  },
  {
   "property": "C105",
   "status": "partial",
   "theorems": [
    "C105_no_history_refuted",
    "C105_history_partial"
   ],
   "note": "REFUTED: both exports use a record that was never read. Proved that a version export with history ends with files or an error."
  },
  {
   "property": "C106",
   "status": "partial",
   "theorems": [
    "C106_empty_refuted",
    "C106_lookup_partial"
   ],
   "note": "REFUTED: the whole pack file is returned. C106_lookup_partial gives the result of every lookup."
  },
  {
   "property": "C107",
   "status": "partial",
   "theorems": [
    "C107_closed_discard_refuted",
    "C107_histories_partial"
   ],
   "note": "REFUTED: closing a stream and discarding it without reading or writing in between dereferences a null pointer. Proved: exactly the histories that close only an open stream, and end open, are defined, and they behave as a file (reads and seeks within the file; C73 covers short reads)."
  },
  {
   "property": "C108",
   "status": "partial",
   "theorems": [
    "C108_save_refuted"
   ],
   "note": "REFUTED: saving always closes the stream and then discards it (C107), for all data."
  },
  {
   "property": "C109",
   "status": "partial",
   "theorems": [
    "C109_negative_part_refuted",
    "C109_negative_beside_refuted",
    "C109_defined_partial"
   ],
   "note": "REFUTED: negative part numbers are undefined. Proved that tables with distinct part numbers, none negative, are read."
  },
  {
   "property": "C110",
   "status": "partial",
   "theorems": [
    "C110_histories_partial",
    "C110_failure_forgotten_refuted"
   ],
   "note": "REFUTED: a file that cannot be expanded fails once and is then shown cut off. Proved for files that can be expanded, for all histories."
  },
  {
   "property": "C111",
   "status": "partial",
   "theorems": [
    "C111_saved_wins_partial",
    "C111_extension_refuted",
    "C111_new_version_refuted"
   ],
   "note": "REFUTED: a file of the configuration with an extension is kept under a name shorter by a character. Proved for names without a dot and without the mark of an update."
  },
  {
   "property": "C112",
   "status": "partial",
   "theorems": [
    "C112_hashes_partial",
    "C112_shorter_hash_refuted"
   ],
   "note": "REFUTED for a hash shorter than one before it. Proved for lists whose hashes have one length, whatever the names."
  },
  {
   "property": "C113",
   "status": "partial",
   "theorems": [
    "C113_no_files_partial",
    "C113_own_list_refuted"
   ],
   "note": "REFUTED: the list of the user is never found, its name is cut by a character. Proved for users without files."
  },
  {
   "property": "C114",
   "status": "partial",
   "theorems": [
    "C114_updates_partial",
    "C114_missing_refuted"
   ],
   "note": "REFUTED: fewer identifiers than announced dereference a null pointer. Proved when all announced ones are there."
  },
  {
   "property": "C115",
   "status": "proved",
   "theorems": [
    "C115_compressed_names"
   ],
   "note": "For every lower-casing function."
  },
  {
   "property": "C116",
   "status": "partial",
   "theorems": [
    "C116_trailing_dot_refuted",
    "C116_names_kept_partial"
   ],
   "note": "REFUTED: a dot at the end is lost, so that the file competes with the one without it. Proved for names without a dot, with an extension, and with the extension new."
  },
  {
   "property": "C117",
   "status": "partial",
   "theorems": [
    "C117_full_page_partial",
    "C117_last_page_refuted",
    "C117_removed_record_refuted",
    "C117_first_page_refuted",
    "C117_short_fields_refuted"
   ],
   "note": "REFUTED: a removed record, a first slot with a link, or bytes of the record that no field covers make the page unrecognised, and the verdict on a page that is not full depends on uninitialised memory. Proved for full pages of records in use."
  },
  {
   "property": "C118",
   "status": "proved",
   "theorems": [
    "C118_open_exact"
   ],
   "note": "Files of at least 24 bytes whose page size is not zero; the corners are in C123."
  },
  {
   "property": "C119",
   "status": "proved",
   "theorems": [
    "C119_root_exact",
    "C119_root_negative"
   ],
   "note": "The data holds as many numbers as announced; the corner is in C123."
  },
  {
   "property": "C120",
   "status": "proved",
   "theorems": [
    "C120_kind_exact"
   ],
   "note": "Which tables were read is a parameter."
  },
  {
   "property": "C121",
   "status": "proved",
   "theorems": [
    "C121_tree_exact",
    "C121_text_read",
    "C121_text_sound",
    "C121_text_decided"
   ],
   "note": "Exact on trees of the reader's shape and, through C14 and C15, on texts; the comparison of names is a parameter."
  },
  {
   "property": "C122",
   "status": "proved",
   "theorems": [
    "C122_indexes_exact",
    "C122_presence",
    "C122_too_many",
    "C122_data_exact"
   ],
   "note": "Index and data files below 4 GiB; larger ones are in C124, the corners in C123."
  },
  {
   "property": "C123",
   "status": "partial",
   "theorems": [
    "C123_page_size_zero_refuted",
    "C123_any_page_size_refuted",
    "C123_short_file_refuted",
    "C123_root_truncated_refuted",
    "C123_free_page_outside_refuted"
   ],
   "note": "REFUTED: page size zero divides by zero, any other page size is accepted, a file shorter than its header is judged by uninitialised memory, a root object with too few numbers is read beyond its end, and a first free page whose offset wraps in 32 bits is accepted. The refusals that do hold are in C118, C119, C121 and C122."
  },
  {
   "property": "C124",
   "status": "partial",
   "theorems": [
    "C124_index_4gib_refuted",
    "C124_data_4gib_refuted",
    "C124_data_partial"
   ],
   "note": "REFUTED: every index or data file of 4 GiB or more is refused because the products are taken in 32 bits. Proved below 4 GiB."
  },
  {
   "property": "C125",
   "status": "partial",
   "theorems": [
    "C125_document_partial",
    "C125_binary_refuted",
    "C125_twice_refuted"
   ],
   "note": "Proved for all tables with plain names whose values are among those the export can show (numbers, logical values, identifiers, versions, texts without doubled special characters, carriage returns or control characters, dates from the year 1000 on, pictures up to 54 bytes). REFUTED otherwise: every other binary value ends with two NUL characters, and only the first of each special character is escaped. The files are read by a reader of XML in the specification; expanding of packed values is not modelled."
  },
  {
   "property": "C126",
   "status": "partial",
   "theorems": [
    "C126_null_refuted"
   ],
   "note": "REFUTED for every nullable text field: both are an element without content."
  },
  {
   "property": "C127",
   "status": "partial",
   "theorems": [
    "C127_one_path_refuted",
    "C127_single_partial",
    "C127_absent_partial"
   ],
   "note": "REFUTED: each name is appended to the path of the one before, so that all files that can be written have the same path. Proved for one record, one picture field and any number of naming fields."
  },
  {
   "property": "C128",
   "status": "partial",
   "theorems": [
    "C128_dates_partial",
    "C128_early_refuted"
   ],
   "note": "Proved from the year 1000 on; REFUTED before (the empty date 0001-01-01 has a year of one digit)."
  },
  {
   "property": "C129",
   "status": "partial",
   "theorems": [
    "C129_base64_partial",
    "C129_long_refuted"
   ],
   "note": "Proved up to 54 bytes; REFUTED above where wchar_t has four bytes: the line break contains a NUL character."
  },
  {
   "property": "C130",
   "status": "partial",
   "theorems": [
    "C130_null_key_refuted",
    "C130_succeeds_partial"
   ],
   "note": "REFUTED: a NULL in the first naming field raises an exception whenever the counter of pictures, which is never initialised, is not zero. Proved where the naming fields are not NULL."
  },
  {
   "property": "C131",
   "status": "proved",
   "theorems": [
    "C131_yes"
   ],
   "note": "for every text; the letters folded are those of C13"
  },
  {
   "property": "C132",
   "status": "proved",
   "theorems": [
    "C132_add",
    "C132_listed",
    "C132_histories"
   ],
   "note": "For all trees; a leaf has room if the records would fit without any packing (fits). C132_listed gives the walk; C132_histories any sequence of additions and removals."
  },
  {
   "property": "C133",
   "status": "partial",
   "theorems": [
    "C133_root_refuted"
   ],
   "note": "REFUTED: the new root is marked as a leaf, and from 8.3.8 on its offset is stored instead of its page number; before 8.3.8 the walk lists two numbers only, from then on it fails. With room: C132."
  },
  {
   "property": "C134",
   "status": "partial",
   "theorems": [
    "C134_last_refuted",
    "C134_last_but_one_refuted",
    "C134_middle_refuted",
    "C134_full_refuted",
    "C134_walk_partial"
   ],
   "note": "REFUTED in each case: the new number of entries of the branch is not stored, so the second half cannot be removed if the full leaf is the last child, and the records of the last child cannot be removed if it is the last but one; with more children behind it memcpy overlaps; a full branch overflows a buffer. C134_walk_partial: with room in the branch the walk along the leaves meets every record and the new one in the order of the keys; missing: removal through the branch. With room in the leaf: C132."
  },
  {
   "property": "C135",
   "status": "proved",
   "theorems": [
    "C135_remove"
   ],
   "note": "For all trees, for leaves with at least one other record, and room for the ones that stay without packing; see C138 and C139 for the other cases."
  },
  {
   "property": "C136",
   "status": "proved",
   "theorems": [
    "C136_refused"
   ],
   "note": "For all trees."
  },
  {
   "property": "C137",
   "status": "proved",
   "theorems": [
    "C137_absent"
   ],
   "note": "For all trees."
  },
  {
   "property": "C138",
   "status": "partial",
   "theorems": [
    "C138_emptied_refuted"
   ],
   "note": "REFUTED: the page of the root is given back but stays the root; each later addition fails or does not end. A leaf that keeps a record: C135."
  },
  {
   "property": "C139",
   "status": "partial",
   "theorems": [
    "C139_remove_refuted"
   ],
   "note": "REFUTED by a leaf whose other records do not fit after the removal because they have less in common; the result of packing is ignored. Where they fit without packing: C135."
  },
  {
   "property": "C140",
   "status": "proved",
   "theorems": [
    "C140_export"
   ],
   "note": "For both formats, all lengths, files read whole before or not. The directory can be written (a parameter); junk in the entries of absent files."
  },
  {
   "property": "C141",
   "status": "partial",
   "theorems": [
    "C141_round_trip_partial",
    "C141_newer_refuted"
   ],
   "note": "REFUTED for the newer format: the version numbers are written at the place of the older layout, which is the place of the length, so each imported file is opened with the second version number as its length. Proved for the older format (C141_round_trip_partial) for lengths without a lone last page (C69)."
  },
  {
   "property": "C142",
   "status": "partial",
   "theorems": [
    "C142_other_size_refuted"
   ],
   "note": "REFUTED for the older format: with one file of another length, or a missing file that the export has, the import never completes (undefined behaviour of set_len, C23)."
  },
  {
   "property": "C143",
   "status": "proved",
   "theorems": [
    "C143_crc",
    "C143_never_wrong",
    "C143_plain",
    "C143_compressed"
   ],
   "note": "C143_crc, C143_never_wrong, C143_plain, C143_compressed. CRC-32 is specified as the remainder of a polynomial division; boost::crc_32_type is trusted to be the register of the model, zlib to be lossless and to hand out bytes. For targets that can be created; see C148."
  },
  {
   "property": "C144",
   "status": "proved",
   "theorems": [
    "C144_burst",
    "C144_bytes"
   ],
   "note": "C144_burst for 32 bits anywhere in files of any length; C144_bytes for the export itself."
  },
  {
   "property": "C145",
   "status": "partial",
   "theorems": [
    "C145_shared_refuted",
    "C145_name_partial",
    "C145_own_partial"
   ],
   "note": "REFUTED: only the last five digits of the number are in the name, so versions that differ by a multiple of 100000 share a file (C145_shared_refuted). Proved below 100000."
  },
  {
   "property": "C146",
   "status": "proved",
   "theorems": [
    "C146_fall_back",
    "C146_not_used"
   ],
   "note": "For files that can be opened; collecting is a parameter here (Depot). C147 for those that cannot be opened."
  },
  {
   "property": "C147",
   "status": "partial",
   "theorems": [
    "C147_read_only_refuted"
   ],
   "note": "REFUTED: files are always opened for reading and writing, and a failure to open is not noticed; the snapshot is taken for empty (C147_read_only_refuted for all contents). No partial result: every file that can be read only is affected."
  },
  {
   "property": "C148",
   "status": "partial",
   "theorems": [
    "C148_target_refuted"
   ],
   "note": "REFUTED: the constructor of the stream does not fail, so the error is never raised; when the recorded value is 0 success is reported and no file is written (C148_target_refuted)."
  },
  {
   "property": "C149",
   "status": "partial",
   "theorems": [
    "C149_streams_partial",
    "C149_large_refuted",
    "C149_shorter_refuted"
   ],
   "note": "REFUTED from 2 GiB on, where positions are cut to int (C149_large_refuted), and when contents are replaced by shorter ones than a cursor has passed: reading then throws instead of giving nothing (C149_shorter_refuted). Proved for all other histories over any number of streams (C149_streams_partial)."
  },
  {
   "property": "C150",
   "status": "partial",
   "theorems": [
    "C150_end_refuted",
    "C150_start_refuted"
   ],
   "note": "REFUTED: from the end the offset has the wrong sign, so the cursor lands behind the end and the next read throws; a seek from the cursor may go before the start, and the next read is undefined. Seeks that stay inside are part of C149_streams_partial."
  },
  {
   "property": "C151",
   "status": "proved",
   "theorems": [
    "C151_whole",
    "C151_from_stream",
    "C151_part"
   ],
   "note": "C151_whole, C151_from_stream, C151_part, for lengths below 2 GiB (the interface takes int). A count of 0 copies everything (C42)."
  },
  {
   "property": "C152",
   "status": "partial",
   "theorems": [
    "C152_vector_refuted"
   ],
   "note": "REFUTED: the vector is passed by value; the count is right, the caller's vector is never touched (C152_vector_refuted for all contents)."
  },
  {
   "property": "C153",
   "status": "proved",
   "theorems": [
    "C153_container"
   ],
   "note": "the names of the stored container are distinct in lower case, and only elements that are there are deleted; the case rule is any function"
  },
  {
   "property": "C154",
   "status": "partial",
   "theorems": [
    "C154_rename_refuted"
   ],
   "note": "REFUTED: the map of names is not updated; the old name still finds the element, the new one does not, and after deletion the old name gives freed memory"
  },
  {
   "property": "C155",
   "status": "partial",
   "theorems": [
    "C155_saved_partial",
    "C155_unopened_refuted",
    "C155_times_refuted"
   ],
   "note": "REFUTED for elements that are not opened and for changes of times alone; proved for elements that were opened and renamed, or written, since they were last closed"
  },
  {
   "property": "C156",
   "status": "partial",
   "theorems": [
    "C156_last_refuted",
    "C156_distinct_partial"
   ],
   "note": "REFUTED for names that are equal in lower case: only the last is found; proved for distinct names"
  },
  {
   "property": "C157",
   "status": "partial",
   "theorems": [
    "C157_lost_refuted"
   ],
   "note": "REFUTED: the export ends without an error; the files that can be created are exact, the others are left as they were"
  },
  {
   "property": "C158",
   "status": "partial",
   "theorems": [
    "C158_missing_refuted"
   ],
   "note": "REFUTED: a missing file is taken for an empty one, also the file that says which files there are"
  },
  {
   "property": "C159",
   "status": "proved",
   "theorems": [
    "C159_info",
    "C159_names",
    "C159_unnamed"
   ],
   "note": ""
  },
  {
   "property": "C160",
   "status": "partial",
   "theorems": [
    "C160_short_refuted",
    "C160_reported_partial"
   ],
   "note": "REFUTED: a text with fewer values than expected leads to undefined behaviour (exact conditions in cut_short). Proved: data that cannot be expanded and missing elements are reported."
  },
  {
   "property": "C161",
   "status": "partial",
   "theorems": [
    "C161_listed_partial",
    "C161_one_bad_refuted"
   ],
   "note": "REFUTED: one vendor configuration that cannot be read keeps all others from being listed, in every call. Proved when all can be read."
  },
  {
   "property": "C162",
   "status": "partial",
   "theorems": [
    "C162_saved_partial",
    "C162_same_refuted"
   ],
   "note": "REFUTED for configurations of the same name and version: the last one stays. Proved when names and versions differ and the files can be created."
  },
  {
   "property": "C163",
   "status": "partial",
   "theorems": [
    "C163_uncreated_refuted",
    "C163_created_partial"
   ],
   "note": "REFUTED: a file that cannot be created is reported as saved. Proved for files that can be created and have different names."
  },
  {
   "property": "C164",
   "status": "partial",
   "theorems": [
    "C164_saved_partial",
    "C164_reported_partial",
    "C164_newer_refuted",
    "C164_one_bad_refuted"
   ],
   "note": "REFUTED from version 8.3.8 on (nothing is ever found) and when one lost object is damaged (the run fails). Proved below 8.3.8 with all lost objects in order."
  },
  {
   "property": "C165",
   "status": "partial",
   "theorems": [
    "C165_beside_refuted",
    "C165_inside_partial"
   ],
   "note": "REFUTED: no file below the directory changes, the files are written beside it. Proved when the text of the directory ends with a separator."
  },
  {
   "property": "C166",
   "status": "partial",
   "theorems": [
    "C166_restored_partial",
    "C166_newer_refuted"
   ],
   "note": "REFUTED from version 8.3.8 on (nothing is found). Proved below 8.3.8 with all lost objects in order."
  },
  {
   "property": "C167",
   "status": "partial",
   "theorems": [
    "C167_deleted_partial",
    "C167_newer_refuted"
   ],
   "note": "REFUTED from version 8.3.8 on (undefined behaviour: a table has no object for its description there). Proved below 8.3.8; that the pages of the objects are freed is C24."
  },
  {
   "property": "C168",
   "status": "partial",
   "theorems": [
    "C168_commands_refuted",
    "C168_not_a_base_refuted",
    "C168_file_partial"
   ],
   "note": "REFUTED: once the database is open the status is 0 whatever became of the commands, and a file that is not a database ends the program by an exception nobody catches. Proved: status and message without a file name and for a file that does not exist."
  },
  {
   "property": "C169",
   "status": "proved",
   "theorems": [
    "C169_commands"
   ],
   "note": "Actions are a parameter of the model: any function of the options, the command and the state, with any messages and any ending. With a log the same is part of C170_log_partial."
  },
  {
   "property": "C170",
   "status": "partial",
   "theorems": [
    "C170_log_partial",
    "C170_directory_refuted",
    "C170_missing_refuted"
   ],
   "note": "REFUTED: a directory named as the log is deleted with all it holds; the key without a name deletes the current directory. Proved for one log that is not a directory, in a directory that is there."
  },
  {
   "property": "C171",
   "status": "partial",
   "theorems": [
    "C171_place_partial",
    "C171_all_partial",
    "C171_folder_refuted"
   ],
   "note": "REFUTED for a directory whose name ends in .cf. Proved for all other paths, and for the command that saves all configurations. Names with two dots and links are not resolved in the model."
  },
  {
   "property": "C172",
   "status": "partial",
   "theorems": [
    "C172_report_partial",
    "C172_large_refuted"
   ],
   "note": "REFUTED from 2 GiB on: the number printed is another one. Proved below. The records counted include deleted ones, as the code counts them."
  },
  {
   "property": "C173",
   "status": "partial",
   "theorems": [
    "C173_tables_partial",
    "C173_reported_refuted",
    "C173_stop_refuted"
   ],
   "note": "REFUTED: success is reported when the work was not done, and an exception in one table ends the command. Proved when no exception is raised."
  },
  {
   "property": "C174",
   "status": "partial",
   "theorems": [
    "C174_saved_partial",
    "C174_modified_refuted"
   ],
   "note": "REFUTED for the modification times and the names as they are read back: a container shows the creation time plus 8 as the modification time (C174_modified_refuted, see C40) and two characters U+0000 behind every name. C174_saved_partial proves the rest for every configuration built from the tables of files: recognised, same files in the same order, creation times and bytes kept. Needs: files are not empty (a file whose first part is empty is not taken into the configuration), the container stays below 2 GiB."
  },
  {
   "property": "C175",
   "status": "partial",
   "theorems": [
    "C175_only_partial",
    "C175_nothing_partial",
    "C175_folder_refuted"
   ],
   "note": "REFUTED (C175_folder_refuted): when there is a directory in the place of the target (a directory whose name ends in .cf given as parameter, or a directory dbcf.cf or cf.cf inside the directory given) it is deleted with everything in it, and success is reported. C175_only_partial: otherwise exactly the target changes; C175_nothing_partial: without success nothing changes. Targets that cannot be created are left out of the model."
  },
  {
   "property": "C176",
   "status": "partial",
   "theorems": [
    "C176_value_partial",
    "C176_users_partial",
    "C176_container_refuted",
    "C176_empty_refuted",
    "C176_start_refuted"
   ],
   "note": "REFUTED: a container with a file in it that is not a container is never written (C176_container_refuted, because of C107 and C108); a value that expands to nothing gives a file of 16 bytes (C176_empty_refuted); a value that begins with a byte from 225 up and three bytes 255 raises an exception and is not written (C176_start_refuted). Proved for all other values and the list of users (C176_value_partial, C176_users_partial). The decompressor is a parameter."
  },
  {
   "property": "C177",
   "status": "partial",
   "theorems": [
    "C177_history_partial",
    "C177_replace_refuted",
    "C177_padding_refuted"
   ],
   "note": "REFUTED for edits that go past the end: undo of a replacement past the end leaves bytes behind (C177_replace_refuted), undo of an insertion behind the end leaves spaces (C177_padding_refuted; it happens after typing over a selection, C178). C177_history_partial: all histories of edits inside the document."
  },
  {
   "property": "C178",
   "status": "partial",
   "theorems": [
    "C178_paste_partial",
    "C178_type_partial",
    "C178_forwards_refuted",
    "C178_spaces_refuted",
    "C178_overwrite_refuted"
   ],
   "note": "REFUTED: after a selection made forwards the text comes behind its place, the gap is filled with spaces at the end of the document (C178_forwards_refuted, C178_spaces_refuted); in overwrite mode bytes behind the selection are lost (C178_overwrite_refuted). Proved for selections made backwards in insert mode."
  },
  {
   "property": "C179",
   "status": "partial",
   "theorems": [
    "C179_search_partial",
    "C179_back_partial",
    "C179_again_refuted",
    "C179_cut_refuted",
    "C179_back_refuted"
   ],
   "note": "REFUTED: searching again for one byte, or from a place in the last column, stays where it is (C179_again_refuted); of a place in two lines only the first part is selected (C179_cut_refuted); searching backwards from the start finds the last place of the document (C179_back_refuted). Proved: the first place not before the cursor is found, and selected when it is in one line; backwards, the last place before the selection."
  },
  {
   "property": "C180",
   "status": "partial",
   "theorems": [
    "C180_digits_partial",
    "C180_text_partial",
    "C180_zero_refuted"
   ],
   "note": "REFUTED for characters: the text ends at a zero byte (C180_zero_refuted). Proved for digits in all cases, and for characters that are valid UTF-8 without zero bytes (conversion by Qt is a parameter)."
  },
  {
   "property": "C181",
   "status": "partial",
   "theorems": [
    "C181_digits_partial",
    "C181_text_partial",
    "C181_capitals_refuted"
   ],
   "note": "REFUTED: capital letters A to F are refused in the left area (C181_capitals_refuted). Proved for all other digits and for all printable characters, in both modes, for documents below 16 MB."
  },
  {
   "property": "C182",
   "status": "partial",
   "theorems": [
    "C182_shown_partial",
    "C182_hidden_refuted"
   ],
   "note": "REFUTED for documents just above a power of two from 32 MB on: the number of lines is calculated in float (C182_hidden_refuted). Proved below 16 MB."
  },
  {
   "property": "C183",
   "status": "partial",
   "theorems": [
    "C183_repair_partial",
    "C183_recovers_partial",
    "C183_healthy_partial",
    "C183_several_refuted",
    "C183_shared_refuted",
    "C183_removed_refuted",
    "C183_table_refuted",
    "C183_rest_refuted"
   ],
   "note": "REFUTED: with several pages to choose from the damaged entry stays (C183_several_refuted), a page that another entry lists is taken again (C183_shared_refuted), an entry in order whose page has a removed record is replaced or makes the repair fail (C183_removed_refuted), a new page of the allocation table is never entered in the root page (C183_table_refuted), and a last page that is not full is judged by bytes that were never read (C183_rest_refuted). Proved: the exact outcome for a root page in order and a memory that hides nothing, full recovery when the pages can be told apart, nothing changed when the list is in order."
  },
  {
   "property": "C184",
   "status": "partial",
   "theorems": [
    "C184_reads_back_partial",
    "C184_all_or_nothing_partial",
    "C184_other_run_refuted"
   ],
   "note": "REFUTED: at its end a run removes the directory that all runs share; everything other runs write to streams created after that is lost without a message (C184_other_run_refuted). Proved for all interleavings in which no run that used temporary files ends before a stream is created; otherwise all or nothing is read back. POSIX file system; names given by unique_path are taken to be distinct."
  },
  {
   "property": "C185",
   "status": "partial",
   "theorems": [
    "C185_swept_partial",
    "C185_first_use_partial",
    "C185_kept_refuted"
   ],
   "note": "REFUTED: the file of a stream stays until the end of the run (C185_kept_refuted). Proved: at the end of a run none is left, and the first stream of a run removes what killed runs left."
  },
  {
   "property": "C186",
   "status": "partial",
   "theorems": [
    "C186_sizes_partial",
    "C186_two_gib_refuted",
    "C186_four_gib_refuted",
    "C186_sum_refuted"
   ],
   "note": "REFUTED: lengths whose low 32 bits are 2^31 or more index behind the list of units (C186_two_gib_refuted), other lengths from 4 GiB on are shown reduced by a multiple of 4 GiB (C186_four_gib_refuted), a sum of 2 GiB or more overflows (C186_sum_refuted). Proved when the sum is below 2^31. Rounding by QString::number is a parameter (nearest hundredth)."
  },
  {
   "property": "C187",
   "status": "proved",
   "theorems": [
    "C187_tree_complete",
    "C187_tree_rows",
    "C187_tree_paths"
   ],
   "note": "Pointers are modelled as places; the view is taken to ask by rowCount and index."
  },
  {
   "property": "C188",
   "status": "partial",
   "theorems": [
    "C188_container_partial",
    "C188_rows_partial",
    "C188_same_names_refuted"
   ],
   "note": "REFUTED: the number of rows is the number of names different up to case, so the last elements are never shown when two names differ in case only (C188_same_names_refuted). Proved for containers in which all names differ, and for the parent of every row. Lower case is a parameter."
  },
  {
   "property": "C189",
   "status": "partial",
   "theorems": [
    "C189_first_line_partial",
    "C189_last_character_refuted",
    "C189_empty_line_refuted"
   ],
   "note": "REFUTED: a line that ends with 10 alone loses its last character (C189_last_character_refuted), and a text with an empty first line is shown with its line breaks (C189_empty_line_refuted). Proved for texts of one line and lines that end with 13 10."
  },
  {
   "property": "C190",
   "status": "partial",
   "theorems": [
    "C190_value_partial",
    "C190_text_partial",
    "C190_text_only_partial",
    "C190_twice_refuted",
    "C190_nothing_refuted",
    "C190_zero_refuted"
   ],
   "note": "REFUTED: a value whose content is itself packed is unpacked twice (C190_twice_refuted), an empty value, and one from which unpacking gets nothing, is shown as 16 bytes that are not in the base (C190_nothing_refuted), a text ends at its first zero (C190_zero_refuted). Proved for contents that cannot be unpacked and are not empty, and texts without zero. zlib is a parameter; decoding of UTF-8 by Qt left out."
  },
  {
   "property": "C191",
   "status": "partial",
   "theorems": [
    "C191_list_partial",
    "C191_again_refuted",
    "C191_line_break_refuted"
   ],
   "note": "REFUTED: a database opened again is listed again (C191_again_refuted), a name with a line break is listed as two (C191_line_break_refuted). Proved for names of one line: all are listed in the order of opening. Encoding of names by Qt left out."
  },
  {
   "property": "C192",
   "status": "partial",
   "theorems": [
    "C192_export_partial"
   ],
   "note": "Proved from the bytes of the file to the document read back, for every database that meets `database` of Full_Spec. Missing: field names outside ASCII (C194), locked tables without a version field (C82), root objects and descriptions of more than one table page before 8.3.8, and values whose names branch on a missing key (C126)."
  },
  {
   "property": "C193",
   "status": "partial",
   "theorems": [
    "C193_all_refuted",
    "C193_all_partial"
   ],
   "note": "REFUTED: tables that have indexes but no primary one are exported without any record, whatever they contain (C193_all_refuted gives exactly what is exported). Proved for all other tables (C193_all_partial)."
  },
  {
   "property": "C194",
   "status": "partial",
   "theorems": [
    "C194_names_refuted",
    "C194_letters_refuted",
    "C194_ascii_partial"
   ],
   "note": "REFUTED: one field name whose last three bytes begin inside a character, for example every name that ends with two Cyrillic letters, and the database is not opened (C194_names_refuted, C194_letters_refuted). Proved for names in ASCII."
  },
  {
   "property": "C195",
   "status": "partial",
   "theorems": [
    "C195_passes_partial",
    "C195_fields_partial",
    "C195_code_refuted",
    "C195_files_refuted"
   ],
   "note": "REFUTED: elements named module or text pass whatever they hold (C195_code_refuted), the values of FILES are not looked at (C195_files_refuted), nor is PARAMS/users.usr. Proved for all other values, at any depth (C195_passes_partial). The unpacking and the reading of containers are parameters (C01-C05, C74, Cf)."
  },
  {
   "property": "C196",
   "status": "partial",
   "theorems": [
    "C196_sound_partial",
    "C196_no_mark_refuted",
    "C196_packed_empty_refuted",
    "C196_cut_refuted",
    "C196_schema_refuted",
    "C196_exempt_refuted"
   ],
   "note": "REFUTED: content without the mark of an encoding (C196_no_mark_refuted), empty values that were packed (C196_packed_empty_refuted), texts in braces whose fifteenth byte is inside a letter (C196_cut_refuted), fewer than two records in DBSCHEMA (C196_schema_refuted) give an exception; the exemption of one kind of text never applies (C196_exempt_refuted). Proved for databases that meet good_base of Chk_Spec (C196_sound_partial)."
  },
  {
   "property": "C197",
   "status": "partial",
   "theorems": [
    "C197_never_no_refuted"
   ],
   "note": "REFUTED: the answer is never no, the first fault gives an exception and the rest is not tested (C197_never_no_refuted)."
  },
  {
   "property": "C198",
   "status": "partial",
   "theorems": [
    "C198_stored_refuted",
    "C198_saved_refuted",
    "C198_unpacked_refuted",
    "C198_century_refuted",
    "C198_high_half_refuted",
    "C198_distance_partial"
   ],
   "note": "REFUTED: where long has 32 bits every date from 1971 to 2105 arrives 369 years, 134 or 269 days and the zone once or twice too early (C198_stored_refuted, C198_saved_refuted), a file taken out of a container never gets its time (C198_unpacked_refuted); everywhere dates 2^32 seconds apart arrive alike (C198_century_refuted), where long has 64 bits already dates 2^25 seconds apart (C198_high_half_refuted). Proved: where long has 32 bits the distances between saved times are right (C198_distance_partial). The time zone is taken as a constant difference."
  },
  {
   "property": "C199",
   "status": "partial",
   "theorems": [
    "C199_saved_partial",
    "C199_names_refuted",
    "C199_first_part_refuted"
   ],
   "note": "REFUTED: every name read in the container has two characters U+0000 more (C199_names_refuted, C40), a file whose part 0 is missing is not saved and no error is shown (C199_first_part_refuted). Proved for files without marks of updates and bases without dynamic updates: the container shows the files, each once, with creation times and the bytes of all parts in order (C199_saved_partial). Missing: dynamic updates (C108-C110 without the file), modification times are wrong (C174_modified_refuted)."
  },
  {
   "property": "C200",
   "status": "partial",
   "theorems": [
    "C200_coherent_partial",
    "C200_structure_version",
    "C200_case_refuted"
   ],
   "note": "REFUTED for external files whose names differ in letter case only: the data of one is written over that of the other while versions lists both (C200_case_refuted). C200_coherent_partial proves the claim for the new format when no two names of the version are equal but for letter case, none is that of a list, no data is empty and the container is below 2 GiB; C200_structure_version gives the numbers written in version. The old format (structure version below 100) is C204. The way from the bytes of the depot file to its rows is C201. Names are read with two characters U+0000 more (C40)."
  },
  {
   "property": "C201",
   "status": "partial",
   "theorems": [
    "C201_exported_partial",
    "C201_exported_old_partial",
    "C201_comparison"
   ],
   "note": "C201_exported_partial proves the claim for structure versions of 100 and above, C201_exported_old_partial for those below 100 with the restrictions of C204 (REFUTED there for objects in the pack directory), when no snapshot of the version is used, with the restrictions of C200 (REFUTED there for names that differ in letter case only), for depots whose tables VERSIONS, HISTORY and EXTERNALS have an index PK that is their primary index; C201_comparison shows that the comparison of names in the program meets the hypothesis about U+0000. Missing: a snapshot that is used (C143-C148), a nullable CVERSION, and equality of names for texts that are not UTF-8 (the comparison is a parameter, an equivalence)."
  },
  {
   "property": "C202",
   "status": "partial",
   "theorems": [
    "C202_viewing_partial",
    "C202_free_page_lost_refuted",
    "C202_file_grows_refuted"
   ],
   "note": "REFUTED: an import that lacks one of the files of the table takes a free page (C202_free_page_lost_refuted) or lengthens the file (C202_file_grows_refuted) in memory before the error, and a later import that needs nothing written flushes it. C202_viewing_partial proves that these are the only sequences of exports and imports of tables that change the file. Missing: the commands other than exports and imports of tables (repair writes without the check, C183)."
  },
  {
   "property": "C203",
   "status": "partial",
   "theorems": [
    "C203_needs_writing_refuted",
    "C203_same_databases_partial"
   ],
   "note": "REFUTED: the file is always opened for reading and writing, so whoever may only read it cannot open the database (C203_needs_writing_refuted). C203_same_databases_partial proves that with both rights the option decides nothing about which databases can be opened."
  },
  {
   "property": "C204",
   "status": "partial",
   "theorems": [
    "C204_coherent_partial",
    "C204_packed_refuted",
    "C204_metadata_refuted"
   ],
   "note": "REFUTED: data of an object that is kept in the pack directory is not expanded, whatever it is, so that the inner container holds packed bytes (C204_packed_refuted, for all depots that keep all objects there); an external file named metadata takes the place of the inner container and all objects are lost (C204_metadata_refuted, a witness). C204_coherent_partial proves the claim when the data of the objects is kept in the rows and can be expanded, no two names of a container are equal but for letter case, no external file is named as the inner container or a list, no data is empty and each container is below 2 GiB. Missing: data that cannot be expanded (the program then stores what was expanded before the error, followed by the packed data)."
  },
  {
   "property": "C205",
   "status": "partial",
   "theorems": [
    "C205_present_partial",
    "C205_stale_refuted",
    "C205_no_answer_refuted"
   ],
   "note": "REFUTED: the answer is kept until the element is closed, so after the contents are replaced it is about the old ones (C205_stale_refuted, for all old and new contents of different kinds); contents whose first number is close to 2^32 give an exception instead of no (C205_no_answer_refuted). C205_present_partial proves the claim for all histories without writing between a question and the next closing, for contents that have an answer and sizes below 2 GiB. Missing: the object of the nested container, which writes into the same bytes."
  },
  {
   "property": "C206",
   "status": "partial",
   "theorems": [
    "C206_made_partial",
    "C206_new",
    "C206_asked_refuted"
   ],
   "note": "REFUTED: under the name of an empty element about which the question was asked before, the element becomes an empty container but nothing is given back (C206_asked_refuted, for all histories). C206_new and C206_made_partial prove the claim for new elements and for all elements not asked about since they were opened. Missing: the object of the nested container."
  },
  {
   "property": "C207",
   "status": "partial",
   "theorems": [
    "C207_saved_partial",
    "C207_void_refuted",
    "C207_flush_refuted"
   ],
   "note": "REFUTED: an element without data (address 0 or 7FFFFFFF) gets a place when it is saved, but the table of contents is written only after creations and deletions, so whatever is written to it is lost (C207_void_refuted, all containers and histories without these); an element created, flushed and then written leaves a container that cannot be read (C207_flush_refuted). C207_saved_partial proves the claim for all other histories: elements without a place are opened or written only while a creation or deletion waits for a flush, and created elements are opened before the next flush and the end. Missing: a container that is half closed; blocks are kept by address (C38 proves the chains)."
  },
  {
   "property": "C208",
   "status": "partial",
   "theorems": [
    "C208_looking_partial",
    "C208_void_refuted"
   ],
   "note": "REFUTED in general: an element whose place for data is 0 counts as changed from the start (V8File.cpp:46), so opening it and closing the container takes a new block that no entry names (C208_void_refuted, for all containers). C208_looking_partial: with no such element, any sequence of opening, closing and flushing leaves the blocks and the table as they were. Not modelled: the counter of versions in the header of the container and compressed update files."
  },
  {
   "property": "C209",
   "status": "partial",
   "theorems": [
    "C209_no_result_refuted",
    "C209_endless_refuted",
    "C209_outside_refuted",
    "C209_nothing_partial"
   ],
   "note": "REFUTED: the loop over the records never goes to the next one and the changed copy is not written (Class_1CD.cpp:1682-1692), so with one record in a table with such a field there is no result for any file (C209_no_result_refuted); it goes on for ever when the file covers the numbers (C209_endless_refuted) and reads outside of the table of pairs when a number is above them (C209_outside_refuted). C209_nothing_partial: databases with nothing to replace are left as they are. Memory is taken as unlimited."
  },
  {
   "property": "C210",
   "status": "partial",
   "theorems": [
    "C210_nothing_added_refuted",
    "C210_lost_refuted",
    "C210_new_refuted",
    "C210_failed_refuted",
    "C210_outside_refuted",
    "C210_newer_refuted",
    "C210_unchanged_partial",
    "C210_others_partial"
   ],
   "note": "REFUTED: the branch that would add the description depends on a local variable nobody sets (Class_1CD.cpp:1207, 1334). Where it is false, a table of the same name is deleted and nothing is put in its place while true is returned (C210_lost_refuted), and for a new name nothing is done (C210_new_refuted); where it is true, memory after the description is read (C210_outside_refuted). An export that lacks a file fails after the old table is gone (C210_failed_refuted); from 8.3.8 on a table of that name makes it use an object that is not there (C210_newer_refuted). Whatever happens no table is added (C210_nothing_added_refuted). Proved: nothing changes without the directory, root or a readable descr (C210_unchanged_partial); the other tables stay (C210_others_partial). Not modelled: the pages taken for the new files."
  },
  {
   "property": "C211",
   "status": "partial",
   "theorems": [
    "C211_wrapped_refuted",
    "C211_zero_refuted",
    "C211_no_index_refuted",
    "C211_ambiguous_refuted",
    "C211_one_name_refuted",
    "C211_own_partial",
    "C211_fields_partial"
   ],
   "note": "REFUTED: the number of a record is appended as one char (Table.cpp:2345), so numbers equal modulo 256 give one name (C211_wrapped_refuted) and multiples of 256 a name with a zero byte (C211_zero_refuted); without an index all records share a name (C211_no_index_refuted); key values with _ run into each other (C211_ambiguous_refuted); in CONFIG, CONFIGSAVE, FILES and PARAMS the fields share a name (C211_one_name_refuted). Proved: with key values without _, and a primary index or numbers 1 to 255, names tell records apart (C211_own_partial); the fields of a record have their own names in other tables (C211_fields_partial). The function has no caller in the repository; the name for a record is in Xml (C127)."
  },
  {
   "property": "C212",
   "status": "partial",
   "theorems": [
    "C212_no_file_refuted",
    "C212_blob_refuted",
    "C212_versions_partial"
   ],
   "note": "REFUTED: create_file_data returns at once when there is no file (Table.cpp:1633), so in a table without a file of records a null pointer is used (C212_no_file_refuted, for all fields and records); with a field for text or binary data the expression rec + offset counts records instead of bytes and memory outside of the record is read (Table.cpp:2037; C212_blob_refuted). C212_versions_partial: with a file, without such fields and with version fields that cannot be null, each version field gets its own version, the counter goes on by as many, other fields keep their values, and the file is changed as Rec_Model.insert_record says (C36, C90: there the object is written instead of its data). Missing: indices."
  }
 ]
}
