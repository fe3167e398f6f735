{"id": "C01", "title": "Numeric field bytes survive decode/encode", "statement": "Reading a packed decimal field from its bytes and writing the number back produces exactly the same bytes, for every field length, precision and sign flag, whenever the bytes are a well-formed packed decimal (digits 0-9, canonical sign nibble, zero padding nibble).", "quantifier": "all field lengths, precisions, sign flags and all well-formed byte strings of the field's size", "why_tests_cant": "the number of digit strings is exponential in the field length; odd/even length and sign-nibble packing differ case by case", "anchors": ["src/tool1cd/BinaryDecimalNumber.cpp:BinaryDecimalNumber(const void*,int,int,bool)", "src/tool1cd/BinaryDecimalNumber.cpp:write_to", "src/tool1cd/BinaryDecimalNumber.h"]}
{"id": "C02", "title": "Numeric text survives being stored and shown", "statement": "For every non-negative decimal text that fits the declared length and precision, storing it in a numeric field and showing the field again yields the same number in normal form (no superfluous leading or trailing zeros); the shown digits denote the same rational value as the text.", "quantifier": "all decimal texts, lengths and precisions", "why_tests_cant": "infinitely many texts; the alignment arithmetic depends on three independent lengths", "anchors": ["src/tool1cd/BinaryDecimalNumber.cpp:BinaryDecimalNumber(const string&,bool,int,int)", "src/tool1cd/BinaryDecimalNumber.cpp:get_presentation"]}
{"id": "C03", "title": "Negative numeric text is stored as a negative number", "statement": "Storing the text of a negative number in a signed numeric field and showing it again yields the negative number.", "quantifier": "all negative decimal texts that fit the field", "why_tests_cant": "a universally quantified claim about all texts; existing tests only use positive literals", "anchors": ["src/tool1cd/BinaryDecimalNumber.cpp:BinaryDecimalNumber(const string&,bool,int,int)"]}
{"id": "C04", "title": "Numbers too big for a numeric field saturate predictably", "statement": "When the integer part of a text does not fit the field, the stored number has exactly the declared number of digits, all integer digits are 9 and nothing outside the field's bytes is written.", "quantifier": "all texts, lengths and precisions with overflow", "why_tests_cant": "the overflow region is unbounded", "anchors": ["src/tool1cd/BinaryDecimalNumber.cpp:BinaryDecimalNumber(const string&,bool,int,int)", "src/tool1cd/BinaryDecimalNumber.cpp:write_to", "src/tool1cd/FieldType.cpp:NumericFieldType::get_binary_value"]}
{"id": "C05", "title": "Date-time text survives being stored and shown", "statement": "For every date-time text dd.MM.yyyy hh:mm:ss made of digits, storing it in a date field and reading its seven bytes back shows the same text.", "quantifier": "all digit strings of that format (10^14 texts)", "why_tests_cant": "10^14 combinations", "anchors": ["src/tool1cd/BinaryDecimalNumber.cpp:BinaryDecimalDate", "src/tool1cd/FieldType.cpp:DatetimeFieldType"]}
{"id": "C06", "title": "Showing a date-time field reads only that field", "statement": "Showing a seven-byte date-time field depends only on, and touches only, the seven bytes of the field.", "quantifier": "all record contents and all positions of the field in the record", "why_tests_cant": "an out-of-bounds read is invisible when the field is not the last one in its buffer", "anchors": ["src/tool1cd/BinaryDecimalNumber.cpp:BinaryDecimalDate", "src/tool1cd/BinaryDecimalNumber.h:BinaryDecimalDate", "src/tool1cd/FieldType.cpp:DatetimeFieldType::get_presentation"]}
{"id": "C07", "title": "GUID texts round-trip and the three spellings agree", "statement": "Every 16-byte GUID printed in flat, 1C or Microsoft form identifies exactly one GUID, parsing the flat or 1C form gives the same 16 bytes back, and the 1C and Microsoft forms are permutations of the same bytes.", "quantifier": "all 2^128 GUID values", "why_tests_cant": "2^128 values; permutation tables can be wrong at one position only", "anchors": ["src/tool1cd/BinaryGuid.cpp:BinaryGuid(const string&)", "src/tool1cd/BinaryGuid.cpp:as_1C", "src/tool1cd/BinaryGuid.cpp:as_MS", "src/tool1cd/Common.cpp:hexstring"]}
{"id": "C08", "title": "GUID comparison is a strict total order matching byte order", "statement": "The equality and greater-than comparisons on GUIDs form a strict total order, the same one in which indexes store raw GUID keys, so merge-joining two GUID-ordered listings never misses or repeats a GUID.", "quantifier": "all pairs and triples of GUIDs", "why_tests_cant": "needs transitivity and totality over all values", "anchors": ["src/tool1cd/BinaryGuid.h:operator>", "src/tool1cd/BinaryGuid.cpp", "src/tool1cd/save_depot_config.cpp"]}
{"id": "C09", "title": "Base64 round-trips for every line width", "statement": "Decoding an encoded byte string gives the byte string back, whatever its length and whatever line width was used to wrap the text; the encoded text uses only the 64 letters, '=' and line breaks.", "quantifier": "all byte strings and all line widths", "why_tests_cant": "three tail lengths times every wrapping position", "anchors": ["src/tool1cd/Base64.cpp:base64_encode", "src/tool1cd/Base64.cpp:base64_decode"]}
{"id": "C10", "title": "Hex dumps are lossless", "statement": "The hexadecimal text of a byte string is twice as long, contains only 0-9a-f and determines the bytes; parsing it nibble by nibble gives the bytes back.", "quantifier": "all byte strings", "why_tests_cant": "all lengths and contents", "anchors": ["src/tool1cd/Common.cpp:hexstring", "src/tool1cd/Common.cpp:from_hex_digit", "src/tool1cd/Common.cpp:two_hex_digits_to_byte"]}
{"id": "C11", "title": "XML escaping is safe and lossless", "statement": "Text escaped for XML export contains no raw '<', '>', quote or apostrophe, every '&' starts one of the five entities, and replacing the entities recovers the original text.", "quantifier": "all texts", "why_tests_cant": "depends on the order of five successive replacements over arbitrary text, including text that already looks like an entity", "anchors": ["src/tool1cd/Common.cpp:toXML", "src/tool1cd/SystemClasses/System.SysUtils.cpp:StringReplace"]}
{"id": "C12", "title": "Unicode conversion between stored and shown strings is lossless", "statement": "Every Unicode text converted to the two-byte stored form and back is unchanged; invalid stored text is reported as an error and never silently altered.", "quantifier": "all sequences of Unicode scalar values, all byte strings", "why_tests_cant": "1.1 million code points at every position, surrogate pairs across boundaries", "anchors": ["src/tool1cd/SystemClasses/System.SysUtils.cpp:TUcs2Encoding", "src/tool1cd/SystemClasses/utf8/checked.h:utf16to8", "src/tool1cd/SystemClasses/utf8/checked.h:utf8to16"]}
{"id": "C13", "title": "Case-insensitive name comparison is an equivalence", "statement": "Case-insensitive equality of names is reflexive, symmetric and transitive, lower-casing is idempotent and keeps the number of characters, and equal names up to Latin/Cyrillic letter case are found equal.", "quantifier": "all valid UTF-8 names", "why_tests_cant": "all strings over Unicode", "anchors": ["src/tool1cd/SystemClasses/String.cpp:LowerCase", "src/tool1cd/SystemClasses/String.cpp:EqualIC", "src/tool1cd/Table.cpp:get_field", "src/tool1cd/Table.cpp:find_field"]}
{"id": "C14", "title": "Bracket text printed from a tree parses back to the same tree", "statement": "Printing a description tree whose values fit their kinds and which holds no empty list, and parsing the text, yields a tree with the same shape, the same values and the same value kinds.", "quantifier": "all such trees of any depth and width, strings with any characters", "why_tests_cant": "recursive structure of unbounded depth, quoting of arbitrary strings", "anchors": ["src/tool1cd/Parse_tree.cpp:parse_flow", "src/tool1cd/Parse_tree.cpp:outtext", "src/tool1cd/Parse_tree.cpp:classification_value"]}
{"id": "C15", "title": "Parsing bracket text always terminates with a tree or an error", "statement": "For every input text the parser stops after looking at each character once and returns either an error or a list of well-formed nodes: strings, empty values, values that fit the kind they are given, and lists of such; only the very last value of the text may be of no known kind.", "quantifier": "all texts", "why_tests_cant": "arbitrary malformed input", "anchors": ["src/tool1cd/Parse_tree.cpp:parse_flow"]}
{"id": "C16", "title": "The page cache is transparent to readers", "statement": "After any sequence of page reads, page writes, cache clean-ups and flushes, reading a page returns the bytes most recently written to it through the cache, or the bytes in the file if it was never written.", "quantifier": "all histories of cache operations, all clock values", "why_tests_cant": "history-dependent; eviction depends on the clock", "anchors": ["src/tool1cd/MemBlock.cpp", "src/tool1cd/Class_1CD.cpp:get_block", "src/tool1cd/Class_1CD.cpp:get_block_for_write", "src/tool1cd/Class_1CD.cpp:flush"]}
{"id": "C17", "title": "Flushing makes the file equal to what readers see", "statement": "After a flush every page of the file on disk equals the page readers see, a second flush changes nothing, and clean-up between writes and the flush never discards a modified page.", "quantifier": "all histories", "why_tests_cant": "history-dependent", "anchors": ["src/tool1cd/MemBlock.cpp:flush", "src/tool1cd/MemBlock.cpp:garbage", "src/tool1cd/MemBlock.cpp:write"]}
{"id": "C18", "title": "Closing the database keeps committed changes", "statement": "Changes made through the database interface are on disk after the database object is destroyed.", "quantifier": "all histories ending with close", "why_tests_cant": "depends on eviction timing and history", "anchors": ["src/tool1cd/Class_1CD.cpp:~T_1CD", "src/tool1cd/MemBlock.cpp:delete_memblocks"]}
{"id": "C19", "title": "The page count stored in the file header matches the file", "statement": "After pages have been appended through the cache the page count stored in the file header equals the number of pages in the file, so that the file can be opened again.", "quantifier": "all histories of appends", "why_tests_cant": "history-dependent; only visible on re-open", "anchors": ["src/tool1cd/MemBlock.cpp:create", "src/tool1cd/Class_1CD.cpp:open"]}
{"id": "C20", "title": "Reading a range of an object gives its bytes", "statement": "Opening a stored object reports its length; reading any non-empty range inside an object that is not already held in memory gives exactly the bytes its page lists denote, for every object format and page size; a range that ends beyond the object is rejected; saving the object to a file writes exactly its bytes.", "quantifier": "all objects, offsets and lengths, all formats and page sizes", "why_tests_cant": "crossing of page and allocation-table boundaries at every alignment", "anchors": ["src/tool1cd/V8Object.cpp:get_data", "src/tool1cd/V8Object.cpp:init", "src/tool1cd/V8Object.cpp:savetofile"]}
{"id": "C21", "title": "Overwriting part of an object changes exactly those bytes", "statement": "After writing a byte range inside an object, reading the object shows the new bytes in the range and the old bytes elsewhere, the length is unchanged, and no other object's page is modified.", "quantifier": "all objects, ranges and data", "why_tests_cant": "crossing of page boundaries at every alignment; non-interference", "anchors": ["src/tool1cd/V8Object.cpp:set_data"]}
{"id": "C22", "title": "The file offset reported for an object position is where the byte is", "statement": "For every position below 4 GiB inside an object the reported file offset addresses the same byte that reading the object at that position returns.", "quantifier": "all objects and positions below 4 GiB", "why_tests_cant": "three-level address arithmetic for every page size", "anchors": ["src/tool1cd/V8Object.cpp:get_fileoffset", "src/tool1cd/V8Object.cpp:get_data"]}
{"id": "C23", "title": "Growing and shrinking an object is safe", "statement": "Changing an object's length keeps the bytes below the smaller of the two lengths, takes new pages only from the free list or the end of file, returns released pages to the free list exactly once and never writes outside the object's header page.", "quantifier": "all old and new lengths, all free-list states", "why_tests_cant": "allocation-table transitions at page-capacity boundaries", "anchors": ["src/tool1cd/V8Object.cpp:set_len", "src/tool1cd/V8Object.cpp:get_free_block", "src/tool1cd/V8Object.cpp:set_block_as_free"]}
{"id": "C24", "title": "Deleting an object frees each of its pages exactly once", "statement": "After deleting an object every page it owned is in the free list exactly once.", "quantifier": "all object sizes", "why_tests_cant": "only visible when the freed pages are reused", "anchors": ["src/tool1cd/Class_1CD.cpp:delete_object", "src/tool1cd/V8Object.cpp:set_block_as_free"]}
{"id": "C25", "title": "Reading a blob returns the chained chunks, or an error", "statement": "Reading a blob by its start and length through the storage object that holds it either returns exactly the concatenation of the chunk data along its chain, of exactly that length, or reports an error; it never returns bytes from outside the chain.", "quantifier": "all blob files (well-formed or corrupt), all start/length pairs", "why_tests_cant": "arbitrary chain shapes including corrupt ones", "anchors": ["src/tool1cd/V8Object.cpp:readBlob", "src/tool1cd/Table.cpp:readBlob"]}
{"id": "C26", "title": "Reading a blob terminates on any file", "statement": "Reading a blob terminates for every file content.", "quantifier": "all file contents", "why_tests_cant": "a looping chain makes a test hang rather than fail", "anchors": ["src/tool1cd/V8Object.cpp:readBlob", "src/tool1cd/Table.cpp:readBlob"]}
{"id": "C27", "title": "Blob writes, reads and deletes do not interfere", "statement": "After any sequence of blob writes and deletes for which the blob file has enough unused chunks, reading any live blob returns the bytes written for it, and no two live blobs nor the free chain share a chunk.", "quantifier": "all histories of blob writes and deletes with any sizes that need no more unused chunks than there are at each point", "why_tests_cant": "history-dependent reuse of freed chunks", "anchors": ["src/tool1cd/Table.cpp:write_blob_record(TStream*)", "src/tool1cd/Table.cpp:delete_blob_record", "src/tool1cd/Table.cpp:readBlob"]}
{"id": "C28", "title": "Writing a blob from a memory buffer stores the buffer", "statement": "Writing a blob from a caller's memory buffer stores the same bytes as writing it from a stream, and the caller's buffer is not modified.", "quantifier": "all buffers and lengths", "why_tests_cant": "depends on the length modulo the chunk size", "anchors": ["src/tool1cd/Table.cpp:write_blob_record(char*)"]}
{"id": "C29", "title": "Index leaf pages round-trip", "statement": "Packing index records with strictly ascending keys into a leaf page never fails except by reporting that they do not fit, and reports success when the records and eight bytes per record fit. Whenever packing reports success and at least eight bytes of the page follow the start of the last entry, unpacking the page gives the same records and keys in the same order, and the links of the page to its neighbours are kept.", "quantifier": "all key lengths, record counts and key contents", "why_tests_cant": "bit-packed with per-page field widths; prefix/suffix compression depends on neighbours", "anchors": ["src/tool1cd/Index.cpp:pack_leafpage", "src/tool1cd/Index.cpp:unpack_leafpage"]}
{"id": "C30", "title": "Index key bytes order like the values they encode", "statement": "For numeric (up to 126 digits), date, logical and binary fields that cannot be NULL the byte strings used as index keys compare exactly as the field values do, and occupy exactly the size of the field.", "quantifier": "all pairs of values of a field type", "why_tests_cant": "pairs of values; sign boundary and digit-complement carry", "anchors": ["src/tool1cd/FieldType.cpp:get_sort_key", "src/tool1cd/Field.cpp:get_sort_key"]}
{"id": "C31", "title": "Index keys of nullable fields keep null apart and stay inside the key buffer", "statement": "The key of a nullable field occupies exactly the field's size, null sorts before every value and distinct values keep distinct keys.", "quantifier": "all nullable fields and values", "why_tests_cant": "null handling interacts with the position of later key parts", "anchors": ["src/tool1cd/Field.cpp:get_sort_key", "src/tool1cd/Index.cpp:calcRecordIndex"]}
{"id": "C32", "title": "Walking an index visits every indexed record once, in key order", "statement": "The record list obtained from a well-formed index tree (leaf counts and entry sizes below 32768) is exactly the records of its leaves from left to right, each once, and the walk ends.", "quantifier": "all well-formed index trees of any height", "why_tests_cant": "trees of any depth", "anchors": ["src/tool1cd/Index.cpp:create_recordsindex", "src/tool1cd/Index.cpp:get_numrec"]}
{"id": "C33", "title": "Fields of a record do not overlap and fill the record", "statement": "The offsets and sizes computed for the declared fields of a table describe disjoint byte ranges inside the record, after the deletion mark, together exactly covering the record (which has at least five bytes); version fields come first.", "quantifier": "all field lists, record-lock settings and field kinds", "why_tests_cant": "all combinations of field kinds, null flags and order", "anchors": ["src/tool1cd/Table.cpp:init", "src/tool1cd/FieldType.cpp:get_size", "src/tool1cd/Field.cpp:get_size"]}
{"id": "C34", "title": "Setting one field leaves the others unchanged", "statement": "Storing a value in a field that cannot be NULL, or storing NULL in a field that can be, changes only that field; reading it back gives the value, reading any other field gives what it gave before. Assigning a record copies every byte.", "quantifier": "all records, all pairs of fields", "why_tests_cant": "depends on adjacency of nullable fields", "anchors": ["src/tool1cd/TableRecord.cpp:set_data", "src/tool1cd/TableRecord.cpp:set_null", "src/tool1cd/TableRecord.cpp:get_data"]}
{"id": "C35", "title": "Scanning a table yields exactly the live records in order", "statement": "Iterating a table, and rebuilding its record index, yields exactly the physical records not marked as deleted, each once and in increasing order; every yielded record is the byte slice stored for its number.", "quantifier": "all table files up to 4 GiB and deletion patterns", "why_tests_cant": "all deletion patterns and sizes", "anchors": ["src/tool1cd/TableIterator.cpp", "src/tool1cd/Table.cpp:fill_records_index", "src/tool1cd/Table.cpp:get_record"]}
{"id": "C36", "title": "Record insert and delete preserve the other records", "statement": "After deleting a record and inserting another the remaining live records are unchanged and the freed slot is the one reused.", "quantifier": "all histories of inserts and deletes", "why_tests_cant": "history-dependent free-slot chain", "anchors": ["src/tool1cd/Table.cpp:delete_data_record", "src/tool1cd/Table.cpp:insert_record", "src/tool1cd/Table.cpp:write_data_record"]}
{"id": "C37", "title": "Pending edits overlay the stored table without disturbing it", "statement": "While editing, the first rows show the stored live records whatever is pending for them; the following rows show the pending new records, numbered without gaps in the order of insertion, each with the bytes last set in it; exactly the stored records marked as deleted and not restored are reported as deleted, and stored records keep their bytes; for every sequence of insertions, removals, deletions, restorations and value changes of new records.", "quantifier": "all edit histories and positions", "why_tests_cant": "history-dependent linked list", "anchors": ["src/tool1cd/Table.cpp:get_phys_numrec", "src/tool1cd/Table.cpp:set_rec_type", "src/tool1cd/Table.cpp:get_rec_type", "src/tool1cd/Table.cpp:set_edit_value"]}
{"id": "C38", "title": "Container files round-trip", "statement": "After any sequence of file writes and removals, table rewrites and reopenings of a container below 2 GiB, reading each file returns the last bytes written to it and writing one file never changes another, provided no file is written again after it was written with no bytes.", "quantifier": "all write histories and file sizes", "why_tests_cant": "block reuse depends on history", "anchors": ["src/tool1cd/cfapi/V8Catalog.cpp:write_block", "src/tool1cd/cfapi/V8Catalog.cpp:read_block", "src/tool1cd/cfapi/V8Catalog.cpp:free_block"]}
{"id": "C39", "title": "Container block headers round-trip", "statement": "Every size, page size and link from 0 to 2^31-1 written into a block header is read back unchanged, and setting one leaves the others unchanged.", "quantifier": "all header values", "why_tests_cant": "2^96 combinations, hexadecimal text boundaries", "anchors": ["src/tool1cd/cfapi/APIcfBase.cpp:stBlockHeader"]}
{"id": "C40", "title": "Container file names and times survive save and reopen", "statement": "A file's name, creation time and modification time read after reopening a container equal those written.", "quantifier": "all names and times", "why_tests_cant": "all values; only visible after re-open", "anchors": ["src/tool1cd/cfapi/V8Catalog.cpp:initialize", "src/tool1cd/cfapi/V8File.cpp:close"]}
{"id": "C41", "title": "Memory streams behave like byte files", "statement": "Any sequence of writes, reads, seeks (from the start, from the cursor, backwards from the end within the stream), cursor placements and size changes on a memory stream gives the results of the same operations on an ideal byte array with a cursor; gaps are filled with zeros.", "quantifier": "all operation sequences", "why_tests_cant": "history-dependent", "anchors": ["src/tool1cd/SystemClasses/TMemoryStream.cpp", "src/tool1cd/SystemClasses/TStream.cpp"]}
{"id": "C42", "title": "Copying between streams copies the bytes that exist", "statement": "Copying n bytes from a stream that has at least one byte left writes exactly the bytes remaining in the source, at most n, and advances both streams accordingly; copying with count 0 copies the whole source from its start.", "quantifier": "all stream contents, positions and counts", "why_tests_cant": "end-of-stream boundary for every buffer alignment", "anchors": ["src/tool1cd/SystemClasses/TStream.cpp:CopyFrom"]}
{"id": "C43", "title": "Compressing with success and expanding a stream is lossless", "statement": "Every byte stream whose compression reports success expands to the same bytes, also through expand-or-copy; compression reports success exactly for lengths that are not a multiple of 16384.", "quantifier": "all byte streams", "why_tests_cant": "fails only at particular lengths", "anchors": ["src/tool1cd/UZLib.cpp:ZDeflateStream", "src/tool1cd/UZLib.cpp:ZInflateStream"]}
{"id": "C44", "title": "A depot version number resolves to that version", "statement": "A positive version number means itself; zero or a negative number -k (k below 2^31) means the version that has exactly k newer ones, or is refused when there is none; a version that does not exist is refused.", "quantifier": "all version tables and requests", "why_tests_cant": "depends on gaps and deleted rows", "anchors": ["src/tool1cd/Class_1CD.cpp:get_ver_depot_config"]}
{"id": "C45", "title": "Exporting a depot version selects each object's state at that version", "statement": "The exported configuration of version v contains exactly the objects whose latest decisive history entry not later than v is a stored state, with the data of that entry, and for each the external files attached to it; if data is missing the export is refused. (Depots with at least one history entry.)", "quantifier": "all histories and versions", "why_tests_cant": "arbitrary change histories of many objects", "anchors": ["src/tool1cd/save_depot_config.cpp:save_depot_config"]}
{"id": "C46", "title": "Exporting a version range writes the changed objects", "statement": "For a version range the export writes, for every object changed in the range, its data at the end of the range.", "quantifier": "all histories and ranges", "why_tests_cant": "depends on the previous object's data being left in a buffer", "anchors": ["src/tool1cd/save_part_depot_config.cpp"]}
{"id": "C47", "title": "Multi-part configuration files are reassembled", "statement": "A configuration file stored in several rows is read as the concatenation of its parts in part-number order whatever the row order, and names are matched without regard to case.", "quantifier": "all row permutations and part counts", "why_tests_cant": "all permutations", "anchors": ["src/tool1cd/TableFiles.cpp", "src/tool1cd/ConfigStorage.cpp:ContainerFile::open"]}
{"id": "C48", "title": "Nested configuration paths address the nested file", "statement": "Reading the path 'a/b' from a configuration gives file b inside the nested container a.", "quantifier": "all paths", "why_tests_cant": "all names", "anchors": ["src/tool1cd/ConfigStorage.cpp:readfile"]}
{"id": "C49", "title": "Dynamic updates override the base configuration", "statement": "When several rows give the same configuration file, the newest dynamic update wins, independently of row order.", "quantifier": "all row sets and orders", "why_tests_cant": "all permutations of rows", "anchors": ["src/tool1cd/ConfigStorage.cpp:ConfigStorageTableConfig"]}
{"id": "C50", "title": "Stored object lookup by hash returns the stored data", "statement": "Looking up a hash in the pack directory returns the data (not empty) stored last under it in the first pack that has it, and an unknown hash is reported as missing.", "quantifier": "all pack indexes and hashes", "why_tests_cant": "all index contents", "anchors": ["src/tool1cd/Packdata.cpp", "src/tool1cd/PackDirectory.cpp"]}
{"id": "C51", "title": "Command-line arguments are unquoted and dispatched", "statement": "Parsing the command line terminates for every argument list and gives each recognised key its own following parameters.", "quantifier": "all argument lists", "why_tests_cant": "all strings; a looping input hangs a test", "anchors": ["src/ctool1cd/ParseCommandLine.cpp:dequote", "src/ctool1cd/ParseCommandLine.cpp:CommandParse"]}
{"id": "C52", "title": "Time stamps convert back and forth", "statement": "A POSIX time converted to a container time stamp and back is unchanged.", "quantifier": "all representable times", "why_tests_cant": "all values", "anchors": ["src/tool1cd/cfapi/V8Time.cpp", "src/tool1cd/SystemClasses/System.cpp"]}
{"id": "C53", "title": "Table-name wildcards select the matching tables", "statement": "The list given to the export command selects exactly the tables whose name matches one of its wildcard patterns, without regard to case.", "quantifier": "all patterns and table names", "why_tests_cant": "pattern language over all names", "anchors": ["src/ctool1cd/App.cpp:export_to_xml"]}
{"id": "C54", "title": "The stored list of users is decoded with the stored key", "statement": "Decoding the users list is the inverse of encoding it with the key stored in its first bytes and never reads outside the list.", "quantifier": "all keys and contents", "why_tests_cant": "all keys and lengths", "anchors": ["src/tool1cd/Field.cpp:save_blob_to_file"]}
{"id": "C55", "title": "Page-format recognition accepts only conforming pages", "statement": "A page is recognised as belonging to a table only if every complete record slot on it is either a free slot or a record whose every field byte pattern is legal.", "quantifier": "all pages and templates", "why_tests_cant": "all page contents", "anchors": ["src/tool1cd/Class_1CD.cpp:test_block_by_template", "src/tool1cd/Table.cpp:get_record_template_test"]}
{"id": "C56", "title": "Malformed GUID text is rejected", "statement": "Constructing a GUID from a text fails for every text that is not 32 hexadecimal digits or the 36-character hyphenated form.", "quantifier": "all texts", "why_tests_cant": "the set of malformed texts is unbounded", "anchors": ["src/tool1cd/BinaryGuid.cpp:BinaryGuid", "src/tool1cd/Common.cpp:from_hex_digit"]}
{"id": "C57", "title": "Case-insensitive suffix test", "statement": "Testing whether a valid text ends with a valid suffix, ignoring letter case, returns true exactly when some tail of the text equals the suffix up to case, and never fails.", "quantifier": "all pairs of valid UTF-8 texts", "why_tests_cant": "multi-byte characters of all lengths at the cut", "anchors": ["src/tool1cd/SystemClasses/String.cpp:EndsWithIC"]}
{"id": "C58", "title": "Reading a number with a default never fails", "statement": "Converting a text to an integer with a default returns the number the text denotes or the default; it never raises an error.", "quantifier": "all texts and defaults", "why_tests_cant": "unbounded digit strings", "anchors": ["src/tool1cd/SystemClasses/String.cpp:ToIntDef"]}
{"id": "C59", "title": "Whatever was parsed can be written and read again", "statement": "Every node obtained by parsing a bracket text prints to a text that parses to the same node.", "quantifier": "all texts accepted by the parser", "why_tests_cant": "needs all nested shapes, including empty lists and unrecognised values", "anchors": ["src/tool1cd/Parse_tree.cpp:outtext", "src/tool1cd/Parse_tree.cpp:parse_flow"]}
{"id": "C60", "title": "The kind given to a value is the first form it fits", "statement": "A value text is reported as number, number with exponent, GUID, prefixed or bare Base64, link or data exactly when it has that form (and no earlier one in this order), and as unknown exactly when it has none.", "quantifier": "all texts without NUL", "why_tests_cant": "the set of texts of each form is infinite and the forms overlap", "anchors": ["src/tool1cd/Parse_tree.cpp:classification_value"]}
{"id": "C61", "title": "A page taken without loading starts from zeros", "statement": "When a page is obtained for writing with the request not to load its old contents, the bytes the caller does not write are zero, whatever was done with the page before.", "quantifier": "all histories of page operations", "why_tests_cant": "whether the page is still cached depends on the history and the clock", "anchors": ["src/tool1cd/MemBlock.cpp:create", "src/tool1cd/MemBlock.cpp:get_block_for_write", "src/tool1cd/V8Object.cpp:get_free_block"]}
{"id": "C62", "title": "Reading an object whole returns all its bytes", "statement": "Reading an object in one call returns exactly the bytes its page lists denote, the same that range reads return.", "quantifier": "all objects, all lengths, formats and page sizes", "why_tests_cant": "fails only when the number of data pages is one more than a multiple of the number of entries of a table page", "anchors": ["src/tool1cd/V8Object.cpp:get_data"]}
{"id": "C63", "title": "Odd read requests are harmless", "statement": "A read request with any offset and length, also an empty one, also after the object has been read whole, either returns the bytes or is rejected; it never reads outside the object's memory.", "quantifier": "all objects, all 64-bit offsets and lengths", "why_tests_cant": "depends on exact multiples of the table capacity, on whether the object is held in memory and on 64-bit wrap-around", "anchors": ["src/tool1cd/V8Object.cpp:get_data"]}
{"id": "C64", "title": "File offsets beyond 4 GiB", "statement": "For every position at or beyond 4 GiB inside an object the reported file offset addresses the byte at that position.", "quantifier": "all objects and positions at or beyond 4 GiB", "why_tests_cant": "needs objects of more than 4 GiB", "anchors": ["src/tool1cd/V8Object.cpp:get_fileoffset"]}
{"id": "C65", "title": "Free pages behave as a stack", "statement": "In every history of releasing and taking pages (while the list has room) each page taken is the one most recently released and not yet taken again, or a new page at the end of the file when none is free; a page in use is never handed out, the list can be read again from the file at any time, and no page outside the list changes.", "quantifier": "all histories, all lists spread over any number of pages, older file format", "why_tests_cant": "histories are unbounded and the list spans pages of 1024 entries", "anchors": ["src/tool1cd/V8Object.cpp:get_free_block", "src/tool1cd/V8Object.cpp:set_block_as_free"]}
{"id": "C66", "title": "Replacing the contents of an object by data of the same length", "statement": "Storing data of the same length as an object makes its contents exactly that data and changes no page that does not belong to it (except in the case of C69).", "quantifier": "all objects, lengths, formats, page sizes and data", "why_tests_cant": "two-level page lists of any shape", "anchors": ["src/tool1cd/V8Object.cpp:set_data"]}
{"id": "C67", "title": "Releasing a page always succeeds", "statement": "A page that is no longer used can always be released, and afterwards the list contains it and all pages it contained before.", "quantifier": "all lists of free pages, both file formats", "why_tests_cant": "needs a list whose pages are exactly full, and files of the newer format with a non-empty list", "anchors": ["src/tool1cd/V8Object.cpp:set_block_as_free"]}
{"id": "C68", "title": "A new object is empty and takes a page nobody uses", "statement": "Creating an object stores an empty object at a page that was free or is new at the end of the file; it can be opened at once and no page in use changes.", "quantifier": "all files of the older format and lists of free pages", "why_tests_cant": "all states of the list", "anchors": ["src/tool1cd/V8Object.cpp:V8object", "src/tool1cd/V8Object.cpp:init"]}
{"id": "C69", "title": "Replacing contents when the last table page lists one data page", "statement": "Storing data of the same length makes the contents exactly that data also when the last table page lists a single data page.", "quantifier": "all older-format objects of such a length", "why_tests_cant": "needs objects of 1023*k+1 data pages", "anchors": ["src/tool1cd/V8Object.cpp:set_data"]}
{"id": "C70", "title": "Reading a blob through its table returns the blob or an error", "statement": "Reading a blob by its start and length through the table, into a stream or into memory of that length, returns exactly a chained blob of that length or reports an error; it never writes outside the memory given.", "quantifier": "all blob files, all start/length pairs", "why_tests_cant": "needs stored chains that disagree with the recorded length, of all shapes", "anchors": ["src/tool1cd/Table.cpp:readBlob(TStream*)", "src/tool1cd/Table.cpp:readBlob(void*)"]}
{"id": "C71", "title": "A blob can be written when the blob file has no unused chunk", "statement": "Writing a non-empty blob to a well-formed blob file without unused chunks completes, for every blob and every storage format.", "quantifier": "all well-formed blob files without unused chunks, all blobs, all formats", "why_tests_cant": "depends on the storage layer growing the file by a few bytes at a time", "anchors": ["src/tool1cd/Table.cpp:write_blob_record(TStream*)", "src/tool1cd/V8Object.cpp:set_data", "src/tool1cd/V8Object.cpp:set_len"]}
{"id": "C72", "title": "Seeking stays inside the stream and a rejected seek changes nothing", "statement": "Every seek either moves the cursor to a place inside the stream or is reported as an error and leaves the cursor where it was.", "quantifier": "all streams, offsets and origins", "why_tests_cant": "needs negative offsets and offsets beyond the size at every origin", "anchors": ["src/tool1cd/SystemClasses/TStream.cpp:Seek"]}
{"id": "C73", "title": "File streams behave like byte files", "statement": "Any sequence of writes, reads and seeks on a stream over a file gives the results of the same operations on an ideal byte array with a cursor, and the file holds that array.", "quantifier": "all operation sequences", "why_tests_cant": "history-dependent: the outcome of a write depends on how an earlier read ended", "anchors": ["src/tool1cd/SystemClasses/TStream.cpp:TWrapperStream::Read", "src/tool1cd/SystemClasses/TStream.cpp:TWrapperStream::Write"]}
{"id": "C74", "title": "Incomplete compressed data is reported", "statement": "Expanding a compressed stream that has been cut short reports an error.", "quantifier": "all compressed streams and cut points", "why_tests_cant": "every cut point of every stream", "anchors": ["src/tool1cd/UZLib.cpp:ZInflateStream"]}
{"id": "C75", "title": "Expand-or-copy gives the expanded data or the unchanged bytes", "statement": "Expand-or-copy writes either exactly the expanded data or, when the input is not compressed data, exactly the input bytes.", "quantifier": "all byte streams", "why_tests_cant": "depends on where in the input the decoder notices that it is not compressed data", "anchors": ["src/tool1cd/UZLib.cpp:ZInflateOrCopy"]}
{"id": "C76", "title": "Copying from an exhausted stream writes nothing", "statement": "Copying n bytes from a stream whose cursor is at the end writes nothing and returns 0.", "quantifier": "all streams and counts", "why_tests_cant": "end-of-stream boundary", "anchors": ["src/tool1cd/SystemClasses/TStream.cpp:CopyFrom"]}
{"id": "C77", "title": "Every stream can be compressed", "statement": "Compressing a byte stream succeeds, whatever its length.", "quantifier": "all byte streams", "why_tests_cant": "fails only at particular lengths", "anchors": ["src/tool1cd/UZLib.cpp:ZDeflateStream"]}
{"id": "C78", "title": "Records with equal keys can be packed into a leaf page", "statement": "Packing a list of index records whose last two keys are equal, as in an index that is not unique, reads only the given records.", "quantifier": "all keys and record numbers", "why_tests_cant": "the byte behind the buffer is usually readable, and then the result is usually right", "anchors": ["src/tool1cd/Index.cpp:pack_leafpage"]}
{"id": "C79", "title": "Every packed leaf page can be unpacked", "statement": "Unpacking a page that packing produced reads only that page and gives the records back.", "quantifier": "all record lists that fit, in particular full pages", "why_tests_cant": "needs a page whose last entry starts in the last seven bytes; the bytes read behind are masked out", "anchors": ["src/tool1cd/Index.cpp:unpack_leafpage", "src/tool1cd/Index.cpp:pack_leafpage"]}
{"id": "C80", "title": "The index key of a record is computed from the indexed field", "statement": "The key computed for a record in an index over one field is the key of that field's value.", "quantifier": "all records and offsets", "why_tests_cant": "the wrong bytes usually lie inside the record, so nothing fails visibly", "anchors": ["src/tool1cd/Index.cpp:calcRecordIndex", "src/tool1cd/TableRecord.cpp:get_raw", "src/tool1cd/Field.cpp:get_sort_key"]}
{"id": "C81", "title": "Index keys over text fields depend on the texts", "statement": "Records with different texts in the indexed text fields get different index keys.", "quantifier": "all records, all lists of text fields", "why_tests_cant": "quantifies over all records of a table", "anchors": ["src/tool1cd/FieldType.cpp:get_sort_key", "src/tool1cd/Index.cpp:calcRecordIndex"]}
{"id": "C82", "title": "The version field added for record locking has its own place in the record", "statement": "In a table with record locking and no declared version field the added field occupies eight bytes of the record that no other field and no mark uses.", "quantifier": "all lists of declared fields", "why_tests_cant": "all combinations of declared fields", "anchors": ["src/tool1cd/Table.cpp:init"]}
{"id": "C83", "title": "A text stored in a fixed or variable length text field is the text read back", "statement": "Converting a text to the bytes of a text field and showing these bytes gives the text (cut to the length of the field).", "quantifier": "all texts and field lengths", "why_tests_cant": "the conversion reads past the text for most lengths; results depend on memory", "anchors": ["src/tool1cd/FieldType.cpp:get_binary_value", "src/tool1cd/FieldType.cpp:get_presentation"]}
{"id": "C84", "title": "The text shown for a binary value converts back to that value", "statement": "Showing a binary value as hexadecimal text and converting the text gives the same bytes; the shown text consists of the digits only.", "quantifier": "all non-empty binary values", "why_tests_cant": "all values", "anchors": ["src/tool1cd/FieldType.cpp:get_binary_value", "src/tool1cd/FieldType.cpp:from_binary"]}
{"id": "C85", "title": "Showing a variable length text reads the bytes of that field only", "statement": "Whatever the stored count is, the shown text is made from bytes inside the field.", "quantifier": "all records, also damaged ones", "why_tests_cant": "damaged counts; the neighbouring bytes exist in most tests", "anchors": ["src/tool1cd/FieldType.cpp:get_presentation"]}
{"id": "C86", "title": "Storing a value in a field that can be NULL leaves the others unchanged", "statement": "Storing a value in a field that can be NULL reads only the bytes of the value and changes only that field.", "quantifier": "all records and values", "why_tests_cant": "depends on what lies behind the field and behind the value", "anchors": ["src/tool1cd/TableRecord.cpp:set_data"]}
{"id": "C87", "title": "Every record of a table can be read whatever the size of the file", "statement": "Reading the record with a given number returns the bytes stored for that number, also behind 4 GiB.", "quantifier": "all record numbers", "why_tests_cant": "needs files beyond 4 GiB", "anchors": ["src/tool1cd/Table.cpp:get_record"]}
{"id": "C88", "title": "Iterating through an index yields the live records in its order", "statement": "Iterating a table through an index shows the record for every number of the index that is not marked as deleted, each once and in the order of the index, and ends at the end of the index or at the first number outside the table.", "quantifier": "all indexes, deletion patterns and files up to 4 GiB", "why_tests_cant": "all orders and deletion patterns", "anchors": ["src/tool1cd/TableIterator.cpp"]}
{"id": "C89", "title": "A value of a stored record can be edited", "statement": "Changing a value of a stored record while editing makes the new value visible and storing the changes writes it.", "quantifier": "all records, fields and values", "why_tests_cant": "undefined behaviour may look right by accident", "anchors": ["src/tool1cd/Table.cpp:set_edit_value", "src/tool1cd/Table.cpp:update_record"]}
{"id": "C90", "title": "Several records can be inserted in one session", "statement": "After a record was inserted another one can be inserted.", "quantifier": "all tables", "why_tests_cant": "needs every state of the table", "anchors": ["src/tool1cd/Table.cpp:insert_record", "src/tool1cd/Table.cpp:write_data_record"]}
{"id": "C91", "title": "Deleting a record releases the blobs it refers to", "statement": "When a record is deleted the chunks released in the blob file are those its fields refer to.", "quantifier": "all records and blob fields", "why_tests_cant": "depends on the number of the chunk", "anchors": ["src/tool1cd/Table.cpp:delete_record"]}
{"id": "C92", "title": "Replacing a blob value releases the old one", "statement": "When a blob value of a record is replaced the chunks of the old value are released.", "quantifier": "all records and blob fields", "why_tests_cant": "leaks are not observable in a test of the value", "anchors": ["src/tool1cd/Table.cpp:update_record"]}
{"id": "C93", "title": "A saved container is recognised as one", "statement": "After any history of writes, removals and reopenings, a saved container passes the test whether a file is a container.", "quantifier": "all histories and all contents of uninitialised memory", "why_tests_cant": "depends on the history of the free list", "anchors": ["src/tool1cd/cfapi/V8Catalog.cpp:is_catalog", "src/tool1cd/cfapi/V8Catalog.cpp:Flush"]}
{"id": "C94", "title": "Decoding a block header uses the header only", "statement": "The numbers decoded from the 31 bytes of a block header do not depend on the memory behind them.", "quantifier": "all headers and memory contents", "why_tests_cant": "the memory behind the header is not under the control of a test", "anchors": ["src/tool1cd/cfapi/APIcfBase.h:get_data_size", "src/tool1cd/cfapi/APIcfBase.cpp"]}
{"id": "C95", "title": "A file written with no bytes can be written again", "statement": "Writing bytes to a file that was last written with no bytes stores them and leaves the other files unchanged.", "quantifier": "all histories", "why_tests_cant": "needs the right order of writes", "anchors": ["src/tool1cd/cfapi/V8Catalog.cpp:write_block"]}
{"id": "C96", "title": "Reading a file of any container ends", "statement": "Reading a file of a container ends for every content of the container.", "quantifier": "all byte strings", "why_tests_cant": "all damaged files cannot be tried", "anchors": ["src/tool1cd/cfapi/V8Catalog.cpp:read_block"]}
{"id": "C97", "title": "Negative numbers in block headers are refused", "statement": "Reading a block header whose number is negative raises an error instead of giving a wrong number.", "quantifier": "all negative 32-bit numbers in the three places", "why_tests_cant": "2^31 values", "anchors": ["src/tool1cd/cfapi/APIcfBase.cpp"]}
{"id": "C98", "title": "A file can be deleted by name", "statement": "Deleting a file of a container by name removes it and leaves the others; deleting an absent name changes nothing.", "quantifier": "all lists of files and names", "why_tests_cant": "undefined behaviour may look right by accident", "anchors": ["src/tool1cd/cfapi/V8Catalog.cpp:delete_file", "src/tool1cd/cfapi/V8File.cpp:delete_file"]}
{"id": "C99", "title": "A created but unwritten file does not spoil the container", "statement": "A container in which a file was created and never written can be saved and opened again.", "quantifier": "all histories", "why_tests_cant": "needs save and reopen", "anchors": ["src/tool1cd/cfapi/V8Catalog.cpp:createFile", "src/tool1cd/cfapi/V8Catalog.cpp:initialize"]}
{"id": "C100", "title": "A file is shown as it was stored, compressed or not", "statement": "The bytes shown for a file of a container equal the bytes written, whether the container or the file is marked as compressed.", "quantifier": "all contents and marks", "why_tests_cant": "all combinations and contents", "anchors": ["src/tool1cd/cfapi/V8File.cpp"]}
{"id": "C101", "title": "A version range names its first and last version", "statement": "The range a:b given to the partial depot export means the versions from a to b; a single number v means v to v.", "quantifier": "all numbers", "why_tests_cant": "all numbers; a wrong bound is visible only in a large export", "anchors": ["src/ctool1cd/App.cpp:save_depot_config_part"]}
{"id": "C102", "title": "The modification time stored with a file is the current time", "statement": "Writing a file of a container at a moment stores that moment in the unit of the container.", "quantifier": "all moments", "why_tests_cant": "all moments; not visible without the other program", "anchors": ["src/tool1cd/cfapi/V8Time.cpp:current_time", "src/tool1cd/SystemClasses/System.cpp"]}
{"id": "C103", "title": "A stored value is unpacked to its data", "statement": "A value kept in a table as a packed value is saved, when unpacking is asked for, as exactly the data it was packed from, compressed or not and whatever follows it; a value in another format is saved unchanged.", "quantifier": "all descriptions, data, lengths and trailing bytes; every compression result", "why_tests_cant": "unbounded contents and lengths, including the empty ones", "anchors": ["src/tool1cd/Field.cpp:save_blob_to_file", "src/tool1cd/SystemClasses/TStream.cpp:CopyFrom"]}
{"id": "C104", "title": "Every version request is resolved or refused", "statement": "Asking for any version number gives a version or an error message.", "quantifier": "all numbers and version tables", "why_tests_cant": "a single number among 2^32", "anchors": ["src/tool1cd/Class_1CD.cpp:get_ver_depot_config"]}
{"id": "C105", "title": "Exporting from a depot without history", "statement": "Exporting a version or a range from a depot whose history is empty gives an empty configuration or an error message.", "quantifier": "all versions, ranges and tables of external files", "why_tests_cant": "an uninitialised record may hold anything", "anchors": ["src/tool1cd/save_depot_config.cpp:save_depot_config", "src/tool1cd/save_part_depot_config.cpp"]}
{"id": "C106", "title": "Empty data stored under a hash is found", "statement": "Looking up the hash of an object whose stored data is empty gives empty data.", "quantifier": "all packs and hashes", "why_tests_cant": "all pack contents", "anchors": ["src/tool1cd/Packdata.cpp", "src/tool1cd/SystemClasses/TStream.cpp:CopyFrom"]}
{"id": "C107", "title": "A file stream may be closed, used again and discarded", "statement": "For every history of reads, writes, seeks and closes the reads give the bytes of the file at the position, closing loses neither data nor position, and the stream can then be discarded.", "quantifier": "all histories and file contents", "why_tests_cant": "all histories", "anchors": ["src/tool1cd/SystemClasses/TFileStream.cpp", "src/tool1cd/SystemClasses/TStream.cpp"]}
{"id": "C108", "title": "Saving a file of a container to disk", "statement": "Saving a file of a container to disk leaves exactly its data in a file of that name.", "quantifier": "all data, all previous contents", "why_tests_cant": "what a null pointer dereference does depends on the platform", "anchors": ["src/tool1cd/cfapi/V8File.cpp:save_to_file", "src/tool1cd/SystemClasses/TFileStream.cpp"]}
{"id": "C109", "title": "A table of files with any part numbers can be read", "statement": "Reading a table of configuration files gives its files or an error message, whatever the part numbers in it.", "quantifier": "all tables", "why_tests_cant": "undefined behaviour need not show in a test", "anchors": ["src/tool1cd/TableFiles.cpp:TableFiles"]}
{"id": "C110", "title": "A configuration file shows the same bytes every time", "statement": "Opening a configuration file expanded or as it is stored, and closing it, in any order and any number of times, always gives its bytes, or an error each time if it cannot be expanded.", "quantifier": "all histories of open, raw open and close", "why_tests_cant": "all histories", "anchors": ["src/tool1cd/ConfigStorage.cpp:ContainerFile::open", "src/tool1cd/ConfigStorage.cpp:ContainerFile::ropen"]}
{"id": "C111", "title": "A saved configuration is laid over the configuration", "statement": "In the saved configuration a file is the saved one if there is one, otherwise that of the configuration unless it is listed as deleted, each under its own name.", "quantifier": "all file tables and deletion lists", "why_tests_cant": "all tables", "anchors": ["src/tool1cd/ConfigStorage.cpp:ConfigStorageTableConfigSave"]}
{"id": "C112", "title": "Every listed file is the one with its hash", "statement": "In a configuration stored by hashes every name in the list gives the file stored under the hash beside it.", "quantifier": "all lists and tables", "why_tests_cant": "all lists", "anchors": ["src/tool1cd/ConfigStorage.cpp:ConfigStorageTableConfigCas"]}
{"id": "C113", "title": "A user's saved configuration uses the user's list", "statement": "If files of a user are saved, the list among them is used; without any the list of the configuration is used.", "quantifier": "all tables and users", "why_tests_cant": "all names", "anchors": ["src/tool1cd/ConfigStorage.cpp:ConfigStorageTableConfigCasSave"]}
{"id": "C114", "title": "The list of updates is read as announced", "statement": "A list of update identifiers is read in its order; a list with fewer identifiers than announced gives an error message.", "quantifier": "all lists", "why_tests_cant": "a null pointer need not show in a test", "anchors": ["src/tool1cd/ConfigStorage.cpp:parse_dynamically_updated_tree"]}
{"id": "C115", "title": "Which configuration files are stored compressed", "statement": "A file with a non-empty name is expanded unless it is one of the four named lists, starts with a brace, contains fo_version or has the extension INF or PF, all without regard to case.", "quantifier": "all non-empty names", "why_tests_cant": "all names", "anchors": ["src/tool1cd/ConfigStorage.cpp:ContainerFile::isPacked"]}
{"id": "C116", "title": "Stored names keep their extension", "statement": "A stored configuration file without update mark is offered under its whole name, or without the extension if that is new.", "quantifier": "all names", "why_tests_cant": "all names, including those with a dot at the end", "anchors": ["src/tool1cd/ConfigStorage.cpp:ConfigStorageTableConfig"]}
{"id": "C117", "title": "Every data page of a table is recognised", "statement": "A page that holds records of a table, in use or removed, is recognised as the page of its data it is, whether or not it is full.", "quantifier": "all tables, pages and lengths", "why_tests_cant": "all page contents, and the verdict may depend on memory that was never written", "anchors": ["src/tool1cd/Class_1CD.cpp:test_block_by_template", "src/tool1cd/Table.cpp:get_record_template_test"]}
{"id": "C118", "title": "A database file is opened exactly when its header fits it", "statement": "A file whose header is complete and names a page size is opened exactly when it begins with the signature and a known version and its length is the number of pages in the header times the page size; the version, page size, page count and access reported are those of the file, anything else is refused with an exception.", "quantifier": "all files of at least 24 bytes with a page size other than zero, exclusive access or not", "why_tests_cant": "all file contents and sizes", "anchors": ["src/tool1cd/Class_1CD.cpp:open", "src/tool1cd/Class_1CD.h:v8con"]}
{"id": "C119", "title": "The list of tables is the one in the file", "statement": "When the root data holds as many table numbers as it announces, the language and exactly these table numbers, in their order, are used; a negative number of tables is refused.", "quantifier": "all languages, table lists up to 2^31 and trailing bytes, both layouts", "why_tests_cant": "all contents of the root object", "anchors": ["src/tool1cd/Class_1CD.cpp:open"]}
{"id": "C120", "title": "The kind of the database follows from its tables", "statement": "A file is an infobase exactly if it has all five infobase tables, a configuration repository exactly if it has none of them and all ten repository tables, neither exactly if it has none of the fifteen, and is refused otherwise.", "quantifier": "all sets of tables", "why_tests_cant": "all 2^15 combinations, with any other tables", "anchors": ["src/tool1cd/Class_1CD.cpp:open"]}
{"id": "C121", "title": "A table description is read exactly", "statement": "A description text is accepted exactly if it has the shape of a table (name, fields, indexes, lock, files) with known type codes, flags, numbers in range and indexes over existing fields; the table then has exactly the described fields, indexes with their columns, lock and files; any other text is refused with an exception, an empty one leaves the table out.", "quantifier": "all texts without zero characters, any comparison of names", "why_tests_cant": "all description texts of any number of fields and indexes", "anchors": ["src/tool1cd/Table.cpp:init", "src/tool1cd/Field.cpp:field_from_tree", "src/tool1cd/FieldType.cpp:parse_tree", "src/tool1cd/Index.cpp:index_from_tree"]}
{"id": "C122", "title": "A table is opened exactly when its files fit together", "statement": "An index file is accepted exactly if it consists of whole pages, its first free page and every index begin inside it and, before 8.3.8, at a page border, has room for the places of all indexes, and it is there exactly if the table has indexes; a data file is accepted exactly if it consists of whole records, and their number is the quotient.", "quantifier": "all files below 4 GiB, all page sizes and record lengths", "why_tests_cant": "all file contents and sizes", "anchors": ["src/tool1cd/Table.cpp:init"]}
{"id": "C123", "title": "A damaged file is refused with an exception", "statement": "Opening a file with a wrong header, a cut list of tables, or index places outside the index file is refused with an exception.", "quantifier": "all files", "why_tests_cant": "all file contents; the outcome may depend on memory that was never written", "anchors": ["src/tool1cd/Class_1CD.cpp:open", "src/tool1cd/Table.cpp:init"]}
{"id": "C124", "title": "A table of any size can be opened", "statement": "A table whose data file is made of whole records and whose index file is made of whole pages can be opened.", "quantifier": "all file lengths", "why_tests_cant": "lengths from 4 GiB on", "anchors": ["src/tool1cd/Table.cpp:init"]}
{"id": "C125", "title": "The XML export is a readable document that says exactly what the table contains", "statement": "Exporting a table to XML yields a file that any XML reader accepts; it contains the name of the table, its fields with type, length, precision and whether a value is required, and for each record, in the order of the primary index or of the file, each value of each field as text.", "quantifier": "all tables, records and values", "why_tests_cant": "all field lists, numbers of records, values of each type", "anchors": ["src/tool1cd/Table.cpp:export_to_xml", "src/tool1cd/FieldType.cpp:get_XML_presentation", "src/tool1cd/Common.cpp:toXML"]}
{"id": "C126", "title": "NULL can be told from an empty text in the XML export", "statement": "Two tables that differ only in that a value is NULL in one and an empty text in the other are exported to different documents.", "quantifier": "all tables with a nullable text field", "why_tests_cant": "all tables and records", "anchors": ["src/tool1cd/Table.cpp:export_to_xml"]}
{"id": "C127", "title": "Pictures exported to files are each written to their own file", "statement": "When pictures are exported to files, each value that is present is written, complete, to a file of its own in the directory beside the document, under the name the document gives.", "quantifier": "all tables, numbers of records and picture fields", "why_tests_cant": "all numbers of records", "anchors": ["src/tool1cd/Table.cpp:export_to_xml", "src/tool1cd/Table.cpp:get_file_name_for_record", "src/tool1cd/Field.cpp:save_blob_to_file"]}
{"id": "C128", "title": "Dates are exported as ISO 8601", "statement": "A stored date is exported to XML as yyyy-MM-ddThh:mm:ss.", "quantifier": "all stored dates", "why_tests_cant": "all fourteen-digit dates", "anchors": ["src/tool1cd/FieldType.cpp:get_XML_presentation", "src/tool1cd/BinaryDecimalNumber.cpp:BinaryDecimalDate"]}
{"id": "C129", "title": "Pictures are exported as base64 inside the document", "statement": "A picture is exported to XML as base64 text, and the document stays readable.", "quantifier": "all picture contents", "why_tests_cant": "all lengths", "anchors": ["src/tool1cd/FieldType.cpp:get_XML_presentation", "src/tool1cd/Base64.cpp:base64_encode"]}
{"id": "C130", "title": "A table whose records are readable can be exported to XML", "statement": "The export succeeds for each table whose records can be read, whatever its index contains.", "quantifier": "all tables and index contents", "why_tests_cant": "all records; the outcome may depend on memory that was never written", "anchors": ["src/tool1cd/Table.cpp:export_to_xml", "src/tool1cd/Table.cpp:get_file_name_for_record", "src/tool1cd/TableRecord.cpp:get_string"]}
{"id": "C131", "title": "An answer to a yes-or-no key", "statement": "A text given to a key that is switched on or off means on exactly if it is 1, y, yes or the Russian words for them, in any letter case.", "quantifier": "all texts of scalar values without a zero", "why_tests_cant": "all texts", "anchors": ["src/ctool1cd/App.cpp:IsTrueString"]}
{"id": "C132", "title": "A new record is in the index and nothing else changed", "statement": "Adding a record with a new key to an index, where the leaf it belongs to has room for one more record, succeeds; the index then holds the records it held and the new one, in the order of the keys, with the same pages; a walk over the index lists them in this order; no other byte of the index file changes. The same holds along any sequence of such additions and removals.", "quantifier": "all index files, trees, keys, record numbers and sequences", "why_tests_cant": "trees of any depth and width, all keys", "anchors": ["src/tool1cd/Index.cpp:write_index_record", "src/tool1cd/Index.cpp:pack_leafpage", "src/tool1cd/Index.cpp:create_recordsindex"]}
{"id": "C133", "title": "A full index page is split without losing records", "statement": "If the only page of an index has no room for a new record, the index gets two pages and a root, and a walk lists all records.", "quantifier": "all index files with one full page", "why_tests_cant": "all contents of a page; both layouts of page numbers", "anchors": ["src/tool1cd/Index.cpp:write_index_record"]}
{"id": "C134", "title": "A full page below a branch is split without losing records", "statement": "If a leaf below a branch has no room for a new record, it becomes two pages, and afterwards each record of the index can be found and removed.", "quantifier": "all index files with a branch, all positions of the full leaf", "why_tests_cant": "all numbers of children and all positions", "anchors": ["src/tool1cd/Index.cpp:write_index_record", "src/tool1cd/Index.cpp:delete_index_record"]}
{"id": "C135", "title": "A removed record is gone from the index and the others are there", "statement": "Removing a record of an index, where its leaf holds another record and the ones that stay have room whatever they are, succeeds; the index then holds the other records in order, with the same pages, and no other byte of the file changes.", "quantifier": "all index files, trees and records", "why_tests_cant": "trees of any depth and width, also where the last record of a page is removed and the branches above change", "anchors": ["src/tool1cd/Index.cpp:delete_index_record", "src/tool1cd/Index.cpp:pack_leafpage"]}
{"id": "C136", "title": "A key cannot be added twice", "statement": "Adding a record whose key is in the index already raises an exception if the index is primary or the record number is the same too.", "quantifier": "all index files, keys and record numbers", "why_tests_cant": "trees of any depth and width", "anchors": ["src/tool1cd/Index.cpp:write_index_record"]}
{"id": "C137", "title": "Removing a record that is not in the index changes nothing", "statement": "Removing a pair of key and record number that is not in the index leaves the index file as it is.", "quantifier": "all index files, keys and record numbers", "why_tests_cant": "trees of any depth and width, keys in front of, between and behind the others", "anchors": ["src/tool1cd/Index.cpp:delete_index_record"]}
{"id": "C138", "title": "An emptied index can be filled again", "statement": "After the last record of an index was removed, records can be added to it.", "quantifier": "all index files with one record", "why_tests_cant": "all later additions", "anchors": ["src/tool1cd/Index.cpp:delete_index_record", "src/tool1cd/Index.cpp:write_index_record"]}
{"id": "C139", "title": "Removing one record never loses another", "statement": "Whatever the records of a leaf are, after one of them is removed the index still holds the others.", "quantifier": "all index files", "why_tests_cant": "the size of a packed page depends on all of its records", "anchors": ["src/tool1cd/Index.cpp:delete_index_record", "src/tool1cd/Index.cpp:pack_leafpage"]}
{"id": "C140", "title": "The export of a table to a directory is exact", "statement": "Exporting a table writes for each of its files (data, blob, index, description) that is there exactly its bytes, and a file that says which of them are there and their version numbers; files of the directory that belong to absent files are not touched.", "quantifier": "all tables, formats, lengths and directories", "why_tests_cant": "all lengths and layouts of pages; files read before or not", "anchors": ["src/tool1cd/Table.cpp:export_table", "src/tool1cd/V8Object.cpp:savetofile"]}
{"id": "C141", "title": "Importing an exported table gives it back", "statement": "After a table was exported and imported into a table with files of the same lengths, each file has the exported bytes, length and version numbers, and no other page of the database changed.", "quantifier": "all tables, both formats, all contents", "why_tests_cant": "all lengths; importing into another database", "anchors": ["src/tool1cd/Table.cpp:import_table", "src/tool1cd/Table.cpp:export_table", "src/tool1cd/V8Object.cpp:set_data"]}
{"id": "C142", "title": "Importing a table replaces files of any length and creates missing ones", "statement": "A table can be imported whatever the lengths of the files that it replaces, and files that the table does not have are created.", "quantifier": "all tables and exports", "why_tests_cant": "all pairs of lengths", "anchors": ["src/tool1cd/Table.cpp:import_table", "src/tool1cd/V8Object.cpp:set_len", "src/tool1cd/V8Object.cpp:set_data"]}
{"id": "C143", "title": "A version taken from a snapshot has the recorded contents", "statement": "When the export of a depot version reports success from a snapshot file, the target file holds contents with the CRC-32 recorded for the version; a snapshot that is there, and whose contents (expanded, or as they are, depending on who made it) have the recorded CRC-32, is taken, and the target then holds exactly these contents, whatever was in it before.", "quantifier": "all snapshot files, recorded values, targets", "why_tests_cant": "the check value of files of all lengths, read in pieces", "anchors": ["src/tool1cd/save_depot_config.cpp:480-575", "src/tool1cd/CRC32.cpp:24-39"]}
{"id": "C144", "title": "Damage within 32 consecutive bits of a snapshot is found", "statement": "If an uncompressed snapshot differs from the recorded one only within four consecutive bytes (or 32 consecutive bits), it is not taken.", "quantifier": "all files, all positions, all changes of at most 32 consecutive bits", "why_tests_cant": "2^32 changes at every position of every file", "anchors": ["src/tool1cd/CRC32.cpp:24-39", "src/tool1cd/save_depot_config.cpp:565-574"]}
{"id": "C145", "title": "Every version has a snapshot file of its own", "statement": "The snapshot files of two different versions have different names.", "quantifier": "all pairs of version numbers", "why_tests_cant": "all pairs of 31-bit numbers", "anchors": ["src/tool1cd/save_depot_config.cpp:489-492"]}
{"id": "C146", "title": "Without a usable snapshot a version is collected as if there were none", "statement": "If no snapshot is recorded, or its file is missing, cannot be expanded or has the wrong check value, the export collects the objects into a new file; nothing of the snapshot or of an earlier target is left in it.", "quantifier": "all records, files and targets", "why_tests_cant": "all contents of the snapshot and of the target", "anchors": ["src/tool1cd/save_depot_config.cpp:159-161", "src/tool1cd/save_depot_config.cpp:223-226", "src/tool1cd/save_depot_config.cpp:480-575"]}
{"id": "C147", "title": "A snapshot that can be read is used", "statement": "A snapshot file with the recorded contents is used also when it can be read but not written.", "quantifier": "all snapshots", "why_tests_cant": "files of all contents; depends on rights in the file system", "anchors": ["src/tool1cd/save_depot_config.cpp:503-512", "src/tool1cd/SystemClasses/TFileStream.cpp:41-52"]}
{"id": "C148", "title": "A target that cannot be created is reported", "statement": "If the target file cannot be created, the export of a version fails with an error, and success is not reported.", "quantifier": "all snapshots and recorded values", "why_tests_cant": "all recorded values", "anchors": ["src/tool1cd/save_depot_config.cpp:514-522", "src/tool1cd/SystemClasses/TFileStream.cpp:41-52"]}
{"id": "C149", "title": "Streams over an element of a container share its bytes and have cursors of their own", "statement": "Any number of streams opened over one element of a container behave like file descriptors on one file: each reads and writes at its own cursor, all see what the others wrote, the length is the same for all, and replacing the contents as a whole is seen by all.", "quantifier": "all elements, all histories of reads, writes, seeks and replacements over any number of streams", "why_tests_cant": "unbounded histories and numbers of streams", "anchors": ["src/tool1cd/cfapi/TV8FileStream.cpp:25-117", "src/tool1cd/cfapi/V8File.cpp:133-265"]}
{"id": "C150", "title": "Seeks in an element stay inside it", "statement": "A seek from the end with offset -k moves the cursor to k bytes before the end, and no seek leaves the cursor before the start or behind the end.", "quantifier": "all lengths, cursors and offsets", "why_tests_cant": "all offsets", "anchors": ["src/tool1cd/cfapi/TV8FileStream.cpp:77-112"]}
{"id": "C151", "title": "The contents of an element can be replaced exactly", "statement": "Writing the whole contents of an element, from a buffer or from a stream, leaves exactly the new bytes, whatever the lengths before and after; writing n bytes of a stream at an offset changes exactly the bytes from there on.", "quantifier": "all contents before and after", "why_tests_cant": "all pairs of lengths", "anchors": ["src/tool1cd/cfapi/V8File.cpp:207-265"]}
{"id": "C152", "title": "Reading an element into a vector fills the vector", "statement": "Reading bytes of an element into a vector gives the caller these bytes.", "quantifier": "all elements, offsets and counts", "why_tests_cant": "all contents", "anchors": ["src/tool1cd/cfapi/V8File.cpp:148-159", "src/tool1cd/cfapi/TV8FileStream.cpp:49-54"]}
{"id": "C153", "title": "An opened container is an ordered list of elements found by name", "statement": "Elements of an opened container are listed in order, each once; each is found by its name in any case; creating a name that is there gives the element that is there, another name a new element at the end; deleted elements are neither listed nor found.", "quantifier": "all containers with distinct names and all histories of creating, deleting, finding and listing", "why_tests_cant": "all histories; links, ends of the list and the map of names must agree after each step", "anchors": ["src/tool1cd/cfapi/V8Catalog.cpp:createFile", "src/tool1cd/cfapi/V8Catalog.cpp:get_file", "src/tool1cd/cfapi/V8File.cpp:delete_file", "src/tool1cd/cfapi/V8File.cpp:V8File::V8File"]}
{"id": "C154", "title": "A renamed element is found by its new name only", "statement": "After an element is renamed it is found by the new name and no longer by the old one, and once it is deleted by neither.", "quantifier": "all containers, histories, elements and names", "why_tests_cant": "all histories; the result is a dangling pointer, which a test may not notice", "anchors": ["src/tool1cd/cfapi/V8File.cpp:set_file_name", "src/tool1cd/cfapi/V8Catalog.cpp:get_file"]}
{"id": "C155", "title": "The name and times of an element are saved when it is closed", "statement": "When an element is closed, its container stores the name and the times that it then has.", "quantifier": "all histories of renaming, setting times, opening, writing and closing", "why_tests_cant": "all orders of the operations", "anchors": ["src/tool1cd/cfapi/V8File.cpp:close", "src/tool1cd/cfapi/V8File.cpp:set_time_create", "src/tool1cd/cfapi/V8File.cpp:set_file_name"]}
{"id": "C156", "title": "Every element that is listed is found by its name", "statement": "Looking up the name of any element of an opened container gives that element.", "quantifier": "all containers, also with names that differ in case only or are equal", "why_tests_cant": "all lists of names", "anchors": ["src/tool1cd/cfapi/V8Catalog.cpp:initialize", "src/tool1cd/cfapi/V8Catalog.cpp:get_file"]}
{"id": "C157", "title": "An export of a table that cannot write a file says so", "statement": "If one of the files of an export cannot be created, the export fails.", "quantifier": "all tables, directories and sets of files that cannot be created", "why_tests_cant": "all combinations of files that cannot be created", "anchors": ["src/tool1cd/Table.cpp:export_table", "src/tool1cd/V8Object.cpp:savetofile", "src/tool1cd/SystemClasses/TFileStream.cpp"]}
{"id": "C158", "title": "A table is not imported from a directory in which a file is missing", "statement": "If a file that the export says is there is missing from the directory, the import fails and the table is as before.", "quantifier": "all tables and directories", "why_tests_cant": "all combinations of missing files and tables", "anchors": ["src/tool1cd/Table.cpp:import_table", "src/tool1cd/SystemClasses/TFileStream.cpp"]}
{"id": "C159", "title": "A vendor configuration is listed under what its metadata say", "statement": "A vendor configuration kept in the database is listed with the name, supplier and version given in the section General of its own metadata, also when the container is of the format of version 8.0; without that section the texts are empty.", "quantifier": "all databases and vendor configurations with complete metadata", "why_tests_cant": "all shapes of metadata", "anchors": ["src/tool1cd/SupplierConfigBuilder.cpp:build", "src/tool1cd/SupplierConfigBuilder.cpp:get_version", "src/tool1cd/SupplierConfigBuilder.cpp:get_file"]}
{"id": "C160", "title": "A damaged vendor configuration is reported", "statement": "Listing a vendor configuration whose data cannot be expanded, or whose elements or values are missing, ends with an error.", "quantifier": "all contents of the stored file", "why_tests_cant": "all ways of being incomplete", "anchors": ["src/tool1cd/SupplierConfigBuilder.cpp:build", "src/tool1cd/Parse_tree.cpp:operator []"]}
{"id": "C161", "title": "Every vendor configuration that can be read is listed", "statement": "Every vendor configuration that can be read is listed, exactly once, those of the configuration being edited first; asking again gives the same list.", "quantifier": "all sets of stored files", "why_tests_cant": "all combinations of files that can and cannot be read", "anchors": ["src/tool1cd/Class_1CD.cpp:find_supplier_configs", "src/tool1cd/Class_1CD.cpp:supplier_configs"]}
{"id": "C162", "title": "Every vendor configuration is saved to a file of its own", "statement": "Saving the vendor configurations to a directory writes each of them, expanded, to a file named after it, and changes no other file.", "quantifier": "all sets of stored files and directories", "why_tests_cant": "all combinations of names and versions", "anchors": ["src/ctool1cd/App.cpp:save_vendors_configs", "src/tool1cd/SupplierConfig.cpp:save_to_file"]}
{"id": "C163", "title": "A vendor configuration said to have been saved has been saved", "statement": "If saving a vendor configuration is reported as done, the file exists and holds the configuration.", "quantifier": "all directories and sets of files that cannot be created", "why_tests_cant": "all combinations of files that cannot be created", "anchors": ["src/ctool1cd/App.cpp:save_vendors_configs", "src/tool1cd/SupplierConfig.cpp:save_to_file", "src/tool1cd/SystemClasses/TFileStream.cpp"]}
{"id": "C164", "title": "Every object that nothing refers to is found and saved", "statement": "Saving the lost objects of a database creates, for each object in the file that is not in use, a file with exactly its bytes, changes no other file, and reports all of them; one object that is damaged does not keep the others from being saved.", "quantifier": "all databases, all sets of objects in use, all versions", "why_tests_cant": "every combination of pages and objects", "anchors": ["src/tool1cd/Class_1CD.cpp:find_lost_objects", "src/tool1cd/Class_1CD.cpp:find_and_save_lost_objects", "src/tool1cd/V8Object.cpp:savetofile"]}
{"id": "C165", "title": "Lost objects are saved inside the directory asked for", "statement": "The files written for the lost objects are in the directory given on the command line.", "quantifier": "all directories and databases", "why_tests_cant": "all forms of directory names", "anchors": ["src/ctool1cd/App.cpp:save_lost_objects", "src/tool1cd/Class_1CD.cpp:find_and_save_lost_objects"]}
{"id": "C166", "title": "Restoring lost tables adds exactly them to the list of tables", "statement": "Afterwards the list of tables that is read when the database is opened is the one before, followed by the objects not in use that begin like the description of a table.", "quantifier": "all databases, versions, lists of tables", "why_tests_cant": "all lists and all combinations of objects", "anchors": ["src/tool1cd/Class_1CD.cpp:find_and_create_lost_tables", "src/tool1cd/Class_1CD.cpp:open"]}
{"id": "C167", "title": "Deleting a table removes exactly it from the list of tables", "statement": "After a table is deleted, both the open tables and the list read at the next opening are those before without this table, in the same order.", "quantifier": "all lists of tables, positions and versions", "why_tests_cant": "all lists and positions", "anchors": ["src/tool1cd/Class_1CD.cpp:delete_table", "src/tool1cd/Class_1CD.cpp:open"]}
{"id": "C168", "title": "The exit status says whether the run succeeded", "statement": "The program ends with status 0 exactly if every command given on the command line succeeded; every other outcome has a status and a message of its own.", "quantifier": "all command lines, databases, commands and ways in which they fail", "why_tests_cant": "all combinations of commands and failures", "anchors": ["src/ctool1cd/cTool_1CD_Main.cpp:main", "src/ctool1cd/App.cpp:Run", "src/tool1cd/Messenger.cpp"]}
{"id": "C169", "title": "Commands are carried out in order, whatever happens to the earlier ones", "statement": "Every command of the command line is carried out, once and in the order given, with the options of the whole command line wherever they stand (the last one of a kind decides); a command that fails is reported and does not keep later ones from being carried out.", "quantifier": "all lists of commands and options, all outcomes of the commands", "why_tests_cant": "all orders of commands, options and failures", "anchors": ["src/ctool1cd/App.cpp:Run"]}
{"id": "C170", "title": "A log file gets all messages of the run and nothing else is touched", "statement": "When a log file is named, all messages of the run are in that file afterwards, in their order and without what was there before, and naming it changes no other file.", "quantifier": "all command lines, current directories and file systems", "why_tests_cant": "all shapes of the file system; the failing case deletes files", "anchors": ["src/tool1cd/Messenger.cpp:setlogfile", "src/tool1cd/Messenger.cpp:AddDetailedMessage", "src/tool1cd/SystemClasses/System.IOUtils.cpp:DeleteFile", "src/ctool1cd/App.cpp:Run"]}
{"id": "C171", "title": "A configuration is saved where the command line says", "statement": "A configuration is saved to the path given if that ends in .cf and is no directory, to a file of the usual name in the directory given otherwise; nothing is written if there is no such directory or the database is not an infobase.", "quantifier": "all paths, current directories and file systems", "why_tests_cant": "all spellings of paths", "anchors": ["src/ctool1cd/App.cpp:save_config", "src/ctool1cd/App.cpp:save_configsave", "src/ctool1cd/App.cpp:save_all_configs", "src/tool1cd/Common.cpp:directory_exists"]}
{"id": "C172", "title": "The report of table sizes is exact", "statement": "The report has one line for each table, in order, with its name, the number of its records and the lengths of its data, its blobs and its indexes.", "quantifier": "all databases, all lengths", "why_tests_cant": "lengths beyond 2 GiB", "anchors": ["src/ctool1cd/App.cpp:save_tables_sizes", "src/ctool1cd/App.cpp:object_size"]}
{"id": "C173", "title": "A command over tables deals with all of them and reports what it did", "statement": "Exporting or importing tables deals with every selected table once, in order, also when one of them cannot be dealt with, and reports success for exactly those that were dealt with.", "quantifier": "all lists of tables, selections and failures", "why_tests_cant": "all combinations of failures", "anchors": ["src/ctool1cd/App.cpp:export_all_to_xml", "src/ctool1cd/App.cpp:export_to_xml", "src/ctool1cd/App.cpp:export_to_binary", "src/ctool1cd/App.cpp:import_from_binary"]}
{"id": "C174", "title": "A saved configuration holds the files of the configuration", "statement": "Saving the configuration of the database, or the edited configuration, to a .cf gives a file that is recognised as a container and, when it is opened, lists exactly the files of the configuration in their order, each with its name, its creation and modification time and its bytes as they are stored in the database.", "quantifier": "all configurations built from tables of files: any number of files and parts, any names, times and bytes that fit in a container", "why_tests_cant": "The bytes of a container depend on all files saved before; a test saves a few configurations of one layout and compares them with what another program shows.", "anchors": ["src/tool1cd/ConfigStorage.cpp:516-555", "src/tool1cd/cfapi/V8File.cpp:535-580", "src/tool1cd/cfapi/V8Catalog.cpp:421-440", "src/tool1cd/cfapi/V8Catalog.cpp:670-717"]}
{"id": "C175", "title": "Saving a configuration touches the file meant and nothing else", "statement": "A command that saves a configuration and reports success leaves the saved container at the path given (or under the usual name in the directory given) and every other file and directory as it was; a command that does not report success changes nothing.", "quantifier": "all directory trees, all paths, all contents", "why_tests_cant": "Damage to other files shows only on disks that happen to hold something in the place of the target; a test starts from an empty directory.", "anchors": ["src/tool1cd/ConfigStorage.cpp:521-523", "src/ctool1cd/App.cpp:291-346", "src/tool1cd/Class_1CD.cpp:492-517"]}
{"id": "C176", "title": "Values of system tables are exported expanded", "statement": "Exporting a value of a system table to a file with unpacking writes the value as it is after undoing the compression it is stored with (once, or twice in the tables where that happens); the list of users is written decoded with its key; a value that is a container is written as a directory with its files.", "quantifier": "all stored values of all system tables, all lengths and contents, every behaviour of the decompressor", "why_tests_cant": "The outcome depends on what the bytes happen to look like: a test with a few ordinary values meets neither the containers, nor empty values, nor the first bytes that upset the recognition of containers.", "anchors": ["src/tool1cd/Field.cpp:216-353", "src/tool1cd/cfapi/V8Catalog.cpp:86-151", "src/tool1cd/cfapi/V8Catalog.cpp:244-268", "src/tool1cd/cfapi/V8Catalog.cpp:794-814"]}
{"id": "C177", "title": "Undo and redo in the viewer of values bring back the versions of the document", "statement": "After any history of insertions, replacements, deletions, undo and redo, the document is the one that this history of versions gives; undo of everything gives the value as it was loaded.", "quantifier": "all documents and all histories of edits, also ones that go past the end", "why_tests_cant": "all histories; the failing ones go past the end of the document", "anchors": ["src/gtool1cd/QHexEdit/document/qhexdocument.cpp:insert", "src/gtool1cd/QHexEdit/document/qhexdocument.cpp:undo", "src/gtool1cd/QHexEdit/document/commands/replacecommand.cpp", "src/gtool1cd/QHexEdit/document/commands/insertcommand.cpp", "src/gtool1cd/QHexEdit/document/commands/removecommand.cpp", "src/gtool1cd/QHexEdit/document/buffer/qhexbuffer.cpp:8-12"]}
{"id": "C178", "title": "What is typed or pasted over a selection takes its place", "statement": "Typing a character or pasting text while bytes are selected replaces exactly the selected bytes.", "quantifier": "all documents, selections in both directions, both modes, both areas", "why_tests_cant": "all selections; the result depends on the direction in which they were made", "anchors": ["src/gtool1cd/QHexEdit/document/qhexdocument.cpp:removeSelection", "src/gtool1cd/QHexEdit/document/qhexdocument.cpp:paste", "src/gtool1cd/QHexEdit/document/qhexcursor.cpp:17-43", "src/gtool1cd/QHexEdit/qhexview.cpp:processTextInput"]}
{"id": "C179", "title": "Searching in the viewer finds the next place and selects it", "statement": "A search finds the first place behind the current one where the bytes stand (backwards: the last place before it), selects it, and, repeated, visits all places; it finds nothing exactly if there is no such place.", "quantifier": "all documents, patterns and positions", "why_tests_cant": "all documents, patterns and positions", "anchors": ["src/gtool1cd/QHexEdit/document/qhexdocument.cpp:searchForward", "src/gtool1cd/QHexEdit/document/qhexdocument.cpp:searchBackward", "src/gtool1cd/QHexEdit/document/qhexcursor.cpp:select"]}
{"id": "C180", "title": "What is copied in the viewer is what is selected", "statement": "Text copied from the viewer stands for exactly the bytes selected; pasted in the same area it gives these bytes again.", "quantifier": "all documents and selections, both areas", "why_tests_cant": "all byte strings", "anchors": ["src/gtool1cd/QHexEdit/document/qhexdocument.cpp:copy", "src/gtool1cd/QHexEdit/document/qhexdocument.cpp:paste", "src/gtool1cd/QHexEdit/document/qhexdocument.cpp:selectedBytes"]}
{"id": "C181", "title": "What is typed in the viewer is written at the cursor", "statement": "Typing hexadecimal digits in the left area, or characters in the right one, writes the bytes they stand for at the cursor, before (insert mode) or over (overwrite mode) what is there, and leaves the cursor behind them.", "quantifier": "all documents, positions, modes and texts", "why_tests_cant": "all lengths of texts and positions in lines", "anchors": ["src/gtool1cd/QHexEdit/qhexview.cpp:processTextInput", "src/gtool1cd/QHexEdit/qhexview.cpp:moveNext"]}
{"id": "C182", "title": "The viewer displays every byte", "statement": "Every byte of a value stands in one of the lines that the viewer displays.", "quantifier": "all lengths of values", "why_tests_cant": "sizes of many megabytes are needed to see the failure", "anchors": ["src/gtool1cd/QHexEdit/document/qhexrenderer.cpp:131-133", "src/gtool1cd/QHexEdit/document/qhexrenderer.cpp:169-171"]}
{"id": "C183", "title": "Repairing the list of pages of a table recovers the table and harms nothing", "statement": "The repair of the allocation table of the records of a table ends with every page of the records listed in its place, each page once, entries that were right left as they were; it fails only if some page of the records is nowhere in the file.", "quantifier": "all tables, lengths of records, numbers of pages and damages to the allocation table and to the pages", "why_tests_cant": "The outcome depends on all pages of the file, on what the memory held before and on all combinations of damage; a test shows one file.", "anchors": ["src/tool1cd/Class_1CD.cpp:1965-2134", "src/tool1cd/Class_1CD.cpp:2136-2176", "src/tool1cd/Class_1CD.cpp:88-111"]}
{"id": "C184", "title": "Runs at the same time do not disturb each other's temporary files", "statement": "What is written to a temporary stream is read back from it, whatever other runs of the programs on the same machine do in the meantime.", "quantifier": "all numbers of runs and all orders in which their steps can come", "why_tests_cant": "All interleavings of several processes; a test runs one process.", "anchors": ["src/tool1cd/TempStream.cpp:34-64", "src/tool1cd/TempStream.cpp:66-83", "src/tool1cd/SystemClasses/TFileStream.cpp:30-93"]}
{"id": "C185", "title": "Temporary files go away when they are no longer needed", "statement": "The file of a temporary stream goes away with the stream, and at the end of a run none is left.", "quantifier": "all histories of streams and runs", "why_tests_cant": "All lengths of histories; the loss of disk space shows only in long runs.", "anchors": ["src/tool1cd/TempStream.cpp:34-64", "src/tool1cd/TempStream.cpp:66-83"]}
{"id": "C186", "title": "The list of tables gives the right sizes", "statement": "The sizes of the records, values and indexes of a table and their sum are shown to within a hundredth of the unit named, with at most four digits before the dot.", "quantifier": "all lengths of the three stored objects", "why_tests_cant": "the failing lengths are gigabytes", "anchors": ["src/gtool1cd/models/tables_list_model.cpp:23-47", "src/gtool1cd/models/tables_list_model.cpp:86-95"]}
{"id": "C187", "title": "The tree of a parsed text shows every node once, in order", "statement": "Opening all rows shows each node of the text exactly once, in the order of the text; each row knows its parent; no two rows have the same path.", "quantifier": "all trees, of any width and depth", "why_tests_cant": "all shapes of trees", "anchors": ["src/gtool1cd/models/skobka_tree_model.cpp:34-107", "src/tool1cd/Parse_tree.cpp:121-137", "src/tool1cd/Parse_tree.cpp:240-253"]}
{"id": "C188", "title": "The tree of a container shows every element", "statement": "Opening all rows of the tree of a container shows each element, also those of containers inside, exactly once and in order.", "quantifier": "all containers, of any depth and number of elements, with any names", "why_tests_cant": "all containers; the failing ones have names that differ in case only", "anchors": ["src/gtool1cd/models/v8catalog_tree_model.cpp:33-127", "src/tool1cd/cfapi/V8File.cpp:58-61"]}
{"id": "C189", "title": "The tree of a parsed text shows the first line of a value", "statement": "A value is shown by its first line, of a line with more than forty characters the first 37 and three dots.", "quantifier": "all texts, line breaks 10 and 13 10", "why_tests_cant": "all texts", "anchors": ["src/gtool1cd/models/skobka_tree_model.cpp:109-124"]}
{"id": "C190", "title": "The viewer shows the bytes and the text of a value", "statement": "The viewer shows the value as it was stored, a compressed one unpacked once; the text behind the mark EF BB BF or the header of a spreadsheet is shown whole, and no other value is taken for text.", "quantifier": "all values and all contents that were packed", "why_tests_cant": "all byte strings; the failing ones look like something else", "anchors": ["src/gtool1cd/models/table_data_model.cpp:190-206", "src/gtool1cd/BlobViewer/blob_viewer.cpp:87-160", "src/tool1cd/cfapi/V8Catalog.cpp:230-262"]}
{"id": "C191", "title": "The list of databases opened before holds each database once", "statement": "After any number of databases have been opened the list holds the name of each exactly once.", "quantifier": "all histories of opening, all names that the file system allows", "why_tests_cant": "all histories and names", "anchors": ["src/gtool1cd/cache.cpp:50-82", "src/gtool1cd/starter.cpp:on_openNewButton_clicked"]}
{"id": "C192", "title": "A named table is exported from the file", "statement": "Opening a database file and exporting one of its tables gives an XML document that an XML reader takes as the name of the table, its fields and one element per record, in the order of its first primary index or else of the records in the file, with the values of the fields.", "quantifier": "all database files of all versions and page sizes, all declarations of tables, all records, values, blobs and index trees", "why_tests_cant": "Tests export the few tables of one sample base; the claim joins page tables, blobs, index trees, layout and quoting for every content.", "anchors": ["src/tool1cd/Class_1CD.cpp:250-476", "src/tool1cd/Table.cpp:140-504", "src/ctool1cd/App.cpp:94-160"]}
{"id": "C193", "title": "The export of all tables shows the same records", "statement": "Exporting all tables gives for every table the document that exporting it by name gives.", "quantifier": "all database files, all sets of tables", "why_tests_cant": "A test has to contain a table whose indexes are all secondary to see that its records are lost.", "anchors": ["src/ctool1cd/App.cpp:70-92", "src/tool1cd/Table.cpp:1186-1411"]}
{"id": "C194", "title": "Field names in any script", "statement": "A database whose tables are described correctly is opened whatever letters its field names have.", "quantifier": "all database files, all names of fields in UTF-8", "why_tests_cant": "Sample bases have field names in ASCII; where the comparison of the last bytes cuts depends on every combination of letters.", "anchors": ["src/tool1cd/Field.cpp:436-472", "src/tool1cd/SystemClasses/String.cpp:EndsWithIC"]}
{"id": "C195", "title": "What passes the test of the format can be read", "statement": "If the test of the format of a configuration passes, its tables have their fields, every container can be opened, the size in every record is the size of its value, and every text in a value of the configuration, also inside containers of any depth, can be read.", "quantifier": "all databases, all values, packed or not, containers of any depth", "why_tests_cant": "all contents; the failing ones are in places the test does not look at", "anchors": ["src/tool1cd/Class_1CD.cpp:609-920", "src/tool1cd/Class_1CD.cpp:923-1190"]}
{"id": "C196", "title": "A configuration in order passes the test of the format", "statement": "A configuration whose values can all be read passes the test.", "quantifier": "all databases in order", "why_tests_cant": "the failing texts are cut inside a letter at the fifteenth byte, or are empty and packed", "anchors": ["src/tool1cd/Class_1CD.cpp:1007-1154", "src/tool1cd/Class_1CD.cpp:905-915", "src/tool1cd/cfapi/V8Catalog.cpp:230-262", "src/tool1cd/SystemClasses/String.cpp:EqualIC"]}
{"id": "C197", "title": "The test of the format answers yes or no", "statement": "The test gives yes if all is in order and no otherwise, after testing everything.", "quantifier": "all databases", "why_tests_cant": "all databases", "anchors": ["src/tool1cd/Class_1CD.cpp:609-1190"]}
{"id": "C198", "title": "Dates of stored files arrive in containers and on disk", "statement": "The date of creation or change that a table keeps for a file is the time the file has in a saved container; a file taken out of a container gets the time it has there.", "quantifier": "all dates, all time zones, 32-bit and 64-bit long", "why_tests_cant": "Tests would have to compare dates of all years in several zones and on several platforms.", "anchors": ["src/tool1cd/Common.cpp:38-51", "src/tool1cd/SystemClasses/System.cpp:39-128", "src/tool1cd/SystemClasses/System.hpp:63-72", "src/tool1cd/cfapi/V8Time.cpp:54-123", "src/tool1cd/TableFiles.cpp:106-107"]}
{"id": "C199", "title": "Saving the configuration of a database file", "statement": "Saving the configuration of a database file gives a container that holds every file of the configuration exactly once, under its name, with its times and the bytes of all its parts in order.", "quantifier": "all database files, all tables of the configuration, records in any order, files in any number of parts", "why_tests_cant": "The property joins all layers from pages to containers; tests use one sample base with files of one part.", "anchors": ["src/tool1cd/TableFiles.cpp:36-203", "src/tool1cd/ConfigStorage.cpp:516-689", "src/tool1cd/Class_1CD.cpp:492-503"]}
{"id": "C200", "title": "A configuration exported from a depot is complete and coherent", "statement": "Exporting a version from a configuration depot (in the new format) gives a container that can be opened and that holds, under its name, the data of every object and every external file the version has, nothing else but the files root, version and versions; version tells the structure version the depot records, root names the root object, and versions lists, once each and with the right count, every file of the container and the configuration itself, with the identifiers the depot records for the objects and external files.", "quantifier": "For every depot (any number of objects, versions, external files and data, any pack directory), every version, clock and sequence of random identifiers.", "why_tests_cant": "The lists are built in three maps while two tables are walked in step, and a mistake shows only as a configuration that another program refuses; a test compares one exported file with a stored copy.", "anchors": ["src/tool1cd/save_depot_config.cpp:43-55", "src/tool1cd/save_depot_config.cpp:162-183", "src/tool1cd/save_depot_config.cpp:226-475"]}
{"id": "C201", "title": "Exporting a version works from the bytes of the depot file to the bytes of the container", "statement": "Given the file of a configuration depot and the number of a version (positive: that version; zero or negative: counted back from the newest), exporting opens the file, finds the version, and writes a container that holds exactly what the depot holds for that version: every object and external file with its data (kept in the record, or in the pack directory under its hash), the structure version recorded for it, the root object and the list of identifiers; removed records count for nothing.", "quantifier": "For every file of a depot in any format the program opens (any page size, number and order of tables, fields and records, any position of the fields in a record, NULL values), every version number, pack directory, clock and sequence of random identifiers.", "why_tests_cant": "The path goes through the page tables, the list of tables, the descriptions, the index pages, the values of each field and the maps of the export; tests with one stored depot cannot show that each holds for every layout.", "anchors": ["src/tool1cd/save_depot_config.cpp:82-475", "src/tool1cd/Class_1CD.cpp:1899-1932", "src/tool1cd/Class_1CD.cpp:2317-2337", "src/tool1cd/Class_1CD.cpp:250-476"]}
{"id": "C202", "title": "A database opened for viewing is not changed", "statement": "When a database is opened for viewing (with the option for not editing, or because its format can only be viewed), no command changes a byte of its file: the commands that would change it report an error and leave the file as it was.", "quantifier": "For every file, every list of free pages, every sequence of commands (exports, imports, in any order, with any contents of the imported files).", "why_tests_cant": "The check is made in some of the functions that write and after others have run; whether the file stays as it was depends on the sequence of commands and on what earlier, failed commands left in memory.", "anchors": ["src/tool1cd/Class_1CD.cpp:88-111", "src/tool1cd/Class_1CD.cpp:190-301", "src/tool1cd/V8Object.cpp:279-294", "src/tool1cd/V8Object.cpp:853-862", "src/tool1cd/V8Object.cpp:1311-1340", "src/tool1cd/Table.cpp:1161-1323", "src/ctool1cd/App.cpp:256-290"]}
{"id": "C203", "title": "Viewing needs only the right to read", "statement": "A database that the user may read can be opened for viewing, whether or not they may write it; and the option for not editing decides only what is allowed afterwards, not which databases can be opened.", "quantifier": "For every file, contents and rights of the user.", "why_tests_cant": "Tests run with full rights on their own sample files.", "anchors": ["src/tool1cd/Class_1CD.cpp:250-301", "src/SystemClasses/TFileStream.cpp:29-74"]}
{"id": "C204", "title": "A version exported in the old format is complete and coherent", "statement": "Exporting a version whose structure version is below 100 gives a container that can be opened; its file metadata, expanded, is a container that can be opened and holds, under its identifier, the expanded data of every object the version has and besides only root, which names the root object and lists every object with the identifier the depot records for it, with the right count; the outer container holds besides metadata the data of every external file of the version, version with the structure version, and versions, which lists once each every file but metadata and the configuration itself.", "quantifier": "For every depot (any number of objects, versions, external files and data, any pack directory), every version with structure version below 100, all random identifiers and clocks, every packing that can be undone.", "why_tests_cant": "Depots of that age are rare and no test has one; the loops, the two kinds of containers and the places where the data may be kept combine in too many ways.", "anchors": ["src/tool1cd/save_depot_config.cpp:226-475", "src/tool1cd/save_depot_config.cpp:575-593", "src/tool1cd/TableRecord.cpp:173-199", "src/tool1cd/cfapi/V8Catalog.cpp:773-790", "src/tool1cd/cfapi/V8File.cpp:488-580"]}
{"id": "C205", "title": "Whether a stored file is a container is answered about its present contents", "statement": "Asking an element of a container whether it is itself a container gives, at every moment, yes exactly if its present bytes are an empty container, or begin with the header and the first block of one and its list of free blocks is empty or begins with a block inside; there is always an answer, and a removed element is none.", "quantifier": "For all contents and all sequences of questions, readings, writings of the whole or of parts, closings and removals, with and without compression, all contents of uninitialised memory.", "why_tests_cant": "The answer is kept from question to question; which histories make it wrong, and for which bytes there is none, needs all sequences and all contents.", "anchors": ["src/tool1cd/cfapi/V8File.cpp:169-265", "src/tool1cd/cfapi/V8File.cpp:316-383", "src/tool1cd/cfapi/V8File.cpp:472-580"]}
{"id": "C206", "title": "A container made inside a container is given back", "statement": "Making a container under a name gives back a container when there is no file of that name, an empty one, or one that holds a container already, and the file then holds an empty container or what it held; it gives nothing back, and changes nothing, when the file holds anything else.", "quantifier": "For all earlier histories of the file of that name (questions, writings, closings) and all its contents.", "why_tests_cant": "The outcome depends on the answer kept from earlier questions, not only on the contents.", "anchors": ["src/tool1cd/cfapi/V8Catalog.cpp:773-790", "src/tool1cd/cfapi/V8Catalog.cpp:421-440", "src/tool1cd/cfapi/V8File.cpp:316-402"]}
{"id": "C207", "title": "What is written to the elements of a container is there when it is opened again", "statement": "After opening a container, any sequence of creating, opening, writing, closing and deleting elements and flushing the container, and closing it, the container opened again has exactly the elements it had then, in order, with their names and the bytes last written.", "quantifier": "For all stored containers (also with elements that have no data) and all sequences of operations, every placement of new blocks.", "why_tests_cant": "The table of contents is written only after creations and deletions, while the places of elements change when they are saved; which sequences lose data needs all sequences.", "anchors": ["src/tool1cd/cfapi/V8Catalog.cpp:560-573", "src/tool1cd/cfapi/V8Catalog.cpp:672-725", "src/tool1cd/cfapi/V8Catalog.cpp:824-901", "src/tool1cd/cfapi/V8File.cpp:46-47", "src/tool1cd/cfapi/V8File.cpp:488-530", "src/tool1cd/cfapi/V8File.cpp:641-690"]}
{"id": "C208", "title": "Looking into a container does not change it", "statement": "A container opened, elements of it opened and closed and the container flushed, in any order, and closed, is stored as before: the same blocks and the same table of contents.", "quantifier": "For all stored containers, all sequences of opening and closing elements and flushing.", "why_tests_cant": "An element counts as changed by a rule that looks at its place, not at what was done to it; whether any place makes looking a change needs all tables.", "anchors": ["src/tool1cd/cfapi/V8File.cpp:46-47", "src/tool1cd/cfapi/V8File.cpp:472-530", "src/tool1cd/cfapi/V8File.cpp:641-690", "src/tool1cd/cfapi/V8Catalog.cpp:560-668", "src/tool1cd/cfapi/V8Catalog.cpp:672-725", "src/tool1cd/cfapi/V8Catalog.cpp:824-901"]}
{"id": "C209", "title": "Replacing the numbers of tables by a file of pairs ends with every number replaced", "statement": "Given a file of lines with a new and an old number, replaceTREF returns and afterwards every four-byte field whose name ends with TREF, in every record of every table, has the new number in place of the old one; nothing else changes.", "quantifier": "For all files of pairs and all databases (fields, records, removed records, null values).", "why_tests_cant": "Whether the function returns at all cannot be settled by a test that waits a finite time; it must hold for all databases.", "anchors": ["src/tool1cd/Class_1CD.cpp:1631-1702", "src/tool1cd/TableIterator.cpp:26-72", "src/tool1cd/TableRecord.cpp:41-67", "src/tool1cd/TableRecord.h:77-100"]}
{"id": "C210", "title": "Creating a table from an export adds or replaces it, or changes nothing", "statement": "Given the directory of an exported table, create_table returns true only when the database then has a table with the exported description and data, in place of the table of the same name if there was one; when it fails or returns false the list of tables is as before; the other tables stay in any case.", "quantifier": "For all lists of tables, all contents of the directory (missing files too) and all values of uninitialised variables, below version 8.3.8 and from it on.", "why_tests_cant": "The outcome depends on a local variable that is never set; and what is left after a failure depends on the list of tables and on which file is missing.", "anchors": ["src/tool1cd/Class_1CD.cpp:1196-1391", "src/tool1cd/Class_1CD.cpp:1705-1757", "src/tool1cd/Table.h:91-105"]}
{"id": "C211", "title": "The default file names of different fields and records are different", "statement": "The default name of a file that the library proposes for a field of a record (get_file_name_for_field) differs for different fields of a record and for different records (by key, or by number where the key is not primary), and is a name a file can have.", "quantifier": "For all tables (with and without indices, primary or not), all key values, fields and numbers of records.", "why_tests_cant": "Collisions depend on pairs of records and on arithmetic on the number; a finite set of records does not show that there are none.", "anchors": ["src/tool1cd/Table.cpp:2323-2360", "src/tool1cd/Table.h:161"]}
{"id": "C212", "title": "A record can be added to any table", "statement": "Adding a record in an editing session works for every table, whatever kinds of fields it has and whether or not it has a file of records yet; each version field of the record gets a version of the file of its own, and the other fields keep the values given.", "quantifier": "For all fields, records, files of records (also none) and versions.", "why_tests_cant": "The outcome depends on the kinds and places of all fields and on a pointer that is null only for tables without records; a test database has one mixture.", "anchors": ["src/tool1cd/Table.cpp:2019-2096", "src/tool1cd/Table.cpp:1631-1636", "src/tool1cd/V8Object.cpp:1343-1349", "src/tool1cd/TableRecord.cpp:127-158"]}
