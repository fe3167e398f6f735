# Formal model of tool1cd in Rocq (Coq 8.16.1)

## Approach

* The source in `/repo` is read as text; it is never built or run.  Every model
  definition cites the file and lines it transcribes.  Simplifications are named
  in that comment.
* Bytes and machine integers are `Z`; byte strings are `list Z` with an explicit
  range predicate (`bytes_ok`).  Wrap-around is written explicitly (`mod 2^32`,
  `mod 2^64`) where the code depends on it.
* The result of a modelled function is `res A`: `Ok a`, `Throw` (a C++ exception
  or a reported error with early return), `UB` (undefined behaviour: out-of-bounds
  access, null dereference, use after free), or `Hang` (a loop that never ends,
  proved as such for every fuel).
* For each topic `T` there are up to four files: `T_Model.v` (transcription, no
  proofs), `T_Spec.v` (independent specification), `T_Proofs.v`, and `T_Props.v`
  (only the property theorems, each closed by `exact`, with `Print Assumptions`
  and a concrete `Example` meeting its hypotheses).
* When the faithful model violates a property the theorem is named `..._refuted`
  and gives a witness; a companion theorem states what does hold.

## Plan per property

| Id | Modelled | Method |
|----|----------|--------|
| C01 | packed-decimal constructor from bytes and `write_to` | round trip by induction on nibble pairs |
| C02 | constructor from text, presentation | value-preservation against a rational-value specification |
| C03 | same | refutation + exact description of what is stored |
| C04 | same | digit-count and saturation theorem |
| C05 | date constructor from text, from bytes, presentation | round trip over 14 digits |
| C06 | date constructor from bytes with an explicit buffer | dependence on 10 bytes: refutation, and 7-byte agreement |
| C07 | GUID parse/print in three spellings | round trip, injectivity |
| C08 | GUID comparison | strict total order, agreement with lexicographic order |
| C09 | base64 encode/decode as state machines | round trip by induction on blocks, for every line width |
| C10 | hexstring, hex digit parsing | round trip |
| C11 | StringReplace as a scan; toXML as five passes | equality with a one-pass escaping specification; unescape round trip |
| C12 | utf8/utf16 conversion on code-unit lists | round trip by induction over scalar values |
| C13 | LowerCase/EqualIC over decoded text | equivalence relation, idempotence; NUL truncation found |
| C14, C15 | parse_flow state machine, printer, value classifier | print/parse round trip by induction on trees; empty-list refutation |
| C16, C17 | page cache as state machine over file + cache | refinement to a page map, for all op lists |
| C18 | destructor | refutation for all files and histories without a flush or a new page (invariant over the history) |
| C19 | page creation past the end | refutation / exact header value |
| C20, C21, C22 | object read/write loops over page maps for the three data formats | loop invariants; refinement to flat byte list |
| C23 | set_len | refutation of memory safety with the exact copy sizes; restricted positive theorem |
| C24 | delete_object | refutation (header page pushed instead of data pages) |
| C25, C26 | readBlob on an arbitrary byte string | partial correctness vs chain relation; non-termination witness |
| C27 | stream blob write, delete, read with free chain | invariant over op histories |
| C28 | buffer blob write | refutation with exact stored contents |
| C29, C78, C79 | leaf pack/unpack on bit level | totality on ascending keys, round trip; exact conditions of the out-of-bounds reads |
| C30 | sort keys for numeric, date, logical, binary | order embedding |
| C31 | nullable sort key | refutation |
| C32 | index walk | induction on well-formed trees |
| C33, C82 | field layout | disjointness and coverage by induction; hidden version field refutation |
| C34, C86 | record setters | non-interference for fields that cannot be NULL; exact effect and refutation for the others |
| C80, C81 | index key of a record | double offset and text fields: exact keys, refutation |
| C83-C85 | texts of fields | exact results and out-of-bounds conditions |
| C35, C87, C88 | iterators, with and without an index | equality with `filter` over all record numbers; refutation beyond 4 GiB |
| C36, C90 | record writes, free chain, insertion | exact stored bytes; refutation; non-interference |
| C37, C89 | pending-edit list | refinement to a list of new records and a set of deleted numbers for all histories; refutations for stored records, and for storing changed ones (Ins: `update_record`'s loop over the fields, blobs left open) |
| C91, C92 | blobs of deleted and changed records | exact chunk released; refutation for nullable fields |
| C38, C93, C95, C96 | write_block/read_block/free_block/flush/open over a byte container | invariant (files, table, free blocks and rest partition the container) kept by every operation; refutations |
| C39, C94, C97 | block header text codec with the memory behind it | round trip, out-of-range and over-read refutation |
| C40, C98-C100 | file headers, table of contents, reopening, deletion by name | composition with the invariant; refutation (time, trailing NULs, use after free) |
| C41, C42, C72, C76 | streams in memory | refinement to an array with a cursor; CopyFrom and Seek refutations |
| C73 | stream over a file with the failed state of iostream | refinement; lost write |
| C43, C74, C75, C77 | buffer loops around an abstract codec | exact set of failing lengths, round trip for every lossless codec |
| C44, C45, C46, C104, C105 | version search, depot selection loops (Depot) | equality with a per-object specification by an invariant over the sorted rows; refutation for ranges |
| C47, C109 | file table grouping (Cfg) | loop invariants over the rows; equality with the sorted parts for every row order; negative numbers refuted |
| C48 | paths in containers (Cfg) | exact result for every path of plain names; refutation for nested and rooted paths |
| C49, C114, C116 | dynamic updates (Cfg) | best candidate by an invariant; refutation for every non-zero update identifier |
| C110, C115 | opening stored files (Cfg) | invariant over all histories; exact set of uncompressed names |
| C111-C113 | saved and hashed configurations (Cfg) | equality with overlay and lookup specifications; refutations |
| C50, C106 | pack index and pack files (Depot) | codec of the files against a list of items; refutation for empty data |
| C107, C108 | file stream with its handle (Life) | refinement to a file with a position; exact set of undefined histories |
| C51 | dequote, argument loop | exact termination condition, refutation; dispatch against a grammar of argument lists |
| C52, C102 | time conversion | exact error, refutation |
| C53 | filter to regex translation (chars, any, star) | equality with wildcard matcher for names without metacharacters |
| C101 | version range | exact result, refutation |
| C54 | users decode (Val) | inverse of the encoding for keys of 1-127 bytes; exact set of buffers that are over-read; empty key |
| C103 | save_blob_to_file, in memory (Val) | exact result over the stream model; refuted for empty data |
| C55, C117 | table of allowed bytes, page test (Tmpl) | equality of the table with the specification by induction on the fields; exact set of pages accepted; refutations |
| C118, C123 | file header (Descr) | exact set of files accepted; refutations for damaged files |
| C119, C120 | root object, kind of database (Descr) | exact result |
| C121 | table description (Descr) | equivalence with a relation on trees by induction over the lists; text level through C14 and C15 |
| C122, C124 | checks on index and data files (Descr) | exact set of files accepted below 4 GiB; refuted from 4 GiB on |
| C125, C130 | export of a table as XML (Xml) | a reader of XML as a state machine in the specification; layout lemmas that compose (what surrounds a piece cannot change how it is read), values by kind, induction over fields and records; refutations |
| C126 | NULL in the XML export (Xml) | refutation through C125 for every nullable text field |
| C127 | files of pictures (Xml) | invariant "all files lie on one path"; positive case |
| C128, C129 | dates and pictures in XML (Xml) | exact texts, refutations for early years and long pictures |
| C131 | answers to on/off keys (App) | equality with the list of words in any letter case |
| C132, C135-C137 | adding and removing index records (Idx) | an invariant of trees of pages kept by both operations, refinement to a sorted list, frame of the file; any history |
| C133, C134, C138, C139 | page splits, emptied pages, repacking (Idx) | general refutations: what each kind of split leaves behind, and that the walk along the leaves still meets every record; witness for repacking |
| C140, C141 | table export and import (Port) | exact directory; composition of export and import over two databases; refuted for the newer format |
| C142 | import into files of another length (Port) | refutation by induction over the files, through C23 and C68 |
| C143, C144 | snapshots and their check value (Snap) | the register is the long division by induction over the bits; it is linear and invertible, hence bursts are found |
| C149–C152 | elements of a container in memory and streams over them (Elem) | simulation of an array with any number of cursors; refutations for all contents |
| C153–C156 | the elements of an opened container: list and map of names; saving of names and times (Dir) | simulation by an invariant of a doubly linked list in a heap; refutations for all histories |
| C157, C158 | exports that cannot be written, imports with missing files (Port) | exact result for any set of such files |
| C159–C163 | vendor configurations (Sup) | paths in the metadata tree as a relation; scan by induction on the nodes before General; saving by induction over the list, the last file of a name wins |
| C164–C167 | lost objects, list of tables (Lost) | induction over the pages left; numbers in paths by value and uniqueness of numerals; the list of numbers as bytes before, at and behind the position |
| C168–C173 | a run of the program (Run) | induction over the commands and messages; files as a list of entries with different paths; paths as lists of names |
| C174–C175 | saving a configuration (Save) | the calls of the loop are a history of Cf (C40); names are unique because the configuration is a map; the disk as in Run |
| C176 | values of system tables written to files (Sys) | recognition of containers for all byte strings; containers come from C174; files of containers from C108; the decompressor and the comparison of names are parameters |
| C177 - C182 | the viewer of values in the graphical program: undo and redo, selection, clipboard, search, typing, lines (Hex) | versions of the document as lists of byte strings; places of a pattern by cutting the document; floats by their rounding |
| C183 | repair of the list of pages of a table (Fix) | pages as numbers in the cache and bytes in the file; loop invariant: entries before mended, numbers of entries set, all else as before; refutations follow from the exact outcome |
| C184, C185 | temporary files of several runs (Temp) | steps of all runs in any order; invariant by induction on the history: files of streams distinct and holding what was written |
| C186–C191 | lists and trees of the graphical program, values and texts shown (Gui) | invariant of the loop over units; rows of trees against a preorder listing by induction on the tree |
| C192–C194 | from the bytes of the file to the documents of its tables (Full) | composition of the theorems of Descr, Obj, Blob, Field, Leaf and Xml; induction over the list of tables |
| C195–C197 | the test of the format of a configuration (Chk) | induction over the depth of containers; mutual induction over sound values |
| C198 | dates of stored files in containers and on disk (Time) | the calendar by counting days, induction over days, months and years; arithmetic modulo 2^32 |
| C199 | from the bytes of the file to the container its configuration is saved in (Conf) | composition of Full, Xml, Cfg and Save; files put together from records in any order, matched with the table by permutation |
| C200 | the container a version of a depot is exported to (Out) | export with data and with identifiers as two runs of the same loop, maps as last assignment, texts read back by the reader of C14, container by the theorem of C174 |
| C201 | from the bytes of the file of a depot to that container (Rep) | composition of Full (opening), Depot (the version asked for) and Out; values of a record read by kind, rows of a table in the order of its primary index |
| C202, C203 | databases opened for viewing (View) | commands as steps on the file and the cached pages; invariant: the cache agrees with the file until an import that lacks a file; refutations follow from the exact outcome |
| C204 | versions exported in the old format (Old) | the loop of Depot on rows with marked names, so that its assignments to the two maps can be told apart; container whose first element is written last (history of Cf), nested in another; refuted for data in the pack directory and for an external file named metadata |
| C205, C206 | the kept answer whether an element is a container, `CreateCatalog` (Kind) | the test against a declarative description of containers (block headers at two places); simulation of the bytes of an element for histories that close before they write, with the kept answer in the invariant |
| C207 | the table of contents and when it is written (Toc) | elements with addresses over a map of blocks; invariant per element: what memory and blocks hold, and that an element without a place has an unflushed creation or deletion; disjoint addresses by permutations |
| C208 | looking into a container (Toc) | no element marked as changed is an invariant of opening, closing and flushing; an element with the place 0 is marked from the start |
| C209 | replaceTREF (Tref) | induction on the rounds of the loop: the record and its number do not change, so no number of rounds suffices; the table of pairs has one place more than the greatest old number |
| C210 | create_table (Make) | induction over the loop that deletes tables of the same name, with the list in memory and the list in the root object kept equal; the rest by cases on the files of the export and on the unset variable |
| C211 | get_file_name_for_field (Fname) | cancellation on both ends of the name; induction over the key values for the positive part |
| C212 | insert_record, the fields (Ins) | induction over the fields: each step gives a record or is undefined; version fields keep their value through the later steps because places do not overlap |
| C145–C148 | names of snapshots, falling back, files that cannot be opened (Snap) | exact results per case; refutations for all contents |
| C56-C60 | GUID text, suffix test, ToIntDef, reparse, value kinds | exact characterisations; regex by derivatives |
| C61 | page taken for writing without loading | refutation; positive for appended pages |
| C62-C64 | whole reads, odd requests, offsets beyond 4 GiB | refutations for every object of the case |
| C65, C67, C68 | page list of the file (`get_free_block`, `set_block_as_free`), object creation | refinement to a stack for all histories; refutation when full |
| C66, C69 | whole `set_data` with the same length | loop invariants over the table groups; lone-page refutation |
| C70 | `Table::readBlob` (stream and buffer) | exact result on every well-formed chain; message-free results are sound |
| C71 | stream blob write over an object that grows through `set_len` | refutation for every full blob file |

## Modelled and not modelled, file by file

Paths are relative to `/repo/src/tool1cd` unless they begin with `ctool1cd`.  "Topic" is the prefix of the files in
`rocq/theories`.  Within a modelled function the comment of the definition says what is left out.

| Source | Modelled (topic) | Not modelled |
|--------|------------------|--------------|
| `BinaryDecimalNumber.*` | all constructors, `write_to`, presentation (Bcd), parts of a date (Xml) | iterators and streams of digits |
| `BinaryGuid.*` | parsing, the three spellings, comparison (Codec) | |
| `Base64.cpp` | encoder, both decoders (Codec) | |
| `Common.cpp`, `Common.h` | hex, dates, `toXML`, `to_hex_string` (Codec, Bcd, Cf) | `load_version` |
| `SystemClasses/utf8/*`, `String.cpp`, `System.SysUtils.cpp` | UTF-8/16 conversion, case, `StringReplace`, `ToIntDef`, suffix test (Text, Codec, App) | locale tables beyond ASCII and Cyrillic: a parameter |
| `SystemClasses/TStream.cpp`, `TMemoryStream.cpp`, `TFileStream.cpp` | reads, writes, seeks, copying, life of file streams (Stream, Life) | `TStreamReader`, `TStreamWriter` |
| `SystemClasses/System.cpp`, `cfapi/V8Time.cpp`, `Common.cpp:38-51` | time conversions (App), dates of the database (Time) | `mktime`, `gmtime`, `localtime` of the C library are modelled for zones with a constant difference to UTC (Time) |
| `TableFiles.cpp:36-203`, `ConfigStorage.cpp:516-689`, `Class_1CD.cpp:392-417, 492-503` | saving the configuration of a file as a whole (Conf) | parameters: lower case, comparison without case, the time of a container for a date (its values are the subject of C198); an unreadable value is found before the container is begun |
| `save_depot_config.cpp:43-55, 162-183, 226-475` | the configuration exported from a depot as a whole, new format (Out) | parameters: random identifiers, the deflate stream (inflate undoes it), the clock when a file is created, lower case, comparison of names in EXTERNALS; left out: memory and temporary streams |
| `save_depot_config.cpp:226-475, 575-593`, `TableRecord.cpp:173-199`, `cfapi/V8Catalog.cpp:265-294, 421-440, 500-541, 670-762, 773-790`, `cfapi/V8File.cpp:214-232, 386-402, 488-580` | the old format (Old) | parameters as in Out, and `unpack` (what the stream holds after data was expanded, with or without an error); the inner container is a list of bytes that is packed and written when the outer one is closed, or when its element is written again |
| `save_depot_config.cpp:82-161, 184-225`, `Class_1CD.cpp:1899-1932, 2317-2337`, `Table.cpp`, `Index.cpp` (walk by number), `Field.cpp` (values) | exporting from the file of a depot (Rep) | parameters: `store` (what the pack directory has for a hash, C66), `snapshot` (the snapshot used instead, C143-C148), comparison of names: any equivalence that ends at U+0000 and disregards the case of ASCII letters |
| `Class_1CD.cpp:88-111, 190-301`, `V8Object.cpp:279-294, 853-862, 1311-1340`, `Table.cpp:1161-1323`, `TFileStream.cpp:29-74`, `ctool1cd/App.cpp:256-290, 598-680` | opening for viewing, reading, taking pages, importing tables without the right to write (View) | parameters: `edit` and `describe` (what an import does when it is allowed), the clock, uninitialised memory; left out: the other commands |
| `UZLib.cpp` | buffer loops of deflate and inflate over an abstract codec (Stream) | zlib |
| `Parse_tree.*` | tokenizer, parser, printer, value kinds, regular expressions by derivatives (Tree, Val) | |
| `MemBlock.*` | page cache (Cache) | thread safety |
| `V8Object.cpp` | opening, all reads, overwriting, growth, free list, creation, blobs (Obj, Alloc, Blob) | `get_data` presentation for the GUI |
| `Class_1CD.cpp` | page access, opening, kind of database, `delete_object`, `get_ver_depot_config`, page test, repair of the list of pages, test of the format, `replaceTREF`, `create_table` (Cache, Obj, Alloc, Descr, Depot, Tmpl, Fix, Chk, Tref, Make) | `test_list_of_tables`, the pages of new files in `create_table` (lost objects, `delete_table` and vendor configurations: see Lost and Sup) |
| `Table.cpp` | description, files, record reads, blobs, pending edits, record writes, template, XML export, table export and import, names of files, version fields of new records (Descr, Rec, Blob, Tmpl, Xml, Port, Fname, Ins) | `create_file_blob`, `create_file_index`, version fields in updates |
| `Field.cpp`, `FieldType.cpp`, `TableRecord.cpp` | sizes, setters, text and XML presentation, keys, NULL (Field, Xml, Val), unpacked values (Val, Sys) | temporary files of values above 10 MB, detailed presentation |
| `Index.cpp` | description, leaf pages, walk, record keys, adding and removing records (Descr, Leaf, Field, Idx) | `dump_recs`, the copy of the walk kept in memory, splits of a branch (undefined) |
| `TableIterator.cpp` | both iterators (Rec) | |
| `TableFiles.cpp`, `ConfigStorage.cpp` | tables of files, paths, updates, saved and hashed configurations (Cfg), saving to disk (Save) | writing |
| `cfapi/V8Catalog.cpp`, `V8File.cpp`, `APIcfBase.*` | headers, block chains, reading and writing, contents, times, deletion (Cf), elements in memory, `TV8FileStream` (Elem), list of elements, names and times in memory (Dir), `SaveToDir` (Sys), recognising and making nested containers (Kind), when the table of contents is written (Toc) | the object of a nested container (`self`) |
| `Packdata.cpp`, `PackDirectory.cpp`, `save_depot_config.cpp`, `save_part_depot_config.cpp` | pack lookup, version, export, range export (Depot), snapshots (Snap) | container writing of the result, EXTERNALS in range export |
| `ctool1cd/ParseCommandLine.*`, `ctool1cd/App.cpp` | command line, filters, version ranges (App) | the actions themselves (see Run, Cf, Port, Xml, Sup, Lost) |
| `CRC32.cpp` | all (Snap) | boost's table |
| `SupplierConfig.cpp`, `SupplierConfigBuilder.cpp`, `Class_1CD.cpp:520-545`, `ctool1cd/App.cpp:356-375` | listing and saving vendor configurations (Sup) | messages; names of files with separators; one container object per `s_cat` |
| `Class_1CD.cpp:578-606, 1705-1757, 1798-1894` | searching, saving and restoring lost objects, deleting a table (Lost) | messages; files written before a failure; the deletion of the objects of a table (Alloc, C24); the page numbers of the objects in use are a parameter |
| `ctool1cd/cTool_1CD_Main.cpp`, `ctool1cd/App.cpp:34-158, 215-345, 389-408, 516-680`, `Messenger.cpp`, `Common.cpp:172-188`, `System.IOUtils.cpp:34-61` | the run of the program, messages and log, exit status, paths of saved configurations, report of table sizes (Run) | what a command does (a parameter); opening behind the mark of the file (a parameter); `..` and links in paths; errors of the file system; console texts |
| `ConfigStorage.cpp:516-555`, `V8File.cpp:535-580`, `V8Catalog.cpp:421-440, 670-717`, `App.cpp:291-346` | saving a configuration to a container (Save) | files that cannot be created; an error while the table of contents is written; progress messages |
| `gtool1cd/QHexEdit` | `QMemoryBuffer`, commands, `QHexDocument`, positions of `QHexCursor`, `processTextInput`, `moveNext`, `documentLines` (Hex) | drawing, mouse, keys that move the cursor, `QFileBuffer`, metadata |
| `TempStream.cpp` | names, directory, end of a run (Temp) | the file system of Windows; steps of the first use torn apart; collisions of `unique_path` |
| `gtool1cd/models`, `BlobViewer`, `cache.cpp` | sizes, tree models, presentation, unpacking and text of values, list of databases (Gui) | widgets, headings, translations, decoding of texts by Qt, `StreamDevice` buffering, `FieldsListModel`, `ExtensionsTableModel`, `VendorConfigurationsTableModel` |
| `Class_1CD.cpp:250-476`, `Table.cpp:140-504`, `App.cpp:70-160` | opening a file and exporting its tables as a whole (Full), made of the models above | page cache (C16), messages, creation of directories and files; `EqualIC` for the names of the tables that decide the kind of database is a parameter |
| `Class_1CD.cpp:609-1190` | `test_stream_format` and its recursion (Chk) | unpacking and reading of containers (parameters of the model: what `ZInflateStream` and `V8Catalog` give), values of more than 10 MiB (temporary files), messages |
| `TableFileStream.cpp`, rest of `gtool1cd` | | all |

Nowhere modelled: the operating system, the file system (beyond names and open files in Temp), zlib/deflate itself, boost (regex beyond the
subset above, filesystem, crc), message texts, and the memory allocator.  Memory errors are modelled only as
the distinct outcome `UB` at the access.

## Trusted base

* The Coq 8.16.1 kernel (including `vm_compute`).
* What `Print Assumptions` lists under each theorem: "Closed under the global context" for every one of the
  theorems in the `*_Props.v` files.  No axiom is used, of the standard library or otherwise; only the standard
  library and its `ssr` files are loaded.
* Parameters of the model that stand for what the code does not determine: the clock,
  uninitialised memory (`junk`), whether a page is cached (`cached`), and `slack`, the
  number of vector elements that an overrun may overwrite without harm (0 in the
  refutations, arbitrary in the `_partial` theorems about growth), and `after`, the memory
  behind a block header of a container, which the decoder reads up to the next zero.
* `x_ov` (Idx): whether `memcpy` between overlapping places acts like `memmove`; the theorem that uses
  undefinedness assumes it does not, all others hold for both.
* `lower`/`same` (Cfg, App): letter case beyond ASCII and Cyrillic; `e_junk`, `e_can`, `e_nl` (Xml): a member
  that is never initialised, whether a file can be created, and the line break of the base64 encoder.
* `s_lower`, `s_inflate`, `s_cat` (Sup): LowerCase, ZInflateStream, and V8Catalog over a stream (C38, C153) as a list of
  elements by lower-cased name.
* `k_cache`, `k_can` (Snap): the files of the snapshot directory, and whether each, and the target, can be opened for
  reading and writing.  boost::crc_32_type is taken to be the register of `crc_byte`.
* `mk`, `can`, `buf` (Port): whether the directory and each file of an export can be created, and what the buffer
  of `savetofile` held before.
* zlib as an abstract `codec`: theorems about compression assume `lossless` (what deflate gives
  for any buffers, inflate turns back for any cutting); an instance is proved to meet it.
* The behaviour of `std::iostream` assumed for file streams: a short read sets failbit, in a
  failed state `seekp` and `write` do nothing, `bad()` does not see failbit.
* Qt 5 (Hex): `QByteArray` (insert, remove, mid, indexOf, lastIndexOf, toHex, fromHex), `QUndoStack`, the conversion of a
  `QByteArray` to a `QString` up to a zero byte; `conv`, the way of text to the clipboard and back; `float` as 24 binary
  digits rounded to even.
* `decode`, `names`, `pg`, `fopen` (Make): decoding of UTF-16, the names of the opened tables, the numbers of new pages, and a
  local variable that is never set.
* The reading of the C++ source: each definition's citation must be checked by eye.
