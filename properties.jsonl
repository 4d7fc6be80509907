{"id": "C01", "title": "A data range never exposes bytes outside its window", "statement": "For every parent file, every window (data_offset, data_size) and every current position, DataRange.read() and DataRange.read(n) with n >= 0 return exactly the bytes of the parent that start at data_offset + position and stay below data_offset + data_size (cut at the end of the parent). The guard n >= 0 is tight: read(n) with n < 0 returns parent bytes behind the window.", "quantifier": "all parent contents, windows, positions and size arguments", "why_tests_cant": "Tests sample a handful of windows and sizes; confinement must hold for every combination, including windows that overrun the parent.", "anchors": ["dtformats/data_range.py: DataRange.read"]}
{"id": "C02", "title": "Sequential reads of a data range are one contiguous read", "statement": "For every sequence of non-negative read sizes issued on a data range, the concatenation of the results equals the single slice of the window of the summed size, and the offset reported afterwards is the number of bytes delivered.", "quantifier": "all read schedules (lists of sizes), all windows and parents", "why_tests_cant": "The property quantifies over all finite schedules of reads.", "anchors": ["dtformats/data_range.py: DataRange.read, get_offset"]}
{"id": "C03", "title": "Seeking a data range is exact and failures change nothing", "statement": "A seek relative to the start, the current offset or the end moves the reported offset to exactly the requested absolute position, also beyond the end; every rejected seek (negative target, unknown whence, negative window size) raises OSError and leaves offset and subsequent reads unchanged; reads behind the end return no bytes.", "quantifier": "all states, offsets and whence values", "why_tests_cant": "Error paths must preserve the state for every input.", "anchors": ["dtformats/data_range.py: DataRange.seek, read, tell"]}
{"id": "C04", "title": "Data ranges over one parent do not disturb each other", "statement": "For every interleaving of seek and read operations on any number of data ranges that share one parent file object, each range returns exactly what it would return if it were used alone.", "quantifier": "all interleavings of operations on all ranges, all parents", "why_tests_cant": "Interleavings cannot be enumerated by tests.", "anchors": ["dtformats/data_range.py: DataRange.read, seek"]}
{"id": "C05", "title": "Data reads are all or nothing", "statement": "Reading data_size bytes at an offset either returns exactly the data_size bytes stored there, or raises ParseError (OSError for a negative offset, ValueError for a size below -1); a truncated file never yields short data, and a request with a negative size never succeeds.", "quantifier": "all file contents, offsets and sizes", "why_tests_cant": "Must hold at every truncation point of every file.", "anchors": ["dtformats/data_format.py: BinaryDataFormat._ReadData"]}
{"id": "C06", "title": "A structure read is mapped from exactly the bytes it reports", "statement": "For every data type map (any size-hint and mapping behaviour), when reading a structure from a file succeeds with size n, the structure was mapped from exactly the n bytes at the requested offset of the file, all of them present; otherwise the read raises ParseError (OSError for a negative offset, ValueError if the size hints of the map shrink). No bytes are skipped or read twice when the size grows.", "quantifier": "all data type maps, file contents and offsets", "why_tests_cant": "dtFabric maps of variable size can request any growth pattern; tests use a few fixed maps.", "anchors": ["dtformats/data_format.py: BinaryDataFormat._ReadStructureFromFileObject"]}
{"id": "C07", "title": "Reading a structure always terminates", "statement": "For every data type map, even one whose size hints never agree, reading a structure terminates: every iteration either ends the loop or has read strictly more bytes, so there are at most file-size + 1 successful data reads.", "quantifier": "all size-hint oracles (adversarial), files and offsets", "why_tests_cant": "Termination for every oracle is not testable.", "anchors": ["dtformats/data_format.py: BinaryDataFormat._ReadStructureFromFileObject"]}
{"id": "C08", "title": "Open/Close life cycle of a binary data file", "statement": "For every history of Open and Close calls: Open on an open object and Close on a closed object raise OSError without touching any file handle; after a successful Open exactly one handle is held, Close closes exactly that handle, and no handle is closed twice. When reading fails during Open the object stays closed (and the handle opened for it is never closed: a leak the theorem exhibits).", "quantifier": "all histories of Open/Close calls with arbitrary read outcomes", "why_tests_cant": "Quantifies over all call histories.", "anchors": ["dtformats/data_format.py: BinaryDataFile.Open, BinaryDataFile.Close"]}
{"id": "C09", "title": "A hexadecimal dump is lossless", "statement": "The hexadecimal dump determines the dumped data: two different byte strings never have the same dump, even though runs of repeated lines are abbreviated with '...'.", "quantifier": "all byte strings of all lengths", "why_tests_cant": "Injectivity over all byte strings of all lengths, including all repetition patterns.", "anchors": ["dtformats/data_format.py: BinaryDataFormat._FormatDataInHexadecimal"]}
{"id": "C10", "title": "Hexadecimal dump layout", "statement": "Every data line of a dump consists of the 8-digit offset of its block, a byte column of exactly 48 characters and one printable character per byte; the first and the last block are always printed, lines appear in increasing offset order, '...' appears only between two lines, and the dump ends with an empty line.", "quantifier": "all byte strings", "why_tests_cant": "Alignment must hold for every block length 1..16 and every repetition pattern.", "anchors": ["dtformats/data_format.py: BinaryDataFormat._FormatDataInHexadecimal"]}
{"id": "C11", "title": "Integer formatting is faithful", "statement": "Decimal and fixed-width hexadecimal formatting of every integer (also negative ones) is injective, the hexadecimal digits are at least the requested width, and reading the digits back yields the integer.", "quantifier": "all integers", "why_tests_cant": "Unbounded integer domain.", "anchors": ["dtformats/data_format.py: _FormatIntegerAsDecimal, _FormatIntegerAsHexadecimal2/4/8, _FormatIntegerAsOffset"]}
{"id": "C12", "title": "IP address formatting is faithful", "statement": "A list of integers that is not 4 (16) octets long is rejected with None; the dotted-quad (eight groups of four hexadecimal digits) of an octet list determines the octets.", "quantifier": "all octet lists", "why_tests_cant": "Every address must stay distinguishable.", "anchors": ["dtformats/data_format.py: _FormatArrayOfIntegersAsIPv4Address, _FormatArrayOfIntegersAsIPv6Address"]}
{"id": "C13", "title": "Debug rendering of byte streams", "statement": "Every byte of a stream is rendered in order, printable ASCII as itself and control bytes and 0x7f-0xfe as \\xNN. The rendering is not injective (a literal backslash is not escaped) and byte 0xff is passed through raw: both are exhibited as counterexamples.", "quantifier": "all byte strings", "why_tests_cant": "Per-byte claim over all byte strings, plus a genuine ambiguity.", "anchors": ["dtformats/data_format.py: _FormatStreamAsString, _NON_PRINTABLE_BYTE_VALUES"]}
{"id": "C14", "title": "Debug text of a structure lists every present attribute once, in order", "statement": "For every debug description whose attributes all have a description and every structure, the text is the concatenation of one entry per described attribute that is present (not None), in the described order, skipping absent ones, followed by a line break unless the last entry already ends with an empty line. It does not always end with an empty line: a multi-line last value without a final line break ends the text without one (counterexample).", "quantifier": "all debug descriptions, structures and formatter results", "why_tests_cant": "Ranges over all attribute lists and formatter outputs.", "anchors": ["dtformats/data_format.py: _FormatStructureObject, _FormatValue"]}
{"id": "C15", "title": "Path helpers split and join consistently", "statement": "Splitting a joined path returns the joined segments for every list of non-empty separator-free segments; splitting never returns empty or separator-containing segments; joining the split of any path denotes the same segments (idempotence), whatever repeated, leading or trailing separators it had.", "quantifier": "all paths and segment lists", "why_tests_cant": "Unbounded strings.", "anchors": ["dtformats/file_system.py: NativeFileSystemHelper.SplitPath, JoinPath"]}
{"id": "C16", "title": "Debug definitions resolve to formatter callbacks", "statement": "For every debug definition file content accepted by the reader: each attribute gets the callback named by its format (custom: formats from the supplied table, others from the built-in table); the format 'hexadecimal' is accepted by the YAML reader although no built-in callback exists, so such attributes are printed unformatted.", "quantifier": "all YAML definition values and custom callback tables", "why_tests_cant": "Ranges over all definition contents.", "anchors": ["dtformats/yaml_definitions_file.py: YAMLDebugDefinitionsFile._ReadDefinition", "dtformats/data_format.py: ReadDebugInformationFile"]}
{"id": "C17", "title": "CPIO archives are parsed entry by entry exactly as laid out", "statement": "For every archive in the binary (both byte orders), odc, newc or crc layout with well-formed header fields, the parser yields for each member, in order, the path, metadata, data offset and data size that were archived, with the alignment padding of the format, and reports the archive size up to and including the trailer.", "quantifier": "all archives: all member lists, paths, sizes, byte orders and formats", "why_tests_cant": "Round trip over all archives of all sizes.", "anchors": ["dtformats/cpio.py: _ReadFileEntry, _ReadFileEntries, ReadFileObject"]}
{"id": "C18", "title": "CPIO member data is the archived data", "statement": "Reading the data range of a member returned for a well-formed archive yields exactly the archived bytes of that member.", "quantifier": "all archives and members", "why_tests_cant": "Composition of two components over all archives.", "anchors": ["dtformats/cpio.py: CPIOArchiveFileEntry", "dtformats/data_range.py: DataRange.read"]}
{"id": "C19", "title": "CPIO lookup agrees with enumeration", "statement": "After any successful read the entry table holds each path once, with the first occurrence in the archive winning; existence, lookup by path and prefix enumeration agree with that table for every path and prefix; the trailer is never an entry.", "quantifier": "all archives, paths and prefixes", "why_tests_cant": "Agreement of three query functions over all archives.", "anchors": ["dtformats/cpio.py: FileEntryExistsByPath, GetFileEntries, GetFileEntryByPath"]}
{"id": "C20", "title": "CPIO parsing terminates", "statement": "For every file whose header size fields are non-negative the entry loop makes progress by at least the header size per entry and terminates. Header fields that Python's int() accepts with a sign break this: a crafted archive makes the loop run forever.", "quantifier": "all files (adversarial)", "why_tests_cant": "Termination on adversarial input.", "anchors": ["dtformats/cpio.py: _ReadFileEntries, _ReadFileEntry"]}
{"id": "C21", "title": "GZip members are walked without losing position", "statement": "For every file that is a concatenation of gzip members (any combination of extra field, name, comment and header checksum) and every decompressor satisfying the zlib stream contract such that every 16 MiB buffer of compressed data produces some output (in particular when the payload is not empty and the compressed data fits one buffer), each header is read at the start of its member, each footer directly behind its compressed data, and reading ends at the end of the file.", "quantifier": "all member lists, header flag combinations, and decompressors satisfying the contract", "why_tests_cant": "All member lists and all buffer splits.", "anchors": ["dtformats/gzipfile.py: ReadFileObject, _ReadMemberHeader, _ReadMemberCompressedData, _ReadCompressedData, _ReadMemberFooter"]}
{"id": "C22", "title": "GZip members with empty payload are misread", "statement": "For a member whose uncompressed data is empty the reader repositions to the start of the compressed data and interprets it as the footer, whatever correct decompressor is used; in particular the gzip file of an empty file is rejected with ParseError.", "quantifier": "existence (counterexample) over members", "why_tests_cant": "Shows that the guard in C21 is necessary.", "anchors": ["dtformats/gzipfile.py: _ReadCompressedData, _ReadMemberCompressedData"]}
{"id": "C23", "title": "LevelDB variable size integers", "statement": "Decoding the variable-length encoding of every natural number, followed by arbitrary bytes, returns the number and the exact encoded length; decoding never reads past the data, consumes at least one byte, and fails (IndexError) exactly on empty data.", "quantifier": "all natural numbers and all trailing data; all byte strings", "why_tests_cant": "Unbounded integers.", "anchors": ["dtformats/leveldb.py: LevelDBDatabaseFile._ReadVariableSizeInteger"]}
{"id": "C24", "title": "LevelDB log records are reassembled exactly", "statement": "For every list of records written by the LevelDB log writer (fragmented over 32 KiB pages with zero trailers), the reader reconstructs exactly these records, in order, each with the file offset of its first fragment.", "quantifier": "all record lists with all record sizes, hence all fragmentations", "why_tests_cant": "All fragmentation patterns at page boundaries.", "anchors": ["dtformats/leveldb.py: LevelDBDatabaseLogFile.ReadFileObject, _ReadBlock"]}
{"id": "C25", "title": "LevelDB log reading always terminates and stays inside the file order", "statement": "For every file content the log reader makes progress by at least the block header size in every iteration, also when a block overruns its page, and terminates.", "quantifier": "all file contents (adversarial)", "why_tests_cant": "Termination on arbitrary input.", "anchors": ["dtformats/leveldb.py: LevelDBDatabaseLogFile.ReadFileObject"]}
{"id": "C26", "title": "LevelDB write batches are decoded exactly", "statement": "For every batch of put and delete operations serialised in a log record the reader decodes exactly these operations and ends at the end of the record; unknown value types raise ParseError.", "quantifier": "all batches (keys and values of all sizes)", "why_tests_cant": "Unbounded batches.", "anchors": ["dtformats/leveldb.py: LevelDBDatabaseLogFile._ReadRecord, _ReadRecordValueSlice"]}
{"id": "C27", "title": "LevelDB descriptor records are decoded exactly", "statement": "For every version edit (list of tagged values) the descriptor reader decodes the same list of tagged values; an unknown tag raises ParseError.", "quantifier": "all version edits", "why_tests_cant": "Unbounded lists of edits with unbounded integers.", "anchors": ["dtformats/leveldb.py: LevelDBDatabaseDescriptorFile._ReadRecord"]}
{"id": "C28", "title": "LevelDB sorted tables are decoded exactly", "statement": "For every list of entries stored with any choice of shared key prefixes and restart points, reading the table block yields exactly the user keys, sequence numbers, value types and values in order.", "quantifier": "all entry lists and all prefix-sharing choices, all (de)compressors", "why_tests_cant": "All prefix-compression choices.", "anchors": ["dtformats/leveldb.py: LevelDBDatabaseTableFile._ReadTable, _ReadBlock, _ReadBlockHandle"]}
{"id": "C29", "title": "LevelDB footer and index lead to every data block", "statement": "For every table file built from data blocks, an index block of block handles and a footer, ReadTableEntries yields the entries of all data blocks in index order.", "quantifier": "all lists of data blocks", "why_tests_cant": "Composition over all table files.", "anchors": ["dtformats/leveldb.py: LevelDBDatabaseTableFile._ReadFileFooter, _ReadIndexBlock, ReadTableEntries"]}
{"id": "C30", "title": "IndexedDB key prefixes are decoded exactly", "statement": "For every database, object store and index identifier that fits the key prefix encoding, decoding the encoded prefix returns the identifiers and the prefix length; truncated prefixes fail.", "quantifier": "all identifier triples and all trailing data", "why_tests_cant": "All identifier sizes.", "anchors": ["dtformats/indexeddb.py: IndexedDBKeyPrefix decoding"]}
{"id": "C31", "title": "The Windows 2008 Prefetch hash equals the Vista hash", "statement": "For every path the 2008 hash (processed in blocks of 8 bytes) and the Vista hash are equal.", "quantifier": "all paths (byte strings of all lengths)", "why_tests_cant": "Equality of two algorithms over all inputs.", "anchors": ["dtformats/prefetch.py: CalculatePrefetchHashVista, CalculatePrefetchHash2008"]}
{"id": "C32", "title": "Prefetch hashes are in range", "statement": "The XP hash is always below 1000000007 and the Vista and 2008 hashes always below 2^32, for every path.", "quantifier": "all paths", "why_tests_cant": "All inputs.", "anchors": ["dtformats/prefetch.py"]}
{"id": "C33", "title": "SuperFastHash is a 32-bit function of the whole key", "statement": "For every key the hash is in 0..2^32-1; the empty key hashes to 0; and the result equals the reference definition of the algorithm over 32-bit words for every key length class.", "quantifier": "all keys", "why_tests_cant": "All lengths and contents.", "anchors": ["dtformats/chrome_cache.py: SuperFastHash"]}
{"id": "C34", "title": "Chrome cache addresses are decoded losslessly", "statement": "For every 32-bit cache address: the initialised flag, file type, and for file types 0-4 the file name, block number and block offset are exactly the documented bit fields; together with the reserved bits the decoded fields determine the address; addresses of types 5-7 have no file name, and formatting such an address fails with TypeError.", "quantifier": "all 2^32 addresses", "why_tests_cant": "The whole 32-bit space.", "anchors": ["dtformats/chrome_cache.py: CacheAddress"]}
{"id": "C35", "title": "Chrome cache allocation bitmap ranges", "statement": "The printed block ranges of an allocation bitmap are exactly the maximal runs of allocated blocks that end before the last bit, in increasing order; a run that reaches the end of the bitmap is not reported.", "quantifier": "all bitmaps", "why_tests_cant": "All bitmaps of all lengths.", "anchors": ["dtformats/chrome_cache.py: DataBlockFile._DebugPrintAllocationBitmap"]}
{"id": "C36", "title": "Chrome cache index table", "statement": "The index table maps exactly the indexes with a non-zero address to that address, for every table; trailing bytes that do not fill an entry are ignored.", "quantifier": "all index tables", "why_tests_cant": "Tables of all sizes.", "anchors": ["dtformats/chrome_cache.py: IndexFile._ReadIndexTable"]}
{"id": "C37", "title": "Parsing a Chrome cache directory always fails", "statement": "ChromeCacheParser.ParseDirectory raises TypeError for every path, because the file system helper joins a list of segments but is called with two arguments.", "quantifier": "all paths and file systems", "why_tests_cant": "Shows the API can never succeed.", "anchors": ["dtformats/chrome_cache.py: ChromeCacheParser.ParseDirectory", "dtformats/file_system.py: NativeFileSystemHelper.JoinPath"]}
{"id": "C38", "title": "Unified logging format strings are tokenised completely", "statement": "For every format string that is a sequence of literal text, '%%' and well-formed conversion specifications, the formatter finds exactly those specifications in order, and formatting inserts the values at exactly those places with the literal text unchanged and '%%' shown as '%'.", "quantifier": "all format strings built from literals and specifications", "why_tests_cant": "Unbounded strings; specifications interact with neighbouring literals.", "anchors": ["dtformats/unified_logging.py: StringFormatter.ParseFormatString, FormatString"]}
{"id": "C39", "title": "Missing values never break formatting", "statement": "For every format string and every list of values shorter than the number of specifications, each missing value is shown as '<decode: missing data>' and the text before it is unaffected.", "quantifier": "all format strings and value lists", "why_tests_cant": "All combinations.", "anchors": ["dtformats/unified_logging.py: StringFormatter.FormatString"]}
{"id": "C40", "title": "Translation of C conversion specifications to Python", "statement": "The text of an integer conversion with canonical flags and no precision, of a string conversion with a width or a precision, and of a floating-point conversion with a width or a precision and no '-' flag equals what C printf produces (the digits of a floating-point value are left to Python). Every floating-point conversion with both width and precision gets the wrong precision, and further combinations deviate (computed counterexamples).", "quantifier": "all flag, width, precision and specifier combinations", "why_tests_cant": "Full combination space with unbounded numbers.", "anchors": ["dtformats/unified_logging.py: FormatStringOperator.GetPythonFormatString"]}
{"id": "C41", "title": "Unified logging string lookups by offset range", "statement": "Image and string lookups return the string and image of the first range that contains the reference or ends at it. They are therefore right whenever the reference is in a range that no earlier range touches, and nothing is returned exactly when no range touches the reference. For directly adjacent ranges the first byte of the second range is resolved with the image of the first one.", "quantifier": "all range tables and offsets", "why_tests_cant": "All tables and boundary offsets.", "anchors": ["dtformats/unified_logging.py: DSCFile.GetImageValuesByIndex/GetImageValues, UUIDTextFile.GetString"]}
{"id": "C42", "title": "Timestamps are computed from the right timesync record", "statement": "After opening a file next to any timesync directory the time of every trace point is converted relative to the sync record in force (greatest kernel time not later than it, of the records that follow the boot record of the boot), with the timebase of that boot record, up to a relative error of 2^-51; without such a record relative to the boot record, and without a boot record relative to the file header. Times with the same record keep their order; whole-number timebases are exact up to 2^53 nanoseconds.", "quantifier": "all timesync histories and times", "why_tests_cant": "All histories.", "anchors": ["dtformats/unified_logging.py: _GetTimesyncRecord, _GetTimestamp"]}
{"id": "C43", "title": "Trace identifiers are unambiguous", "statement": "The trace identifier composed of format string reference, flags, log type and record type determines all four values in their field ranges.", "quantifier": "all field values", "why_tests_cant": "Whole 64-bit space.", "anchors": ["dtformats/unified_logging.py: _GetTraceIdentifier"]}
{"id": "C44", "title": "Timesync record reading progress", "statement": "For every timesync file whose records declare their real size the reader yields each record once and terminates; a record declaring size 0 makes it loop forever.", "quantifier": "all files", "why_tests_cant": "Termination on adversarial input.", "anchors": ["dtformats/unified_logging.py: TimesyncDatabaseFile.ReadRecords"]}
{"id": "C45", "title": "Spotlight variable size integers", "statement": "Every unsigned 64-bit value has encodings of 1 to 9 bytes that decode to it and consume exactly their length, whatever follows; any data either yields a 64-bit value that depends only on the 1 to 9 bytes consumed or raises IndexError because it is too short. With 5 or 6 additional bytes the value bits of the first byte are dropped, so different encodings of one length have the same value.", "quantifier": "all values and trailing data", "why_tests_cant": "Whole value range.", "anchors": ["dtformats/spotlight_storedb.py: _ReadVariableSizeInteger"]}
{"id": "C46", "title": "Spotlight offset lists become data ranges", "statement": "Each data range of a streams map runs from its offset to the next offset or the end of the data; if the last offset is 0 (a single stream, or only empty streams before the last) the last range is missing. A streams map with data before the last stream is read into exactly the stored streams.", "quantifier": "all offset lists", "why_tests_cant": "All lists.", "anchors": ["dtformats/spotlight_storedb.py: SpotlightStoreMetadataAttribute ... offsets to ranges"]}
{"id": "C47", "title": "Spotlight LZ4 pages are reassembled", "statement": "For every sequence of compressed and stored blocks terminated by the end marker the decompressed page is the concatenation of the block contents, each compressed block decompressed with the content of the block before it as dictionary; conversely every page that is accepted has this form, and reading ends for all data.", "quantifier": "all block sequences and all block decompressors", "why_tests_cant": "All pages.", "anchors": ["dtformats/spotlight_storedb.py: _ReadLZ4Block, _DecompressLZ4PageData"]}
{"id": "C48", "title": "Spotlight record pages", "statement": "The data of plain, zlib and LZ4 record pages is recovered; all records in it are found at their offsets, later records replace earlier ones with the same identifier, and reading ends for all data. A plain page with unused space behind the records cannot be read.", "quantifier": "all record pages", "why_tests_cant": "All pages.", "anchors": ["dtformats/spotlight_storedb.py: _ReadRecordPageValues, _ReadRecord"]}
{"id": "C49", "title": "Spotlight integer lists are read from the wrong offset", "statement": "Reading a multi-valued variable size integer attribute decodes the list from the start of the data including the size prefix: the size appears as first value and the bytes of as many last values as the size prefix takes are lost, or IndexError is raised if that cuts a value. Single values are right.", "quantifier": "all integer lists (characterisation of the result)", "why_tests_cant": "Holds for every list, not one sample.", "anchors": ["dtformats/spotlight_storedb.py: _ReadMetadataAttributeVariableSizeIntegerValue"]}
{"id": "C50", "title": "Spotlight page chains and map pages", "statement": "Traversing property pages follows the chain of next block numbers and yields the stored properties, the last one of an index, for every finite chain; map pages that follow each other give their block numbers. A page that is followed by itself, or a map page with page size 0, is read forever.", "quantifier": "all chains", "why_tests_cant": "Adversarial input.", "anchors": ["dtformats/spotlight_storedb.py: _ReadPropertyPages, _ReadMapPages"]}
{"id": "C51", "title": "WMI index traversal enumerates every key", "statement": "For every acyclic index tree the keys returned are exactly the keys of all reachable pages; zero and 0xFFFFFFFF sub page numbers are ignored.", "quantifier": "all finite trees", "why_tests_cant": "Unbounded trees.", "anchors": ["dtformats/wmi_repository.py: CIMRepository._GetKeysFromIndexPage, IndexBinaryTreeFile._ReadPage"]}
{"id": "C52", "title": "WMI object records are assembled exactly", "statement": "For every object record stored over consecutive pages the assembled data is exactly the stored bytes; the number of bytes is the size of the descriptor.", "quantifier": "all sizes and start offsets", "why_tests_cant": "All page splits.", "anchors": ["dtformats/wmi_repository.py: _GetObjectRecord, ReadObjectRecordDataSegment"]}
{"id": "C53", "title": "Opening a WMI repository always fails", "statement": "CIMRepository.Open raises ValueError for every path because the glob helper returns a string of more than two characters that every caller unpacks into two values.", "quantifier": "all paths", "why_tests_cant": "Shows the API can never succeed.", "anchors": ["dtformats/wmi_repository.py: CIMRepository.Open, _FormatFilenameAsGlob, _GetActiveMappingFile"]}
{"id": "C54", "title": "WMI glob patterns match case-insensitively", "statement": "The glob built from a file name matches exactly the names that are equal to it ignoring ASCII case.", "quantifier": "all file names", "why_tests_cant": "All names.", "anchors": ["dtformats/wmi_repository.py: _FormatFilenameAsGlob"]}
{"id": "C55", "title": "WMI page number mapping", "statement": "Resolving a logical page number returns the mapped page for every number in range; numbers at or beyond the table size fail; unavailable pages are reported.", "quantifier": "all mapping tables", "why_tests_cant": "All tables.", "anchors": ["dtformats/wmi_repository.py: MappingTable.ResolveMappedPageNumber"]}
{"id": "C56", "title": "TZif files are read exactly", "statement": "A time zone file is accepted exactly if the magic and version are right, the first block has transition times and the file is as large as both tables need with the counts of the first header; everything else is a ParseError. Version 1 files with transition times are read exactly. For later versions the version and the 32-bit table are right, but the 64-bit table is read at the place, and with the counts, of the 32-bit table. Files whose first block has no transition times (UTC, current slim files) are rejected.", "quantifier": "all files", "why_tests_cant": "All table sizes.", "anchors": ["dtformats/tzif.py"]}
{"id": "C57", "title": "Safari cookies are read page by page", "statement": "A cookies file is read if and only if it consists of the header, at least one page and the footer, and the strings of the records are then those at the offsets that the pages and the records list, in order; everything else is a ParseError. A file without pages is rejected.", "quantifier": "all files", "why_tests_cant": "All page and record counts.", "anchors": ["dtformats/safari_cookies.py"]}
{"id": "C58", "title": "USN change journal iteration", "statement": "A journal is read into exactly its records if no block of 4096 bytes has unused space, apart from the last block. Reading ends for all data, at worst with a ParseError. With 120 or more unused bytes in a block the next block is not read at all; with 8 to 59 unused bytes the next record is not found and reading fails.", "quantifier": "all journals", "why_tests_cant": "All layouts.", "anchors": ["dtformats/usn_journal.py"]}
{"id": "C59", "title": "Keychain record values are sliced exactly", "statement": "For every keychain file the relations, columns and records that are read are those that the schema and data tables store: each value is read from the record-relative offset (counting from 1) of its column, columns without an offset are None. Files that cannot be read raise ParseError, ValueError, TypeError or UnicodeDecodeError. Negative signed integers, offsets behind the record, offsets into the record header and schema attributes without a relation are not handled (counterexamples).", "quantifier": "all records", "why_tests_cant": "All records.", "anchors": ["dtformats/keychain.py"]}
{"id": "C60", "title": "ASL inline strings and record chains", "statement": "Every string reference gives its string: none for 0, up to 7 bytes inside the reference, or stored at an offset without trailing NULs; other inline references are refused. The records of a file are read in the order of their chain, with their strings and named extra fields. Errors are ParseErrors or, for records that are too small or lie before the file position, ValueErrors. Reading ends if every record refers to a later one; a record that refers to itself can be read for ever (counterexample).", "quantifier": "all 64-bit values and chains", "why_tests_cant": "Whole space.", "anchors": ["dtformats/asl.py"]}
{"id": "C61", "title": "CUPS IPP attribute groups", "statement": "A file is read exactly if eight header bytes are followed by delimiters and attributes (also further values without a name) up to the end-of-attributes tag; the items are yielded in order, with their values decoded by their tags and text by the last character set named. Reading ends on every input and fails only with ParseError, UnicodeDecodeError or what decoding text or building a date raises.", "quantifier": "all IPP messages", "why_tests_cant": "All messages.", "anchors": ["dtformats/cups_ipp.py"]}
{"id": "C62", "title": "BSM event records", "statement": "A token is read exactly if it is stored at its offset. Every file of event records, made of a header of format version 11, tokens and a trailer with the same record size, is read into exactly the tokens of the records in order; each record is left at its own end. Another record size in the trailer raises ParseError. Reading ends on every input and fails only with ParseError or AttributeError. Tokens without sized data have the documented sizes.", "quantifier": "all records", "why_tests_cant": "All records.", "anchors": ["dtformats/bsm.py"]}
{"id": "C63", "title": "Firefox cache version 1 locations", "statement": "A cache location is split into disjoint bit fields that together determine it, every combination of field values occurs and different locations are shown differently. A map file is read, into its header and records, exactly if it consists of these with the stored size; everything else is a ParseError. Of a block file (named _CACHE_001_ to _CACHE_003_, other names are a ParseError) the entries are read that start in blocks not taken by an earlier one, and those of major version 1 are reported; entries written block by block are all read.", "quantifier": "all 2^32 locations", "why_tests_cant": "Whole space.", "anchors": ["dtformats/firefox_cache1.py"]}
{"id": "C64", "title": "FSEvents pages", "statement": "The uncompressed data of a file is read exactly if it consists of disk log streams whose sizes take in their events (the last one at least in part); all events of all streams are read in order, in the format version of their stream. Reading ends on all data, with the events or with a ParseError.", "quantifier": "all files", "why_tests_cant": "All files.", "anchors": ["dtformats/fseventsd.py"]}
{"id": "C65", "title": "utmp files", "statement": "A Linux file is read exactly if its size is a multiple of 384 bytes, into entries with the values at the documented offsets; a MacOS file exactly if its size is a positive multiple of 628 bytes and it starts with the documented header entry. Reading ends on all data; without debug output all errors are ParseErrors. Types of login have the documented names.", "quantifier": "all files", "why_tests_cant": "All files.", "anchors": ["dtformats/utmp.py"]}
{"id": "C66", "title": "systemd journal entry arrays", "statement": "A journal is read exactly if its header, the chain of entry arrays that starts at the stored offset, the entries at the set offsets of the arrays and the data objects of their items are stored as documented; it is read into these entries and data objects in the order of the arrays. Reading needs at most as many steps as the file has bytes, unless an entry array leads back to itself; exactly then it never ends. Errors are ParseErrors, except for offsets and sizes of 2^63 and more.", "quantifier": "all chains", "why_tests_cant": "Adversarial input.", "anchors": ["dtformats/systemd.py"]}
{"id": "C67", "title": "Restore point change log", "statement": "For every change log with well-formed entries the reader yields the entries in order, without the last character of the process name. In every file that is read, the header record holds a volume path and ends with its size, and entries with the documented signature, type and copy of their size follow each other up to the end of the file; only the last record can be cut off. Reading ends on every file; the only errors are ParseError and ValueError.", "quantifier": "all logs", "why_tests_cant": "All logs.", "anchors": ["dtformats/rp_change_log.py"]}
{"id": "C68", "title": "Recycler and Recycle Bin metadata", "statement": "A $I file is read exactly if it is of format 1 or 2, into its version, deletion time, size and original name without NULs at its end; other data is a ParseError. An INFO2 file is read exactly if it consists of a header and of entries of the size (280 or 800) given there, into these entries; other data is a ParseError and reading always ends. With debug output the ANSI names must also be decodable.", "quantifier": "all entries", "why_tests_cant": "All entries.", "anchors": ["dtformats/recycler.py", "dtformats/recycle_bin.py"]}
{"id": "C69", "title": "WEMF record walking", "statement": "An EMF file is read exactly if it has a header of 108 bytes followed by records up to the end of the file, a WMF file exactly if it has a supported header (possibly after a placeable header) followed by records up to the end of the file; each record starts where the one before ends by its size. The types and sizes are those stored. Reading ends within a step per byte unless a record of size 0 is reached, then it does not end. The only error is ParseError without debug output.", "quantifier": "all files", "why_tests_cant": "Adversarial input.", "anchors": ["dtformats/wemf.py"]}
{"id": "C70", "title": "YAML debug definitions are accepted exactly when complete", "statement": "A definition is accepted exactly when all mandatory keys are present and have supported values; every rejection raises ParseError.", "quantifier": "all YAML mappings", "why_tests_cant": "All mappings.", "anchors": ["dtformats/yaml_definitions_file.py"]}
{"id": "C71", "title": "GZip reading terminates", "statement": "For every file content and every decompressor that leaves over fewer bytes than it was given whenever it produces output, reading the file ends (with the members or with an error).", "quantifier": "all file contents (adversarial), all such decompressors and buffer sizes", "why_tests_cant": "Termination on arbitrary input.", "anchors": ["dtformats/gzipfile.py: ReadFileObject, _ReadMemberCompressedData, _ReadCompressedData"]}
{"id": "C72", "title": "IndexedDB key segments identify the key", "statement": "For every key with a well-formed prefix the reported segments are the three identifiers, the metadata type (exactly for keys whose identifiers are all zero) and the rest of the key as text; two different keys whose identifiers have the smallest size never have the same segments.", "quantifier": "all keys", "why_tests_cant": "Injectivity over all pairs of keys.", "anchors": ["dtformats/indexeddb.py: ReadEntries, _ReadKeyPrefix"]}
{"id": "C73", "title": "LevelDB records and tables terminate", "statement": "Reading write batches, version edits and sorted tables ends for every input, whatever the decompressors return.", "quantifier": "all inputs (adversarial)", "why_tests_cant": "Termination on arbitrary input.", "anchors": ["dtformats/leveldb.py: _ReadRecord, _ReadTable, ReadTableEntries"]}
{"id": "C74", "title": "Chrome cache entries are read exactly", "statement": "For every data block file content and offset: if 256 bytes are available the entry has the stored hash, creation time, next and rankings addresses, and its key is the stored key up to the first NUL with every byte that is not ASCII replaced by U+FFFD; otherwise ParseError.", "quantifier": "all file contents and offsets", "why_tests_cant": "All contents.", "anchors": ["dtformats/chrome_cache.py: DataBlockFile.ReadCacheEntry"]}
{"id": "C75", "title": "Chrome cache files are accepted exactly when complete", "statement": "ChromeCacheParser.ParseFile (without debug output) succeeds exactly for contents that hold a complete header (for index files also the LRU data) with a known signature and version 2.0 or 2.1; every other content raises ParseError.", "quantifier": "all file contents", "why_tests_cant": "Acceptance characterised for all byte strings.", "anchors": ["dtformats/chrome_cache.py: ChromeCacheParser.ParseFile, DataBlockFile._ReadFileHeader, IndexFile.ReadFileObject"]}
{"id": "C76", "title": "Chrome cache entry chains are bounded", "statement": "Following the chain of an index table entry reads at most 64 entries for every set of data block files, also when the chain is cyclic.", "quantifier": "all data block files (adversarial)", "why_tests_cant": "Cyclic chains.", "anchors": ["dtformats/chrome_cache.py: ChromeCacheParser.ParseDirectory"]}
{"id": "C77", "title": "uuidtext files resolve string references", "statement": "For every uuidtext file made of blocks of NUL-terminated strings and an image path, reading the file and looking up the reference of any string (start of its block plus the position in the block) returns that string, as long as no earlier block contains the reference or ends at it; the footer path is the image path.", "quantifier": "all block lists, strings, positions and trailing data", "why_tests_cant": "Placement of all blocks and strings.", "anchors": ["dtformats/unified_logging.py: UUIDTextFile.ReadFileObject, GetString, _ReadFileHeader, _ReadFileFooter"]}
{"id": "C78", "title": "Shared-cache string files resolve their images", "statement": "For every DSC file of version 1 or 2 each range is reported with the identifier, path and text range of the image its descriptor refers to; a descriptor with an image index outside the table makes the read fail with IndexError.", "quantifier": "all tables", "why_tests_cant": "All table sizes and index values.", "anchors": ["dtformats/unified_logging.py: DSCFile.ReadFileObject, _ReadRangeDescriptors, _ReadUUIDDescriptors"]}
{"id": "C79", "title": "Spotlight metadata items have the stored attributes", "statement": "For every record whose attributes are stored in the documented encodings with the property types of the file, the item has exactly these attributes with their values, except those in the last 4 bytes of the record; so a last attribute of at most 4 bytes is lost. The attribute of accumulated sizes also takes bytes that follow the record, and an attribute of an unknown type raises AttributeError.", "quantifier": "all records, attribute lists, property tables and surrounding data", "why_tests_cant": "All attribute encodings and lists.", "anchors": ["dtformats/spotlight_storedb.py: _ReadMetadataItem, _ReadMetadataAttribute and the value readers"]}
{"id": "C80", "title": "Spotlight property tables in streams maps", "statement": "Property types and values stored in streams maps are numbered from the second stream on, streams whose size does not match are skipped, lists give the names of the values with the stored indexes; every attribute value is read as stored, whatever follows it.", "quantifier": "all streams and values", "why_tests_cant": "All tables.", "anchors": ["dtformats/spotlight_storedb.py: _ReadPropertyTable..., _ReadMetadataAttributeStringValue and others"]}
{"id": "C81", "title": "Spotlight store files are read completely", "statement": "For every store file (header, map pages, property tables in pages or streams maps, plain, zlib and LZ4 record pages) the reader ends with the stored tables; the item of an identifier is the item of the last record with that identifier, there is none for any other identifier, and the number of items is the number of different identifiers.", "quantifier": "all store files without cycles, all decompressors", "why_tests_cant": "End-to-end over unbounded files.", "anchors": ["dtformats/spotlight_storedb.py: AppleSpotlightStoreDatabaseFile.ReadFileObject, GetMetadataItemByIdentifier, number_of_metadata_items"]}
{"id": "C82", "title": "WMF raster operation names", "statement": "The table of raster operations has exactly one code for each of the 256 operations; the name of a code, read in reverse Polish notation, denotes the operation of the code for all values of pattern, source and destination, except for 38 codes; other codes are unknown.", "quantifier": "all raster operation codes, all bits of pattern, source and destination", "why_tests_cant": "Meaning of 256 names over all operands.", "anchors": ["dtformats/wemf.py: _WMF_RASTER_OPERATIONS, WMFFile._ReadRecordData"]}
{"id": "C83", "title": "Restore Point logs are read as stored", "statement": "Reading an rp.log file gives the event type, Restore Point type, sequence number, description, unknown data and creation time of the file, and whatever is read is stored in the file; a file without Restore Point information is refused with ParseError. Information followed by 7 bytes is accepted although the creation time then overlaps the description, and fewer bytes raise ValueError. The values are shown with their documented names.", "quantifier": "all file contents", "why_tests_cant": "All descriptions and all sizes of the unknown data.", "anchors": ["dtformats/rp_log.py: RestorePointLogFile.ReadFileObject, _ReadFileHeader, _ReadFileFooter, _DebugPrintFileHeader"]}
{"id": "C84", "title": "Job files give the task configuration", "statement": "A read of a job file succeeds exactly if the file consists of a fixed size and a variable-length data section; the configuration then has the strings, retry values, priority and identifier of the file, whatever was read before; all errors are ParseError. A refused file can leave a mixture of two files, the offsets in the file are ignored, and the minor version is shown as the major version.", "quantifier": "all file contents and previous configurations", "why_tests_cant": "All string sizes, trigger counts and earlier states.", "anchors": ["dtformats/job.py: WindowsTaskSchedulerJobFile.ReadFileObject, GetWindowsTaskConfiguration, _FormatIntegerAsProductVersion"]}
{"id": "C85", "title": "Alias data records are read as stored", "statement": "Reading alias data of version 2 or 3 gives the values of the record and all tagged values with their tags, and whatever is read is stored that way; all other data are refused with ParseError. Data with more than one record are refused although documented, a version 2 record cut off before the tagged values is accepted, data behind the terminator are read as tagged values, and fractions of a second are shown as if they were decimals.", "quantifier": "all file contents and all UTF-8 decoders", "why_tests_cant": "All tagged values, sizes and paddings.", "anchors": ["dtformats/alias_data.py: MacOSLoginItemAliasData.ReadFileObject, _ReadTaggedValue, _FormatIntegerAsHFSTime64bit"]}
{"id": "C86", "title": "Bookmark data give the values of their tags", "statement": "Reading bookmark data succeeds exactly if they have the documented layout and the values have the types the tags call for, and gives for every tag of the table of contents, in its order, the string list, integer list, time, flags or value stored for it; with values of the right types all errors are ParseError, other types raise AttributeError or ValueError. Data with a second table of contents are refused.", "quantifier": "all file contents and all UTF-8 decoders", "why_tests_cant": "All record placements, offsets and types.", "anchors": ["dtformats/bookmark_data.py: MacOSBackgroundItemBookmarkData.ReadFileObject, _ReadDataRecord, _ReadTableOfContents, _ReadStringsArray, _ReadIntegersArray"]}
{"id": "C87", "title": "DetectionHistory files are read as stored", "statement": "Reading a DetectionHistory file succeeds exactly if the file is a sequence of values of the documented types with their padding, gives all of them in order, and otherwise fails with ParseError; every value is shown with its set and its position in the set. Threat tracking data give all keys and values whether or not the size counts itself; empty data and a size behind the end of the data raise ValueError.", "quantifier": "all file contents and all threat tracking data", "why_tests_cant": "All sequences of values and sizes.", "anchors": ["dtformats/detection_history.py: WindowsDefenderScanDetectionHistoryFile.ReadFileObject, _ReadValue, _ReadThreatTrackingData, _ReadThreatTrackingValue"]}
{"id": "C88", "title": "Jump List files are read as stored", "statement": "A DestList stream is read exactly if it consists of a header of version 1 to 4 and entries of that version, all of them are read, and every other stream is given as an entry under its name. A custom destinations file is accepted exactly if its categories end with their signature and have at most the given number of LNK entries; all LNK files are given, in order. All errors are ParseError and every read ends. Paths with unpaired surrogates are refused, the identifier of every custom entry is 0x00000000, entries of an earlier file stay.", "quantifier": "all stream and file contents and all LNK readers", "why_tests_cant": "All entries, path sizes, category counts and LNK sizes.", "anchors": ["dtformats/jump_list.py: AutomaticDestinationsFile.ReadFileObject, AutomaticDestinationsFile.GetJumpListEntries, CustomDestinationsFile.ReadFileObject, CustomDestinationsFile.GetJumpListEntries"]}
{"id": "C89", "title": "The chunks of a tracev3 file are read in order and completely", "statement": "Reading the log entries of a tracev3 file succeeds exactly if chunk headers, chunk sets (LZ4 or plain blocks) and their chunks reach the end of the file, gives the entries of all firehose, statedump and simpledump chunks in the order of the file, and a firehose chunk sees the last oversize chunk before it with its process and reference. Otherwise it ends with the first error, after the entries before it. A file written as documented is read completely. The entries cannot be read twice, some errors are not ParseError, and oversize chunks with private data are not read as documented.", "quantifier": "all file contents, LZ4 decompressors and chunk readers", "why_tests_cant": "All chunk sequences, sizes, paddings and interleavings of oversize chunks.", "anchors": ["dtformats/unified_logging.py: TraceV3File.ReadLogEntries, TraceV3File._ReadChunkSet, TraceV3File._ReadOversizeChunkData"]}
{"id": "C90", "title": "The catalog of a tracev3 file is read as documented", "statement": "A catalog is loaded exactly if it is stored at the offset with existing UUID indexes and different proc_ids; otherwise the first reason gives the error. The process information of a proc_id is the entry with that proc_id with the UUIDs at its indexes, the sub system and category of an identifier are the strings at the offsets of the last entry with it, and the process image is that of the main UUID. Offsets are counted in characters instead of bytes; missing UUIDs raise IndexError or AttributeError.", "quantifier": "all file contents, UTF-8 decoders and identifiers", "why_tests_cant": "All numbers of UUIDs, strings, entries and paddings.", "anchors": ["dtformats/unified_logging.py: TraceV3File._ReadCatalog, TraceV3File._BuildCatalogProcessInformationEntries, TraceV3File._GetSubSystemStrings, TraceV3File._GetProcessImageValues"]}
{"id": "C91", "title": "Every tracepoint of a firehose chunk becomes one log entry, in order", "statement": "Reading a firehose chunk gives the log entries of its tracepoints, in the order they are stored, up to the size of the public data; unused tracepoints are skipped. The members of activities, traces, log messages, signposts and losses are those that the flags and the log type call for, the values are what follows them. Reading stops at the first tracepoint that is not there, has an unsupported record type, log type or flag, or whose data does not suffice, after the entries before it. Chunks without activity, log message and signpost end with UnboundLocalError, and references to oversize data are read as 1 byte where 2 are documented.", "quantifier": "all chunk data, catalogs and functions that make log entries of tracepoints", "why_tests_cant": "All combinations of 16 flags, log types, numbers of tracepoints and items, and where they are cut off.", "anchors": ["dtformats/unified_logging.py: TraceV3File._ReadFirehoseChunkData, TraceV3File._ReadFirehoseTracepointData, TraceV3File._ReadFirehoseTracepointActivityData, TraceV3File._ReadFirehoseTracepointLogData, TraceV3File._ReadFirehoseTracepointSignpostData"]}
{"id": "C92", "title": "The values and the backtrace of a tracepoint are those that were stored with it", "statement": "The values of a log message or signpost are those of its data items, or of the oversize chunk it refers to: numbers from the item, strings and binary data from the values data, private ones from the private data at the end of the chunk, private ones without data as <private>; items that give a precision are no values. Value k is decoded with decoder k, the first one that cannot be decoded ends reading. The backtrace is the identifiers, offsets and indexes at the start of the values data if the flag for it is set; index 255 is no image and other indexes without identifier are an error. The values of a trace have 4 or 8 bytes, as the sizes after them say.", "quantifier": "all values data, private data, data items, oversize chunks and decoders", "why_tests_cant": "Combinations of kinds of items, offsets, sizes, flags and references to other chunks.", "anchors": ["dtformats/unified_logging.py: TraceV3File._ReadDataItems, TraceV3File._ReadBacktraceData, TraceV3File._GetDataItemsAndValuesData, TraceV3File._ReadFirehoseTracepointTraceValuesData, TraceV3File._ReadFirehoseChunkData"]}
{"id": "C93", "title": "The format string and the image of a tracepoint do not depend on what was read before", "statement": "The string reference, the dynamic flag and the program counter of a tracepoint are calculated from the stored values as documented. The strings file is that of the main image, the shared cache, the first image with the address, or the one the tracepoint names. Whatever the order of the tracepoints, the caches of files make no difference and stay within their limits; each tracepoint gets the image of itself or of an earlier one with the same identifier and reference, its own if these are alike. The cache ignores the dynamic flag, so that a dynamic and a static string with the same reference are mixed up; the address directly behind an image counts as in it.", "quantifier": "all sequences of tracepoints, catalogs, directories of strings files and stored values", "why_tests_cant": "Histories of lookups with eviction, overlapping references and address ranges.", "anchors": ["dtformats/unified_logging.py: TraceV3File._GetImageValues, TraceV3File._CalculateFormatStringReference, TraceV3File._CalculateNameStringReference, TraceV3File._CalculateProgramCounter, TraceV3File._GetDSCFile, TraceV3File._GetUUIDTextFile"]}
{"id": "C94", "title": "The log entry of a tracepoint has what the tracepoint, its catalog and its strings file say", "statement": "For every sequence of tracepoints, each log entry has the time, thread, trace identifier and event type that are stored, the process and sub system of the catalog, the message that is the format string filled with the decoded values (each by the decoder its conversion calls for), the program counter of the stored address, and the members of its kind: activity identifiers without their top bit, creator only for activities that are created, the scope, type and name of signposts, the counts of losses. Every tracepoint whose strings, values and process can be read gets an entry. A process without main executable gives an AttributeError, as does a named signpost outside all images; without uuidtext file the identifier of the process image is missing.", "quantifier": "all sequences of tracepoints, catalogs, strings files and decoders", "why_tests_cant": "Combinations of kinds, flags, caches and format strings over histories of tracepoints.", "anchors": ["dtformats/unified_logging.py: TraceV3File._ReadFirehoseChunkData, TraceV3File._DecodeValue, TraceV3File._GetProcessImageValues, LogEntry"]}
{"id": "C95", "title": "Simple dumps and state dumps become the log entry of what is stored", "statement": "For every SimpleDump or StateDump chunk, whatever tracepoints and dumps were read before, the log entry has the stored sub system, message, address, thread and times (or, for a state, the title and what the decoder named by its library and type shows), the process of the catalog and the sender; if there is none, the exception is the one of what is wrong: empty data, data that is too short or no UTF-8, a process that the catalog does not have, an image file that cannot be read. States with data of other types have an empty message; library and type names that are no UTF-8 give a UnicodeDecodeError.", "quantifier": "all chunks, catalogs, strings files, decoders and histories", "why_tests_cant": "The outcome depends on sizes, terminators, catalog and caches over histories; tests have a few chunks.", "anchors": ["dtformats/unified_logging.py: TraceV3File._ReadSimpleDumpChunkData, TraceV3File._ReadStateDumpChunkData"]}
{"id": "C96", "title": "Every documented value decoder shows every value as documented", "statement": "For each of the documented decoder names of unified logging format strings, and for every value: booleans, error numbers, file modes, IPv4 and IPv6 and socket addresses, UUIDs, masked hashes, DNS headers, Open Directory members and security identifiers, location states, signpost values, integers and texts are shown as the text of exactly what is stored; values of another size are shown as unsupported; there are no other decoders. IP addresses, UUIDs, masked hashes and security identifiers can be told from their texts. Socket addresses lose their port, file modes the set user, set group and sticky bits; error numbers below zero are never named; a missing value ends the reading with a TypeError or AttributeError for all but texts and masked hashes.", "quantifier": "all decoder names, values (bytes or missing) and conversions", "why_tests_cant": "Every value of every size for 45 decoders; tests have a value or two per decoder.", "anchors": ["dtformats/unified_logging.py: *FormatStringDecoder, TraceV3File._FORMAT_STRING_DECODERS, TraceV3File._DecodeValue"]}
{"id": "C97", "title": "Class definitions of a WMI repository are read exactly as stored", "statement": "For every object record of a class definition: the class definition that is read has the name, the super class name, the qualifiers and the properties with their index, offset, data type and qualifiers that are stored in the class definition block, and there is a class definition exactly if the record contains one; names are CIM strings or predefined names, qualifiers have lower-case names and the last value of a name counts. Otherwise there is a ParseError or ValueError and nothing else. A class is abstract with the value of its qualifier. Values of unsigned 32-bit qualifiers are lost, qualifiers that are references make the class unreadable, and the size of the values is read with 27 bits.", "quantifier": "all object records, codepage decoders and lower-case mappings", "why_tests_cant": "Every layout of names, qualifiers and properties with every data type; tests have one class definition block.", "anchors": ["dtformats/wmi_repository.py: ClassDefinition, ClassDefinitionReference, _ReadCIMString", "dtformats/wmi_repository.yaml: class_definition_block, qualifier_descriptor, property_definition"]}
{"id": "C98", "title": "The value map of a WMI class has every property of the class and its parent classes", "statement": "For every sequence of class definitions, base class first: the class value map has the name of the last class, the names of the parent classes from the nearest on, and for every property with a type qualifier its name, data type, offset, size and type; a property that is declared again counts with its last declaration, and one without type must be declared before. The size of the value data is the end of the first property with the largest offset, so that it contains every property if none overlap. A class value map is found by hash exactly if the class and all its parent classes are there; the lookup ends if no class is its own ancestor; maps that are kept between lookups never change a result. A missing parent class raises AttributeError instead of RuntimeError, a class that is its own ancestor makes the lookup endless, the dynasty is not the top-level class.", "quantifier": "all lists of class definitions, dictionaries of class definitions, hashes and sequences of lookups", "why_tests_cant": "Every inheritance chain and every sequence of lookups; tests build no map of more than one class.", "anchors": ["dtformats/wmi_repository.py: ClassValueDataMap.Build, PropertyValueDataMap, CIMRepository._GetClassValueMapByHash, CIMRepository._GetClassDefinitionByHash"]}
{"id": "C99", "title": "The properties of a WMI instance have exactly the stored values", "statement": "For every class value map and every instance block: the instance that is read has, for each property of the map, the value that is stored for it - booleans and integers in the property values data, strings and arrays of strings in the values data at the stored offset, none for offset 0 - and there is an instance exactly if the block contains one; the state bits, the qualifiers and the dynamic properties are skipped by their sizes. Otherwise there is a ParseError or ValueError and nothing else. With the class definitions of the repository the values of an object record are found exactly if its class and all parent classes are there. Instances with a property of type sint8, sint16, sint64, real32, real64 or char16 cannot be read; arrays of other values than strings have no value.", "quantifier": "all class value maps with unsigned offsets, instance blocks, object records and class definitions", "why_tests_cant": "Every combination of property types, offsets and dynamic blocks; tests have a few instances.", "anchors": ["dtformats/wmi_repository.py: Instance.ReadInstanceBlockData, InstanceReference.ReadObjectRecord, CIMRepository._ReadInstanceFromObjectRecord", "dtformats/wmi_repository.yaml: instance_block, property_value_*, cim_string_array, instance_object_record_v1, instance_object_record_v2"]}
{"id": "C100", "title": "The root nodes of a WMI repository file are found by their cell numbers", "statement": "Reading a cim.rep file finds the root namespace node and the system class node exactly at the data of the node cells whose numbers are in the file header, counting the cells in use from the first one on and stepping over the header of every further node bin; a cell number that the file does not reach is reported as missing. A file whose cells or bin headers are cut off is refused with a ParseError. If every cell in use has a size, reading ends. Findings: if both numbers are the same the system class node is not found, and a cell whose size has only upper bits set is read again and again without end.", "quantifier": "for all file contents (any bytes), all headers, any number of node bins and node cells", "why_tests_cant": "The position of a cell depends on the sizes of all cells and bins before it, and the number of cells and where bins end relative to cells is unbounded; tests with sample files reach only one layout and never the sizes that make the loop endless.", "anchors": ["dtformats/wmi_repository.py:2087-2137", "dtformats/wmi_repository.py:1679-1713", "dtformats/wmi_repository.yaml:904-947"]}
{"id": "C101", "title": "Instances and namespaces of a WMI repository file are those of the nodes below the root node", "statement": "Reading the instances of a cim.rep file yields, parents first and in stored order, exactly the instances of the root namespace node and of the nodes that the child objects trees lead to; every instance has the properties that its class definition and its instance block give it. Reading the namespaces yields the same hierarchy with every namespace named by its own name behind those of the namespaces it is in. Whatever is yielded, also before a failure, belongs to a node below the root node, and what is yielded is determined by the file. A file that cannot be read ends in a ParseError, ValueError, AttributeError or TypeError. Findings: children of trees of depth 0 are dropped although documented, None is yielded for branch nodes of another kind and makes the namespaces fail with an AttributeError, a namespace without a name and a root node that was not found are TypeErrors, instances never have a super class, and a node below itself makes reading endless.", "quantifier": "for all file contents (any bytes), all root offsets, hierarchies of any depth and width, any string decoder and lower case function", "why_tests_cant": "The hierarchy is an unbounded graph of offsets in untrusted data; sample files show a few trees that are well formed, not that no instance is lost, duplicated or put in another namespace for every layout, nor what happens with cycles and missing nodes.", "anchors": ["dtformats/wmi_repository.py:1226-1269", "dtformats/wmi_repository.py:1746-1774", "dtformats/wmi_repository.py:1852-2085", "dtformats/wmi_repository.yaml"]}
{"id": "C102", "title": "The class hierarchy of a WMI repository file yields the objects in the lists of its classes", "statement": "Reading the class definitions of a cim.rep file yields exactly the instances in the child objects list of the system class, in the order in which the elements are linked, and then those of the classes below it in stored order; every class definition on the way has to be readable. What is yielded is determined by the file. A file that cannot be read ends in a ParseError, ValueError or AttributeError, or in a TypeError if the system class was not found. Findings: no class definition is ever yielded, and a list element that is followed by itself makes reading endless.", "quantifier": "for all file contents (any bytes), all root offsets, lists and hierarchies of any size, any string decoder and lower case function", "why_tests_cant": "Lists are linked by offsets in untrusted data and classes are nested without bound; tests with sample files cannot show that every element is visited once and in order, or that a cyclic list never ends.", "anchors": ["dtformats/wmi_repository.py:1120-1159", "dtformats/wmi_repository.py:1788-1850", "dtformats/wmi_repository.py:2054-2063"]}
{"id": "C103", "title": "The class definitions and instances of a WMI repository are those its index keys lead to", "statement": "The class definitions that are made of the object records of a CIM repository (index.btr and objects.data) are exactly those of the records of the keys of type CD, by the name hash of the key (lower case); of two keys with the same hash the last one counts. The instances that GetInstances yields are exactly those of the records of the keys of type I and IL, in the order of the keys, each read with the class value map of the class its record names; that class value maps are kept makes no difference. Keys of another type or spelling are skipped. What is yielded before a failure are the instances of the first keys. Findings: an instance that an I and an IL key lead to is yielded twice; classes of the same name in two namespaces replace each other, so that instances are read with the class definition of another namespace; an instance of a class without definition is a RuntimeError and ends the iteration.", "quantifier": "for all lists of keys, all contents of objects.data (any bytes), any number conversion, lower case function, hash function and string decoder, class hierarchies of any depth", "why_tests_cant": "Keys, records, class definitions and kept class value maps interact; tests with a sample repository cover one combination and cannot show that the kept maps never change a result or that no key is lost.", "anchors": ["dtformats/wmi_repository.py:3740-3843", "dtformats/wmi_repository.py:3974-4105", "dtformats/wmi_repository.py:4199-4217"]}
{"id": "C104", "title": "GetNamespaces of a WMI repository yields the namespaces below the common ones, each once", "statement": "The namespaces that GetNamespaces yields for a CIM repository (index.btr and objects.data) are exactly made of the __NAMESPACE instances the index keys lead to, each object record once, in groups by the namespace they are in; the name of each is the name of the namespace it is in, a separator and its Name, where names start at the common namespaces. Every namespace in a namespace that is at most 4 steps below a common one is yielded, whatever the order in which the elements of a Python set come, and if all are, the result does not depend on that order but for the sequence and the letter case of names. The only failure once the keys have been followed is a TypeError for a namespace without Name. The list is kept for later calls. Findings: for deeper namespaces what is yielded depends on the order of set elements, and so does the letter case of names; a namespace in an unknown namespace is dropped silently; after a failed call the next call yields the part that was found before the failure without an error; a key without a second segment is an IndexError.", "quantifier": "for all lists of keys, all contents of objects.data (any bytes), all iteration orders of sets in every pass, any common namespaces, hash, lower case and number functions (names with the same hash have to stand for the same namespace for completeness)", "why_tests_cant": "Iteration over a set of strings depends on the hash seed of the run, so that a test sees one order; and nesting is not bounded, while the code makes five passes.", "anchors": ["dtformats/wmi_repository.py:4107-4179", "dtformats/wmi_repository.py:4219-4232", "dtformats/wmi_repository.py:3616-3631"]}
{"id": "C105", "title": "decode_nskeyedarchiver_plist decodes an archive to the values it stands for, whatever its layout", "statement": "DecodePlistFile of an archive by NSKeyedArchiver version 100000 returns the values of $top under their names, each with its references followed: null, booleans, numbers, text, data as URL-safe base64, lists, arrays, dictionaries, UUIDs, URLs and records of the supported classes. The result is unique and can be written as JSON, and does not depend on the layout: the order of the objects, objects nothing refers to, whether equal objects are shared or copied, references as UIDs (binary property list) or as CF$UID dictionaries (XML). Other archivers and versions, unsupported classes, missing members, keys and values that do not match in number, UUIDs that are not of 16 bytes and dates are a RuntimeError, references to missing objects an IndexError. Without a cycle of references decoding always ends; a value that needs itself is never decoded. Findings: of a set only the last element is returned, an empty set is an UnboundLocalError and a set of strings an AttributeError; members of records that are false, zero or empty are dropped; a dictionary without class is returned undecoded; the keys 1 and true are merged; negative CF$UID values count from the end.", "quantifier": "for all object lists, values and class records (trees of property list values of any depth), all archives in any layout, any amount of sharing; errors and termination for any contents", "why_tests_cant": "Archives are graphs: the same value can be stored in unboundedly many orders, with any sharing and in two spellings of references; a test has one of them, and cannot show that decoding always ends.", "anchors": ["scripts/decode_nskeyedarchiver_plist.py:24-294", "scripts/decode_nskeyedarchiver_plist.py:296-347"]}
{"id": "C106", "title": "Opening a tracev3 file finds its strings and timesync records and the log entries begin with the boot and clock changes", "statement": "A TraceV3File that is opened by path looks for the strings in the log archive that holds the file (at most two directories up) or in the directory uuidtext two directories up, and for timesync records in the directory timesync there or else diagnostics/timesync. It opens exactly those files that begin with a header chunk with supported flags and a nonzero timebase denominator, keeps the boot identifier of the header, and reads on at the next chunk, 8-byte aligned; anything else at the start is a ParseError. With timesync records of the boot ReadLogEntries yields an entry for the boot, one for each clock change in file order, then the entries of the chunks, and times are converted with these records. Findings: a file with fewer than two directories in its path that is not in a log archive is an IndexError; a relative path is looked up from the root directory; in a log archive without dsc directory neither strings nor timesync records are found; an object used for a second file keeps the places of the first one; the tag of the first chunk is not looked at.", "quantifier": "for all paths, all file systems (which paths exist and what directories contain), all contents (any bytes), all earlier states of the object, all timesync directories", "why_tests_cant": "The places depend on the path and on what exists around the file; tests open one file at one path of the source tree, which has none of these directories.", "anchors": ["dtformats/unified_logging.py:4919-5011", "dtformats/unified_logging.py:4597-4646", "dtformats/unified_logging.py:5013-5090", "dtformats/file_system.py:149-193"]}
{"id": "C107", "title": "unified_logging shows every log entry once, in the order of timestamps", "statement": "The script unified_logging.py shows, for a tracev3 file, every log entry that ReadLogEntries yields exactly as often as it is yielded, and never one before another with a smaller timestamp; if no two log entries have the same timestamp, what is shown does not depend on the order in which they are read. Finding: log entries with the same timestamp are not kept in the order of the file.", "quantifier": "for all lists of log entries of any length, all timestamps", "why_tests_cant": "The order comes from a heap whose shape depends on the whole sequence of timestamps; there are unboundedly many, and there is no test of the script.", "anchors": ["scripts/unified_logging.py:22-58", "scripts/unified_logging.py:235-251", "dtformats/unified_logging.py:201-213"]}
{"id": "C108", "title": "unified_logging --format json shows each log entry as a JSON object with exactly its members", "statement": "With --format json the script unified_logging.py prints, after its first line and for one or more log entries, a JSON array with one object per log entry in the order of timestamps. No object has a member twice, and its members are exactly those of the kind of event, with the values of the log entry: texts are escaped so that a reader gets back the message (without white space at its end, shortened if it is long), format string and paths; times, UUIDs, backtraces, losses and signposts are shown where they exist; the parent activity is the stored one or else the creator of the activity that was last shown. This holds for log entries whose category, subsystem, signpost texts and sender path need no escapes and whose messages have no control characters but tab and end of line. Findings: the whole output is never JSON because of the first line; no log entries give an array with one empty object; any other control character in a message makes the array invalid; a backslash in the sender path changes the path; a quotation mark in a category can add members or make the string invalid; messages of 1085 to 1087 characters are shown complete but marked as shortened.", "quantifier": "for all lists of log entries of any length, all texts, numbers, UUIDs, times and backtraces", "why_tests_cant": "Whether the text is valid JSON with the right values depends on every character of every text and on the history of activities; there is no test of the script.", "anchors": ["scripts/unified_logging.py:62-85", "scripts/unified_logging.py:197", "scripts/unified_logging.py:240-510", "scripts/unified_logging.py:539-540", "dtformats/unified_logging.py:2598"]}
{"id": "C109", "title": "Reading an AMCache file with debug output shows exactly the values below its Root key", "statement": "Reading an AMCache file with debug output either ends with an error or shows, in this order, the file references of all volumes, the programs, the applications and the application files below Root: each key with its title, all its values in their order and an empty line, and nothing else. Each value has the documented description or else its name, its data is what its type says, versions are two numbers of 16 bits, times are shown as times, and lists line by line. A file with an unknown root key, or without Root, shows nothing. A file whose values can be read, whose file names are as documented, whose versions are integers and whose lists are not integers is read without an error. The documented name of an NTFS file (sequence number, 0000, MFT entry) is shown with both numbers if the sequence number is not a multiple of 16 and the entry has no 0000 in it. Findings: zeros at the end of the sequence number are lost (16 is shown as 1); an MFT entry such as 65536, or a name that ends with 0000, ends the reading of the whole file with ValueError; a list that is stored as one string is shown character by character; a version that is a string, or a list that is an integer, ends the reading with TypeError.", "quantifier": "for all trees of keys and values, all texts and numbers, all positive sequence numbers below 65536 and all positive MFT entries", "why_tests_cant": "The result depends on the whole tree of keys and on the digits of every file reference; the tests read at most one file.", "anchors": ["dtformats/amcache.py:12-55", "dtformats/amcache.py:57-90", "dtformats/amcache.py:92-182", "dtformats/amcache.py:184-274", "documentation/AMCache file (AMCache.hve) format.asciidoc:494-495"]}
{"id": "C110", "title": "Debug output does not change what is read from the files of a WMI repository", "statement": "What is read from the index, a mapping file or a class definition of a WMI repository with debug output is what is read without it. Findings, because formatted numbers are unpacked into two variables: with debug output an index page can be read exactly if it has no keys, no values and one sub page whose number has two decimal digits, or if it is not of type 0xaccc, and every other page is a ValueError; of the sub page number only the first digit is shown. As all pages are read when an index file is opened with debug output, the file can be opened exactly if all of its pages are of that kind and its size is a multiple of that of a page. No key of the index is ever listed. A mapping file with an entry in its second table that does not have two digits is a ValueError. A repository file with a node cell cannot be opened, no instance can be read, and a class definition can be read exactly if it has no properties.", "quantifier": "for all contents of the files, all page tables, all numbers of pages and all class and instance data", "why_tests_cant": "The error depends on the number of characters of every number that is shown; tests of single pages or tables cannot show that no index with keys, no repository file and no instance can be read with debug output.", "anchors": ["dtformats/wmi_repository.py:335-373", "dtformats/wmi_repository.py:401-487", "dtformats/wmi_repository.py:517-569", "dtformats/wmi_repository.py:623-635", "dtformats/wmi_repository.py:689-717", "dtformats/wmi_repository.py:818-841", "dtformats/wmi_repository.py:1679-1713", "dtformats/wmi_repository.py:2298-2326", "dtformats/wmi_repository.py:3117-3121"]}
{"id": "C111", "title": "Debug output of keychain files shows the values that are read", "statement": "What is read from a keychain with debug output is what is read without it, and reading with debug output fails only as without it or with an IndexError, TypeError or ValueError. For every record of a relation the text has the header, the list of offsets, the key data, the data of the values and, for every column, the data from the offset of its value up to the first boundary (the start of another value or the end of the record) behind this and all earlier values. If the offsets are in the order of the columns, every byte from the first value on is shown exactly once. The lists of record offsets and table offsets determine the offsets. Findings: a value stored before that of an earlier column is shown with more than its own data; a value behind the record, of a type that is not read, is an IndexError with debug output only; with a column without a name no record of the relation can be read with debug output; the data size of schema records is used with debug output only, and one that is too small is a ValueError; every offset is shown as the text of a tuple, as in ('0x00000010', False).", "quantifier": "for all contents of the file, all schemas, and all records and lists of offsets", "why_tests_cant": "What is shown for a value depends on the offsets of all other values of the record, which can be in any order; tests of single files cannot show that no byte is left out or shown twice.", "anchors": ["dtformats/keychain.py:132-147", "dtformats/keychain.py:149-190", "dtformats/keychain.py:390-486", "dtformats/keychain.py:488-561", "dtformats/keychain.py:563-711", "dtformats/keychain.py:713-847", "dtformats/keychain.py:849-949"]}
{"id": "C112", "title": "Debug output of BSM event auditing files shows the values of every token", "statement": "The records read from a BSM event auditing file with debug output are those read without it, and reading with debug output fails only as without it or with an IndexError, TypeError or ParseError. The output of a file that can be read is that of its records, one after the other: for every token its offset, its type, its description, all of its data and the text of its values; the first token that cannot be shown decides the exception. The text of a token determines its type and all values that are shown (all values but the start of the IP header of AUT_IP), provided that texts have no line breaks. The texts of headers, trailers, return values, paths, texts, subjects and processes are given exactly. Findings: files with AUT_EXIT, AUT_IPC_PERM, AUT_GROUPS, AUT_NEWGROUPS, AUT_EXEC_ARGS or AUT_EXEC_ENV tokens, and those with net types other than 4 and 16, can be read but not shown; the header of every record is shown twice; a text with line breaks is shown as it is and can hold what looks like further tokens.", "quantifier": "for all contents of the file, all sequences of records and tokens, all values, and all texts of dates and times", "why_tests_cant": "Each of more than thirty token types has its own table of attributes and formats; that no two tokens of a type have the same text is a statement about all pairs of values, and which files can be shown depends on any token of any record.", "anchors": ["dtformats/bsm.py:26-650", "dtformats/bsm.py:762-803", "dtformats/bsm.py:813-850", "dtformats/bsm.py:852-900", "dtformats/bsm.py:902-1006", "dtformats/data_format.py:397-414", "dtformats/data_format.py:489-563", "dtformats/data_format.py:671-742", "dtformats/bsm.debug.yaml:1-437"]}
{"id": "C113", "title": "Hashes of the files of a CPIO archive", "statement": "The CPIO script with --hash writes, for a file that holds an archive of one path, as it is or compressed with gzip, bzip2 or xz, the SHA-256 of exactly the data of the first member of that path, a tab, and the path; members without data have no line. A file that starts with no signature of an archive or of compressed data is reported as unsupported, and for an empty file nothing is written. Findings: a file that starts with such a signature is never hashed without an exception, whatever follows: the archive is closed although it was never opened (OSError), so at most one line is written and what follows the first archive is not read; for an archive of two paths or more nothing is written at all, because its file entries cannot be sorted (TypeError).", "quantifier": "for all contents of the file, all archives in any of the CPIO formats, all hash functions and all results of decompression", "why_tests_cant": "That no file at all can be hashed without an exception, and that the hash is of exactly the archived bytes although they are read in pieces of 4096, is about all files; the script has no tests.", "anchors": ["scripts/cpio.py:25-133", "dtformats/cpio.py:321-347", "dtformats/cpio.py:363-375", "dtformats/cpio.py:391-421", "dtformats/data_format.py:855-900", "dtformats/data_range.py:1-127"]}
{"id": "C114", "title": "Tables of the Spotlight script are aligned and show the values", "statement": "A table of the Spotlight script is written as one line for each row. Each column is as wide as the least multiple of eight that none of its values exceeds, and on a terminal with tab stops at every eighth column all rows of plain values are aligned. Rows of different numbers of values are a ValueError. If values are plain, not empty and shorter than their column is wide, the text determines the table. A metadata item (--item) is shown as one line for each of thirty attributes, in a fixed order, with its value at column 40; if the values have no line breaks the output determines the texts of all values. Without --item the version of the metadata, the number of items and the properties of the database are shown, exactly as stated. Findings: a value that fills its column is followed by the next value without anything in between, so different tables have the same text; an item with an attribute of several strings is not shown at all (TypeError); if there is no such item the script says so and then fails with an UnboundLocalError.", "quantifier": "for all tables of any number of rows and columns, all values, all metadata items with any attributes, and all database files", "why_tests_cant": "Alignment depends on the longest value of every column and on the lengths modulo eight; that no two tables have the same text is about all pairs of tables; the script has no tests.", "anchors": ["scripts/spotlight_storedb.py:20-65", "scripts/spotlight_storedb.py:88-160", "scripts/spotlight_storedb.py:268-353", "dtformats/spotlight_storedb.py:999-1082"]}
{"id": "C115", "title": "Entries shown by the LevelDB and IndexedDB scripts", "statement": "Of a LevelDB table file the script shows all entries that are read, in their order, one line each, up to the first error; the lines of two files are the same only if all keys, sequence numbers, values and types (deletion, value or any other) are. The same holds for the IndexedDB script, with the segments of the keys in place of the keys. Findings: a file of less than eight bytes, such as an empty log, cannot be shown although it can be read (OSError); of log and descriptor files nothing is shown but the title; with a storage media image only the last eight bytes are those of the file in the image, everything else is read from the file of the same path on the system.", "quantifier": "for all contents of files, all keys and values of any bytes, all numbers of entries and all decompressors", "why_tests_cant": "That no two sequences of entries have the same output is about all pairs of keys and values of any bytes, including quotes, backslashes and line breaks; the scripts have no tests.", "anchors": ["scripts/leveldb.py:76-138", "scripts/indexeddb.py:76-110", "dtformats/leveldb.py:239-271", "dtformats/leveldb.py:599-835", "dtformats/indexeddb.py:35-107", "dtformats/data_format.py:840-900"]}
{"id": "C116", "title": "Schema and content shown by the keychain script", "statement": "Of a keychain file the script shows all tables in the order in which they are defined: the schema with a line for every column, in order, or with --content the names of the columns and a line for every record. In tables other than the three schema tables the values of a record are in the order of the columns when these have different names. Records of columns of the same types have the same lines only if all values are the same, provided that texts have no tabs or line breaks and are not NULL. A file that was read fails to be shown only with TypeError, exactly when a column has no name (content) or no identifier or type (schema). Then all tables before that of the column and its title are shown. Findings: text NULL is shown as no value and text with a line break as two records; of columns with the same name only the first is shown, with the value of the last, and all later values are below wrong names; records of the table of attributes are shown with five values although they have six, so that the format is below the name identifier; columns without name, identifier or type make the script fail.", "quantifier": "for all contents of files, all tables, columns and records of any number, all values", "why_tests_cant": "That the values are below the right names and that no two sequences of records have the same lines is about all files and all values; the script has no tests.", "anchors": ["scripts/keychain.py:11-21", "scripts/keychain.py:81-147", "dtformats/keychain.py:390-486", "dtformats/keychain.py:563-847"]}
{"id": "C117", "title": "Entries shown by the Jump List script", "statement": "The script shows all entries of a Jump List, all items of their targets and all their data blocks, in order and below their numbers, each as on its own. It fails exactly if a property has a type that is not supported, with RuntimeError. On a terminal all values are in the same column, for all descriptions of less than 72 columns. Two file references are shown alike only if they are the same; those greater than 2^48 as MFT entry and sequence number. The data flags are shown alike exactly if nine of their bits are the same. Findings: the attribute flags of shell items are shown after 0x08, as another number of ten digits; the file reference of MFT entry 0 with sequence number 1 is shown as a plain number; a property of a type that is not supported, such as a 16-bit integer, ends the output, and no entry after it is shown.", "quantifier": "for all lists of entries with any number of items, extension blocks, data blocks and properties, all values, all descriptions", "why_tests_cant": "That all values are aligned and that no two references or flags are shown alike is about all values; the script has no tests.", "anchors": ["scripts/jump_list.py:29-460", "scripts/jump_list.py:545-567", "dtformats/output_writers.py:62-72"]}
{"id": "C118", "title": "Instances, namespaces and keys shown by the WMI repository script", "statement": "Of every instance the script shows ten values and all its properties, sorted by name, one on each line, with all colons in the column after the longest name; the relative path names the instance if it has a Name that is a string. All instances are shown in the order in which they are read, up to the first that cannot be read or shown. Two instances of one-line names and values are shown alike only if they have the same class, path, property names and texts of the values. An instance cannot be shown exactly if its Name is true, a number other than 0 (ValueError) or a list of strings (TypeError). With --output_mode namespaces all namespaces are shown sorted, or none if one cannot be read; with index all keys are shown in order. Findings: all instances are shown with the namespace ROOT, whatever namespace they are of; an entry of a repository file that the reader yields as None ends the output with an AttributeError.", "quantifier": "for all instances with any classes, properties and values, all sequences of instances, namespaces and keys, and all ways their reading ends", "why_tests_cant": "Alignment to the longest name and that different instances are shown differently are about all sets of properties; the script has no tests.", "anchors": ["scripts/wmi_repository.py:13-71", "scripts/wmi_repository.py:148-160", "dtformats/wmi_repository.py:4199-4232"]}
{"id": "C119", "title": "Structures shown by the data format analyzer script", "statement": "The script shows five structures of a file in order; for each it writes what reading it writes and then the text that the structure has on its own, whatever was shown before, up to the first structure that cannot be read or shown, whose error is raised. Of a structure exactly the members that are numbers, sequences, data, strings or UUIDs, or that are named as a checksum or an offset, are shown, in the order of the definition, each after its description. The elements of a sequence are shown in order, each below its number and with the text it has on its own. A structure of integers always has a text, and two such structures of one data type have the same text only if all members are equal. Findings: a member that is itself a structure is never shown, so structures that differ only in it have the same text; each element of a sequence of integers is shown as an empty line; a data member whose name ends in checksum makes the script fail with a TypeError.", "quantifier": "for all data type definitions, all values of any nesting, all results of reading the five structures, and all that was shown before", "why_tests_cant": "That the remembered descriptions of data types never change a text, and that a text determines its structure, are about all definitions, values and orders; the script has no tests.", "anchors": ["scripts/analyzer.py:13-163", "dtformats/data_format.py:489-563"]}
