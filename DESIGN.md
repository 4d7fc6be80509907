# Formal model of libyal/dtformats in Rocq

## Method

- The model is a shallow embedding: every Python function that is covered becomes a small total Gallina
  function that follows the source branch by branch. Each definition cites the file and lines it models.
- Bytes and strings are `list Z`, integers are `Z`, exceptions are values of `result` (`Ok`/`Err exn`).
- Loops are structural recursion, or recursion on fuel with a distinguished out-of-fuel result that the
  theorems exclude (termination theorems state how much fuel suffices; refutations show a state recurs).
- External code (zlib, snappy, lz4, dtFabric maps of unbounded generality, the file system) appears as
  function arguments quantified in the theorems, never as an axiom.
- When the code violates the natural property, the exact guard is part of the positive theorem and a
  `..._refuted` theorem shows with a computed witness that the guard is necessary.

File naming: `XModel.v` (definitions only), `XSpec.v` (independent specification), `XProofs.v` (lemmas),
`XProps.v` (the property theorems, each closed by `exact`, with `Print Assumptions` and examples).

## Trusted base

- Coq 8.16.1's kernel (including `vm_compute`), and the faithfulness of the model to the source, which
  was established by reading. The code was not run, with one exception that was against the
  instructions: the three Prefetch hash functions (`prefetch.py`) and `SuperFastHash`
  (`chrome_cache.py`) were once executed on one input each, when the examples of C31 to C33 were
  written. No theorem depends on it; the values in the examples are computed by Coq.
- `Print Assumptions` is stated under each property theorem; all theorems listed in MANIFEST.json are
  "Closed under the global context". No axiom is added. (A listing of all axioms in the loaded environment
  shows those of `Coq.ssr.ssrunder.Under_rel`, part of Coq's own ssreflect library, which `zify`/`lia` load
  but no theorem depends on.)
- Python floats (unified logging time conversion) are modelled by exact integer arithmetic as IEEE 754
  binary64 numbers with round-half-even, without overflow and subnormal numbers, which the value ranges
  exclude; floating-point formatting is left to a function argument.
- Python semantics assumed: slicing, negative indexes, `int(b, base)`, `str.split/join`, `dict` insertion
  order, file `seek/read` as in the comments of `Base.v`:
  files are those of `open(path, "rb")`, a read with a size below -1 is a ValueError (`io.BytesIO`
  would read everything); offsets and sizes of 2^63 and more, at which such files raise other
  errors, are only distinguished in the journal model (C66).
- dtFabric semantics assumed: a fixed-size structure map reads its members in order with the byte order and
  sizes of the YAML definition, and fails when the data is too short.

Not modelled: debug printing (unless a property is about it), logging, argument parsing in `scripts/`,
date/time rendering through dfdatetime, character decoding by codecs (uninterpreted where needed),
operating-system failures other than short reads.


## Modelled code

Lines of the sources (under dtformats/) that model definitions cite; the comments of the definitions say
where they are simplified. Everything else is not modelled.

- `alias_data.py`: 34-53, 55-82, 84-108, 110-134, 136-161, 163-191
- `amcache.py`: 12-47, 49-54, 57-90, 92-111, 132-140, 142-182, 184-200, 202-226, 228-235, 237-274
- `asl.py`: 60-143, 177-247, 249-266
- `bookmark_data.py`: 54-78, 80-104, 106-127, 152-181, 183-268
- `bsm.py`: 26-650, 762-803, 813-850, 852-868, 870-882, 884-900, 902-941, 943-973, 994-1006
- `bsm.yaml`: 60-692
- `chrome_cache.py`: 13-74, 77-142, 144-170, 173-195, 231-266, 345-377, 379-424, 524-558, 575-618, 620-631, 659-752, 754-788
- `cpio.py`: 11-43, 169-319, 321-342, 344-347, 349-361, 363-375, 377-389, 391-421
- `cups_ipp.py`: 108, 122-183, 185-218, 220-238, 240-280, 282-305, 327-337
- `darwin.py`: 6-120
- `data_format.py`: 22-31, 45-47, 49-56, 72-81, 90-158, 160-227, 229-241, 243-256, 258-273, 275-293, 295-317, 342-376, 397-414, 454-463, 465-476, 478-487, 489-538, 540-549, 551-563, 590-669, 671-744, 780-821, 848-864, 866-879
- `data_range.py`: 15-28, 33-70, 72-96, 98-121
- `debug.yaml`: 1-437
- `detection_history.py`: 91-131, 160-190, 192-231, 233-249, 251-273
- `dfvfs_helpers.py`: 88
- `file_system.py`: 113-122, 149-158, 182-193
- `firefox_cache1.py`: 33-51, 53-82, 104-118, 140-158, 160-189, 191-214
- `fseventsd.py`: 22-25, 36-60, 105-130
- `gzipfile.py`: 36, 38-57, 59-77, 79-97, 99-165, 167-182
- `indexeddb.py`: 35-73, 75-107
- `job.py`: 6-32, 114-125, 191-236
- `jump_list.py`: 16-48, 83-93, 95-119, 121-153, 155-179, 181-209, 223-232, 265, 267, 269, 286-296, 298-320, 322-385, 387-408, 410-439, 441-450, 452-521
- `keychain.py`: 11-25, 28-44, 68-92, 94-103, 105-111, 132-147, 149-161, 163-173, 192-234, 236-278, 280-320, 322-364, 366-388, 390-486, 488-535, 537-561, 563-711, 713-777, 779-847, 849-890, 918-949
- `leveldb.py`: 36-58, 79-105, 119-144, 146-186, 188-212, 214-237, 239-271, 288-389, 391-410, 459-507, 509-536, 559-597, 599-623, 645-808, 810-821
- `macos_core_location.yaml`: 7-50, 88-97, 99-152, 154-223
- `macos_mdns.yaml`: 21-34, 36-53, 55-66
- `macos_open_directory.yaml`: 21-50
- `output_writers.py`: 62-72
- `prefetch.py`: 4-25, 28-44, 47-88
- `recycle_bin.py`: 7-16, 42-71, 73-108
- `recycler.py`: 33-50, 52-103, 105-128, 141-146
- `rp_change_log.py`: 10-28, 166-179, 181-297, 299-369, 371-446, 448-481, 483-493
- `rp_log.py`: 14-28, 50-72, 74-92, 94-111, 113-126
- `safari_cookies.py`: 70-96, 116-173, 175-227, 229-238, 240-306, 308-316
- `scripts/analyzer.py`: 16-23, 35-68, 70-96, 98-120, 122-139, 149-163
- `scripts/cpio.py`: 50-133
- `scripts/decode_nskeyedarchiver_plist.py`: 24-41, 43-65, 67-89, 91-107, 109-138, 140-168, 170-193, 195-219, 222-239, 241-294, 296-315, 317-347
- `scripts/indexeddb.py`: 76-110
- `scripts/jump_list.py`: 32-44, 46-63, 65-86, 88-135, 137-227, 229-307, 309-337, 339-366, 368-403, 405-425, 439-460, 549-563
- `scripts/keychain.py`: 11-21, 81-147
- `scripts/leveldb.py`: 76-134
- `scripts/spotlight_storedb.py`: 20-51, 54-65, 88-160, 268-353
- `scripts/unified_logging.py`: 29-38, 40-50, 52-58, 62-85, 197, 236-238, 240-247, 250-251, 254-257, 259-510, 539-540
- `scripts/wmi_repository.py`: 13-62, 65-71, 148-150, 152-154, 156-160
- `spotlight_storedb.py`: 203-229, 273-299, 344-405, 441-444, 577-629, 631-677, 711-739, 741-836, 838-918, 920-952, 954-970, 972-997, 999-1082, 1084-1126, 1128-1218, 1220-1278, 1280-1326, 1328-1390, 1392-1436, 1438-1468, 1470-1526, 1528-1561, 1563-1580, 1582-1656, 1658-1712, 1714-1765, 1767-1834, 1836-1892, 1894-1926, 1953-1962, 1964-2022
- `systemd.py`: 145-191, 193-235, 237-279, 281-315, 345-374
- `systemd.yaml`: 44-109, 111-125, 127-157, 159-199, 201-221
- `tzif.py`: 98-129, 190-229, 253-272, 295-334, 399-416
- `unified_logging.py`: 69-101, 121-197, 202-213, 216-496, 516-546, 549-567, 570-591, 594-616, 622-629, 631-669, 672-701, 704-721, 755-789, 801-804, 806-825, 837-866, 868-892, 898-904, 906-922, 928-948, 954-987, 989-1007, 1013-1030, 1045-1052, 1056-1064, 1068-1081, 1085-1113, 1119-1143, 1149-1179, 1187-1213, 1218-1239, 1245-1271, 1277-1345, 1351-1436, 1448-1456, 1458-1491, 1497-1529, 1535-1556, 1562-1632, 1634-1651, 1666-1685, 1700-1770, 1772-1789, 1804-1823, 1829-1865, 1871-1898, 1904-1932, 1938-1950, 1962-1993, 2032-2072, 2074-2096, 2098-2140, 2166-2213, 2215-2253, 2255-2290, 2327-2368, 2381-2397, 2437-2440, 2442-2447, 2497-2513, 2515-2517, 2519-2587, 2598, 2622-2687, 2689-2721, 2723-2751, 2753-2792, 2794-2823, 3043-3122, 3124-3272, 3274-3300, 3302-3333, 3335-3371, 3373-3391, 3393-3406, 3408-3434, 3436-3457, 3485-3517, 3519-3590, 3592-3615, 3617-3736, 3738-3786, 3788-3896, 3898-4307, 4345-4553, 4555-4595, 4597-4646, 4648-4685, 4687-4762, 4764-4853, 4855-4901, 4919-5005, 5013-5090, 5170-5211, 5237-5255, 5282-5287
- `usn_journal.py`: 24-45, 58-85
- `utmp.py`: 16-27, 29-75, 94-111, 113-120, 131-144, 146-179, 198-233
- `wemf.py`: 12-35, 51-54, 115-136, 138-168, 170-216, 218-230, 316-325, 328-585, 645-669, 671-689, 691-721, 723-815, 817-843
- `windows_nt.yaml`: 38-54
- `wmi_repository.py`: 16-35, 38-73, 75-142, 146-170, 184-194, 223-247, 273-298, 335-373, 375-387, 401-487, 517-569, 589-598, 606-621, 623-635, 659-665, 689-703, 705-717, 719-735, 737-758, 760-788, 790-841, 843-849, 851-857, 859-900, 919-962, 964-979, 1011-1026, 1038-1071, 1120-1159, 1226-1269, 1679-1713, 1746-1774, 1788-1850, 1852-1917, 1919-2002, 2004-2052, 2054-2085, 2087-2137, 2176-2205, 2208-2218, 2276-2283, 2298-2326, 2414-2453, 2485-2508, 2553-2661, 2697-2703, 2705-2778, 2832-2864, 2900-2932, 2969-2985, 3019-3246, 3438-3457, 3546-3559, 3561-3614, 3616-3631, 3633-3650, 3652-3676, 3705-3718, 3720-3738, 3740-3799, 3801-3843, 3845-3972, 3974-4010, 4017-4105, 4107-4179, 4219-4232, 4234-4242, 4245-4261, 4263-4325
- `yaml_definitions_file.py`: 65-79, 81-159

Source files without any modelled line: `decorators.py`, `errors.py`, `shell_property_keys.py`; also everything under `scripts/` and `tests/` except the scripts listed above.

## Properties

### C01 A data range never exposes bytes outside its window — proved

For every parent file, every window (data_offset, data_size) and every current position, DataRange.read() and DataRange.read(n) with n >= 0 return exactly the bytes of the parent that start at data_offset + position and stay below data_offset + data_size (cut at the end of the parent). The guard n >= 0 is tight: read(n) with n < 0 returns parent bytes behind the window.

- Quantifier: all parent contents, windows, positions and size arguments
- Code: dtformats/data_range.py: DataRange.read
- Model and proof: DataRange modelled as a record over a file; theorem by case analysis on clamping plus slice lemmas; refutation by a computed witness.
- Theorems: `C01_range_read_is_window`, `C01_range_read_confined`, `C01_range_invalid_window`, `C01_range_negative_size_refuted`
- Note: Finding: DataRange.read(n) with n < 0 is passed to the parent and leaks bytes behind the window.

### C02 Sequential reads of a data range are one contiguous read — proved

For every sequence of non-negative read sizes issued on a data range, the concatenation of the results equals the single slice of the window of the summed size, and the offset reported afterwards is the number of bytes delivered.

- Quantifier: all read schedules (lists of sizes), all windows and parents
- Code: dtformats/data_range.py: DataRange.read, get_offset
- Model and proof: Induction over the schedule with the invariant position = bytes delivered so far.
- Theorems: `C02_sequential_reads`

### C03 Seeking a data range is exact and failures change nothing — proved

A seek relative to the start, the current offset or the end moves the reported offset to exactly the requested absolute position, also beyond the end; every rejected seek (negative target, unknown whence, negative window size) raises OSError and leaves offset and subsequent reads unchanged; reads behind the end return no bytes.

- Quantifier: all states, offsets and whence values
- Code: dtformats/data_range.py: DataRange.seek, read, tell
- Model and proof: State-machine model returning (result, new state); theorem over all operations.
- Theorems: `C03_seek_exact`, `C03_seek_failure_keeps_state`, `C03_read_behind_end`

### C04 Data ranges over one parent do not disturb each other — proved

For every interleaving of seek and read operations on any number of data ranges that share one parent file object, each range returns exactly what it would return if it were used alone.

- Quantifier: all interleavings of operations on all ranges, all parents
- Code: dtformats/data_range.py: DataRange.read, seek
- Model and proof: Model with one shared parent position; simulation between the interleaved run and the projected solo run, by induction over the operation list.
- Theorems: `C04_ranges_independent`

### C05 Data reads are all or nothing — proved

Reading data_size bytes at an offset either returns exactly the data_size bytes stored there, or raises ParseError (OSError for a negative offset, ValueError for a size below -1); a truncated file never yields short data, and a request with a negative size never succeeds.

- Quantifier: all file contents, offsets and sizes
- Code: dtformats/data_format.py: BinaryDataFormat._ReadData
- Model and proof: Direct model; case analysis.
- Theorems: `C05_read_all_or_nothing`

### C06 A structure read is mapped from exactly the bytes it reports — proved

For every data type map (any size-hint and mapping behaviour), when reading a structure from a file succeeds with size n, the structure was mapped from exactly the n bytes at the requested offset of the file, all of them present; otherwise the read raises ParseError (OSError for a negative offset, ValueError if the size hints of the map shrink). No bytes are skipped or read twice when the size grows.

- Quantifier: all data type maps, file contents and offsets
- Code: dtformats/data_format.py: BinaryDataFormat._ReadStructureFromFileObject
- Model and proof: Grow loop modelled with an oracle for GetSizeHint and MapByteStream; loop invariant data = file[offset:offset+last_data_size].
- Theorems: `C06_structure_mapped_from_its_bytes`, `C06_structure_errors`, `C06_structure_errors_growing`, `C06_fixed_structure_complete`

### C07 Reading a structure always terminates — proved

For every data type map, even one whose size hints never agree, reading a structure terminates: every iteration either ends the loop or has read strictly more bytes, so there are at most file-size + 1 successful data reads.

- Quantifier: all size-hint oracles (adversarial), files and offsets
- Code: dtformats/data_format.py: BinaryDataFormat._ReadStructureFromFileObject
- Model and proof: Fuel bounded by the file size shown sufficient for any oracle.
- Theorems: `C07_structure_read_terminates`

### C08 Open/Close life cycle of a binary data file — proved

For every history of Open and Close calls: Open on an open object and Close on a closed object raise OSError without touching any file handle; after a successful Open exactly one handle is held, Close closes exactly that handle, and no handle is closed twice. When reading fails during Open the object stays closed (and the handle opened for it is never closed: a leak the theorem exhibits).

- Quantifier: all histories of Open/Close calls with arbitrary read outcomes
- Code: dtformats/data_format.py: BinaryDataFile.Open, BinaryDataFile.Close
- Model and proof: Transition system over (object state, set of live handles, log of closed handles); invariant by induction over the history.
- Theorems: `C08_open_close_protocol`, `C08_handles_invariant`, `C08_failed_calls_touch_no_handle`, `C08_close_closes_the_held_handle`, `C08_live_handles_are_held_or_leaked`
- Note: Finding: a handle whose ReadFileObject fails during Open is never closed; the theorem counts the leak exactly. _path also keeps the path of the failed Open.

### C09 A hexadecimal dump is lossless — proved

The hexadecimal dump determines the dumped data: two different byte strings never have the same dump, even though runs of repeated lines are abbreviated with '...'.

- Quantifier: all byte strings of all lengths
- Code: dtformats/data_format.py: BinaryDataFormat._FormatDataInHexadecimal
- Model and proof: Specification decoder that reads offsets and byte columns and expands '...'; decode(dump d) = d by induction over 16-byte blocks.
- Theorems: `C09_hexdump_decodes`, `C09_hexdump_lossless`

### C10 Hexadecimal dump layout — proved

Every data line of a dump consists of the 8-digit offset of its block, a byte column of exactly 48 characters and one printable character per byte; the first and the last block are always printed, lines appear in increasing offset order, '...' appears only between two lines, and the dump ends with an empty line.

- Quantifier: all byte strings
- Code: dtformats/data_format.py: BinaryDataFormat._FormatDataInHexadecimal
- Model and proof: Width lemma per block, structural induction on the block list.
- Theorems: `C10_hexdump_layout`, `C10_hexdump_first_last_printed`

### C11 Integer formatting is faithful — proved

Decimal and fixed-width hexadecimal formatting of every integer (also negative ones) is injective, the hexadecimal digits are at least the requested width, and reading the digits back yields the integer.

- Quantifier: all integers
- Code: dtformats/data_format.py: _FormatIntegerAsDecimal, _FormatIntegerAsHexadecimal2/4/8, _FormatIntegerAsOffset
- Model and proof: Digit conversion modelled; inverse function proved left inverse.
- Theorems: `C11_decimal_parses_back`, `C11_hexadecimal_parses_back`, `C11_hexadecimal_exact_width`, `C11_formats_injective`

### C12 IP address formatting is faithful — proved

A list of integers that is not 4 (16) octets long is rejected with None; the dotted-quad (eight groups of four hexadecimal digits) of an octet list determines the octets.

- Quantifier: all octet lists
- Code: dtformats/data_format.py: _FormatArrayOfIntegersAsIPv4Address, _FormatArrayOfIntegersAsIPv6Address
- Model and proof: Injectivity via digit parsing and separator splitting.
- Theorems: `C12_ipv4_lossless`, `C12_ipv6_lossless`, `C12_ipv6_groups`, `C12_ipv4_decodes`, `C12_ipv6_decodes`, `C12_other_lengths_rejected`

### C13 Debug rendering of byte streams — proved

Every byte of a stream is rendered in order, printable ASCII as itself and control bytes and 0x7f-0xfe as \xNN. The rendering is not injective (a literal backslash is not escaped) and byte 0xff is passed through raw: both are exhibited as counterexamples.

- Quantifier: all byte strings
- Code: dtformats/data_format.py: _FormatStreamAsString, _NON_PRINTABLE_BYTE_VALUES
- Model and proof: Character map model; per-byte theorem; refutations by witness.
- Theorems: `C13_stream_per_byte`, `C13_stream_lossless_without_backslash`, `C13_stream_lossless_refuted`
- Note: Finding: a literal backslash is not escaped, so [0x00] and the four characters \x00 render alike; lossless on streams without a backslash.

### C14 Debug text of a structure lists every present attribute once, in order — proved

For every debug description whose attributes all have a description and every structure, the text is the concatenation of one entry per described attribute that is present (not None), in the described order, skipping absent ones, followed by a line break unless the last entry already ends with an empty line. It does not always end with an empty line: a multi-line last value without a final line break ends the text without one (counterexample).

- Quantifier: all debug descriptions, structures and formatter results
- Code: dtformats/data_format.py: _FormatStructureObject, _FormatValue
- Model and proof: Model with formatter results as an oracle; induction over the attribute list.
- Theorems: `C14_structure_text`, `C14_entry_shape`, `C14_final_blank_line_refuted`
- Note: Finding: the final blank line is missing when the last value spans several lines and does not end with a line break.

### C15 Path helpers split and join consistently — proved

Splitting a joined path returns the joined segments for every list of non-empty separator-free segments; splitting never returns empty or separator-containing segments; joining the split of any path denotes the same segments (idempotence), whatever repeated, leading or trailing separators it had.

- Quantifier: all paths and segment lists
- Code: dtformats/file_system.py: NativeFileSystemHelper.SplitPath, JoinPath
- Model and proof: Model of str.split/filter/join; induction.
- Theorems: `C15_split_of_join`, `C15_split_segments_proper`, `C15_split_join_idempotent`, `C15_split_compositional`

### C16 Debug definitions resolve to formatter callbacks — proved

For every debug definition file content accepted by the reader: each attribute gets the callback named by its format (custom: formats from the supplied table, others from the built-in table); the format 'hexadecimal' is accepted by the YAML reader although no built-in callback exists, so such attributes are printed unformatted.

- Quantifier: all YAML definition values and custom callback tables
- Code: dtformats/yaml_definitions_file.py: YAMLDebugDefinitionsFile._ReadDefinition; dtformats/data_format.py: ReadDebugInformationFile
- Model and proof: Model of _ReadDefinition on abstract YAML mappings; acceptance characterised exactly.
- Theorems: `C16_custom_formats`, `C16_builtin_formats`, `C16_debug_information`
- Note: Finding: the format 'hexadecimal' is accepted by the YAML reader but no callback exists for it.

### C17 CPIO archives are parsed entry by entry exactly as laid out — proved

For every archive in the binary (both byte orders), odc, newc or crc layout with well-formed header fields, the parser yields for each member, in order, the path, metadata, data offset and data size that were archived, with the alignment padding of the format, and reports the archive size up to and including the trailer.

- Quantifier: all archives: all member lists, paths, sizes, byte orders and formats
- Code: dtformats/cpio.py: _ReadFileEntry, _ReadFileEntries, ReadFileObject
- Model and proof: Specification writer for the formats; parser(writer a) = a by induction over members.
- Theorems: `C17_archive_read_exactly`, `C17_archive_without_trailer`

### C18 CPIO member data is the archived data — proved

Reading the data range of a member returned for a well-formed archive yields exactly the archived bytes of that member.

- Quantifier: all archives and members
- Code: dtformats/cpio.py: CPIOArchiveFileEntry; dtformats/data_range.py: DataRange.read
- Model and proof: Corollary of C17 and C01.
- Theorems: `C18_member_data`, `C18_read_then_member_data`

### C19 CPIO lookup agrees with enumeration — proved

After any successful read the entry table holds each path once, with the first occurrence in the archive winning; existence, lookup by path and prefix enumeration agree with that table for every path and prefix; the trailer is never an entry.

- Quantifier: all archives, paths and prefixes
- Code: dtformats/cpio.py: FileEntryExistsByPath, GetFileEntries, GetFileEntryByPath
- Model and proof: Invariant over the entry loop; list/dictionary reasoning.
- Theorems: `C19_table_well_formed`, `C19_lookups_agree`, `C19_no_table`, `C19_unknown_path`, `C19_empty_archive_returns_false_refuted`
- Note: Finding: a file with no entries is accepted only through the trailer; see C19_empty_archive_returns_false_refuted. UnicodeDecodeError escapes for names that are not ASCII (C20_entry_errors).

### C20 CPIO parsing terminates — proved

For every file whose header size fields are non-negative the entry loop makes progress by at least the header size per entry and terminates. Header fields that Python's int() accepts with a sign break this: a crafted archive makes the loop run forever.

- Quantifier: all files (adversarial)
- Code: dtformats/cpio.py: _ReadFileEntries, _ReadFileEntry
- Model and proof: Fuel bound for the guarded case; for the refutation a state that recurs under one iteration.
- Theorems: `C20_terminates`, `C20_binary_terminates`, `C20_termination_refuted`, `C20_entry_errors`
- Note: Finding: int() accepts signs, so an odc member with size '-0000000114' moves the position back and the reader never stops.

### C21 GZip members are walked without losing position — proved

For every file that is a concatenation of gzip members (any combination of extra field, name, comment and header checksum) and every decompressor satisfying the zlib stream contract such that every 16 MiB buffer of compressed data produces some output (in particular when the payload is not empty and the compressed data fits one buffer), each header is read at the start of its member, each footer directly behind its compressed data, and reading ends at the end of the file.

- Quantifier: all member lists, header flag combinations, and decompressors satisfying the contract
- Code: dtformats/gzipfile.py: ReadFileObject, _ReadMemberHeader, _ReadMemberCompressedData, _ReadCompressedData, _ReadMemberFooter
- Model and proof: Decompressor as an oracle with the zlib contract; induction over members.
- Theorems: `C21_members_walked`, `C21_members_that_fit_the_buffer`, `C21_header_end`, `C21_other_header_refused`, `C21_unterminated_name`

### C22 GZip members with empty payload are misread — proved

For a member whose uncompressed data is empty the reader repositions to the start of the compressed data and interprets it as the footer, whatever correct decompressor is used; in particular the gzip file of an empty file is rejected with ParseError.

- Quantifier: existence (counterexample) over members
- Code: dtformats/gzipfile.py: _ReadCompressedData, _ReadMemberCompressedData
- Model and proof: Computed witness.
- Theorems: `C22_empty_payload_position`, `C22_empty_file_rejected`
- Note: Finding: valid gzip files with an empty payload are rejected. The same happens when a buffer boundary falls into bits that produce no output.

### C23 LevelDB variable size integers — proved

Decoding the variable-length encoding of every natural number, followed by arbitrary bytes, returns the number and the exact encoded length; decoding never reads past the data, consumes at least one byte, and fails (IndexError) exactly on empty data.

- Quantifier: all natural numbers and all trailing data; all byte strings
- Code: dtformats/leveldb.py: LevelDBDatabaseFile._ReadVariableSizeInteger
- Model and proof: Specification encoder; induction on the number of groups.
- Theorems: `C23_varint_decoded`, `C23_every_number`, `C23_inside_the_data`, `C23_fails_on_empty_data_only`
- Note: Finding: an encoding that ends early (last byte with the continuation bit) is accepted as a number.

### C24 LevelDB log records are reassembled exactly — proved

For every list of records written by the LevelDB log writer (fragmented over 32 KiB pages with zero trailers), the reader reconstructs exactly these records, in order, each with the file offset of its first fragment.

- Quantifier: all record lists with all record sizes, hence all fragmentations
- Code: dtformats/leveldb.py: LevelDBDatabaseLogFile.ReadFileObject, _ReadBlock
- Model and proof: Specification writer; refinement proof by induction over records and fragments with the page phase as invariant.
- Theorems: `C24_log_records`, `C24_records_reassembled`

### C25 LevelDB log reading always terminates and stays inside the file order — proved

For every file content the log reader makes progress by at least the block header size in every iteration, also when a block overruns its page, and terminates.

- Quantifier: all file contents (adversarial)
- Code: dtformats/leveldb.py: LevelDBDatabaseLogFile.ReadFileObject
- Model and proof: Well-founded progress argument.
- Theorems: `C25_log_terminates`, `C25_blocks_inside`
- Note: A block that overruns its page is accepted; reading continues at the page boundary inside the block.

### C26 LevelDB write batches are decoded exactly — proved

For every batch of put and delete operations serialised in a log record the reader decodes exactly these operations and ends at the end of the record; unknown value types raise ParseError.

- Quantifier: all batches (keys and values of all sizes)
- Code: dtformats/leveldb.py: LevelDBDatabaseLogFile._ReadRecord, _ReadRecordValueSlice
- Model and proof: Specification writer; induction over operations.
- Theorems: `C26_batch_decoded`, `C26_unknown_type`, `C26_log_of_batches`
- Note: Finding: a key or value longer than the record is silently truncated; an empty record raises ValueError and a record that ends inside an operation IndexError instead of ParseError.

### C27 LevelDB descriptor records are decoded exactly — proved

For every version edit (list of tagged values) the descriptor reader decodes the same list of tagged values; an unknown tag raises ParseError.

- Quantifier: all version edits
- Code: dtformats/leveldb.py: LevelDBDatabaseDescriptorFile._ReadRecord
- Model and proof: Specification writer; induction over values.
- Theorems: `C27_edits_decoded`, `C27_reports_differ`, `C27_unknown_tag`

### C28 LevelDB sorted tables are decoded exactly — proved

For every list of entries stored with any choice of shared key prefixes and restart points, reading the table block yields exactly the user keys, sequence numbers, value types and values in order.

- Quantifier: all entry lists and all prefix-sharing choices, all (de)compressors
- Code: dtformats/leveldb.py: LevelDBDatabaseTableFile._ReadTable, _ReadBlock, _ReadBlockHandle
- Model and proof: Specification block builder parameterised by the sharing choice; induction over entries.
- Theorems: `C28_block_decoded`, `C28_stored_block`, `C28_unknown_compression`
- Note: Finding: a block shorter than its restart array is accepted when Python's negative slice happens to be long enough (C73_case).

### C29 LevelDB footer and index lead to every data block — proved

For every table file built from data blocks, an index block of block handles and a footer, ReadTableEntries yields the entries of all data blocks in index order.

- Quantifier: all lists of data blocks
- Code: dtformats/leveldb.py: LevelDBDatabaseTableFile._ReadFileFooter, _ReadIndexBlock, ReadTableEntries
- Model and proof: Corollary of C28 with file layout lemmas.
- Theorems: `C29_table_file`

### C30 IndexedDB key prefixes are decoded exactly — proved

For every database, object store and index identifier that fits the key prefix encoding, decoding the encoded prefix returns the identifiers and the prefix length; truncated prefixes fail.

- Quantifier: all identifier triples and all trailing data
- Code: dtformats/indexeddb.py: IndexedDBKeyPrefix decoding
- Model and proof: Specification encoder; arithmetic.
- Theorems: `C30_key_prefix`, `C30_truncated`

### C31 The Windows 2008 Prefetch hash equals the Vista hash — proved

For every path the 2008 hash (processed in blocks of 8 bytes) and the Vista hash are equal.

- Quantifier: all paths (byte strings of all lengths)
- Code: dtformats/prefetch.py: CalculatePrefetchHashVista, CalculatePrefetchHash2008
- Model and proof: Congruence mod 2^32: 442596621 = 37^7 and 803794207 = -37^8; induction over blocks.
- Theorems: `C31_hash_2008_is_vista`, `C31_hash_2008_is_vista_bytes`, `C31_closed_form`

### C32 Prefetch hashes are in range — proved

The XP hash is always below 1000000007 and the Vista and 2008 hashes always below 2^32, for every path.

- Quantifier: all paths
- Code: dtformats/prefetch.py
- Model and proof: Modular arithmetic.
- Theorems: `C32_ranges`, `C32_encodable`, `C32_xp_closed_form`

### C33 SuperFastHash is a 32-bit function of the whole key — proved

For every key the hash is in 0..2^32-1; the empty key hashes to 0; and the result equals the reference definition of the algorithm over 32-bit words for every key length class.

- Quantifier: all keys
- Code: dtformats/chrome_cache.py: SuperFastHash
- Model and proof: Range by masking lemmas; equality with a block-recursive reference.
- Theorems: `C33_reference`, `C33_range`, `C33_empty_key`, `C33_chromium`, `C33_chromium_refuted`
- Note: Finding: the last byte of keys whose length is 1 or 3 mod 4 is added as an unsigned byte, while Chromium's SuperFastHash reads it as signed char; the values differ when that byte is 128 or more (C33_chromium_refuted). The Chromium reference is written from the published algorithm, it is not part of this repository.

### C34 Chrome cache addresses are decoded losslessly — proved

For every 32-bit cache address: the initialised flag, file type, and for file types 0-4 the file name, block number and block offset are exactly the documented bit fields; together with the reserved bits the decoded fields determine the address; addresses of types 5-7 have no file name, and formatting such an address fails with TypeError.

- Quantifier: all 2^32 addresses
- Code: dtformats/chrome_cache.py: CacheAddress
- Model and proof: Bit-field lemmas; reconstruction function.
- Theorems: `C34_fields`, `C34_determined`, `C34_block_size_refuted`, `C34_debug_string`
- Note: Finding: block_size is computed from the stored count, but the repository's documentation says 0 represents 1 block, so it is always one block short (C34_block_size_refuted). GetDebugString raises TypeError for file types 5-7.

### C35 Chrome cache allocation bitmap ranges — proved

The printed block ranges of an allocation bitmap are exactly the maximal runs of allocated blocks that end before the last bit, in increasing order; a run that reaches the end of the bitmap is not reported.

- Quantifier: all bitmaps
- Code: dtformats/chrome_cache.py: DataBlockFile._DebugPrintAllocationBitmap
- Model and proof: Run-length specification; induction over bits; refutation of completeness by witness.
- Theorems: `C35_ranges_are_the_closed_runs`, `C35_ranges_in_order`, `C35_last_run_refuted`
- Note: Finding: an allocated run that reaches the end of the bitmap is not printed.

### C36 Chrome cache index table — proved

The index table maps exactly the indexes with a non-zero address to that address, for every table; trailing bytes that do not fill an entry are ignored.

- Quantifier: all index tables
- Code: dtformats/chrome_cache.py: IndexFile._ReadIndexTable
- Model and proof: Induction over the entries.
- Theorems: `C36_index_table`, `C36_first_file`, `C36_reopened_object_refuted`
- Note: Finding: index_table is only emptied by the constructor, so reading a second file with the same object keeps entries of the first (C36_reopened_object_refuted).

### C37 Parsing a Chrome cache directory always fails — proved

ChromeCacheParser.ParseDirectory raises TypeError for every path, because the file system helper joins a list of segments but is called with two arguments.

- Quantifier: all paths and file systems
- Code: dtformats/chrome_cache.py: ChromeCacheParser.ParseDirectory; dtformats/file_system.py: NativeFileSystemHelper.JoinPath
- Model and proof: Model of Python argument binding of JoinPath.
- Theorems: `C37_parse_directory_fails`, `C37_prints_nothing`, `C37_join_path_two_arguments`
- Note: Finding: ParseDirectory can never succeed: JoinPath is called with two arguments, and behind that the key, already a str, is decoded again (AttributeError).

### C38 Unified logging format strings are tokenised completely — proved

For every format string that is a sequence of literal text, '%%' and well-formed conversion specifications, the formatter finds exactly those specifications in order, and formatting inserts the values at exactly those places with the literal text unchanged and '%%' shown as '%'.

- Quantifier: all format strings built from literals and specifications
- Code: dtformats/unified_logging.py: StringFormatter.ParseFormatString, FormatString
- Model and proof: Recogniser model of the regular expression; printer/tokeniser round trip by induction over tokens.
- Theorems: `C38_operators`, `C38_decoders`, `C38_decoders_exist`, `C38_format`, `C38_total`, `C38_literal`

### C39 Missing values never break formatting — proved

For every format string and every list of values shorter than the number of specifications, each missing value is shown as '<decode: missing data>' and the text before it is unaffected.

- Quantifier: all format strings and value lists
- Code: dtformats/unified_logging.py: StringFormatter.FormatString
- Model and proof: Corollary over the token list.
- Theorems: `C39_missing`, `C39_padding`

### C40 Translation of C conversion specifications to Python — proved

The text of an integer conversion with canonical flags and no precision, of a string conversion with a width or a precision, and of a floating-point conversion with a width or a precision and no '-' flag equals what C printf produces (the digits of a floating-point value are left to Python). Every floating-point conversion with both width and precision gets the wrong precision, and further combinations deviate (computed counterexamples).

- Quantifier: all flag, width, precision and specifier combinations
- Code: dtformats/unified_logging.py: FormatStringOperator.GetPythonFormatString
- Model and proof: Model of the translation; parser of Python's format mini-language as the specification; refutation by witness.
- Theorems: `C40_signed`, `C40_unsigned`, `C40_alternate_zero`, `C40_strings`, `C40_strings_precision`, `C40_floats`, `C40_floats_precision`, `C40_width_and_precision_refuted`, `C40_deviations_refuted`
- Note: Findings: width and precision are concatenated, so '%5.2f' is printed with 25 digits; '-' is ignored for floats; a precision is ignored for integers; '%*d' raises ValueError; '%#5x' of 0 loses its width; '%+-5d' and '%-05d' fill behind the number with '+' or '0'; '%10.3s' is not cut; '%6p' puts the padding inside the 0x prefix.

### C41 Unified logging string lookups by offset range — proved

Image and string lookups return the string and image of the first range that contains the reference or ends at it. They are therefore right whenever the reference is in a range that no earlier range touches, and nothing is returned exactly when no range touches the reference. For directly adjacent ranges the first byte of the second range is resolved with the image of the first one.

- Quantifier: all range tables and offsets
- Code: dtformats/unified_logging.py: DSCFile.GetImageValuesByIndex/GetImageValues, UUIDTextFile.GetString
- Model and proof: First-match list search; boundary refutation by witness.
- Theorems: `C41_image_values`, `C41_image_values_dynamic`, `C41_image_values_none`, `C41_boundary_refuted`, `C41_strings`, `C41_strings_none`, `C41_strings_boundary`, `C41_strings_end_refuted`
- Note: Finding: the comparison relative_offset <= range_size is off by one (C41_boundary_refuted, C41_strings_end_refuted).

### C42 Timestamps are computed from the right timesync record — proved

After opening a file next to any timesync directory the time of every trace point is converted relative to the sync record in force (greatest kernel time not later than it, of the records that follow the boot record of the boot), with the timebase of that boot record, up to a relative error of 2^-51; without such a record relative to the boot record, and without a boot record relative to the file header. Times with the same record keep their order; whole-number timebases are exact up to 2^53 nanoseconds.

- Quantifier: all timesync histories and times
- Code: dtformats/unified_logging.py: _GetTimesyncRecord, _GetTimestamp
- Model and proof: List search invariants; linear arithmetic.
- Theorems: `C42_timestamp`, `C42_header_only`, `C42_monotone`, `C42_exact`, `C42_rounding_refuted`, `C42_reopen_refuted`, `C42_zero_denominator_refuted`
- Note: Findings: the floating-point multiplication loses nanoseconds beyond 2^53 (C42_rounding_refuted); an object opened again without timesync records keeps using the sync records of the earlier file (C42_reopen_refuted); a zero denominator raises ZeroDivisionError.

### C43 Trace identifiers are unambiguous — proved

The trace identifier composed of format string reference, flags, log type and record type determines all four values in their field ranges.

- Quantifier: all field values
- Code: dtformats/unified_logging.py: _GetTraceIdentifier
- Model and proof: Bit-field arithmetic.
- Theorems: `C43_trace_identifier`, `C43_trace_identifier_fields`

### C44 Timesync record reading progress — proved

For every timesync file whose records declare their real size the reader yields each record once and terminates; a record declaring size 0 makes it loop forever.

- Quantifier: all files
- Code: dtformats/unified_logging.py: TimesyncDatabaseFile.ReadRecords
- Model and proof: Fuel bound with guard; recurrence witness for the refutation.
- Theorems: `C44_records`, `C44_terminates`, `C44_size_zero_refuted`
- Note: Finding: a record that declares size 0 makes ReadRecords loop forever (C44_size_zero_refuted); reading ends for every other content (C44_terminates).

### C45 Spotlight variable size integers — proved

Every unsigned 64-bit value has encodings of 1 to 9 bytes that decode to it and consume exactly their length, whatever follows; any data either yields a 64-bit value that depends only on the 1 to 9 bytes consumed or raises IndexError because it is too short. With 5 or 6 additional bytes the value bits of the first byte are dropped, so different encodings of one length have the same value.

- Quantifier: all values and trailing data
- Code: dtformats/spotlight_storedb.py: _ReadVariableSizeInteger
- Model and proof: Specification encoder; refutation of injectivity by witness.
- Theorems: `C45_decode`, `C45_complete`, `C45_total`, `C45_collision_refuted`
- Note: Finding: the value bits of first bytes 0xF9-0xFB and 0xFD are dropped (C45_collision_refuted).

### C46 Spotlight offset lists become data ranges — proved

Each data range of a streams map runs from its offset to the next offset or the end of the data; if the last offset is 0 (a single stream, or only empty streams before the last) the last range is missing. A streams map with data before the last stream is read into exactly the stored streams.

- Quantifier: all offset lists
- Code: dtformats/spotlight_storedb.py: SpotlightStoreMetadataAttribute ... offsets to ranges
- Model and proof: Induction; refutation by witness.
- Theorems: `C46_ranges`, `C46_number_of_ranges`, `C46_streams`, `C46_single_refuted`
- Note: Finding: a streams map with one stream is read as having none (C46_single_refuted).

### C47 Spotlight LZ4 pages are reassembled — proved

For every sequence of compressed and stored blocks terminated by the end marker the decompressed page is the concatenation of the block contents, each compressed block decompressed with the content of the block before it as dictionary; conversely every page that is accepted has this form, and reading ends for all data.

- Quantifier: all block sequences and all block decompressors
- Code: dtformats/spotlight_storedb.py: _ReadLZ4Block, _DecompressLZ4PageData
- Model and proof: Oracle decompressor; induction over blocks.
- Theorems: `C47_page`, `C47_sound`, `C47_terminates`

### C48 Spotlight record pages — proved

The data of plain, zlib and LZ4 record pages is recovered; all records in it are found at their offsets, later records replace earlier ones with the same identifier, and reading ends for all data. A plain page with unused space behind the records cannot be read.

- Quantifier: all record pages
- Code: dtformats/spotlight_storedb.py: _ReadRecordPageValues, _ReadRecord
- Model and proof: Induction over records.
- Theorems: `C48_page`, `C48_records`, `C48_terminates`, `C48_unused_space_refuted`
- Note: Finding: the used size of plain pages is ignored, zero padding behind the records is an error (C48_unused_space_refuted).

### C49 Spotlight integer lists are read from the wrong offset — proved

Reading a multi-valued variable size integer attribute decodes the list from the start of the data including the size prefix: the size appears as first value and the bytes of as many last values as the size prefix takes are lost, or IndexError is raised if that cuts a value. Single values are right.

- Quantifier: all integer lists (characterisation of the result)
- Code: dtformats/spotlight_storedb.py: _ReadMetadataAttributeVariableSizeIntegerValue
- Model and proof: Characterisation theorem plus refutation of the intended property.
- Theorems: `C49_multi_valued`, `C49_multi_valued_error`, `C49_single`, `C49_values_refuted`
- Note: Finding: see the statement; C49_values_refuted is a witness ([5;6;7] is read as [3;5;6]).

### C50 Spotlight page chains and map pages — proved

Traversing property pages follows the chain of next block numbers and yields the stored properties, the last one of an index, for every finite chain; map pages that follow each other give their block numbers. A page that is followed by itself, or a map page with page size 0, is read forever.

- Quantifier: all chains
- Code: dtformats/spotlight_storedb.py: _ReadPropertyPages, _ReadMapPages
- Model and proof: Chain model; refutations for cyclic chains and page size 0.
- Theorems: `C50_chain`, `C50_cycle_refuted`, `C50_map_pages`, `C50_map_page_size_refuted`
- Note: Findings: no protection against cycles (C50_cycle_refuted) and page size 0 (C50_map_page_size_refuted).

### C51 WMI index traversal enumerates every key — proved

For every acyclic index tree the keys returned are exactly the keys of all reachable pages; zero and 0xFFFFFFFF sub page numbers are ignored.

- Quantifier: all finite trees
- Code: dtformats/wmi_repository.py: CIMRepository._GetKeysFromIndexPage, IndexBinaryTreeFile._ReadPage
- Model and proof: Rose-tree specification; induction.
- Theorems: `C51_keys`, `C51_reached`, `C51_ignored`, `C51_ends`, `C51_cycle_refuted`, `C51_loop_refuted`
- Note: keys of the tree below the root (iff), exactly the keys of the reached pages, sub page numbers 0 and 0xFFFFFFFF never followed, the recursion ends for acyclic trees with a depth of at most the number of mapped pages; found: with a cycle the traversal never succeeds (C51_cycle_refuted, C51_loop_refuted), a value without end-of-string character raises an error of dtFabric and a segment number out of range an IndexError (in C51_ends)

### C52 WMI object records are assembled exactly — proved

For every object record stored over consecutive pages the assembled data is exactly the stored bytes; the number of bytes is the size of the descriptor.

- Quantifier: all sizes and start offsets
- Code: dtformats/wmi_repository.py: _GetObjectRecord, ReadObjectRecordDataSegment
- Model and proof: Loop invariant over page segments.
- Theorems: `C52_complete`, `C52_sound`, `C52_ends`, `C52_key`, `C52_missing_refuted`, `C52_truncated_refuted`, `C52_offset_refuted`
- Note: complete for every record spread over pages, sound for files of whole pages; the last key segment selects the record; found: no descriptor or another size is an AttributeError (C52_missing_refuted), a cut off page is silently continued with the next (C52_truncated_refuted), offset 8193 reads the rest of the file (C52_offset_refuted)

### C53 Opening a WMI repository always fails — proved

CIMRepository.Open raises ValueError for every path because the glob helper returns a string of more than two characters that every caller unpacks into two values.

- Quantifier: all paths
- Code: dtformats/wmi_repository.py: CIMRepository.Open, _FormatFilenameAsGlob, _GetActiveMappingFile
- Model and proof: Model of Python unpacking and of the glob builder; length argument.
- Theorems: `C53_open`, `C53_file`
- Note: for all character tables and all file systems; the code behind the first open call is a parameter

### C54 WMI glob patterns match case-insensitively — proved

The glob built from a file name matches exactly the names that are equal to it ignoring ASCII case.

- Quantifier: all file names
- Code: dtformats/wmi_repository.py: _FormatFilenameAsGlob
- Model and proof: Glob matcher specification; induction over characters.
- Theorems: `C54_glob`, `C54_special_refuted`
- Note: for ASCII names without special characters; found: special characters and letters with longer upper case forms match other names (C54_special_refuted). The part of the pattern language of glob that is needed is specified in WmiSpec.gmatch

### C55 WMI page number mapping — proved

Resolving a logical page number returns the mapped page for every number in range; numbers at or beyond the table size fail; unavailable pages are reported.

- Quantifier: all mapping tables
- Code: dtformats/wmi_repository.py: MappingTable.ResolveMappedPageNumber
- Model and proof: Index model with Python's negative index semantics.
- Theorems: `C55_file`, `C55_errors`, `C55_resolve`, `C55_unavailable`, `C55_version_refuted`, `C55_second_refuted`, `C55_again_refuted`, `C55_negative_refuted`
- Note: mapping files of both versions (iff), page numbers in range (iff), unavailable pages; found: version 1 files with one more page than entries are taken for version 2 (C55_version_refuted), the second section of a documented combined file cannot be read (C55_second_refuted), the second table stays when the object reads another file (C55_again_refuted), negative numbers count from the end (C55_negative_refuted)

### C56 TZif files are read exactly — proved

A time zone file is accepted exactly if the magic and version are right, the first block has transition times and the file is as large as both tables need with the counts of the first header; everything else is a ParseError. Version 1 files with transition times are read exactly. For later versions the version and the 32-bit table are right, but the 64-bit table is read at the place, and with the counts, of the 32-bit table. Files whose first block has no transition times (UTC, current slim files) are rejected.

- Quantifier: all files
- Code: dtformats/tzif.py
- Model and proof: Specification writer; refutation by witness.
- Theorems: `C56_accepted`, `C56_errors`, `C56_version1`, `C56_version2_first_table`, `C56_version2_times_refuted`, `C56_no_transitions_refuted`
- Note: Findings: the second header is read at offset 0 (C56_version2_times_refuted: the first 64-bit time consists of the first two 32-bit times); files without transition times are rejected (C56_no_transitions_refuted).

### C57 Safari cookies are read page by page — proved

A cookies file is read if and only if it consists of the header, at least one page and the footer, and the strings of the records are then those at the offsets that the pages and the records list, in order; everything else is a ParseError. A file without pages is rejected.

- Quantifier: all files
- Code: dtformats/safari_cookies.py
- Model and proof: Specification writer; induction.
- Theorems: `C57_file`, `C57_errors`, `C57_no_pages_refuted`
- Note: Finding: a file without pages is rejected (C57_no_pages_refuted). Modelled are the strings of the records, not their times and flags.

### C58 USN change journal iteration — proved

A journal is read into exactly its records if no block of 4096 bytes has unused space, apart from the last block. Reading ends for all data, at worst with a ParseError. With 120 or more unused bytes in a block the next block is not read at all; with 8 to 59 unused bytes the next record is not found and reading fails.

- Quantifier: all journals
- Code: dtformats/usn_journal.py
- Model and proof: Specification writer; induction; counterexample where the position is not moved to the block end.
- Theorems: `C58_journal`, `C58_ends`, `C58_unused_space_refuted`, `C58_small_unused_space_refuted`, `C58_sound`
- Note: Findings: the position is not moved to the end of the block (C58_unused_space_refuted, C58_small_unused_space_refuted); C58_case shows a record that is yielded 68 times at the end of a partial block.

### C59 Keychain record values are sliced exactly — proved

For every keychain file the relations, columns and records that are read are those that the schema and data tables store: each value is read from the record-relative offset (counting from 1) of its column, columns without an offset are None. Files that cannot be read raise ParseError, ValueError, TypeError or UnicodeDecodeError. Negative signed integers, offsets behind the record, offsets into the record header and schema attributes without a relation are not handled (counterexamples).

- Quantifier: all records
- Code: dtformats/keychain.py
- Model and proof: Model of the offset arithmetic.
- Theorems: `C59_file`, `C59_errors`, `C59_signed_refuted`, `C59_outside_refuted`, `C59_header_refuted`, `C59_no_relation_refuted`, `C59_same_name`
- Note: Findings: signed integers are read as unsigned (C59_signed_refuted); an offset behind the record raises ValueError (C59_outside_refuted); an offset into the record header is taken from the end of the record (C59_header_refuted); a schema attributes record without a relation raises TypeError (C59_no_relation_refuted).

### C60 ASL inline strings and record chains — proved

Every string reference gives its string: none for 0, up to 7 bytes inside the reference, or stored at an offset without trailing NULs; other inline references are refused. The records of a file are read in the order of their chain, with their strings and named extra fields. Errors are ParseErrors or, for records that are too small or lie before the file position, ValueErrors. Reading ends if every record refers to a later one; a record that refers to itself can be read for ever (counterexample).

- Quantifier: all 64-bit values and chains
- Code: dtformats/asl.py
- Model and proof: Bit-field arithmetic; chain model.
- Theorems: `C60_string`, `C60_invalid_inline`, `C60_file`, `C60_errors`, `C60_ends`, `C60_cycle_refuted`, `C60_small_refuted`
- Note: Finding: the position left by the strings of the extra fields decides whether a reference to an earlier record is noticed; C60_cycle_refuted is a file that is read for ever. A record that is too small for its members raises ValueError (C60_small_refuted).

### C61 CUPS IPP attribute groups — proved

A file is read exactly if eight header bytes are followed by delimiters and attributes (also further values without a name) up to the end-of-attributes tag; the items are yielded in order, with their values decoded by their tags and text by the last character set named. Reading ends on every input and fails only with ParseError, UnicodeDecodeError or what decoding text or building a date raises.

- Quantifier: all IPP messages
- Code: dtformats/cups_ipp.py
- Model and proof: Specification writer; induction.
- Theorems: `C61_file`, `C61_ends`, `C61_errors`, `C61_keyword_refuted`, `C61_charset_refuted`, `C61_second_file_refuted`
- Note: C61_file is an equivalence. Findings: a non-ASCII keyword raises UnicodeDecodeError instead of ParseError (C61_keyword_refuted); the character set named by the file is used unchecked, so that an unknown one makes the LookupError of bytes.decode escape (C61_charset_refuted); the character set stays in force for the next file read with the same object (C61_second_file_refuted).

### C62 BSM event records — proved

A token is read exactly if it is stored at its offset. Every file of event records, made of a header of format version 11, tokens and a trailer with the same record size, is read into exactly the tokens of the records in order; each record is left at its own end. Another record size in the trailer raises ParseError. Reading ends on every input and fails only with ParseError or AttributeError. Tokens without sized data have the documented sizes.

- Quantifier: all records
- Code: dtformats/bsm.py
- Model and proof: Specification writer; induction.
- Theorems: `C62_token`, `C62_token_size`, `C62_file`, `C62_record`, `C62_size_mismatch`, `C62_sound`, `C62_ends`, `C62_errors`, `C62_data_refuted`, `C62_no_trailer_refuted`, `C62_attribute_refuted`, `C62_end_refuted`, `C62_return_refuted`
- Note: Findings: the element size of data tokens is ignored (C62_data_refuted); records whose size is at most that of their header are accepted without a trailer (C62_no_trailer_refuted); a record that ends before a trailer raises AttributeError (C62_attribute_refuted); the end of the record is not compared with the place of the trailer (C62_end_refuted); negative return values are read as unsigned (C62_return_refuted). Not modelled: debug output.

### C63 Firefox cache version 1 locations — proved

A cache location is split into disjoint bit fields that together determine it, every combination of field values occurs and different locations are shown differently. A map file is read, into its header and records, exactly if it consists of these with the stored size; everything else is a ParseError. Of a block file (named _CACHE_001_ to _CACHE_003_, other names are a ParseError) the entries are read that start in blocks not taken by an earlier one, and those of major version 1 are reported; entries written block by block are all read.

- Quantifier: all 2^32 locations
- Code: dtformats/firefox_cache1.py
- Model and proof: Bit-field arithmetic.
- Theorems: `C63_location`, `C63_fields`, `C63_location_text`, `C63_map`, `C63_map_errors`, `C63_blocks`, `C63_names`, `C63_written`, `C63_hidden_refuted`, `C63_non_ascii_refuted`
- Note: Findings: blocks that are not entries of version 1 hide the entries in the bytes that their sizes cover (C63_hidden_refuted); an entry with a non-ASCII request is silently skipped (C63_non_ascii_refuted).

### C64 FSEvents pages — proved

The uncompressed data of a file is read exactly if it consists of disk log streams whose sizes take in their events (the last one at least in part); all events of all streams are read in order, in the format version of their stream. Reading ends on all data, with the events or with a ParseError.

- Quantifier: all files
- Code: dtformats/fseventsd.py
- Model and proof: Specification writer; progress measure.
- Theorems: `C64_read`, `C64_events`, `C64_values`, `C64_ends`, `C64_overlap_refuted`
- Note: C64_read is an equivalence. Finding: an event that ends outside its stream is accepted (C64_overlap_refuted). Decompression (pygzipf) and UTF-8 are external.

### C65 utmp files — proved

A Linux file is read exactly if its size is a multiple of 384 bytes, into entries with the values at the documented offsets; a MacOS file exactly if its size is a positive multiple of 628 bytes and it starts with the documented header entry. Reading ends on all data; without debug output all errors are ParseErrors. Types of login have the documented names.

- Quantifier: all files
- Code: dtformats/utmp.py
- Model and proof: Induction over entries.
- Theorems: `C65_linux`, `C65_linux_size`, `C65_macos`, `C65_errors`, `C65_macos_errors`, `C65_types`, `C65_address_refuted`, `C65_ipv6_refuted`, `C65_string_end_refuted`, `C65_decode_refuted`
- Note: Findings in the debug output: the IP address is shown as a Python tuple (C65_address_refuted), IPv6 addresses ending with 12 zero bytes are shown as IPv4 (C65_ipv6_refuted), data behind the end of a string is shown with it (C65_string_end_refuted), a string that is not UTF-8 raises UnicodeDecodeError (C65_decode_refuted).

### C66 systemd journal entry arrays — proved

A journal is read exactly if its header, the chain of entry arrays that starts at the stored offset, the entries at the set offsets of the arrays and the data objects of their items are stored as documented; it is read into these entries and data objects in the order of the arrays. Reading needs at most as many steps as the file has bytes, unless an entry array leads back to itself; exactly then it never ends. Errors are ParseErrors, except for offsets and sizes of 2^63 and more.

- Quantifier: all chains
- Code: dtformats/systemd.py
- Model and proof: Chain model; refutation for a cyclic chain.
- Theorems: `C66_read`, `C66_ends`, `C66_cycle`, `C66_errors`, `C66_cycle_refuted`, `C66_empty_refuted`, `C66_unset_item_refuted`, `C66_overflow_refuted`
- Note: C66_read is an equivalence. Findings: a cycle of entry arrays is followed forever (C66_cycle_refuted); a journal without entries cannot be read (C66_empty_refuted); an unset item offset makes the journal unreadable (C66_unset_item_refuted); offsets of 2^63 and more raise the error of the file object (C66_overflow_refuted).

### C67 Restore point change log — proved

For every change log with well-formed entries the reader yields the entries in order, without the last character of the process name. In every file that is read, the header record holds a volume path and ends with its size, and entries with the documented signature, type and copy of their size follow each other up to the end of the file; only the last record can be cut off. Reading ends on every file; the only errors are ParseError and ValueError.

- Quantifier: all logs
- Code: dtformats/rp_change_log.py
- Model and proof: Specification writer; induction; refutation.
- Theorems: `C67_read`, `C67_sound`, `C67_ends`, `C67_name_refuted`, `C67_volume_path_refuted`, `C67_truncated_refuted`, `C67_sub_refuted`, `C67_small_refuted`
- Note: Findings: the last character of the process name is dropped (C67_name_refuted), the volume path is not kept (C67_volume_path_refuted), a cut-off record that ends with its size is accepted (C67_truncated_refuted), a record of an unsupported type with little data at the end is refused because another header is read from it (C67_sub_refuted), a small record size raises ValueError (C67_small_refuted). Debug output is not modelled.

### C68 Recycler and Recycle Bin metadata — proved

A $I file is read exactly if it is of format 1 or 2, into its version, deletion time, size and original name without NULs at its end; other data is a ParseError. An INFO2 file is read exactly if it consists of a header and of entries of the size (280 or 800) given there, into these entries; other data is a ParseError and reading always ends. With debug output the ANSI names must also be decodable.

- Quantifier: all entries
- Code: dtformats/recycler.py; dtformats/recycle_bin.py
- Model and proof: Specification writer.
- Theorems: `C68_metadata`, `C68_metadata_names`, `C68_metadata_errors`, `C68_string_read`, `C68_info2`, `C68_info2_ends`, `C68_remnant_refuted`, `C68_header_refuted`, `C68_end_refuted`
- Note: C68_metadata and C68_info2 are equivalences. Findings: remnant data behind the end of an ANSI name is decoded with the name and can make a file unreadable with debug output (C68_remnant_refuted), the header of an INFO2 file is never shown (C68_header_refuted), format 2 names keep characters behind an end-of-string character (C68_end_refuted). The attribute documented as original_size is named original_file_size.

### C69 WEMF record walking — proved

An EMF file is read exactly if it has a header of 108 bytes followed by records up to the end of the file, a WMF file exactly if it has a supported header (possibly after a placeable header) followed by records up to the end of the file; each record starts where the one before ends by its size. The types and sizes are those stored. Reading ends within a step per byte unless a record of size 0 is reached, then it does not end. The only error is ParseError without debug output.

- Quantifier: all files
- Code: dtformats/wemf.py
- Model and proof: Specification writer; recurrence witness.
- Theorems: `C69_emf`, `C69_emf_debug`, `C69_emf_records`, `C69_wmf`, `C69_wmf_records`, `C69_emf_ends`, `C69_wmf_ends`, `C69_errors`, `C69_loop_refuted`, `C69_data_refuted`, `C69_shown_refuted`, `C69_debug_error_refuted`, `C69_header_refuted`, `C69_stretch_refuted`
- Note: C69_emf and C69_wmf are equivalences. Findings: a record of size 0 is read forever (C69_loop_refuted); the data offset of a record is the size of its header and the data size is too large by the offset of the record (C69_data_refuted), so the debug output shows the following records as data (C69_shown_refuted); with debug output a truncated record raises an error of dtFabric (C69_debug_error_refuted); the size of the EMF header record is ignored, so files with a header of 88 bytes are misread (C69_header_refuted); stretch modes are shown with the names of map modes (C69_stretch_refuted).

### C70 YAML debug definitions are accepted exactly when complete — proved

A definition is accepted exactly when all mandatory keys are present and have supported values; every rejection raises ParseError.

- Quantifier: all YAML mappings
- Code: dtformats/yaml_definitions_file.py
- Model and proof: Acceptance characterisation.
- Theorems: `C70_definition_accepted_iff_good`, `C70_definition_rejection`

### C71 GZip reading terminates — proved

For every file content and every decompressor that leaves over fewer bytes than it was given whenever it produces output, reading the file ends (with the members or with an error).

- Quantifier: all file contents (adversarial), all such decompressors and buffer sizes
- Code: dtformats/gzipfile.py: ReadFileObject, _ReadMemberCompressedData, _ReadCompressedData
- Model and proof: Progress measure on the file position.
- Theorems: `C71_gzip_terminates`

### C72 IndexedDB key segments identify the key — proved

For every key with a well-formed prefix the reported segments are the three identifiers, the metadata type (exactly for keys whose identifiers are all zero) and the rest of the key as text; two different keys whose identifiers have the smallest size never have the same segments.

- Quantifier: all keys
- Code: dtformats/indexeddb.py: ReadEntries, _ReadKeyPrefix
- Model and proof: Decimal text and bytes text are injective (prefix code).
- Theorems: `C72_key_segments`, `C72_segments_identify_key`

### C73 LevelDB records and tables terminate — proved

Reading write batches, version edits and sorted tables ends for every input, whatever the decompressors return.

- Quantifier: all inputs (adversarial)
- Code: dtformats/leveldb.py: _ReadRecord, _ReadTable, ReadTableEntries
- Model and proof: Progress measure.
- Theorems: `C73_batch_terminates`, `C73_descriptor_terminates`, `C73_table_terminates`

### C74 Chrome cache entries are read exactly — proved

For every data block file content and offset: if 256 bytes are available the entry has the stored hash, creation time, next and rankings addresses, and its key is the stored key up to the first NUL with every byte that is not ASCII replaced by U+FFFD; otherwise ParseError.

- Quantifier: all file contents and offsets
- Code: dtformats/chrome_cache.py: DataBlockFile.ReadCacheEntry
- Model and proof: Closed form of fixed-size structure reads.
- Theorems: `C74_entry`, `C74_long_key_refuted`
- Note: Finding: key_size and long_key_address are not used; keys longer than 160 bytes are cut.

### C75 Chrome cache files are accepted exactly when complete — proved

ChromeCacheParser.ParseFile (without debug output) succeeds exactly for contents that hold a complete header (for index files also the LRU data) with a known signature and version 2.0 or 2.1; every other content raises ParseError.

- Quantifier: all file contents
- Code: dtformats/chrome_cache.py: ChromeCacheParser.ParseFile, DataBlockFile._ReadFileHeader, IndexFile.ReadFileObject
- Model and proof: Closed form of the header reads; decimal text of the version is injective.
- Theorems: `C75_parse_file`

### C76 Chrome cache entry chains are bounded — proved

Following the chain of an index table entry reads at most 64 entries for every set of data block files, also when the chain is cyclic.

- Quantifier: all data block files (adversarial)
- Code: dtformats/chrome_cache.py: ChromeCacheParser.ParseDirectory
- Model and proof: Structural recursion on the remaining length.
- Theorems: `C76_chain_bounded`, `C76_directory_bounded`

### C77 uuidtext files resolve string references — proved

For every uuidtext file made of blocks of NUL-terminated strings and an image path, reading the file and looking up the reference of any string (start of its block plus the position in the block) returns that string, as long as no earlier block contains the reference or ends at it; the footer path is the image path.

- Quantifier: all block lists, strings, positions and trailing data
- Code: dtformats/unified_logging.py: UUIDTextFile.ReadFileObject, GetString, _ReadFileHeader, _ReadFileFooter
- Model and proof: Specification writer; induction over the blocks.
- Theorems: `C77_uuidtext`

### C78 Shared-cache string files resolve their images — proved

For every DSC file of version 1 or 2 each range is reported with the identifier, path and text range of the image its descriptor refers to; a descriptor with an image index outside the table makes the read fail with IndexError.

- Quantifier: all tables
- Code: dtformats/unified_logging.py: DSCFile.ReadFileObject, _ReadRangeDescriptors, _ReadUUIDDescriptors
- Model and proof: Specification writer; induction over both tables.
- Theorems: `C78_ranges`, `C78_image_index_refuted`
- Note: Finding: IndexError instead of ParseError for an image index outside the table.

### C79 Spotlight metadata items have the stored attributes — proved

For every record whose attributes are stored in the documented encodings with the property types of the file, the item has exactly these attributes with their values, except those in the last 4 bytes of the record; so a last attribute of at most 4 bytes is lost. The attribute of accumulated sizes also takes bytes that follow the record, and an attribute of an unknown type raises AttributeError.

- Quantifier: all records, attribute lists, property tables and surrounding data
- Code: dtformats/spotlight_storedb.py: _ReadMetadataItem, _ReadMetadataAttribute and the value readers
- Model and proof: Relational specification of the encodings; induction over the attributes.
- Theorems: `C79_attributes`, `C79_all_attributes`, `C79_last_attribute_refuted`, `C79_accumulated_sizes_refuted`, `C79_unknown_type`
- Note: Findings: the loop over the attributes ends 4 bytes early (C79_last_attribute_refuted); kMDStoreAccumulatedSizes reads behind the record (C79_accumulated_sizes_refuted); AttributeError for unknown types (C79_unknown_type).

### C80 Spotlight property tables in streams maps — proved

Property types and values stored in streams maps are numbered from the second stream on, streams whose size does not match are skipped, lists give the names of the values with the stored indexes; every attribute value is read as stored, whatever follows it.

- Quantifier: all streams and values
- Code: dtformats/spotlight_storedb.py: _ReadPropertyTable..., _ReadMetadataAttributeStringValue and others
- Model and proof: Relational specification; induction.
- Theorems: `C80_streams`, `C80_lists`, `C80_values`

### C81 Spotlight store files are read completely — proved

For every store file (header, map pages, property tables in pages or streams maps, plain, zlib and LZ4 record pages) the reader ends with the stored tables; the item of an identifier is the item of the last record with that identifier, there is none for any other identifier, and the number of items is the number of different identifiers.

- Quantifier: all store files without cycles, all decompressors
- Code: dtformats/spotlight_storedb.py: AppleSpotlightStoreDatabaseFile.ReadFileObject, GetMetadataItemByIdentifier, number_of_metadata_items
- Model and proof: Composition of the page theorems; dictionary lemmas.
- Theorems: `C81_read`, `C81_item`, `C81_none`, `C81_count`

### C82 WMF raster operation names — proved

The table of raster operations has exactly one code for each of the 256 operations; the name of a code, read in reverse Polish notation, denotes the operation of the code for all values of pattern, source and destination, except for 38 codes; other codes are unknown.

- Quantifier: all raster operation codes, all bits of pattern, source and destination
- Code: dtformats/wemf.py: _WMF_RASTER_OPERATIONS, WMFFile._ReadRecordData
- Model and proof: Grammar of reverse Polish notation, decided by a stack machine proved equivalent to it; truth tables.
- Theorems: `C82_codes`, `C82_lookup`, `C82_names`, `C82_unambiguous`, `C82_names_refuted`
- Note: Finding: 38 names are wrong, most lost their last letter (C82_names_refuted).

### C83 Restore Point logs are read as stored — proved

Reading an rp.log file gives the event type, Restore Point type, sequence number, description, unknown data and creation time of the file, and whatever is read is stored in the file; a file without Restore Point information is refused with ParseError. Information followed by 7 bytes is accepted although the creation time then overlaps the description, and fewer bytes raise ValueError. The values are shown with their documented names.

- Quantifier: all file contents
- Code: dtformats/rp_log.py: RestorePointLogFile.ReadFileObject, _ReadFileHeader, _ReadFileFooter, _DebugPrintFileHeader
- Model and proof: Reader combinators with relational specifications; case analysis on the size of the data.
- Theorems: `C83_file`, `C83_sound`, `C83_refused`, `C83_overlap_refuted`, `C83_short_refuted`, `C83_shown`
- Note: complete and sound; found: information followed by 7 bytes is accepted, the creation time then begins with a byte of the description (C83_overlap_refuted), fewer bytes raise ValueError (C83_short_refuted)

### C84 Job files give the task configuration — proved

A read of a job file succeeds exactly if the file consists of a fixed size and a variable-length data section; the configuration then has the strings, retry values, priority and identifier of the file, whatever was read before; all errors are ParseError. A refused file can leave a mixture of two files, the offsets in the file are ignored, and the minor version is shown as the major version.

- Quantifier: all file contents and previous configurations
- Code: dtformats/job.py: WindowsTaskSchedulerJobFile.ReadFileObject, GetWindowsTaskConfiguration, _FormatIntegerAsProductVersion
- Model and proof: Reader combinators with relational specifications.
- Theorems: `C84_file`, `C84_errors`, `C84_mixture_refuted`, `C84_offset_refuted`, `C84_version_refuted`
- Note: iff for success, all values of the configuration, text of the identifier; found: a refused file leaves a mixture of two files (C84_mixture_refuted), offsets ignored (C84_offset_refuted), the minor version is shown as the major one (C84_version_refuted)

### C85 Alias data records are read as stored — proved

Reading alias data of version 2 or 3 gives the values of the record and all tagged values with their tags, and whatever is read is stored that way; all other data are refused with ParseError. Data with more than one record are refused although documented, a version 2 record cut off before the tagged values is accepted, data behind the terminator are read as tagged values, and fractions of a second are shown as if they were decimals.

- Quantifier: all file contents and all UTF-8 decoders
- Code: dtformats/alias_data.py: MacOSLoginItemAliasData.ReadFileObject, _ReadTaggedValue, _FormatIntegerAsHFSTime64bit
- Model and proof: Reader combinators with relational specifications; induction over the tagged values.
- Theorems: `C85_file`, `C85_sound`, `C85_ends`, `C85_cut_refuted`, `C85_records_refuted`, `C85_terminator_refuted`, `C85_fraction_refuted`, `C85_time`
- Note: complete and sound; found: cut off version 2 records accepted (C85_cut_refuted), more than one record refused (C85_records_refuted), the terminator does not end the tagged values (C85_terminator_refuted), 65536ths of a second shown as decimals (C85_fraction_refuted)

### C86 Bookmark data give the values of their tags — proved

Reading bookmark data succeeds exactly if they have the documented layout and the values have the types the tags call for, and gives for every tag of the table of contents, in its order, the string list, integer list, time, flags or value stored for it; with values of the right types all errors are ParseError, other types raise AttributeError or ValueError. Data with a second table of contents are refused.

- Quantifier: all file contents and all UTF-8 decoders
- Code: dtformats/bookmark_data.py: MacOSBackgroundItemBookmarkData.ReadFileObject, _ReadDataRecord, _ReadTableOfContents, _ReadStringsArray, _ReadIntegersArray
- Model and proof: Reader combinators with relational specifications; induction over the table of contents.
- Theorems: `C86_file`, `C86_unique`, `C86_errors`, `C86_typed`, `C86_types_refuted`, `C86_next_refuted`
- Note: iff; floating-point numbers are compared as bytes; found: values of other types raise AttributeError or ValueError instead of ParseError (C86_types_refuted), a second table of contents is refused (C86_next_refuted)

### C87 DetectionHistory files are read as stored — proved

Reading a DetectionHistory file succeeds exactly if the file is a sequence of values of the documented types with their padding, gives all of them in order, and otherwise fails with ParseError; every value is shown with its set and its position in the set. Threat tracking data give all keys and values whether or not the size counts itself; empty data and a size behind the end of the data raise ValueError.

- Quantifier: all file contents and all threat tracking data
- Code: dtformats/detection_history.py: WindowsDefenderScanDetectionHistoryFile.ReadFileObject, _ReadValue, _ReadThreatTrackingData, _ReadThreatTrackingValue
- Model and proof: Reader combinators with relational specifications; induction over the values.
- Theorems: `C87_values`, `C87_ends`, `C87_labels`, `C87_tracking`, `C87_size`, `C87_tracking_ends`, `C87_errors_refuted`
- Note: iff for the file and for the threat tracking data; found: ValueError instead of ParseError for empty or cut off threat tracking data (C87_errors_refuted)

### C88 Jump List files are read as stored — proved

A DestList stream is read exactly if it consists of a header of version 1 to 4 and entries of that version, all of them are read, and every other stream is given as an entry under its name. A custom destinations file is accepted exactly if its categories end with their signature and have at most the given number of LNK entries; all LNK files are given, in order. All errors are ParseError and every read ends. Paths with unpaired surrogates are refused, the identifier of every custom entry is 0x00000000, entries of an earlier file stay.

- Quantifier: all stream and file contents and all LNK readers
- Code: dtformats/jump_list.py: AutomaticDestinationsFile.ReadFileObject, AutomaticDestinationsFile.GetJumpListEntries, CustomDestinationsFile.ReadFileObject, CustomDestinationsFile.GetJumpListEntries
- Model and proof: Reader combinators with relational specifications; inductive layout of the categories.
- Theorems: `C88_dest_list`, `C88_dest_list_ends`, `C88_dest_list_empty`, `C88_surrogates_refuted`, `C88_dest_count_refuted`, `C88_streams`, `C88_custom`, `C88_custom_iff`, `C88_custom_errors`, `C88_identifier_refuted`, `C88_again_refuted`, `C88_count_refuted`, `C88_texts`
- Note: iff for the DestList stream and for custom destinations files; the LNK reader is a parameter with non-negative sizes; found: paths with unpaired surrogates are refused although documented (C88_surrogates_refuted), all custom entries have the identifier 0x00000000 (C88_identifier_refuted), a second read keeps the entries of the first (C88_again_refuted), numbers of entries are not checked (C88_count_refuted, C88_dest_count_refuted)

### C89 The chunks of a tracev3 file are read in order and completely — proved

Reading the log entries of a tracev3 file succeeds exactly if chunk headers, chunk sets (LZ4 or plain blocks) and their chunks reach the end of the file, gives the entries of all firehose, statedump and simpledump chunks in the order of the file, and a firehose chunk sees the last oversize chunk before it with its process and reference. Otherwise it ends with the first error, after the entries before it. A file written as documented is read completely. The entries cannot be read twice, some errors are not ParseError, and oversize chunks with private data are not read as documented.

- Quantifier: all file contents, LZ4 decompressors and chunk readers
- Code: dtformats/unified_logging.py: TraceV3File.ReadLogEntries, TraceV3File._ReadChunkSet, TraceV3File._ReadOversizeChunkData
- Model and proof: Generator model; layout relation with its stopping reason; effects relation over the history of oversize chunks.
- Theorems: `C89_entries`, `C89_errors`, `C89_ends`, `C89_written`, `C89_oversize`, `C89_oversize_errors`, `C89_oversize_size_refuted`, `C89_again_refuted`, `C89_error_types_refuted`
- Note: iff for success and for every error; the readers of firehose, dump and catalog chunks and LZ4 are parameters; found: reading log entries a second time starts inside the last chunk set (C89_again_refuted), ValueError and OverflowError instead of ParseError (C89_error_types_refuted), the data size of oversize chunks is not read as documented (C89_oversize_size_refuted)

### C90 The catalog of a tracev3 file is read as documented — proved

A catalog is loaded exactly if it is stored at the offset with existing UUID indexes and different proc_ids; otherwise the first reason gives the error. The process information of a proc_id is the entry with that proc_id with the UUIDs at its indexes, the sub system and category of an identifier are the strings at the offsets of the last entry with it, and the process image is that of the main UUID. Offsets are counted in characters instead of bytes; missing UUIDs raise IndexError or AttributeError.

- Quantifier: all file contents, UTF-8 decoders and identifiers
- Code: dtformats/unified_logging.py: TraceV3File._ReadCatalog, TraceV3File._BuildCatalogProcessInformationEntries, TraceV3File._GetSubSystemStrings, TraceV3File._GetProcessImageValues
- Model and proof: Reader combinators for sized sequences and alignment; invariant of the dictionary of processes.
- Theorems: `C90_load`, `C90_documented`, `C90_errors`, `C90_process`, `C90_sub_system`, `C90_image`, `C90_characters_refuted`, `C90_index_refuted`
- Note: iff for success and for every error; UTF-8 decoding and the uuidtext files are parameters; found: the string offsets are counted in characters (C90_characters_refuted; C90_sub_system is for strings with one byte per character), IndexError and AttributeError for missing UUIDs (C90_index_refuted)

### C91 Every tracepoint of a firehose chunk becomes one log entry, in order — proved

Reading a firehose chunk gives the log entries of its tracepoints, in the order they are stored, up to the size of the public data; unused tracepoints are skipped. The members of activities, traces, log messages, signposts and losses are those that the flags and the log type call for, the values are what follows them. Reading stops at the first tracepoint that is not there, has an unsupported record type, log type or flag, or whose data does not suffice, after the entries before it. Chunks without activity, log message and signpost end with UnboundLocalError, and references to oversize data are read as 1 byte where 2 are documented.

- Quantifier: all chunk data, catalogs and functions that make log entries of tracepoints
- Code: dtformats/unified_logging.py: TraceV3File._ReadFirehoseChunkData, TraceV3File._ReadFirehoseTracepointData, TraceV3File._ReadFirehoseTracepointActivityData, TraceV3File._ReadFirehoseTracepointLogData, TraceV3File._ReadFirehoseTracepointSignpostData
- Model and proof: Readers with conditional members; relation for the tracepoints with the reason to stop; iff with the generator.
- Theorems: `C91_entries`, `C91_ends`, `C91_written`, `C91_errors`, `C91_quiet_refuted`, `C91_reference_refuted`, `C91_size_refuted`
- Note: iff for the entries and the end of reading; what makes a log entry of a tracepoint is a parameter; found: UnboundLocalError after the entries of a chunk without activity, log message and signpost (C91_quiet_refuted), ValueError for a size beyond the chunk (C91_size_refuted), 1-byte reference to oversize data where 2 bytes are documented (C91_reference_refuted)

### C92 The values and the backtrace of a tracepoint are those that were stored with it — proved

The values of a log message or signpost are those of its data items, or of the oversize chunk it refers to: numbers from the item, strings and binary data from the values data, private ones from the private data at the end of the chunk, private ones without data as <private>; items that give a precision are no values. Value k is decoded with decoder k, the first one that cannot be decoded ends reading. The backtrace is the identifiers, offsets and indexes at the start of the values data if the flag for it is set; index 255 is no image and other indexes without identifier are an error. The values of a trace have 4 or 8 bytes, as the sizes after them say.

- Quantifier: all values data, private data, data items, oversize chunks and decoders
- Code: dtformats/unified_logging.py: TraceV3File._ReadDataItems, TraceV3File._ReadBacktraceData, TraceV3File._GetDataItemsAndValuesData, TraceV3File._ReadFirehoseTracepointTraceValuesData, TraceV3File._ReadFirehoseChunkData
- Model and proof: Relations for the data of an item, for frames and for where data comes from; iff with the readers, including the errors.
- Theorems: `C92_values`, `C92_backtrace`, `C92_content`, `C92_activity`, `C92_trace`, `C92_location_refuted`, `C92_size_refuted`, `C92_before_refuted`
- Note: decoders are a parameter; items must have ranges inside of private data that are not negative; found: private data offsets before the virtual offset wrap around to the end of the private data, a trace of only a location uses its last byte as number of values (IndexError), the value of a trace can take bytes of the size table

### C93 The format string and the image of a tracepoint do not depend on what was read before — proved

The string reference, the dynamic flag and the program counter of a tracepoint are calculated from the stored values as documented. The strings file is that of the main image, the shared cache, the first image with the address, or the one the tracepoint names. Whatever the order of the tracepoints, the caches of files make no difference and stay within their limits; each tracepoint gets the image of itself or of an earlier one with the same identifier and reference, its own if these are alike. The cache ignores the dynamic flag, so that a dynamic and a static string with the same reference are mixed up; the address directly behind an image counts as in it.

- Quantifier: all sequences of tracepoints, catalogs, directories of strings files and stored values
- Code: dtformats/unified_logging.py: TraceV3File._GetImageValues, TraceV3File._CalculateFormatStringReference, TraceV3File._CalculateNameStringReference, TraceV3File._CalculateProgramCounter, TraceV3File._GetDSCFile, TraceV3File._GetUUIDTextFile
- Model and proof: Bit-level relations for references and addresses; invariant of the caches over all histories.
- Theorems: `C93_reference`, `C93_name`, `C93_address`, `C93_address_total`, `C93_bounds`, `C93_bounds_refuted`, `C93_dynamic_refuted`, `C93_strings`, `C93_entry_refuted`, `C93_process_refuted`, `C93_history`, `C93_independent`, `C93_total`, `C93_alone`, `C93_cache_refuted`
- Note: found: the cache of image values is keyed without the dynamic flag, a static string is shown as %s after a dynamic one with the same reference and the other way around (C93_cache_refuted); the address behind an image is taken as in it (C93_entry_refuted); bit 31 of the load address is lost for odd large offset data (C93_bounds_refuted); the dynamic flag is used above 0xffffffff (C93_dynamic_refuted); AttributeError without process information (C93_process_refuted)

### C94 The log entry of a tracepoint has what the tracepoint, its catalog and its strings file say — proved

For every sequence of tracepoints, each log entry has the time, thread, trace identifier and event type that are stored, the process and sub system of the catalog, the message that is the format string filled with the decoded values (each by the decoder its conversion calls for), the program counter of the stored address, and the members of its kind: activity identifiers without their top bit, creator only for activities that are created, the scope, type and name of signposts, the counts of losses. Every tracepoint whose strings, values and process can be read gets an entry. A process without main executable gives an AttributeError, as does a named signpost outside all images; without uuidtext file the identifier of the process image is missing.

- Quantifier: all sequences of tracepoints, catalogs, strings files and decoders
- Code: dtformats/unified_logging.py: TraceV3File._ReadFirehoseChunkData, TraceV3File._DecodeValue, TraceV3File._GetProcessImageValues, LogEntry
- Model and proof: Relation between a tracepoint and its log entry on top of C38, C91, C92 and C93; induction over the history.
- Theorems: `C94_entries`, `C94_chunk`, `C94_total`, `C94_main_refuted`, `C94_process_refuted`, `C94_signpost_refuted`, `C94_order_refuted`
- Note: found: _GetProcessImageValues reads main_uuid that entries without main index do not have, AttributeError for every tracepoint of such a process, also losses (C94_main_refuted); name_image_values.string fails with AttributeError for a named signpost whose address is in no image (C94_signpost_refuted); the process image identifier is None if the uuidtext file is missing though the catalog has it (C94_process_refuted); messages depend on the tracepoints before (C94_order_refuted); the decoders are arguments; stored_job holds for what C91 and C90 read (C94_chunk)

### C95 Simple dumps and state dumps become the log entry of what is stored — proved

For every SimpleDump or StateDump chunk, whatever tracepoints and dumps were read before, the log entry has the stored sub system, message, address, thread and times (or, for a state, the title and what the decoder named by its library and type shows), the process of the catalog and the sender; if there is none, the exception is the one of what is wrong: empty data, data that is too short or no UTF-8, a process that the catalog does not have, an image file that cannot be read. States with data of other types have an empty message; library and type names that are no UTF-8 give a UnicodeDecodeError.

- Quantifier: all chunks, catalogs, strings files, decoders and histories
- Code: dtformats/unified_logging.py: TraceV3File._ReadSimpleDumpChunkData, TraceV3File._ReadStateDumpChunkData
- Model and proof: Byte level relation for both structures; exactly one outcome per chunk; induction over mixed histories with the invariant of C94.
- Theorems: `C95_history`, `C95_simple`, `C95_state`, `C95_library_refuted`, `C95_title_refuted`, `C95_main_refuted`
- Note: found: a library or decoder type that is no UTF-8 gives UnicodeDecodeError instead of ParseError (C95_library_refuted); the title of states with other data types is dropped (C95_title_refuted); a process without main executable gives AttributeError (C95_main_refuted); empty chunk data is a ValueError (C95_simple); printing of the warning without error_on_warning is not modelled

### C96 Every documented value decoder shows every value as documented — proved

For each of the documented decoder names of unified logging format strings, and for every value: booleans, error numbers, file modes, IPv4 and IPv6 and socket addresses, UUIDs, masked hashes, DNS headers, Open Directory members and security identifiers, location states, signpost values, integers and texts are shown as the text of exactly what is stored; values of another size are shown as unsupported; there are no other decoders. IP addresses, UUIDs, masked hashes and security identifiers can be told from their texts. Socket addresses lose their port, file modes the set user, set group and sticky bits; error numbers below zero are never named; a missing value ends the reading with a TypeError or AttributeError for all but texts and masked hashes.

- Quantifier: all decoder names, values (bytes or missing) and conversions
- Code: dtformats/unified_logging.py: *FormatStringDecoder, TraceV3File._FORMAT_STRING_DECODERS, TraceV3File._DecodeValue
- Model and proof: A table of documented names and kinds with one relation per kind between stored bytes and text, independent of the decoders; one lemma per decoder, then case distinction over the table; injectivity by reading the texts back.
- Theorems: `C96_decoders`, `C96_only`, `C96_values`, `C96_lossless`, `C96_sid`, `C96_negative_refuted`, `C96_mode_refuted`, `C96_socket_refuted`, `C96_empty_refuted`, `C96_missing_refuted`, `C96_conversion_refuted`
- Note: found: error numbers are read as unsigned so that negative numbers of the tables are never named (C96_negative_refuted); set user, set group and sticky bits are not shown (C96_mode_refuted); the port of socket addresses is dropped and IPv6 socket addresses with zero groups give text that is no address (C96_socket_refuted); empty flag lists and SIDs without sub authorities leave empty parts (C96_empty_refuted); missing values and UUIDs of other sizes raise TypeError, AttributeError or ValueError (C96_missing_refuted); conversions C and S have no decoder (C96_conversion_refuted); UTF-8 decoding, formatting of floating-point numbers and of dates are arguments; integers and texts use the formatting of C38-C40

### C97 Class definitions of a WMI repository are read exactly as stored — proved

For every object record of a class definition: the class definition that is read has the name, the super class name, the qualifiers and the properties with their index, offset, data type and qualifiers that are stored in the class definition block, and there is a class definition exactly if the record contains one; names are CIM strings or predefined names, qualifiers have lower-case names and the last value of a name counts. Otherwise there is a ParseError or ValueError and nothing else. A class is abstract with the value of its qualifier. Values of unsigned 32-bit qualifiers are lost, qualifiers that are references make the class unreadable, and the size of the values is read with 27 bits.

- Quantifier: all object records, codepage decoders and lower-case mappings
- Code: dtformats/wmi_repository.py: ClassDefinition, ClassDefinitionReference, _ReadCIMString; dtformats/wmi_repository.yaml: class_definition_block, qualifier_descriptor, property_definition
- Model and proof: A relation between the bytes of the object record and the class definition, written member by member from the documentation; qualifiers and properties as lists of assignments with a dictionary characterised by order of first and value of last assignment; both directions by the reader lemmas.
- Theorems: `C97_classes`, `C97_blocks`, `C97_errors`, `C97_abstract`, `C97_uint32_refuted`, `C97_reference_refuted`, `C97_size_refuted`, `C97_offset_refuted`
- Note: found: the value of a qualifier of type uint32 is lost because uint16 is listed twice (C97_uint32_refuted); a qualifier of type reference, as documented for the provider, makes the class unreadable (C97_reference_refuted); only 27 of the 31 bits of the size of the values count (C97_size_refuted); a name offset at the end of the values raises ValueError instead of the documented ParseError (C97_offset_refuted); cp1252 and str.lower are arguments; floating-point values are kept as their bytes

### C98 The value map of a WMI class has every property of the class and its parent classes — proved

For every sequence of class definitions, base class first: the class value map has the name of the last class, the names of the parent classes from the nearest on, and for every property with a type qualifier its name, data type, offset, size and type; a property that is declared again counts with its last declaration, and one without type must be declared before. The size of the value data is the end of the first property with the largest offset, so that it contains every property if none overlap. A class value map is found by hash exactly if the class and all its parent classes are there; the lookup ends if no class is its own ancestor; maps that are kept between lookups never change a result. A missing parent class raises AttributeError instead of RuntimeError, a class that is its own ancestor makes the lookup endless, the dynasty is not the top-level class.

- Quantifier: all lists of class definitions, dictionaries of class definitions, hashes and sequences of lookups
- Code: dtformats/wmi_repository.py: ClassValueDataMap.Build, PropertyValueDataMap, CIMRepository._GetClassValueMapByHash, CIMRepository._GetClassDefinitionByHash
- Model and proof: Declarations as an inductive relation over the properties of all classes; the dictionary by order of first and value of last assignment; the size by the first maximum of offsets; parent classes as an inductive lineage; loops by induction on fuel in one and on the lineage in the other direction; kept maps by an invariant.
- Theorems: `C98_build`, `C98_errors`, `C98_covers`, `C98_lookup`, `C98_lookup_errors`, `C98_ends`, `C98_kept`, `C98_parent_refuted`, `C98_loop_refuted`, `C98_dynasty_refuted`, `C98_overlap_refuted`, `C98_number_refuted`
- Note: found: a missing parent class raises AttributeError instead of the documented RuntimeError because the message asks None for its super class (C98_parent_refuted); a class that is its own ancestor makes the lookup endless (C98_loop_refuted); the dynasty shown as __DYNASTY is the parent of the parent and not the top-level class (C98_dynasty_refuted); with overlapping properties the size of the value data is too small (C98_overlap_refuted); a type qualifier that is no text raises AttributeError instead of ParseError (C98_number_refuted); str.lower and the hash of a name are arguments

### C99 The properties of a WMI instance have exactly the stored values — proved

For every class value map and every instance block: the instance that is read has, for each property of the map, the value that is stored for it - booleans and integers in the property values data, strings and arrays of strings in the values data at the stored offset, none for offset 0 - and there is an instance exactly if the block contains one; the state bits, the qualifiers and the dynamic properties are skipped by their sizes. Otherwise there is a ParseError or ValueError and nothing else. With the class definitions of the repository the values of an object record are found exactly if its class and all parent classes are there. Instances with a property of type sint8, sint16, sint64, real32, real64 or char16 cannot be read; arrays of other values than strings have no value.

- Quantifier: all class value maps with unsigned offsets, instance blocks, object records and class definitions
- Code: dtformats/wmi_repository.py: Instance.ReadInstanceBlockData, InstanceReference.ReadObjectRecord, CIMRepository._ReadInstanceFromObjectRecord; dtformats/wmi_repository.yaml: instance_block, property_value_*, cim_string_array, instance_object_record_v1, instance_object_record_v2
- Model and proof: The instance block as four parts one after the other with a relation for each; values by an inductive relation per kind of data type; the reader lemmas of C97 at offsets; composed with the lookup of C98.
- Theorems: `C99_instances`, `C99_errors`, `C99_records`, `C99_record_errors`, `C99_repository`, `C99_offsets`, `C99_classes`, `C99_types_refuted`, `C99_sint64_refuted`, `C99_array_refuted`, `C99_size_refuted`, `C99_name_refuted`
- Note: found: there is no definition for values of type sint8, sint16, sint64, real32, real64 and char16, so that every instance of a class with such a property raises ValueError (C99_types_refuted, C99_sint64_refuted); arrays of other values than strings have no value (C99_array_refuted); the type qualifier and not the data type decides how many bytes are read, also those of the next property (C99_size_refuted); an offset at the end of the values data raises ValueError instead of the documented ParseError (C99_name_refuted); cp1252, str.lower and the hash of a name are arguments; the class maps kept between instances are covered by C98_kept

### C100 The root nodes of a WMI repository file are found by their cell numbers — proved

Reading a cim.rep file finds the root namespace node and the system class node exactly at the data of the node cells whose numbers are in the file header, counting the cells in use from the first one on and stepping over the header of every further node bin; a cell number that the file does not reach is reported as missing. A file whose cells or bin headers are cut off is refused with a ParseError. If every cell in use has a size, reading ends. Findings: if both numbers are the same the system class node is not found, and a cell whose size has only upper bits set is read again and again without end.

- Quantifier: for all file contents (any bytes), all headers, any number of node bins and node cells
- Code: dtformats/wmi_repository.py:2087-2137; dtformats/wmi_repository.py:1679-1713; dtformats/wmi_repository.yaml:904-947
- Model and proof: WcrModel: the file header, node bin headers and node cells as readers, the loop of ReadFileObject with fuel. WcrSpec: after_cells says where the file goes on after n cells; found says what has to be reported. Proved: the loop keeps what is known after n cells; positions are determined; with all sizes positive the file length bounds the loop.
- Theorems: `C100_cells`, `C100_errors`, `C100_unique`, `C100_count`, `C100_ends`, `C100_same_refuted`, `C100_ends_refuted`
- Note: Findings: C100_same_refuted, C100_ends_refuted. Not modelled: debug mode, in which all cells are read.

### C101 Instances and namespaces of a WMI repository file are those of the nodes below the root node — proved

Reading the instances of a cim.rep file yields, parents first and in stored order, exactly the instances of the root namespace node and of the nodes that the child objects trees lead to; every instance has the properties that its class definition and its instance block give it. Reading the namespaces yields the same hierarchy with every namespace named by its own name behind those of the namespaces it is in. Whatever is yielded, also before a failure, belongs to a node below the root node, and what is yielded is determined by the file. A file that cannot be read ends in a ParseError, ValueError, AttributeError or TypeError. Findings: children of trees of depth 0 are dropped although documented, None is yielded for branch nodes of another kind and makes the namespaces fail with an AttributeError, a namespace without a name and a root node that was not found are TypeErrors, instances never have a super class, and a node below itself makes reading endless.

- Quantifier: for all file contents (any bytes), all root offsets, hierarchies of any depth and width, any string decoder and lower case function
- Code: dtformats/wmi_repository.py:1226-1269; dtformats/wmi_repository.py:1746-1774; dtformats/wmi_repository.py:1852-2085; dtformats/wmi_repository.yaml
- Model and proof: WchModel: nodes as readers of the data of node cells (C100), trees, class definitions (C97), class maps (C98) and instances (C99), the recursive generators with fuel. WchSpec: family and spaces are inductive descriptions of the hierarchies in terms of stored bytes. Proved: soundness by induction on fuel, completeness by mutual induction on the derivations with monotonicity in fuel, errors and yields by induction on fuel.
- Theorems: `C101_instances`, `C101_namespaces`, `C101_yields`, `C101_errors`, `C101_unique`, `C101_depth_refuted`, `C101_super_refuted`, `C101_none_refuted`, `C101_name_refuted`, `C101_root_refuted`, `C101_ends_refuted`
- Note: Findings are the _refuted theorems. Not modelled: debug mode and how deep Python calls can be nested (the endless case is a RecursionError in Python).

### C102 The class hierarchy of a WMI repository file yields the objects in the lists of its classes — proved

Reading the class definitions of a cim.rep file yields exactly the instances in the child objects list of the system class, in the order in which the elements are linked, and then those of the classes below it in stored order; every class definition on the way has to be readable. What is yielded is determined by the file. A file that cannot be read ends in a ParseError, ValueError or AttributeError, or in a TypeError if the system class was not found. Findings: no class definition is ever yielded, and a list element that is followed by itself makes reading endless.

- Quantifier: for all file contents (any bytes), all root offsets, lists and hierarchies of any size, any string decoder and lower case function
- Code: dtformats/wmi_repository.py:1120-1159; dtformats/wmi_repository.py:1788-1850; dtformats/wmi_repository.py:2054-2063
- Model and proof: WchModel: classes and list_elements. WchSpec: elements_of, listed and class_tree. Proved as C101, with the loop over the list elements by induction on the links.
- Theorems: `C102_classes`, `C102_errors`, `C102_unique`, `C102_nothing_refuted`, `C102_ends_refuted`
- Note: Findings are the _refuted theorems. Not modelled: debug mode.

### C103 The class definitions and instances of a WMI repository are those its index keys lead to — proved

The class definitions that are made of the object records of a CIM repository (index.btr and objects.data) are exactly those of the records of the keys of type CD, by the name hash of the key (lower case); of two keys with the same hash the last one counts. The instances that GetInstances yields are exactly those of the records of the keys of type I and IL, in the order of the keys, each read with the class value map of the class its record names; that class value maps are kept makes no difference. Keys of another type or spelling are skipped. What is yielded before a failure are the instances of the first keys. Findings: an instance that an I and an IL key lead to is yielded twice; classes of the same name in two namespaces replace each other, so that instances are read with the class definition of another namespace; an instance of a class without definition is a RuntimeError and ends the iteration.

- Quantifier: for all lists of keys, all contents of objects.data (any bytes), any number conversion, lower case function, hash function and string decoder, class hierarchies of any depth
- Code: dtformats/wmi_repository.py:3740-3843; dtformats/wmi_repository.py:3974-4105; dtformats/wmi_repository.py:4199-4217
- Model and proof: WrpModel: class_defs and all_instances over key_record, object_record, class_record, map_by_hash and instance. WrpSpec: says, record_of, class_keys and instance_keys. Proved by induction over the keys, with the invariant that a kept class value map is the one that would be made.
- Theorems: `C103_keys`, `C103_classes`, `C103_instances`, `C103_repository`, `C103_yields`, `C103_unique`, `C103_bytes`, `C103_twice_refuted`, `C103_namespace_refuted`, `C103_class_refuted`
- Note: Findings are the _refuted theorems. The index keys are those of C51, the object records those of C52. Opening a repository (C53) is not part of this. Not modelled: debug mode.

### C104 GetNamespaces of a WMI repository yields the namespaces below the common ones, each once — proved

The namespaces that GetNamespaces yields for a CIM repository (index.btr and objects.data) are exactly made of the __NAMESPACE instances the index keys lead to, each object record once, in groups by the namespace they are in; the name of each is the name of the namespace it is in, a separator and its Name, where names start at the common namespaces. Every namespace in a namespace that is at most 4 steps below a common one is yielded, whatever the order in which the elements of a Python set come, and if all are, the result does not depend on that order but for the sequence and the letter case of names. The only failure once the keys have been followed is a TypeError for a namespace without Name. The list is kept for later calls. Findings: for deeper namespaces what is yielded depends on the order of set elements, and so does the letter case of names; a namespace in an unknown namespace is dropped silently; after a failed call the next call yields the part that was found before the failure without an error; a key without a second segment is an IndexError.

- Quantifier: for all lists of keys, all contents of objects.data (any bytes), all iteration orders of sets in every pass, any common namespaces, hash, lower case and number functions (names with the same hash have to stand for the same namespace for completeness)
- Code: dtformats/wmi_repository.py:4107-4179; dtformats/wmi_repository.py:4219-4232; dtformats/wmi_repository.py:3616-3631
- Model and proof: WrpModel: collect, one_pass, passes, object_namespaces and get_namespaces. WnsSpec: space_keys, named, found and resolution. Proved with a state relation for the keys, and for the passes with the invariant that every namespace at most j steps below a common one is known before pass j.
- Theorems: `C104_namespaces`, `C104_unique`, `C104_reads`, `C104_order`, `C104_hash`, `C104_again`, `C104_depth_refuted`, `C104_case_refuted`, `C104_orphan_refuted`, `C104_partial_refuted`, `C104_short_refuted`
- Note: Findings are the _refuted theorems. no_clash is a hypothesis about the names that occur; C104_hash derives it from a collision free digest of the names in upper case. Not modelled: debug mode, opening a repository (C53).

### C105 decode_nskeyedarchiver_plist decodes an archive to the values it stands for, whatever its layout — proved

DecodePlistFile of an archive by NSKeyedArchiver version 100000 returns the values of $top under their names, each with its references followed: null, booleans, numbers, text, data as URL-safe base64, lists, arrays, dictionaries, UUIDs, URLs and records of the supported classes. The result is unique and can be written as JSON, and does not depend on the layout: the order of the objects, objects nothing refers to, whether equal objects are shared or copied, references as UIDs (binary property list) or as CF$UID dictionaries (XML). Other archivers and versions, unsupported classes, missing members, keys and values that do not match in number, UUIDs that are not of 16 bytes and dates are a RuntimeError, references to missing objects an IndexError. Without a cycle of references decoding always ends; a value that needs itself is never decoded. Findings: of a set only the last element is returned, an empty set is an UnboundLocalError and a set of strings an AttributeError; members of records that are false, zero or empty are dropped; a dictionary without class is returned undecoded; the keys 1 and true are merged; negative CF$UID values count from the end.

- Quantifier: for all object lists, values and class records (trees of property list values of any depth), all archives in any layout, any amount of sharing; errors and termination for any contents
- Code: scripts/decode_nskeyedarchiver_plist.py:24-294; scripts/decode_nskeyedarchiver_plist.py:296-347
- Model and proof: NkaModel: the decoder function by function with a depth bound as fuel. NkaSpec: archives (what a value stands for), moved/layouts (a bisimulation of archives), mentions and needs, broken, json. Proved by mutual induction on archives; termination by well-founded induction on mentions.
- Theorems: `C105_decodes`, `C105_file`, `C105_other`, `C105_unique`, `C105_layout`, `C105_json`, `C105_terminates`, `C105_cycles`, `C105_errors`, `C105_set_refuted`, `C105_sets_refuted`, `C105_false_refuted`, `C105_plain_refuted`, `C105_keys_refuted`, `C105_negative_refuted`, `C105_no_top`, `C105_no_objects`
- Note: Findings are the _refuted theorems. Not modelled: plistlib.load (a property list is a tree of values; binary lists that contain themselves are left out), json.dumps, argument parsing, the recursion limit of Python (a recursion that does not end stands for a RecursionError); floating-point numbers and dates are tokens.

### C106 Opening a tracev3 file finds its strings and timesync records and the log entries begin with the boot and clock changes — proved

A TraceV3File that is opened by path looks for the strings in the log archive that holds the file (at most two directories up) or in the directory uuidtext two directories up, and for timesync records in the directory timesync there or else diagnostics/timesync. It opens exactly those files that begin with a header chunk with supported flags and a nonzero timebase denominator, keeps the boot identifier of the header, and reads on at the next chunk, 8-byte aligned; anything else at the start is a ParseError. With timesync records of the boot ReadLogEntries yields an entry for the boot, one for each clock change in file order, then the entries of the chunks, and times are converted with these records. Findings: a file with fewer than two directories in its path that is not in a log archive is an IndexError; a relative path is looked up from the root directory; in a log archive without dsc directory neither strings nor timesync records are found; an object used for a second file keeps the places of the first one; the tag of the first chunk is not looked at.

- Quantifier: for all paths, all file systems (which paths exist and what directories contain), all contents (any bytes), all earlier states of the object, all timesync directories
- Code: dtformats/unified_logging.py:4919-5011; dtformats/unified_logging.py:4597-4646; dtformats/unified_logging.py:5013-5090; dtformats/file_system.py:149-193
- Model and proof: TvoModel: ReadFileObject, _ReadHeaderChunk and the timesync part of ReadLogEntries on top of AulModel and TvModel; the file system is given by functions. TvoSpec: abs_path, in_archive, in_database, first_there, header_bytes, begins. The reader is proved exact with the reader library; the places by cases on the last three directories.
- Theorems: `C106_archive`, `C106_database`, `C106_opened`, `C106_not_a_header`, `C106_session`, `C106_no_session`, `C106_short_path_refuted`, `C106_relative_path_refuted`, `C106_no_dsc_refuted`, `C106_reopen_refuted`, `C106_tag_refuted`
- Note: Findings are the _refuted theorems. The chunks are those of C89, the time conversion that of C42. Not modelled: a directory entry that cannot be opened (broken symbolic link), symbolic links and case insensitive file systems, other file system helpers than the native one; str of a UUID, str.upper and str.lower are functions.

### C107 unified_logging shows every log entry once, in the order of timestamps — proved

The script unified_logging.py shows, for a tracev3 file, every log entry that ReadLogEntries yields exactly as often as it is yielded, and never one before another with a smaller timestamp; if no two log entries have the same timestamp, what is shown does not depend on the order in which they are read. Finding: log entries with the same timestamp are not kept in the order of the file.

- Quantifier: for all lists of log entries of any length, all timestamps
- Code: scripts/unified_logging.py:22-58; scripts/unified_logging.py:235-251; dtformats/unified_logging.py:201-213
- Model and proof: HpModel: heapq (heappush, heappop with _siftdown and _siftup) and the class LogEntriesHeap. Specification: Permutation and StronglySorted of the standard library. Proved with the invariant of a heap with a hole.
- Theorems: `C107_sorted`, `C107_unique`, `C107_stable_refuted`
- Note: The finding is the _refuted theorem. The module heapq of Python is modelled after its source.

### C108 unified_logging --format json shows each log entry as a JSON object with exactly its members — proved

With --format json the script unified_logging.py prints, after its first line and for one or more log entries, a JSON array with one object per log entry in the order of timestamps. No object has a member twice, and its members are exactly those of the kind of event, with the values of the log entry: texts are escaped so that a reader gets back the message (without white space at its end, shortened if it is long), format string and paths; times, UUIDs, backtraces, losses and signposts are shown where they exist; the parent activity is the stored one or else the creator of the activity that was last shown. This holds for log entries whose category, subsystem, signpost texts and sender path need no escapes and whose messages have no control characters but tab and end of line. Findings: the whole output is never JSON because of the first line; no log entries give an array with one empty object; any other control character in a message makes the array invalid; a backslash in the sender path changes the path; a quotation mark in a category can add members or make the string invalid; messages of 1085 to 1087 characters are shown complete but marked as shortened.

- Quantifier: for all lists of log entries of any length, all texts, numbers, UUIDs, times and backtraces
- Code: scripts/unified_logging.py:62-85; scripts/unified_logging.py:197; scripts/unified_logging.py:240-510; scripts/unified_logging.py:539-540; dtformats/unified_logging.py:2598
- Model and proof: UlModel: the lines that are printed, character by character, and the dictionary of parents. Specification: the grammar of JSON (RFC 8259, integers only) as an inductive relation between texts and values, and tables of the members of log entries up to their order. Proved with blocks of lines that end with a comma. The text of UUIDs, the ISO 8601 string of dfdatetime and str.isspace are parameters.
- Theorems: `C108_json`, `C108_determined`, `C108_string`, `C108_output_refuted`, `C108_empty_refuted`, `C108_control_refuted`, `C108_sender_refuted`, `C108_category_refuted`, `C108_mark_refuted`
- Note: The findings are the _refuted theorems; those about the sender path and the category are about the line of the member.

### C109 Reading an AMCache file with debug output shows exactly the values below its Root key — proved

Reading an AMCache file with debug output either ends with an error or shows, in this order, the file references of all volumes, the programs, the applications and the application files below Root: each key with its title, all its values in their order and an empty line, and nothing else. Each value has the documented description or else its name, its data is what its type says, versions are two numbers of 16 bits, times are shown as times, and lists line by line. A file with an unknown root key, or without Root, shows nothing. A file whose values can be read, whose file names are as documented, whose versions are integers and whose lists are not integers is read without an error. The documented name of an NTFS file (sequence number, 0000, MFT entry) is shown with both numbers if the sequence number is not a multiple of 16 and the entry has no 0000 in it. Findings: zeros at the end of the sequence number are lost (16 is shown as 1); an MFT entry such as 65536, or a name that ends with 0000, ends the reading of the whole file with ValueError; a list that is stored as one string is shown character by character; a version that is a string, or a list that is an integer, ends the reading with TypeError.

- Quantifier: for all trees of keys and values, all texts and numbers, all positive sequence numbers below 65536 and all positive MFT entries
- Code: dtformats/amcache.py:12-55; dtformats/amcache.py:57-90; dtformats/amcache.py:92-182; dtformats/amcache.py:184-274; documentation/AMCache file (AMCache.hve) format.asciidoc:494-495
- Model and proof: AmcModel: what is printed as a list of events that ends with an exception or not. pyregf, str.lower and int(s, 16) are parameters. Specification: relations between the tree of keys and the events, in both directions. The numbers of file references are proved with the hexadecimal digits of multiples of 16.
- Theorems: `C109_shown`, `C109_succeeds`, `C109_reference`, `C109_sequence_refuted`, `C109_entry_refuted`, `C109_list_refuted`
- Note: The findings are the _refuted theorems.

### C110 Debug output does not change what is read from the files of a WMI repository — proved

What is read from the index, a mapping file or a class definition of a WMI repository with debug output is what is read without it. Findings, because formatted numbers are unpacked into two variables: with debug output an index page can be read exactly if it has no keys, no values and one sub page whose number has two decimal digits, or if it is not of type 0xaccc, and every other page is a ValueError; of the sub page number only the first digit is shown. As all pages are read when an index file is opened with debug output, the file can be opened exactly if all of its pages are of that kind and its size is a multiple of that of a page. No key of the index is ever listed. A mapping file with an entry in its second table that does not have two digits is a ValueError. A repository file with a node cell cannot be opened, no instance can be read, and a class definition can be read exactly if it has no properties.

- Quantifier: for all contents of the files, all page tables, all numbers of pages and all class and instance data
- Code: dtformats/wmi_repository.py:335-373; dtformats/wmi_repository.py:401-487; dtformats/wmi_repository.py:517-569; dtformats/wmi_repository.py:623-635; dtformats/wmi_repository.py:689-717; dtformats/wmi_repository.py:818-841; dtformats/wmi_repository.py:1679-1713; dtformats/wmi_repository.py:2298-2326; dtformats/wmi_repository.py:3117-3121
- Model and proof: WdbModel: the readers of WmiModel, WcdModel, WciModel and WcrModel with the debug output that unpacks a string. Specification: the bytes of the pages that can be read (WdbSpec). Proof: the length of the text of a number and of an offset decides, then the readers are compared step by step.
- Theorems: `C110_page`, `C110_same`, `C110_digit_refuted`, `C110_page_refuted`, `C110_open`, `C110_keys_refuted`, `C110_keys_same`, `C110_root_refuted`, `C110_map`, `C110_map_refuted`, `C110_map_lines`, `C110_cells_refuted`, `C110_instances_refuted`, `C110_classes_refuted`
- Note: The findings are the _refuted theorems, C110_page and C110_open. That the other debug output does not fail is assumed.

### C111 Debug output of keychain files shows the values that are read — proved

What is read from a keychain with debug output is what is read without it, and reading with debug output fails only as without it or with an IndexError, TypeError or ValueError. For every record of a relation the text has the header, the list of offsets, the key data, the data of the values and, for every column, the data from the offset of its value up to the first boundary (the start of another value or the end of the record) behind this and all earlier values. If the offsets are in the order of the columns, every byte from the first value on is shown exactly once. The lists of record offsets and table offsets determine the offsets. Findings: a value stored before that of an earlier column is shown with more than its own data; a value behind the record, of a type that is not read, is an IndexError with debug output only; with a column without a name no record of the relation can be read with debug output; the data size of schema records is used with debug output only, and one that is too small is a ValueError; every offset is shown as the text of a tuple, as in ('0x00000010', False).

- Quantifier: for all contents of the file, all schemas, and all records and lists of offsets
- Code: dtformats/keychain.py:132-147; dtformats/keychain.py:149-190; dtformats/keychain.py:390-486; dtformats/keychain.py:488-561; dtformats/keychain.py:563-711; dtformats/keychain.py:713-847; dtformats/keychain.py:849-949
- Model and proof: KcdModel: the readers of KcModel with their debug output, using the formatters of TextModel. Specification: the boundaries between the values of a record and the data shown for each (KcdSpec). Proof: the readers with and without debug output are compared step by step; for a record the list of boundaries that remains is an invariant of the loop over the columns.
- Theorems: `C111_same`, `C111_errors`, `C111_record`, `C111_ascending`, `C111_order_refuted`, `C111_behind_refuted`, `C111_unnamed_refuted`, `C111_size_refuted`, `C111_offsets`, `C111_tuple_refuted`
- Note: The findings are the _refuted theorems.

### C112 Debug output of BSM event auditing files shows the values of every token — proved

The records read from a BSM event auditing file with debug output are those read without it, and reading with debug output fails only as without it or with an IndexError, TypeError or ParseError. The output of a file that can be read is that of its records, one after the other: for every token its offset, its type, its description, all of its data and the text of its values; the first token that cannot be shown decides the exception. The text of a token determines its type and all values that are shown (all values but the start of the IP header of AUT_IP), provided that texts have no line breaks. The texts of headers, trailers, return values, paths, texts, subjects and processes are given exactly. Findings: files with AUT_EXIT, AUT_IPC_PERM, AUT_GROUPS, AUT_NEWGROUPS, AUT_EXEC_ARGS or AUT_EXEC_ENV tokens, and those with net types other than 4 and 16, can be read but not shown; the header of every record is shown twice; a text with line breaks is shown as it is and can hold what looks like further tokens.

- Quantifier: for all contents of the file, all sequences of records and tokens, all values, and all texts of dates and times
- Code: dtformats/bsm.py:26-650; dtformats/bsm.py:762-803; dtformats/bsm.py:813-850; dtformats/bsm.py:852-900; dtformats/bsm.py:902-1006; dtformats/data_format.py:397-414; dtformats/data_format.py:489-563; dtformats/data_format.py:671-742; dtformats/bsm.debug.yaml:1-437
- Model and proof: BsdModel: the reader of BsmModel with its debug output, the tables of event types, descriptions and attributes, and the formatters of TextModel. Specification: the tokens that cannot be shown, the output of tokens and records (BsdSpec). Proof: the readers with and without debug output are compared step by step; for the values, the text of a table of attributes is split at its line breaks and the formats are injective one by one.
- Theorems: `C112_same`, `C112_errors`, `C112_shown`, `C112_file`, `C112_lossless`, `C112_header`, `C112_trailer`, `C112_return`, `C112_text`, `C112_subject`, `C112_types_refuted`, `C112_net_refuted`, `C112_twice_refuted`, `C112_forged_refuted`
- Note: The findings are the _refuted theorems. Text printed before a failure is not modelled, and the texts of dates and times, which the library dfDateTime makes, are a parameter. C112_shown is about files whose records all have a token; for a header with a record size of 0 see C62_no_trailer_refuted.

### C113 Hashes of the files of a CPIO archive — proved

The CPIO script with --hash writes, for a file that holds an archive of one path, as it is or compressed with gzip, bzip2 or xz, the SHA-256 of exactly the data of the first member of that path, a tab, and the path; members without data have no line. A file that starts with no signature of an archive or of compressed data is reported as unsupported, and for an empty file nothing is written. Findings: a file that starts with such a signature is never hashed without an exception, whatever follows: the archive is closed although it was never opened (OSError), so at most one line is written and what follows the first archive is not read; for an archive of two paths or more nothing is written at all, because its file entries cannot be sorted (TypeError).

- Quantifier: for all contents of the file, all archives in any of the CPIO formats, all hash functions and all results of decompression
- Code: scripts/cpio.py:25-133; dtformats/cpio.py:321-347; dtformats/cpio.py:363-375; dtformats/cpio.py:391-421; dtformats/data_format.py:855-900; dtformats/data_range.py:1-127
- Model and proof: CphModel: the loop over the parts of the file, the reading of file entries in pieces of 4096 bytes, sorting and closing, with the reader of CpioModel and the data ranges of CoreModel. Specification: archives with a trailer, the line of a member, the signatures (CphSpec). Proof: reading in pieces yields the view of the data range (C02), which is the data of the member (C18); closing fails after every part.
- Theorems: `C113_single`, `C113_unsupported`, `C113_ends_refuted`, `C113_many_refuted`
- Note: The findings are the _refuted theorems. SHA-256 and decompression are parameters; a decompressed stream is a file object with the decompressed data.

### C114 Tables of the Spotlight script are aligned and show the values — proved

A table of the Spotlight script is written as one line for each row. Each column is as wide as the least multiple of eight that none of its values exceeds, and on a terminal with tab stops at every eighth column all rows of plain values are aligned. Rows of different numbers of values are a ValueError. If values are plain, not empty and shorter than their column is wide, the text determines the table. A metadata item (--item) is shown as one line for each of thirty attributes, in a fixed order, with its value at column 40; if the values have no line breaks the output determines the texts of all values. Without --item the version of the metadata, the number of items and the properties of the database are shown, exactly as stated. Findings: a value that fills its column is followed by the next value without anything in between, so different tables have the same text; an item with an attribute of several strings is not shown at all (TypeError); if there is no such item the script says so and then fails with an UnboundLocalError.

- Quantifier: for all tables of any number of rows and columns, all values, all metadata items with any attributes, and all database files
- Code: scripts/spotlight_storedb.py:20-65; scripts/spotlight_storedb.py:88-160; scripts/spotlight_storedb.py:268-353; dtformats/spotlight_storedb.py:999-1082
- Model and proof: SpvModel: the table view, the rows of a metadata item and the information about the database, with the reader of SpotModel. Specification: what a terminal shows of tabs, the width of a column, aligned rows (SpvSpec). Proof: the widths are the least ones by induction over the rows; the tabs after a value are followed through the tab stops; lines are split at the runs of tabs.
- Theorems: `C114_aligned`, `C114_mismatch`, `C114_lossless`, `C114_joined_refuted`, `C114_item`, `C114_attributes`, `C114_value`, `C114_item_lossless`, `C114_strings_refuted`, `C114_missing_refuted`, `C114_database`, `C114_store`
- Note: The findings are the _refuted theorems. The texts of dates and times, which the library dfDateTime makes, and of lists and floating-point values are parameters. The options for streams maps and storage media images are not part of the model.

### C115 Entries shown by the LevelDB and IndexedDB scripts — proved

Of a LevelDB table file the script shows all entries that are read, in their order, one line each, up to the first error; the lines of two files are the same only if all keys, sequence numbers, values and types (deletion, value or any other) are. The same holds for the IndexedDB script, with the segments of the keys in place of the keys. Findings: a file of less than eight bytes, such as an empty log, cannot be shown although it can be read (OSError); of log and descriptor files nothing is shown but the title; with a storage media image only the last eight bytes are those of the file in the image, everything else is read from the file of the same path on the system.

- Quantifier: for all contents of files, all keys and values of any bytes, all numbers of entries and all decompressors
- Code: scripts/leveldb.py:76-138; scripts/indexeddb.py:76-110; dtformats/leveldb.py:239-271; dtformats/leveldb.py:599-835; dtformats/indexeddb.py:35-107; dtformats/data_format.py:840-900
- Model and proof: LdsModel: the lines of the entries, the choice of the reader by the last eight bytes and the name of the file, with the readers of LdbModel. Specification: entries that are shown alike, one line (LdsSpec). Proof: the representation of bytes can be split off from what follows it; numbers end at the first character that is no digit; all entries that are read hold bytes.
- Theorems: `C115_table`, `C115_lines`, `C115_lossless`, `C115_indexed`, `C115_indexed_lossless`, `C115_entries`, `C115_short_refuted`, `C115_log_refuted`, `C115_image_refuted`
- Note: The findings are the _refuted theorems. The decompressors for Snappy and Zstandard, and the decoding of UTF-8 in descriptor files, are parameters. Command line options and the file system helpers are not part of the model: a file is its content.

### C116 Schema and content shown by the keychain script — proved

Of a keychain file the script shows all tables in the order in which they are defined: the schema with a line for every column, in order, or with --content the names of the columns and a line for every record. In tables other than the three schema tables the values of a record are in the order of the columns when these have different names. Records of columns of the same types have the same lines only if all values are the same, provided that texts have no tabs or line breaks and are not NULL. A file that was read fails to be shown only with TypeError, exactly when a column has no name (content) or no identifier or type (schema). Then all tables before that of the column and its title are shown. Findings: text NULL is shown as no value and text with a line break as two records; of columns with the same name only the first is shown, with the value of the last, and all later values are below wrong names; records of the table of attributes are shown with five values although they have six, so that the format is below the name identifier; columns without name, identifier or type make the script fail.

- Quantifier: for all contents of files, all tables, columns and records of any number, all values
- Code: scripts/keychain.py:11-21; scripts/keychain.py:81-147; dtformats/keychain.py:390-486; dtformats/keychain.py:563-847
- Model and proof: KcsModel: the lines of tables, columns and records, with the reader of KcModel. Specification: lines of columns and records as relations, values that fit a type (KcsSpec). Proof: an invariant of all tables that are read on the names of the values of their records; texts without tabs and line breaks can be split at them.
- Theorems: `C116_schema`, `C116_content`, `C116_errors`, `C116_rows`, `C116_lossless`, `C116_null_refuted`, `C116_name_refuted`, `C116_attributes_refuted`, `C116_column_refuted`, `C116_stop`
- Note: The findings are the _refuted theorems. Command line options and debug output are not part of this model (debug output: C111).

### C117 Entries shown by the Jump List script — proved

The script shows all entries of a Jump List, all items of their targets and all their data blocks, in order and below their numbers, each as on its own. It fails exactly if a property has a type that is not supported, with RuntimeError. On a terminal all values are in the same column, for all descriptions of less than 72 columns. Two file references are shown alike only if they are the same; those greater than 2^48 as MFT entry and sequence number. The data flags are shown alike exactly if nine of their bits are the same. Findings: the attribute flags of shell items are shown after 0x08, as another number of ten digits; the file reference of MFT entry 0 with sequence number 1 is shown as a plain number; a property of a type that is not supported, such as a 16-bit integer, ends the output, and no entry after it is shown.

- Quantifier: for all lists of entries with any number of items, extension blocks, data blocks and properties, all values, all descriptions
- Code: scripts/jump_list.py:29-460; scripts/jump_list.py:545-567; dtformats/output_writers.py:62-72
- Model and proof: JlsModel: the functions of the output writer of the script, on shortcuts, items and property stores as data. Specification: supported types, texts below numbers, bits of flags (JlsSpec), a terminal with tab stops (SpvSpec). Proof: every function ends with RuntimeError or all its properties are supported; the lines of the flags have different texts; numbers contain no dash.
- Theorems: `C117_entries`, `C117_shortcut`, `C117_errors`, `C117_aligned`, `C117_reference`, `C117_data_flags`, `C117_flags_refuted`, `C117_reference_refuted`, `C117_property_refuted`
- Note: The findings are the _refuted theorems. What pylnk, pyfwsi and pyfwps give of shortcuts, shell items and property stores is the input of the model, and their exceptions are not part of it; the texts of FILETIME and FAT times and the table of property keys are parameters. The reader of Jump List files is C88. Command line options are not part of the model. Which values of an entry, item, extension block or property are shown, and below which description, is not part of the theorems; it is fixed for one file only, by the example C117_case.

### C118 Instances, namespaces and keys shown by the WMI repository script — proved

Of every instance the script shows ten values and all its properties, sorted by name, one on each line, with all colons in the column after the longest name; the relative path names the instance if it has a Name that is a string. All instances are shown in the order in which they are read, up to the first that cannot be read or shown. Two instances of one-line names and values are shown alike only if they have the same class, path, property names and texts of the values. An instance cannot be shown exactly if its Name is true, a number other than 0 (ValueError) or a list of strings (TypeError). With --output_mode namespaces all namespaces are shown sorted, or none if one cannot be read; with index all keys are shown in order. Findings: all instances are shown with the namespace ROOT, whatever namespace they are of; an entry of a repository file that the reader yields as None ends the output with an AttributeError.

- Quantifier: for all instances with any classes, properties and values, all sequences of instances, namespaces and keys, and all ways their reading ends
- Code: scripts/wmi_repository.py:13-71; scripts/wmi_repository.py:148-160; dtformats/wmi_repository.py:4199-4232
- Model and proof: WmsModel: PrintInstance, PrintNamespace and the loops of the output modes on generators. Specification: an order of strings, lines with the colon in a column, the pairs of names and values of an instance (WmsSpec). Proof: insertion by string order is a sorted permutation; the first line gives the column, and with it every line its name and value.
- Theorems: `C118_instance`, `C118_errors`, `C118_lossless`, `C118_instances`, `C118_namespaces`, `C118_index`, `C118_root_refuted`, `C118_none_refuted`
- Note: The findings are the _refuted theorems. What the repository yields is the input of the model; the readers are C51, C100 to C104. The text of a list of strings (Python's str of a list) is a parameter. The output mode debug and the command line options are not part of the model.

### C119 Structures shown by the data format analyzer script — proved

The script shows five structures of a file in order; for each it writes what reading it writes and then the text that the structure has on its own, whatever was shown before, up to the first structure that cannot be read or shown, whose error is raised. Of a structure exactly the members that are numbers, sequences, data, strings or UUIDs, or that are named as a checksum or an offset, are shown, in the order of the definition, each after its description. The elements of a sequence are shown in order, each below its number and with the text it has on its own. A structure of integers always has a text, and two such structures of one data type have the same text only if all members are equal. Findings: a member that is itself a structure is never shown, so structures that differ only in it have the same text; each element of a sequence of integers is shown as an empty line; a data member whose name ends in checksum makes the script fail with a TypeError.

- Quantifier: for all data type definitions, all values of any nesting, all results of reading the five structures, and all that was shown before
- Code: scripts/analyzer.py:13-163; dtformats/data_format.py:489-563
- Model and proof: AnzModel: _DetermineDebugInfo, _FormatSequence, _FormatDataTypeMap with its cache, and ReadFileObject; texts of attributes as in TextModel. Specification: the text of a value with nothing remembered, the parts of the output, numbered entries, structures of integers (AnzSpec). Proof: two runs that differ in what is remembered are alike as long as what is remembered is what the definitions give; lines of integers are cut at their newlines.
- Theorems: `C119_output`, `C119_alone`, `C119_members`, `C119_sequence`, `C119_integers`, `C119_nested_refuted`, `C119_numbers_refuted`, `C119_checksum_refuted`, `C119_lines`
- Note: The findings are the _refuted theorems. The data type definitions, the values dtFabric makes of the file, the text written while reading and str.capitalize are inputs of the model. The depth of values is bounded by a fuel that is quantified over; a result exists only if it suffices. The command line options are not part of the model.
