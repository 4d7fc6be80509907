{
 "claims": [
  {
   "property": "C01",
   "status": "proved",
   "theorems": [
    "C01_range_read_is_window",
    "C01_range_read_confined",
    "C01_range_invalid_window",
    "C01_range_negative_size_refuted"
   ],
   "note": "Finding: DataRange.read(n) with n < 0 is passed to the parent and leaks bytes behind the window."
  },
  {
   "property": "C02",
   "status": "proved",
   "theorems": [
    "C02_sequential_reads"
   ],
   "note": ""
  },
  {
   "property": "C03",
   "status": "proved",
   "theorems": [
    "C03_seek_exact",
    "C03_seek_failure_keeps_state",
    "C03_read_behind_end"
   ],
   "note": ""
  },
  {
   "property": "C04",
   "status": "proved",
   "theorems": [
    "C04_ranges_independent"
   ],
   "note": ""
  },
  {
   "property": "C05",
   "status": "proved",
   "theorems": [
    "C05_read_all_or_nothing"
   ],
   "note": ""
  },
  {
   "property": "C06",
   "status": "proved",
   "theorems": [
    "C06_structure_mapped_from_its_bytes",
    "C06_structure_errors",
    "C06_structure_errors_growing",
    "C06_fixed_structure_complete"
   ],
   "note": ""
  },
  {
   "property": "C07",
   "status": "proved",
   "theorems": [
    "C07_structure_read_terminates"
   ],
   "note": ""
  },
  {
   "property": "C08",
   "status": "proved",
   "theorems": [
    "C08_open_close_protocol",
    "C08_handles_invariant",
    "C08_failed_calls_touch_no_handle",
    "C08_close_closes_the_held_handle",
    "C08_live_handles_are_held_or_leaked"
   ],
   "note": "Finding: a handle whose ReadFileObject fails during Open is never closed; the theorem counts the leak exactly. _path also keeps the path of the failed Open."
  },
  {
   "property": "C09",
   "status": "proved",
   "theorems": [
    "C09_hexdump_decodes",
    "C09_hexdump_lossless"
   ],
   "note": ""
  },
  {
   "property": "C10",
   "status": "proved",
   "theorems": [
    "C10_hexdump_layout",
    "C10_hexdump_first_last_printed"
   ],
   "note": ""
  },
  {
   "property": "C11",
   "status": "proved",
   "theorems": [
    "C11_decimal_parses_back",
    "C11_hexadecimal_parses_back",
    "C11_hexadecimal_exact_width",
    "C11_formats_injective"
   ],
   "note": ""
  },
  {
   "property": "C12",
   "status": "proved",
   "theorems": [
    "C12_ipv4_lossless",
    "C12_ipv6_lossless",
    "C12_ipv6_groups",
    "C12_ipv4_decodes",
    "C12_ipv6_decodes",
    "C12_other_lengths_rejected"
   ],
   "note": ""
  },
  {
   "property": "C13",
   "status": "proved",
   "theorems": [
    "C13_stream_per_byte",
    "C13_stream_lossless_without_backslash",
    "C13_stream_lossless_refuted"
   ],
   "note": "Finding: a literal backslash is not escaped, so [0x00] and the four characters \\x00 render alike; lossless on streams without a backslash."
  },
  {
   "property": "C14",
   "status": "proved",
   "theorems": [
    "C14_structure_text",
    "C14_entry_shape",
    "C14_final_blank_line_refuted"
   ],
   "note": "Finding: the final blank line is missing when the last value spans several lines and does not end with a line break."
  },
  {
   "property": "C15",
   "status": "proved",
   "theorems": [
    "C15_split_of_join",
    "C15_split_segments_proper",
    "C15_split_join_idempotent",
    "C15_split_compositional"
   ],
   "note": ""
  },
  {
   "property": "C16",
   "status": "proved",
   "theorems": [
    "C16_custom_formats",
    "C16_builtin_formats",
    "C16_debug_information"
   ],
   "note": "Finding: the format 'hexadecimal' is accepted by the YAML reader but no callback exists for it."
  },
  {
   "property": "C17",
   "status": "proved",
   "theorems": [
    "C17_archive_read_exactly",
    "C17_archive_without_trailer"
   ],
   "note": ""
  },
  {
   "property": "C18",
   "status": "proved",
   "theorems": [
    "C18_member_data",
    "C18_read_then_member_data"
   ],
   "note": ""
  },
  {
   "property": "C19",
   "status": "proved",
   "theorems": [
    "C19_table_well_formed",
    "C19_lookups_agree",
    "C19_no_table",
    "C19_unknown_path",
    "C19_empty_archive_returns_false_refuted"
   ],
   "note": "Finding: a file with no entries is accepted only through the trailer; see C19_empty_archive_returns_false_refuted. UnicodeDecodeError escapes for names that are not ASCII (C20_entry_errors)."
  },
  {
   "property": "C20",
   "status": "proved",
   "theorems": [
    "C20_terminates",
    "C20_binary_terminates",
    "C20_termination_refuted",
    "C20_entry_errors"
   ],
   "note": "Finding: int() accepts signs, so an odc member with size '-0000000114' moves the position back and the reader never stops."
  },
  {
   "property": "C21",
   "status": "proved",
   "theorems": [
    "C21_members_walked",
    "C21_members_that_fit_the_buffer",
    "C21_header_end",
    "C21_other_header_refused",
    "C21_unterminated_name"
   ],
   "note": ""
  },
  {
   "property": "C22",
   "status": "proved",
   "theorems": [
    "C22_empty_payload_position",
    "C22_empty_file_rejected"
   ],
   "note": "Finding: valid gzip files with an empty payload are rejected. The same happens when a buffer boundary falls into bits that produce no output."
  },
  {
   "property": "C23",
   "status": "proved",
   "theorems": [
    "C23_varint_decoded",
    "C23_every_number",
    "C23_inside_the_data",
    "C23_fails_on_empty_data_only"
   ],
   "note": "Finding: an encoding that ends early (last byte with the continuation bit) is accepted as a number."
  },
  {
   "property": "C24",
   "status": "proved",
   "theorems": [
    "C24_log_records",
    "C24_records_reassembled"
   ],
   "note": ""
  },
  {
   "property": "C25",
   "status": "proved",
   "theorems": [
    "C25_log_terminates",
    "C25_blocks_inside"
   ],
   "note": "A block that overruns its page is accepted; reading continues at the page boundary inside the block."
  },
  {
   "property": "C26",
   "status": "proved",
   "theorems": [
    "C26_batch_decoded",
    "C26_unknown_type",
    "C26_log_of_batches"
   ],
   "note": "Finding: a key or value longer than the record is silently truncated; an empty record raises ValueError and a record that ends inside an operation IndexError instead of ParseError."
  },
  {
   "property": "C27",
   "status": "proved",
   "theorems": [
    "C27_edits_decoded",
    "C27_reports_differ",
    "C27_unknown_tag"
   ],
   "note": ""
  },
  {
   "property": "C28",
   "status": "proved",
   "theorems": [
    "C28_block_decoded",
    "C28_stored_block",
    "C28_unknown_compression"
   ],
   "note": "Finding: a block shorter than its restart array is accepted when Python's negative slice happens to be long enough (C73_case)."
  },
  {
   "property": "C29",
   "status": "proved",
   "theorems": [
    "C29_table_file"
   ],
   "note": ""
  },
  {
   "property": "C30",
   "status": "proved",
   "theorems": [
    "C30_key_prefix",
    "C30_truncated"
   ],
   "note": ""
  },
  {
   "property": "C31",
   "status": "proved",
   "theorems": [
    "C31_hash_2008_is_vista",
    "C31_hash_2008_is_vista_bytes",
    "C31_closed_form"
   ],
   "note": ""
  },
  {
   "property": "C32",
   "status": "proved",
   "theorems": [
    "C32_ranges",
    "C32_encodable",
    "C32_xp_closed_form"
   ],
   "note": ""
  },
  {
   "property": "C33",
   "status": "proved",
   "theorems": [
    "C33_reference",
    "C33_range",
    "C33_empty_key",
    "C33_chromium",
    "C33_chromium_refuted"
   ],
   "note": "Finding: the last byte of keys whose length is 1 or 3 mod 4 is added as an unsigned byte, while Chromium's SuperFastHash reads it as signed char; the values differ when that byte is 128 or more (C33_chromium_refuted). The Chromium reference is written from the published algorithm, it is not part of this repository."
  },
  {
   "property": "C34",
   "status": "proved",
   "theorems": [
    "C34_fields",
    "C34_determined",
    "C34_block_size_refuted",
    "C34_debug_string"
   ],
   "note": "Finding: block_size is computed from the stored count, but the repository's documentation says 0 represents 1 block, so it is always one block short (C34_block_size_refuted). GetDebugString raises TypeError for file types 5-7."
  },
  {
   "property": "C35",
   "status": "proved",
   "theorems": [
    "C35_ranges_are_the_closed_runs",
    "C35_ranges_in_order",
    "C35_last_run_refuted"
   ],
   "note": "Finding: an allocated run that reaches the end of the bitmap is not printed."
  },
  {
   "property": "C36",
   "status": "proved",
   "theorems": [
    "C36_index_table",
    "C36_first_file",
    "C36_reopened_object_refuted"
   ],
   "note": "Finding: index_table is only emptied by the constructor, so reading a second file with the same object keeps entries of the first (C36_reopened_object_refuted)."
  },
  {
   "property": "C37",
   "status": "proved",
   "theorems": [
    "C37_parse_directory_fails",
    "C37_prints_nothing",
    "C37_join_path_two_arguments"
   ],
   "note": "Finding: ParseDirectory can never succeed: JoinPath is called with two arguments, and behind that the key, already a str, is decoded again (AttributeError)."
  },
  {
   "property": "C38",
   "status": "proved",
   "theorems": [
    "C38_operators",
    "C38_decoders",
    "C38_decoders_exist",
    "C38_format",
    "C38_total",
    "C38_literal"
   ],
   "note": ""
  },
  {
   "property": "C39",
   "status": "proved",
   "theorems": [
    "C39_missing",
    "C39_padding"
   ],
   "note": ""
  },
  {
   "property": "C40",
   "status": "proved",
   "theorems": [
    "C40_signed",
    "C40_unsigned",
    "C40_alternate_zero",
    "C40_strings",
    "C40_strings_precision",
    "C40_floats",
    "C40_floats_precision",
    "C40_width_and_precision_refuted",
    "C40_deviations_refuted"
   ],
   "note": "Findings: width and precision are concatenated, so '%5.2f' is printed with 25 digits; '-' is ignored for floats; a precision is ignored for integers; '%*d' raises ValueError; '%#5x' of 0 loses its width; '%+-5d' and '%-05d' fill behind the number with '+' or '0'; '%10.3s' is not cut; '%6p' puts the padding inside the 0x prefix."
  },
  {
   "property": "C41",
   "status": "proved",
   "theorems": [
    "C41_image_values",
    "C41_image_values_dynamic",
    "C41_image_values_none",
    "C41_boundary_refuted",
    "C41_strings",
    "C41_strings_none",
    "C41_strings_boundary",
    "C41_strings_end_refuted"
   ],
   "note": "Finding: the comparison relative_offset <= range_size is off by one (C41_boundary_refuted, C41_strings_end_refuted)."
  },
  {
   "property": "C42",
   "status": "proved",
   "theorems": [
    "C42_timestamp",
    "C42_header_only",
    "C42_monotone",
    "C42_exact",
    "C42_rounding_refuted",
    "C42_reopen_refuted",
    "C42_zero_denominator_refuted"
   ],
   "note": "Findings: the floating-point multiplication loses nanoseconds beyond 2^53 (C42_rounding_refuted); an object opened again without timesync records keeps using the sync records of the earlier file (C42_reopen_refuted); a zero denominator raises ZeroDivisionError."
  },
  {
   "property": "C43",
   "status": "proved",
   "theorems": [
    "C43_trace_identifier",
    "C43_trace_identifier_fields"
   ],
   "note": ""
  },
  {
   "property": "C44",
   "status": "proved",
   "theorems": [
    "C44_records",
    "C44_terminates",
    "C44_size_zero_refuted"
   ],
   "note": "Finding: a record that declares size 0 makes ReadRecords loop forever (C44_size_zero_refuted); reading ends for every other content (C44_terminates)."
  },
  {
   "property": "C45",
   "status": "proved",
   "theorems": [
    "C45_decode",
    "C45_complete",
    "C45_total",
    "C45_collision_refuted"
   ],
   "note": "Finding: the value bits of first bytes 0xF9-0xFB and 0xFD are dropped (C45_collision_refuted)."
  },
  {
   "property": "C46",
   "status": "proved",
   "theorems": [
    "C46_ranges",
    "C46_number_of_ranges",
    "C46_streams",
    "C46_single_refuted"
   ],
   "note": "Finding: a streams map with one stream is read as having none (C46_single_refuted)."
  },
  {
   "property": "C47",
   "status": "proved",
   "theorems": [
    "C47_page",
    "C47_sound",
    "C47_terminates"
   ],
   "note": ""
  },
  {
   "property": "C48",
   "status": "proved",
   "theorems": [
    "C48_page",
    "C48_records",
    "C48_terminates",
    "C48_unused_space_refuted"
   ],
   "note": "Finding: the used size of plain pages is ignored, zero padding behind the records is an error (C48_unused_space_refuted)."
  },
  {
   "property": "C49",
   "status": "proved",
   "theorems": [
    "C49_multi_valued",
    "C49_multi_valued_error",
    "C49_single",
    "C49_values_refuted"
   ],
   "note": "Finding: see the statement; C49_values_refuted is a witness ([5;6;7] is read as [3;5;6])."
  },
  {
   "property": "C50",
   "status": "proved",
   "theorems": [
    "C50_chain",
    "C50_cycle_refuted",
    "C50_map_pages",
    "C50_map_page_size_refuted"
   ],
   "note": "Findings: no protection against cycles (C50_cycle_refuted) and page size 0 (C50_map_page_size_refuted)."
  },
  {
   "property": "C51",
   "status": "proved",
   "theorems": [
    "C51_keys",
    "C51_reached",
    "C51_ignored",
    "C51_ends",
    "C51_cycle_refuted",
    "C51_loop_refuted"
   ],
   "note": "keys of the tree below the root (iff), exactly the keys of the reached pages, sub page numbers 0 and 0xFFFFFFFF never followed, the recursion ends for acyclic trees with a depth of at most the number of mapped pages; found: with a cycle the traversal never succeeds (C51_cycle_refuted, C51_loop_refuted), a value without end-of-string character raises an error of dtFabric and a segment number out of range an IndexError (in C51_ends)"
  },
  {
   "property": "C52",
   "status": "proved",
   "theorems": [
    "C52_complete",
    "C52_sound",
    "C52_ends",
    "C52_key",
    "C52_missing_refuted",
    "C52_truncated_refuted",
    "C52_offset_refuted"
   ],
   "note": "complete for every record spread over pages, sound for files of whole pages; the last key segment selects the record; found: no descriptor or another size is an AttributeError (C52_missing_refuted), a cut off page is silently continued with the next (C52_truncated_refuted), offset 8193 reads the rest of the file (C52_offset_refuted)"
  },
  {
   "property": "C53",
   "status": "proved",
   "theorems": [
    "C53_open",
    "C53_file"
   ],
   "note": "for all character tables and all file systems; the code behind the first open call is a parameter"
  },
  {
   "property": "C54",
   "status": "proved",
   "theorems": [
    "C54_glob",
    "C54_special_refuted"
   ],
   "note": "for ASCII names without special characters; found: special characters and letters with longer upper case forms match other names (C54_special_refuted). The part of the pattern language of glob that is needed is specified in WmiSpec.gmatch"
  },
  {
   "property": "C55",
   "status": "proved",
   "theorems": [
    "C55_file",
    "C55_errors",
    "C55_resolve",
    "C55_unavailable",
    "C55_version_refuted",
    "C55_second_refuted",
    "C55_again_refuted",
    "C55_negative_refuted"
   ],
   "note": "mapping files of both versions (iff), page numbers in range (iff), unavailable pages; found: version 1 files with one more page than entries are taken for version 2 (C55_version_refuted), the second section of a documented combined file cannot be read (C55_second_refuted), the second table stays when the object reads another file (C55_again_refuted), negative numbers count from the end (C55_negative_refuted)"
  },
  {
   "property": "C56",
   "status": "proved",
   "theorems": [
    "C56_accepted",
    "C56_errors",
    "C56_version1",
    "C56_version2_first_table",
    "C56_version2_times_refuted",
    "C56_no_transitions_refuted"
   ],
   "note": "Findings: the second header is read at offset 0 (C56_version2_times_refuted: the first 64-bit time consists of the first two 32-bit times); files without transition times are rejected (C56_no_transitions_refuted)."
  },
  {
   "property": "C57",
   "status": "proved",
   "theorems": [
    "C57_file",
    "C57_errors",
    "C57_no_pages_refuted"
   ],
   "note": "Finding: a file without pages is rejected (C57_no_pages_refuted). Modelled are the strings of the records, not their times and flags."
  },
  {
   "property": "C58",
   "status": "proved",
   "theorems": [
    "C58_journal",
    "C58_ends",
    "C58_unused_space_refuted",
    "C58_small_unused_space_refuted",
    "C58_sound"
   ],
   "note": "Findings: the position is not moved to the end of the block (C58_unused_space_refuted, C58_small_unused_space_refuted); C58_case shows a record that is yielded 68 times at the end of a partial block."
  },
  {
   "property": "C59",
   "status": "proved",
   "theorems": [
    "C59_file",
    "C59_errors",
    "C59_signed_refuted",
    "C59_outside_refuted",
    "C59_header_refuted",
    "C59_no_relation_refuted",
    "C59_same_name"
   ],
   "note": "Findings: signed integers are read as unsigned (C59_signed_refuted); an offset behind the record raises ValueError (C59_outside_refuted); an offset into the record header is taken from the end of the record (C59_header_refuted); a schema attributes record without a relation raises TypeError (C59_no_relation_refuted)."
  },
  {
   "property": "C60",
   "status": "proved",
   "theorems": [
    "C60_string",
    "C60_invalid_inline",
    "C60_file",
    "C60_errors",
    "C60_ends",
    "C60_cycle_refuted",
    "C60_small_refuted"
   ],
   "note": "Finding: the position left by the strings of the extra fields decides whether a reference to an earlier record is noticed; C60_cycle_refuted is a file that is read for ever. A record that is too small for its members raises ValueError (C60_small_refuted)."
  },
  {
   "property": "C61",
   "status": "proved",
   "theorems": [
    "C61_file",
    "C61_ends",
    "C61_errors",
    "C61_keyword_refuted",
    "C61_charset_refuted",
    "C61_second_file_refuted"
   ],
   "note": "C61_file is an equivalence. Findings: a non-ASCII keyword raises UnicodeDecodeError instead of ParseError (C61_keyword_refuted); the character set named by the file is used unchecked, so that an unknown one makes the LookupError of bytes.decode escape (C61_charset_refuted); the character set stays in force for the next file read with the same object (C61_second_file_refuted)."
  },
  {
   "property": "C62",
   "status": "proved",
   "theorems": [
    "C62_token",
    "C62_token_size",
    "C62_file",
    "C62_record",
    "C62_size_mismatch",
    "C62_sound",
    "C62_ends",
    "C62_errors",
    "C62_data_refuted",
    "C62_no_trailer_refuted",
    "C62_attribute_refuted",
    "C62_end_refuted",
    "C62_return_refuted"
   ],
   "note": "Findings: the element size of data tokens is ignored (C62_data_refuted); records whose size is at most that of their header are accepted without a trailer (C62_no_trailer_refuted); a record that ends before a trailer raises AttributeError (C62_attribute_refuted); the end of the record is not compared with the place of the trailer (C62_end_refuted); negative return values are read as unsigned (C62_return_refuted). Not modelled: debug output."
  },
  {
   "property": "C63",
   "status": "proved",
   "theorems": [
    "C63_location",
    "C63_fields",
    "C63_location_text",
    "C63_map",
    "C63_map_errors",
    "C63_blocks",
    "C63_names",
    "C63_written",
    "C63_hidden_refuted",
    "C63_non_ascii_refuted"
   ],
   "note": "Findings: blocks that are not entries of version 1 hide the entries in the bytes that their sizes cover (C63_hidden_refuted); an entry with a non-ASCII request is silently skipped (C63_non_ascii_refuted)."
  },
  {
   "property": "C64",
   "status": "proved",
   "theorems": [
    "C64_read",
    "C64_events",
    "C64_values",
    "C64_ends",
    "C64_overlap_refuted"
   ],
   "note": "C64_read is an equivalence. Finding: an event that ends outside its stream is accepted (C64_overlap_refuted). Decompression (pygzipf) and UTF-8 are external."
  },
  {
   "property": "C65",
   "status": "proved",
   "theorems": [
    "C65_linux",
    "C65_linux_size",
    "C65_macos",
    "C65_errors",
    "C65_macos_errors",
    "C65_types",
    "C65_address_refuted",
    "C65_ipv6_refuted",
    "C65_string_end_refuted",
    "C65_decode_refuted"
   ],
   "note": "Findings in the debug output: the IP address is shown as a Python tuple (C65_address_refuted), IPv6 addresses ending with 12 zero bytes are shown as IPv4 (C65_ipv6_refuted), data behind the end of a string is shown with it (C65_string_end_refuted), a string that is not UTF-8 raises UnicodeDecodeError (C65_decode_refuted)."
  },
  {
   "property": "C66",
   "status": "proved",
   "theorems": [
    "C66_read",
    "C66_ends",
    "C66_cycle",
    "C66_errors",
    "C66_cycle_refuted",
    "C66_empty_refuted",
    "C66_unset_item_refuted",
    "C66_overflow_refuted"
   ],
   "note": "C66_read is an equivalence. Findings: a cycle of entry arrays is followed forever (C66_cycle_refuted); a journal without entries cannot be read (C66_empty_refuted); an unset item offset makes the journal unreadable (C66_unset_item_refuted); offsets of 2^63 and more raise the error of the file object (C66_overflow_refuted)."
  },
  {
   "property": "C67",
   "status": "proved",
   "theorems": [
    "C67_read",
    "C67_sound",
    "C67_ends",
    "C67_name_refuted",
    "C67_volume_path_refuted",
    "C67_truncated_refuted",
    "C67_sub_refuted",
    "C67_small_refuted"
   ],
   "note": "Findings: the last character of the process name is dropped (C67_name_refuted), the volume path is not kept (C67_volume_path_refuted), a cut-off record that ends with its size is accepted (C67_truncated_refuted), a record of an unsupported type with little data at the end is refused because another header is read from it (C67_sub_refuted), a small record size raises ValueError (C67_small_refuted). Debug output is not modelled."
  },
  {
   "property": "C68",
   "status": "proved",
   "theorems": [
    "C68_metadata",
    "C68_metadata_names",
    "C68_metadata_errors",
    "C68_string_read",
    "C68_info2",
    "C68_info2_ends",
    "C68_remnant_refuted",
    "C68_header_refuted",
    "C68_end_refuted"
   ],
   "note": "C68_metadata and C68_info2 are equivalences. Findings: remnant data behind the end of an ANSI name is decoded with the name and can make a file unreadable with debug output (C68_remnant_refuted), the header of an INFO2 file is never shown (C68_header_refuted), format 2 names keep characters behind an end-of-string character (C68_end_refuted). The attribute documented as original_size is named original_file_size."
  },
  {
   "property": "C69",
   "status": "proved",
   "theorems": [
    "C69_emf",
    "C69_emf_debug",
    "C69_emf_records",
    "C69_wmf",
    "C69_wmf_records",
    "C69_emf_ends",
    "C69_wmf_ends",
    "C69_errors",
    "C69_loop_refuted",
    "C69_data_refuted",
    "C69_shown_refuted",
    "C69_debug_error_refuted",
    "C69_header_refuted",
    "C69_stretch_refuted"
   ],
   "note": "C69_emf and C69_wmf are equivalences. Findings: a record of size 0 is read forever (C69_loop_refuted); the data offset of a record is the size of its header and the data size is too large by the offset of the record (C69_data_refuted), so the debug output shows the following records as data (C69_shown_refuted); with debug output a truncated record raises an error of dtFabric (C69_debug_error_refuted); the size of the EMF header record is ignored, so files with a header of 88 bytes are misread (C69_header_refuted); stretch modes are shown with the names of map modes (C69_stretch_refuted)."
  },
  {
   "property": "C70",
   "status": "proved",
   "theorems": [
    "C70_definition_accepted_iff_good",
    "C70_definition_rejection"
   ],
   "note": ""
  },
  {
   "property": "C71",
   "status": "proved",
   "theorems": [
    "C71_gzip_terminates"
   ],
   "note": ""
  },
  {
   "property": "C72",
   "status": "proved",
   "theorems": [
    "C72_key_segments",
    "C72_segments_identify_key"
   ],
   "note": ""
  },
  {
   "property": "C73",
   "status": "proved",
   "theorems": [
    "C73_batch_terminates",
    "C73_descriptor_terminates",
    "C73_table_terminates"
   ],
   "note": ""
  },
  {
   "property": "C74",
   "status": "proved",
   "theorems": [
    "C74_entry",
    "C74_long_key_refuted"
   ],
   "note": "Finding: key_size and long_key_address are not used; keys longer than 160 bytes are cut."
  },
  {
   "property": "C75",
   "status": "proved",
   "theorems": [
    "C75_parse_file"
   ],
   "note": ""
  },
  {
   "property": "C76",
   "status": "proved",
   "theorems": [
    "C76_chain_bounded",
    "C76_directory_bounded"
   ],
   "note": ""
  },
  {
   "property": "C77",
   "status": "proved",
   "theorems": [
    "C77_uuidtext"
   ],
   "note": ""
  },
  {
   "property": "C78",
   "status": "proved",
   "theorems": [
    "C78_ranges",
    "C78_image_index_refuted"
   ],
   "note": "Finding: IndexError instead of ParseError for an image index outside the table."
  },
  {
   "property": "C79",
   "status": "proved",
   "theorems": [
    "C79_attributes",
    "C79_all_attributes",
    "C79_last_attribute_refuted",
    "C79_accumulated_sizes_refuted",
    "C79_unknown_type"
   ],
   "note": "Findings: the loop over the attributes ends 4 bytes early (C79_last_attribute_refuted); kMDStoreAccumulatedSizes reads behind the record (C79_accumulated_sizes_refuted); AttributeError for unknown types (C79_unknown_type)."
  },
  {
   "property": "C80",
   "status": "proved",
   "theorems": [
    "C80_streams",
    "C80_lists",
    "C80_values"
   ],
   "note": ""
  },
  {
   "property": "C81",
   "status": "proved",
   "theorems": [
    "C81_read",
    "C81_item",
    "C81_none",
    "C81_count"
   ],
   "note": ""
  },
  {
   "property": "C82",
   "status": "proved",
   "theorems": [
    "C82_codes",
    "C82_lookup",
    "C82_names",
    "C82_unambiguous",
    "C82_names_refuted"
   ],
   "note": "Finding: 38 names are wrong, most lost their last letter (C82_names_refuted)."
  },
  {
   "property": "C83",
   "status": "proved",
   "theorems": [
    "C83_file",
    "C83_sound",
    "C83_refused",
    "C83_overlap_refuted",
    "C83_short_refuted",
    "C83_shown"
   ],
   "note": "complete and sound; found: information followed by 7 bytes is accepted, the creation time then begins with a byte of the description (C83_overlap_refuted), fewer bytes raise ValueError (C83_short_refuted)"
  },
  {
   "property": "C84",
   "status": "proved",
   "theorems": [
    "C84_file",
    "C84_errors",
    "C84_mixture_refuted",
    "C84_offset_refuted",
    "C84_version_refuted"
   ],
   "note": "iff for success, all values of the configuration, text of the identifier; found: a refused file leaves a mixture of two files (C84_mixture_refuted), offsets ignored (C84_offset_refuted), the minor version is shown as the major one (C84_version_refuted)"
  },
  {
   "property": "C85",
   "status": "proved",
   "theorems": [
    "C85_file",
    "C85_sound",
    "C85_ends",
    "C85_cut_refuted",
    "C85_records_refuted",
    "C85_terminator_refuted",
    "C85_fraction_refuted",
    "C85_time"
   ],
   "note": "complete and sound; found: cut off version 2 records accepted (C85_cut_refuted), more than one record refused (C85_records_refuted), the terminator does not end the tagged values (C85_terminator_refuted), 65536ths of a second shown as decimals (C85_fraction_refuted)"
  },
  {
   "property": "C86",
   "status": "proved",
   "theorems": [
    "C86_file",
    "C86_unique",
    "C86_errors",
    "C86_typed",
    "C86_types_refuted",
    "C86_next_refuted"
   ],
   "note": "iff; floating-point numbers are compared as bytes; found: values of other types raise AttributeError or ValueError instead of ParseError (C86_types_refuted), a second table of contents is refused (C86_next_refuted)"
  },
  {
   "property": "C87",
   "status": "proved",
   "theorems": [
    "C87_values",
    "C87_ends",
    "C87_labels",
    "C87_tracking",
    "C87_size",
    "C87_tracking_ends",
    "C87_errors_refuted"
   ],
   "note": "iff for the file and for the threat tracking data; found: ValueError instead of ParseError for empty or cut off threat tracking data (C87_errors_refuted)"
  },
  {
   "property": "C88",
   "status": "proved",
   "theorems": [
    "C88_dest_list",
    "C88_dest_list_ends",
    "C88_dest_list_empty",
    "C88_surrogates_refuted",
    "C88_dest_count_refuted",
    "C88_streams",
    "C88_custom",
    "C88_custom_iff",
    "C88_custom_errors",
    "C88_identifier_refuted",
    "C88_again_refuted",
    "C88_count_refuted",
    "C88_texts"
   ],
   "note": "iff for the DestList stream and for custom destinations files; the LNK reader is a parameter with non-negative sizes; found: paths with unpaired surrogates are refused although documented (C88_surrogates_refuted), all custom entries have the identifier 0x00000000 (C88_identifier_refuted), a second read keeps the entries of the first (C88_again_refuted), numbers of entries are not checked (C88_count_refuted, C88_dest_count_refuted)"
  },
  {
   "property": "C89",
   "status": "proved",
   "theorems": [
    "C89_entries",
    "C89_errors",
    "C89_ends",
    "C89_written",
    "C89_oversize",
    "C89_oversize_errors",
    "C89_oversize_size_refuted",
    "C89_again_refuted",
    "C89_error_types_refuted"
   ],
   "note": "iff for success and for every error; the readers of firehose, dump and catalog chunks and LZ4 are parameters; found: reading log entries a second time starts inside the last chunk set (C89_again_refuted), ValueError and OverflowError instead of ParseError (C89_error_types_refuted), the data size of oversize chunks is not read as documented (C89_oversize_size_refuted)"
  },
  {
   "property": "C90",
   "status": "proved",
   "theorems": [
    "C90_load",
    "C90_documented",
    "C90_errors",
    "C90_process",
    "C90_sub_system",
    "C90_image",
    "C90_characters_refuted",
    "C90_index_refuted"
   ],
   "note": "iff for success and for every error; UTF-8 decoding and the uuidtext files are parameters; found: the string offsets are counted in characters (C90_characters_refuted; C90_sub_system is for strings with one byte per character), IndexError and AttributeError for missing UUIDs (C90_index_refuted)"
  },
  {
   "property": "C91",
   "status": "proved",
   "theorems": [
    "C91_entries",
    "C91_ends",
    "C91_written",
    "C91_errors",
    "C91_quiet_refuted",
    "C91_reference_refuted",
    "C91_size_refuted"
   ],
   "note": "iff for the entries and the end of reading; what makes a log entry of a tracepoint is a parameter; found: UnboundLocalError after the entries of a chunk without activity, log message and signpost (C91_quiet_refuted), ValueError for a size beyond the chunk (C91_size_refuted), 1-byte reference to oversize data where 2 bytes are documented (C91_reference_refuted)"
  },
  {
   "property": "C92",
   "status": "proved",
   "theorems": [
    "C92_values",
    "C92_backtrace",
    "C92_content",
    "C92_activity",
    "C92_trace",
    "C92_location_refuted",
    "C92_size_refuted",
    "C92_before_refuted"
   ],
   "note": "decoders are a parameter; items must have ranges inside of private data that are not negative; found: private data offsets before the virtual offset wrap around to the end of the private data, a trace of only a location uses its last byte as number of values (IndexError), the value of a trace can take bytes of the size table"
  },
  {
   "property": "C93",
   "status": "proved",
   "theorems": [
    "C93_reference",
    "C93_name",
    "C93_address",
    "C93_address_total",
    "C93_bounds",
    "C93_bounds_refuted",
    "C93_dynamic_refuted",
    "C93_strings",
    "C93_entry_refuted",
    "C93_process_refuted",
    "C93_history",
    "C93_independent",
    "C93_total",
    "C93_alone",
    "C93_cache_refuted"
   ],
   "note": "found: the cache of image values is keyed without the dynamic flag, a static string is shown as %s after a dynamic one with the same reference and the other way around (C93_cache_refuted); the address behind an image is taken as in it (C93_entry_refuted); bit 31 of the load address is lost for odd large offset data (C93_bounds_refuted); the dynamic flag is used above 0xffffffff (C93_dynamic_refuted); AttributeError without process information (C93_process_refuted)"
  },
  {
   "property": "C94",
   "status": "proved",
   "theorems": [
    "C94_entries",
    "C94_chunk",
    "C94_total",
    "C94_main_refuted",
    "C94_process_refuted",
    "C94_signpost_refuted",
    "C94_order_refuted"
   ],
   "note": "found: _GetProcessImageValues reads main_uuid that entries without main index do not have, AttributeError for every tracepoint of such a process, also losses (C94_main_refuted); name_image_values.string fails with AttributeError for a named signpost whose address is in no image (C94_signpost_refuted); the process image identifier is None if the uuidtext file is missing though the catalog has it (C94_process_refuted); messages depend on the tracepoints before (C94_order_refuted); the decoders are arguments; stored_job holds for what C91 and C90 read (C94_chunk)"
  },
  {
   "property": "C95",
   "status": "proved",
   "theorems": [
    "C95_history",
    "C95_simple",
    "C95_state",
    "C95_library_refuted",
    "C95_title_refuted",
    "C95_main_refuted"
   ],
   "note": "found: a library or decoder type that is no UTF-8 gives UnicodeDecodeError instead of ParseError (C95_library_refuted); the title of states with other data types is dropped (C95_title_refuted); a process without main executable gives AttributeError (C95_main_refuted); empty chunk data is a ValueError (C95_simple); printing of the warning without error_on_warning is not modelled"
  },
  {
   "property": "C96",
   "status": "proved",
   "theorems": [
    "C96_decoders",
    "C96_only",
    "C96_values",
    "C96_lossless",
    "C96_sid",
    "C96_negative_refuted",
    "C96_mode_refuted",
    "C96_socket_refuted",
    "C96_empty_refuted",
    "C96_missing_refuted",
    "C96_conversion_refuted"
   ],
   "note": "found: error numbers are read as unsigned so that negative numbers of the tables are never named (C96_negative_refuted); set user, set group and sticky bits are not shown (C96_mode_refuted); the port of socket addresses is dropped and IPv6 socket addresses with zero groups give text that is no address (C96_socket_refuted); empty flag lists and SIDs without sub authorities leave empty parts (C96_empty_refuted); missing values and UUIDs of other sizes raise TypeError, AttributeError or ValueError (C96_missing_refuted); conversions C and S have no decoder (C96_conversion_refuted); UTF-8 decoding, formatting of floating-point numbers and of dates are arguments; integers and texts use the formatting of C38-C40"
  },
  {
   "property": "C97",
   "status": "proved",
   "theorems": [
    "C97_classes",
    "C97_blocks",
    "C97_errors",
    "C97_abstract",
    "C97_uint32_refuted",
    "C97_reference_refuted",
    "C97_size_refuted",
    "C97_offset_refuted"
   ],
   "note": "found: the value of a qualifier of type uint32 is lost because uint16 is listed twice (C97_uint32_refuted); a qualifier of type reference, as documented for the provider, makes the class unreadable (C97_reference_refuted); only 27 of the 31 bits of the size of the values count (C97_size_refuted); a name offset at the end of the values raises ValueError instead of the documented ParseError (C97_offset_refuted); cp1252 and str.lower are arguments; floating-point values are kept as their bytes"
  },
  {
   "property": "C98",
   "status": "proved",
   "theorems": [
    "C98_build",
    "C98_errors",
    "C98_covers",
    "C98_lookup",
    "C98_lookup_errors",
    "C98_ends",
    "C98_kept",
    "C98_parent_refuted",
    "C98_loop_refuted",
    "C98_dynasty_refuted",
    "C98_overlap_refuted",
    "C98_number_refuted"
   ],
   "note": "found: a missing parent class raises AttributeError instead of the documented RuntimeError because the message asks None for its super class (C98_parent_refuted); a class that is its own ancestor makes the lookup endless (C98_loop_refuted); the dynasty shown as __DYNASTY is the parent of the parent and not the top-level class (C98_dynasty_refuted); with overlapping properties the size of the value data is too small (C98_overlap_refuted); a type qualifier that is no text raises AttributeError instead of ParseError (C98_number_refuted); str.lower and the hash of a name are arguments"
  },
  {
   "property": "C99",
   "status": "proved",
   "theorems": [
    "C99_instances",
    "C99_errors",
    "C99_records",
    "C99_record_errors",
    "C99_repository",
    "C99_offsets",
    "C99_classes",
    "C99_types_refuted",
    "C99_sint64_refuted",
    "C99_array_refuted",
    "C99_size_refuted",
    "C99_name_refuted"
   ],
   "note": "found: there is no definition for values of type sint8, sint16, sint64, real32, real64 and char16, so that every instance of a class with such a property raises ValueError (C99_types_refuted, C99_sint64_refuted); arrays of other values than strings have no value (C99_array_refuted); the type qualifier and not the data type decides how many bytes are read, also those of the next property (C99_size_refuted); an offset at the end of the values data raises ValueError instead of the documented ParseError (C99_name_refuted); cp1252, str.lower and the hash of a name are arguments; the class maps kept between instances are covered by C98_kept"
  },
  {
   "property": "C100",
   "status": "proved",
   "theorems": [
    "C100_cells",
    "C100_errors",
    "C100_unique",
    "C100_count",
    "C100_ends",
    "C100_same_refuted",
    "C100_ends_refuted"
   ],
   "note": "Findings: C100_same_refuted, C100_ends_refuted. Not modelled: debug mode, in which all cells are read."
  },
  {
   "property": "C101",
   "status": "proved",
   "theorems": [
    "C101_instances",
    "C101_namespaces",
    "C101_yields",
    "C101_errors",
    "C101_unique",
    "C101_depth_refuted",
    "C101_super_refuted",
    "C101_none_refuted",
    "C101_name_refuted",
    "C101_root_refuted",
    "C101_ends_refuted"
   ],
   "note": "Findings are the _refuted theorems. Not modelled: debug mode and how deep Python calls can be nested (the endless case is a RecursionError in Python)."
  },
  {
   "property": "C102",
   "status": "proved",
   "theorems": [
    "C102_classes",
    "C102_errors",
    "C102_unique",
    "C102_nothing_refuted",
    "C102_ends_refuted"
   ],
   "note": "Findings are the _refuted theorems. Not modelled: debug mode."
  },
  {
   "property": "C103",
   "status": "proved",
   "theorems": [
    "C103_keys",
    "C103_classes",
    "C103_instances",
    "C103_repository",
    "C103_yields",
    "C103_unique",
    "C103_bytes",
    "C103_twice_refuted",
    "C103_namespace_refuted",
    "C103_class_refuted"
   ],
   "note": "Findings are the _refuted theorems. The index keys are those of C51, the object records those of C52. Opening a repository (C53) is not part of this. Not modelled: debug mode."
  },
  {
   "property": "C104",
   "status": "proved",
   "theorems": [
    "C104_namespaces",
    "C104_unique",
    "C104_reads",
    "C104_order",
    "C104_hash",
    "C104_again",
    "C104_depth_refuted",
    "C104_case_refuted",
    "C104_orphan_refuted",
    "C104_partial_refuted",
    "C104_short_refuted"
   ],
   "note": "Findings are the _refuted theorems. no_clash is a hypothesis about the names that occur; C104_hash derives it from a collision free digest of the names in upper case. Not modelled: debug mode, opening a repository (C53)."
  },
  {
   "property": "C105",
   "status": "proved",
   "theorems": [
    "C105_decodes",
    "C105_file",
    "C105_other",
    "C105_unique",
    "C105_layout",
    "C105_json",
    "C105_terminates",
    "C105_cycles",
    "C105_errors",
    "C105_set_refuted",
    "C105_sets_refuted",
    "C105_false_refuted",
    "C105_plain_refuted",
    "C105_keys_refuted",
    "C105_negative_refuted",
    "C105_no_top",
    "C105_no_objects"
   ],
   "note": "Findings are the _refuted theorems. Not modelled: plistlib.load (a property list is a tree of values; binary lists that contain themselves are left out), json.dumps, argument parsing, the recursion limit of Python (a recursion that does not end stands for a RecursionError); floating-point numbers and dates are tokens."
  },
  {
   "property": "C106",
   "status": "proved",
   "theorems": [
    "C106_archive",
    "C106_database",
    "C106_opened",
    "C106_not_a_header",
    "C106_session",
    "C106_no_session",
    "C106_short_path_refuted",
    "C106_relative_path_refuted",
    "C106_no_dsc_refuted",
    "C106_reopen_refuted",
    "C106_tag_refuted"
   ],
   "note": "Findings are the _refuted theorems. The chunks are those of C89, the time conversion that of C42. Not modelled: a directory entry that cannot be opened (broken symbolic link), symbolic links and case insensitive file systems, other file system helpers than the native one; str of a UUID, str.upper and str.lower are functions."
  },
  {
   "property": "C107",
   "status": "proved",
   "theorems": [
    "C107_sorted",
    "C107_unique",
    "C107_stable_refuted"
   ],
   "note": "The finding is the _refuted theorem. The module heapq of Python is modelled after its source."
  },
  {
   "property": "C108",
   "status": "proved",
   "theorems": [
    "C108_json",
    "C108_determined",
    "C108_string",
    "C108_output_refuted",
    "C108_empty_refuted",
    "C108_control_refuted",
    "C108_sender_refuted",
    "C108_category_refuted",
    "C108_mark_refuted"
   ],
   "note": "The findings are the _refuted theorems; those about the sender path and the category are about the line of the member."
  },
  {
   "property": "C109",
   "status": "proved",
   "theorems": [
    "C109_shown",
    "C109_succeeds",
    "C109_reference",
    "C109_sequence_refuted",
    "C109_entry_refuted",
    "C109_list_refuted"
   ],
   "note": "The findings are the _refuted theorems."
  },
  {
   "property": "C110",
   "status": "proved",
   "theorems": [
    "C110_page",
    "C110_same",
    "C110_digit_refuted",
    "C110_page_refuted",
    "C110_open",
    "C110_keys_refuted",
    "C110_keys_same",
    "C110_root_refuted",
    "C110_map",
    "C110_map_refuted",
    "C110_map_lines",
    "C110_cells_refuted",
    "C110_instances_refuted",
    "C110_classes_refuted"
   ],
   "note": "The findings are the _refuted theorems, C110_page and C110_open. That the other debug output does not fail is assumed."
  },
  {
   "property": "C111",
   "status": "proved",
   "theorems": [
    "C111_same",
    "C111_errors",
    "C111_record",
    "C111_ascending",
    "C111_order_refuted",
    "C111_behind_refuted",
    "C111_unnamed_refuted",
    "C111_size_refuted",
    "C111_offsets",
    "C111_tuple_refuted"
   ],
   "note": "The findings are the _refuted theorems."
  },
  {
   "property": "C112",
   "status": "proved",
   "theorems": [
    "C112_same",
    "C112_errors",
    "C112_shown",
    "C112_file",
    "C112_lossless",
    "C112_header",
    "C112_trailer",
    "C112_return",
    "C112_text",
    "C112_subject",
    "C112_types_refuted",
    "C112_net_refuted",
    "C112_twice_refuted",
    "C112_forged_refuted"
   ],
   "note": "The findings are the _refuted theorems. Text printed before a failure is not modelled, and the texts of dates and times, which the library dfDateTime makes, are a parameter. C112_shown is about files whose records all have a token; for a header with a record size of 0 see C62_no_trailer_refuted."
  },
  {
   "property": "C113",
   "status": "proved",
   "theorems": [
    "C113_single",
    "C113_unsupported",
    "C113_ends_refuted",
    "C113_many_refuted"
   ],
   "note": "The findings are the _refuted theorems. SHA-256 and decompression are parameters; a decompressed stream is a file object with the decompressed data."
  },
  {
   "property": "C114",
   "status": "proved",
   "theorems": [
    "C114_aligned",
    "C114_mismatch",
    "C114_lossless",
    "C114_joined_refuted",
    "C114_item",
    "C114_attributes",
    "C114_value",
    "C114_item_lossless",
    "C114_strings_refuted",
    "C114_missing_refuted",
    "C114_database",
    "C114_store"
   ],
   "note": "The findings are the _refuted theorems. The texts of dates and times, which the library dfDateTime makes, and of lists and floating-point values are parameters. The options for streams maps and storage media images are not part of the model."
  },
  {
   "property": "C115",
   "status": "proved",
   "theorems": [
    "C115_table",
    "C115_lines",
    "C115_lossless",
    "C115_indexed",
    "C115_indexed_lossless",
    "C115_entries",
    "C115_short_refuted",
    "C115_log_refuted",
    "C115_image_refuted"
   ],
   "note": "The findings are the _refuted theorems. The decompressors for Snappy and Zstandard, and the decoding of UTF-8 in descriptor files, are parameters. Command line options and the file system helpers are not part of the model: a file is its content."
  },
  {
   "property": "C116",
   "status": "proved",
   "theorems": [
    "C116_schema",
    "C116_content",
    "C116_errors",
    "C116_rows",
    "C116_lossless",
    "C116_null_refuted",
    "C116_name_refuted",
    "C116_attributes_refuted",
    "C116_column_refuted",
    "C116_stop"
   ],
   "note": "The findings are the _refuted theorems. Command line options and debug output are not part of this model (debug output: C111)."
  },
  {
   "property": "C117",
   "status": "proved",
   "theorems": [
    "C117_entries",
    "C117_shortcut",
    "C117_errors",
    "C117_aligned",
    "C117_reference",
    "C117_data_flags",
    "C117_flags_refuted",
    "C117_reference_refuted",
    "C117_property_refuted"
   ],
   "note": "The findings are the _refuted theorems. What pylnk, pyfwsi and pyfwps give of shortcuts, shell items and property stores is the input of the model, and their exceptions are not part of it; the texts of FILETIME and FAT times and the table of property keys are parameters. The reader of Jump List files is C88. Command line options are not part of the model. Which values of an entry, item, extension block or property are shown, and below which description, is not part of the theorems; it is fixed for one file only, by the example C117_case."
  },
  {
   "property": "C118",
   "status": "proved",
   "theorems": [
    "C118_instance",
    "C118_errors",
    "C118_lossless",
    "C118_instances",
    "C118_namespaces",
    "C118_index",
    "C118_root_refuted",
    "C118_none_refuted"
   ],
   "note": "The findings are the _refuted theorems. What the repository yields is the input of the model; the readers are C51, C100 to C104. The text of a list of strings (Python's str of a list) is a parameter. The output mode debug and the command line options are not part of the model."
  },
  {
   "property": "C119",
   "status": "proved",
   "theorems": [
    "C119_output",
    "C119_alone",
    "C119_members",
    "C119_sequence",
    "C119_integers",
    "C119_nested_refuted",
    "C119_numbers_refuted",
    "C119_checksum_refuted",
    "C119_lines"
   ],
   "note": "The findings are the _refuted theorems. The data type definitions, the values dtFabric makes of the file, the text written while reading and str.capitalize are inputs of the model. The depth of values is bounded by a fuel that is quantified over; a result exists only if it suffices. The command line options are not part of the model."
  }
 ]
}
