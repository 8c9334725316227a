{
 "claims": [
  {
   "property": "C01",
   "status": "proved",
   "theorems": [
    "C01_cache_transparent",
    "C01_cache_transparent_with_failures"
   ],
   "note": "Loader is an arbitrary function (decompression and file system not modelled); second theorem lets loads fail at some moments."
  },
  {
   "property": "C02",
   "status": "proved",
   "theorems": [
    "C02_cache_bounded"
   ],
   "note": "Every history, failing loads included."
  },
  {
   "property": "C03",
   "status": "proved",
   "theorems": [
    "C03_no_reload_in_working_set",
    "C03_one_load_per_segment"
   ],
   "note": "Reads are observed through a ghost list of segment numbers. The effect of failed loads is C61."
  },
  {
   "property": "C04",
   "status": "proved",
   "theorems": [
    "C04_row_placement",
    "C04_whole_image"
   ],
   "note": "line_read with size_t wrap-around; whole image theorem gives the bijection."
  },
  {
   "property": "C05",
   "status": "proved",
   "theorems": [
    "C05_missing_segment_is_zero",
    "C05_missing_rows_are_zero"
   ],
   "note": "HRV and non-HRV."
  },
  {
   "property": "C06",
   "status": "proved",
   "theorems": [
    "C06_window_placement"
   ],
   "note": "Including an absent upper window (all fields 0)."
  },
  {
   "property": "C07",
   "status": "proved",
   "theorems": [
    "C07_hrv_row_mapping",
    "C07_hrv_whole_image",
    "C07_rows_past_the_end_are_zero"
   ],
   "note": "Rows past the end deliver zeros for every table below 2^62 rows."
  },
  {
   "property": "C08",
   "status": "proved",
   "theorems": [
    "C08_scan_order_independent",
    "C08_scan_result"
   ],
   "note": "On byte streams, through the header reader of C11; prologue/epilogue and glob(3) not part of it."
  },
  {
   "property": "C09",
   "status": "proved",
   "theorems": [
    "C09_linear_row",
    "C09_calibrated_row",
    "C09_calibrated_row_outside",
    "C09_row_size",
    "C09_hrv_raster_row",
    "C09_calibrated_raster_row"
   ],
   "note": "Buffers with bounds checking; calibrated samples are a finite value or NaN, only the sign of which matters."
  },
  {
   "property": "C10",
   "status": "proved",
   "theorems": [
    "C10_unsigned_fields",
    "C10_signed_fields",
    "C10_unsigned_round_trip",
    "C10_signed_round_trip"
   ],
   "note": "get_ui*/get_i* of MSG_machine.cpp for any field width and both host byte orders, after the byte order probe."
  },
  {
   "property": "C11",
   "status": "proved",
   "theorems": [
    "C11_header_round_trip",
    "C11_header_length"
   ],
   "note": "All nine secondary record kinds; encoder and expected values are an independent specification (HeaderSpec.v)."
  },
  {
   "property": "C12",
   "status": "partial",
   "theorems": [
    "C12_header_safe_partial",
    "C12_accepted_header_is_tiled",
    "C12_hang_needs_zero_length_quality",
    "C12_refuted_truncated_record",
    "C12_refuted_overlong_record",
    "C12_refuted_missing_image_structure",
    "C12_refuted_polar_projection",
    "C12_refuted_zero_length_quality_hangs"
   ],
   "note": "Full statement is false: truncated, overlong or POLAR records, missing image structure, and int overflow are undefined behaviour; a zero-length line quality record hangs. Proved: safety for validated headers, acceptance implies tiling inside the stream, and the only hang."
  },
  {
   "property": "C13",
   "status": "partial",
   "theorems": [
    "C13_derived_values_partial",
    "C13_refuted_largest_dimensions"
   ],
   "note": "Holds after every successful read; for lines*columns >= 2^31 the product overflows int (undefined), refuting the largest dimensions."
  },
  {
   "property": "C14",
   "status": "proved",
   "theorems": [
    "C14_key_classes_partition"
   ],
   "note": "All key numbers 0..255."
  },
  {
   "property": "C15",
   "status": "proved",
   "theorems": [
    "C15_short_stamp",
    "C15_long_stamps",
    "C15_instants_are_ordered",
    "C15_cuc_time"
   ],
   "note": "Short, 8 byte, 10 byte CDS stamps and CUC (scaled integer; rounding to double not modelled)."
  },
  {
   "property": "C16",
   "status": "proved",
   "theorems": [
    "C16_every_byte_once",
    "C16_one_slot_per_field",
    "C16_header_records",
    "C16_prologue_records",
    "C16_trailer_records",
    "C16_record_lengths",
    "C16_native_header",
    "C16_native_trailer"
   ],
   "note": "Formats written down from the class declarations; the reads of every read_from are modelled statement by statement. Every byte of prologue, native header and trailer belongs to exactly one field, the records follow one another, and the totals are the lengths the native reader checks."
  },
  {
   "property": "C17",
   "status": "proved",
   "theorems": [
    "C17_day_of_year",
    "C17_calendar_order",
    "C17_onto",
    "C17_next_day",
    "C17_leap_years"
   ],
   "note": "All years of the proleptic Gregorian calendar."
  },
  {
   "property": "C18",
   "status": "proved",
   "theorems": [
    "C18_round_trip",
    "C18_no_sharing",
    "C18_defaults"
   ],
   "note": "All integers."
  },
  {
   "property": "C19",
   "status": "proved",
   "theorems": [
    "C19_names",
    "C19_name_of_any_id",
    "C19_other_names"
   ],
   "note": "All integers and strings."
  },
  {
   "property": "C20",
   "status": "proved",
   "theorems": [
    "C20_channel_table",
    "C20_other_channels",
    "C20_near_wavelength_selects",
    "C20_far_wavelength_rejected",
    "C20_double_round_trip"
   ],
   "note": "Exact rational arithmetic for every wavelength below 1e8 (beyond int the C conversion is undefined); IEEE doubles for the values the library reports."
  },
  {
   "property": "C21",
   "status": "proved",
   "theorems": [
    "C21_short_names_parse_back",
    "C21_parse_is_faithful"
   ],
   "note": "Also the converse: whatever is parsed in the short form spells the name."
  },
  {
   "property": "C22",
   "status": "proved",
   "theorems": [
    "C22_segment_names_parse_back"
   ],
   "note": "Directory absent, root or any other; fields without '-' and '/'."
  },
  {
   "property": "C23",
   "status": "proved",
   "theorems": [
    "C23_search",
    "C23_same_product"
   ],
   "note": "glob(3) modelled for literals, '?' and '*' in one directory given by an arbitrary listing; field characters '*', '?', '[' and backslash excluded."
  },
  {
   "property": "C24",
   "status": "partial",
   "theorems": [
    "C24_refuted_colons_in_directory",
    "C24_refuted_empty_id_undefined",
    "C24_refuted_incomplete",
    "C24_parsed_names_are_valid",
    "C24_short_form_partial",
    "C24_segment_form_partial"
   ],
   "note": "Full statement is false: colons in the directory, empty ids in segment names (undefined behaviour), empty parts. Proved: parse implies isValid, and exact acceptance of the two forms."
  },
  {
   "property": "C25",
   "status": "proved",
   "theorems": [
    "C25_unpad_pad",
    "C25_width",
    "C25_unpad_any"
   ],
   "note": "All strings; an id of underscores only keeps one."
  },
  {
   "property": "C26",
   "status": "partial",
   "theorems": [
    "C26_last_call_decides_partial",
    "C26_count_distinct_keys",
    "C26_never_wrong",
    "C26_refuted_zero_hash"
   ],
   "note": "Finite-map refinement proved for every file and history, including regrowth; the entry count theorem is complete; no lookup ever gives a wrong value (C26_never_wrong). Refuted: a key whose 32-bit hash is 0 is not found although it was set, the lookup is undefined once an earlier entry was removed (C26_refuted_zero_hash, C27)."
  },
  {
   "property": "C27",
   "status": "partial",
   "theorems": [
    "C27_lookup_defined_partial",
    "C27_refuted"
   ],
   "note": "Refuted: an empty slot carries hash 0 and dictionary_get tests the key array pointer instead of the slot, so looking up a key of hash 0 (the empty key, or e.g. sat:auhvqwo) dereferences null. Proved exact: every other lookup is defined, and an absent hash-0 key is undefined unless every slot is taken."
  },
  {
   "property": "C28",
   "status": "proved",
   "theorems": [
    "C28_sections_enumerate"
   ],
   "note": "Proved for every file and every later history of calls."
  },
  {
   "property": "C29",
   "status": "partial",
   "theorems": [
    "C29_case_and_booleans_partial",
    "C29_refuted",
    "C29_integers"
   ],
   "note": "Case folding, boolean and integer decoding proved for entries that have a value. Refuted for section names: their value is a null pointer that getboolean and getint dereference."
  },
  {
   "property": "C30",
   "status": "proved",
   "theorems": [
    "C30_encoding_is_rfc4648",
    "C30_round_trip",
    "C30_shape"
   ],
   "note": "All byte strings; the encoder equals an independent RFC 4648 specification."
  },
  {
   "property": "C31",
   "status": "partial",
   "theorems": [
    "C31_safe_without_brace_partial",
    "C31_refuted_by_every_brace",
    "C31_strangers_count_as_zero"
   ],
   "note": "Exact: decoding is undefined if and only if the text holds the character { (123), whose table index is one past the end; every other byte string decodes."
  },
  {
   "property": "C32",
   "status": "proved",
   "theorems": [
    "C32_round_trip",
    "C32_alphabet"
   ],
   "note": "All byte strings whose encoding is shorter than 2^63 (any std::string)."
  },
  {
   "property": "C33",
   "status": "partial",
   "theorems": [
    "C33_decoding_exact_partial",
    "C33_round_trip_iff_partial",
    "C33_refuted_control_character",
    "C33_decoding_total"
   ],
   "note": "Full statement is false: hexadecimal escapes are decoded with atoi, which gives 0. Proved exact: decoding replaces every control character except newline and tab by NUL, consumes the whole text, and is the identity exactly when there is no such character. Decoding any text ends."
  },
  {
   "property": "C34",
   "status": "proved",
   "theorems": [
    "C34_split_then_join",
    "C34_pieces_determined",
    "C34_empty_cases"
   ],
   "note": "All texts and non-empty separators; pieces are specified by leftmost occurrences and unique. The empty text has no piece; the empty separator splits characters and appends an empty piece."
  },
  {
   "property": "C35",
   "status": "partial",
   "theorems": [
    "C35_skip_empty_partial",
    "C35_refuted_only_separators",
    "C35_refuted_empty_separator"
   ],
   "note": "Refuted: a text of separators only yields one empty piece, and an empty separator never ends. Proved: in every other case the result is the list of non-empty pieces."
  },
  {
   "property": "C36",
   "status": "proved",
   "theorems": [
    "C36_strip",
    "C36_one_sided",
    "C36_idempotent_and_consistent"
   ],
   "note": "All strings; C locale white space."
  },
  {
   "property": "C37",
   "status": "proved",
   "theorems": [
    "C37_join_of_parts",
    "C37_parent",
    "C37_basename",
    "C37_no_trailing_slash",
    "C37_root_and_empty"
   ],
   "note": "All paths, by exhaustive shapes."
  },
  {
   "property": "C38",
   "status": "partial",
   "theorems": [
    "C38_defined_iff_partial",
    "C38_result",
    "C38_refuted_climbing"
   ],
   "note": "Full statement is false: a relative path that climbs above its start calls back() on an empty vector. Proved exact: defined if and only if absolute or not climbing; then the result is tidy, leads to the same place from every directory, and is a fixed point."
  },
  {
   "property": "C39",
   "status": "proved",
   "theorems": [
    "C39_round_trip",
    "C39_any_padding",
    "C39_write_undefined_iff"
   ],
   "note": "Consistent = some bytes hold it under the separate layout specification; any padding. Also: write is undefined exactly when more records are announced than present (no_records 0 wraps)."
  },
  {
   "property": "C40",
   "status": "proved",
   "theorems": [
    "C40_truncation_rejected",
    "C40_prefixes_rejected"
   ],
   "note": "Every proper prefix of any encoding throws; files below 4 GB."
  },
  {
   "property": "C41",
   "status": "proved",
   "theorems": [
    "C41_range",
    "C41_single"
   ],
   "note": "All ranges and distributions of lines over records; line numbers are naturals below 2^32 (no wrap of line+1)."
  },
  {
   "property": "C42",
   "status": "partial",
   "theorems": [
    "C42_all_but_last_partial",
    "C42_refuted_last_line_missing"
   ],
   "note": "False: the last line is always left out (refuted for every non-empty file); proved: all lines but the last."
  },
  {
   "property": "C43",
   "status": "partial",
   "theorems": [
    "C43_layout",
    "C43_big_endian_partial",
    "C43_little_endian",
    "C43_refuted_wide_count"
   ],
   "note": "All counts for 32/64-bit and little-endian; big-endian 16-bit only for counts 0..2, refuted for every other count (2 bytes written, 3 or 4 read)."
  },
  {
   "property": "C44",
   "status": "proved",
   "theorems": [
    "C44_unpacking",
    "C44_bits"
   ],
   "note": "All lines of 5k bytes, both as base-1024 digits and bit by bit; packing inverts."
  },
  {
   "property": "C45",
   "status": "partial",
   "theorems": [
    "C45_safe_iff_partial",
    "C45_reading_safe_partial",
    "C45_small_packets_refused",
    "C45_refuted_odd_sizes"
   ],
   "note": "False for data sizes that are not a multiple of 5 (refuted for all of them); reading itself is safe for every packet length."
  },
  {
   "property": "C46",
   "status": "partial",
   "theorems": [
    "C46_own_data_partial",
    "C46_refuted_last_line"
   ],
   "note": "False: the line object used for reading frees the data of the last line of the file; close then frees it twice (refuted for every non-empty read). All other lines own distinct live buffers. Heap modelled as a list of buffers."
  },
  {
   "property": "C47",
   "status": "proved",
   "theorems": [
    "C47_lines_to_channels",
    "C47_accepts"
   ],
   "note": "Exact distribution and counts, and exact characterisation of the files read. Little-endian host (see C75); nlines below 2^31."
  },
  {
   "property": "C48",
   "status": "partial",
   "theorems": [
    "C48_history_partial",
    "C48_out_of_range",
    "C48_refuted_initial_zeros",
    "C48_formats"
   ],
   "note": "Histories of any length for every format and band; the initial content is refuted: an image never written to holds indeterminate values, not zeros. Out of range requests never touch memory."
  },
  {
   "property": "C49",
   "status": "partial",
   "theorems": [
    "C49_placement_partial",
    "C49_refuted",
    "C49_first_half_partial",
    "C49_bad_requests"
   ],
   "note": "Refuted: the second half is stored two pixels too early, so the concatenation is never read back; the theorems say exactly what is."
  },
  {
   "property": "C50",
   "status": "proved",
   "theorems": [
    "C50_fixed_point",
    "C50_integers"
   ],
   "note": "Float arithmetic is exact in the model (rationals); integer overflow is 16 bit wrap-around."
  },
  {
   "property": "C51",
   "status": "proved",
   "theorems": [
    "C51_table",
    "C51_every_table"
   ],
   "note": "All tables of 120 slots."
  },
  {
   "property": "C52",
   "status": "partial",
   "theorems": [
    "C52_accept_partial",
    "C52_refuted",
    "C52_refuted_third",
    "C52_refuted_short",
    "C52_refuted_big_endian"
   ],
   "note": "Refuted: the two parts of the mark are combined with &&, so either is enough; short reads are not checked; big endian hosts compare swapped bytes. C52_accept_partial characterises acceptance exactly on little endian hosts."
  },
  {
   "property": "C53",
   "status": "partial",
   "theorems": [
    "C53_formats_partial",
    "C53_refuted_always"
   ],
   "note": "Refuted: is_subwindow is true for every header, because it negates a conjunction of two exclusive formats. Proved: the A and B tests decide their formats and exclude each other, and other images are subwindows."
  },
  {
   "property": "C54",
   "status": "proved",
   "theorems": [
    "C54_double_round_trip",
    "C54_round_trip",
    "C54_nearest",
    "C54_reported",
    "C54_decode"
   ],
   "note": "Exact rational arithmetic for every transform; binary64 rounding with unbounded exponents for transforms without rotation (C54_double_round_trip, which uses the real-number axioms of the standard library). Overflow and underflow of doubles are not modelled."
  },
  {
   "property": "C55",
   "status": "partial",
   "theorems": [
    "C55_round_trip_partial",
    "C55_accepted",
    "C55_editions",
    "C55_refused_text",
    "C55_refuted_seconds",
    "C55_refuted_year",
    "C55_refuted_sign"
   ],
   "note": "Proved for years 0-9999 in messages where the seconds can be set; in those where they cannot (edition 1) seconds are silently kept, and years from 10000 cut the text: both refuted. What is needed of grib_api is the record faithful. A month with a minus sign of its own is not refused by the driver (C55_refuted_sign)."
  },
  {
   "property": "C56",
   "status": "proved",
   "theorems": [
    "C56_long",
    "C56_double",
    "C56_refuted_set"
   ],
   "note": "Present means readable. C56_refuted_set shows that the corresponding function for setting is undefined behaviour unless its first key succeeds; it is not part of the claim."
  },
  {
   "property": "C57",
   "status": "partial",
   "theorems": [
    "C57_round_trip_partial",
    "C57_refuted_upper",
    "C57_default",
    "C57_unsigned"
   ],
   "note": "Proved for all values that the signed type of the same width has; for the others (a byte above 127, ...) the conversion is undefined: refuted. Defaults of variables without such a value are proved."
  },
  {
   "property": "C58",
   "status": "partial",
   "theorems": [
    "C58_agree_partial",
    "C58_refused",
    "C58_refuted_first",
    "C58_refuted_null"
   ],
   "note": "Proved for histories whose first source is complete and whose sources all have a projection. Refuted: a refused first source leaves its projection behind; a later source without projection is dereferenced. Geotransforms are compared as bits."
  },
  {
   "property": "C59",
   "status": "partial",
   "theorems": [
    "C59_image_partial",
    "C59_refuted_wide",
    "C59_refuted_long",
    "C59_projected",
    "C59_map",
    "C59_nonzero"
   ],
   "note": "Image boxes hold long corners but int results. Refuted for boxes wider than an int (overflow) and corners outside an int (truncated); proved for all others, and for projected and geographical boxes over the rationals."
  },
  {
   "property": "C60",
   "status": "partial",
   "theorems": [
    "C60_float_partial",
    "C60_refuted_float_max",
    "C60_refuted_float_nan",
    "C60_refuted_float_constant",
    "C60_automatic_partial",
    "C60_given",
    "C60_refuted_constant",
    "C60_refuted_nodata"
   ],
   "note": "Proved for images with two different non-missing values, integer (maximum to 255) and float (24 bit rounding, maximum to 254 or 255). Refuted: constant images are drawn with the raw value modulo 256; a missing value inside the range is drawn as a grey; a float maximum can become 254; one NaN, or a constant float image above 255, is undefined behaviour. Unbounded exponents and no infinities in the float part."
  },
  {
   "property": "C61",
   "status": "partial",
   "theorems": [
    "C61_refuted_failed_load_evicts",
    "C61_latest_survives_failures_partial"
   ],
   "note": "False: a failed load evicts the second latest segment (refuted); the latest one always survives."
  },
  {
   "property": "C62",
   "status": "proved",
   "theorems": [
    "C62_segment_survives_next_request"
   ],
   "note": "Exactly one further request is safe (see C62_limit)."
  },
  {
   "property": "C63",
   "status": "partial",
   "theorems": [
    "C63_destruction_frees_cache_partial",
    "C63_refuted_leak"
   ],
   "note": "False: the object allocated for a failed load leaks (refuted); everything else is freed exactly once."
  },
  {
   "property": "C64",
   "status": "proved",
   "theorems": [
    "C64_wave_number_round_trip"
   ],
   "note": "Doubles through the executable IEEE model of Coq's SpecFloat."
  },
  {
   "property": "C65",
   "status": "proved",
   "theorems": [
    "C65_sibling_channel"
   ],
   "note": "Same file system model as C23."
  },
  {
   "property": "C66",
   "status": "proved",
   "theorems": [
    "C66_unique_prologue",
    "C66_kinds_are_disjoint"
   ],
   "note": "Same file system model as C23."
  },
  {
   "property": "C67",
   "status": "partial",
   "theorems": [
    "C67_file_contents_partial",
    "C67_any_file_is_read",
    "C67_refuted_empty_quoted_value"
   ],
   "note": "Every document of the documented grammar with any layout; any byte sequence is read without undefined behaviour. Refuted: key = \"\" is stored as two quote characters because the comparison sees the newline."
  },
  {
   "property": "C68",
   "status": "partial",
   "theorems": [
    "C68_dump_then_read_partial",
    "C68_refuted_without_sections"
   ],
   "note": "Proved for every history whose content the format can carry (storable). Refuted for files without sections: their keys gain a colon at each round trip."
  },
  {
   "property": "C69",
   "status": "partial",
   "theorems": [
    "C69_cut_escape_partial",
    "C69_refuted_lone_percent"
   ],
   "note": "Refuted for the text % alone, where the size minus two wraps; proved for every other text."
  },
  {
   "property": "C70",
   "status": "proved",
   "theorems": [
    "C70_prefix_suffix"
   ],
   "note": "All pairs."
  },
  {
   "property": "C71",
   "status": "proved",
   "theorems": [
    "C71_join_components",
    "C71_join_absolute"
   ],
   "note": "All lists of paths."
  },
  {
   "property": "C72",
   "status": "proved",
   "theorems": [
    "C72_case"
   ],
   "note": "C locale."
  },
  {
   "property": "C73",
   "status": "proved",
   "theorems": [
    "C73_accepted_is_wellformed",
    "C73_rewrite"
   ],
   "note": "Exact characterisation of accepted files; no undefined behaviour, no unbounded loop."
  },
  {
   "property": "C74",
   "status": "partial",
   "theorems": [
    "C74_image_partial",
    "C74_refuted_last_channel",
    "C74_safe_iff_partial"
   ],
   "note": "False for the last selected channel (always released data); for the others proved correct, with an exact condition for memory safety."
  },
  {
   "property": "C75",
   "status": "partial",
   "theorems": [
    "C75_little_endian_partial",
    "C75_refuted_big_endian"
   ],
   "note": "False: the byte order flag is never initialised on this path; on big-endian hosts numbers are read reversed."
  },
  {
   "property": "C76",
   "status": "proved",
   "theorems": [
    "C76_numbers",
    "C76_positions"
   ],
   "note": "Values beyond 64 bits are undefined in the model."
  },
  {
   "property": "C77",
   "status": "partial",
   "theorems": [
    "C77_selection",
    "C77_refuted_lengths"
   ],
   "note": "Proved for words of 11 to 15 characters, refuted for all other lengths."
  },
  {
   "property": "C78",
   "status": "partial",
   "theorems": [
    "C78_header_strings_partial",
    "C78_refuted_no_terminator"
   ],
   "note": "Defined exactly when a NUL follows the start of the last field; headers without one are read past their end."
  },
  {
   "property": "C79",
   "status": "partial",
   "theorems": [
    "C79_total",
    "C79_single_exact",
    "C79_single_saturates",
    "C79_double",
    "C79_refuted_zero_fraction",
    "C79_refuted_long64"
   ],
   "note": "For a 4 byte long: exact or saturating singles, truncated doubles, every input decodes. Refuted: zero fractions with a non-zero exponent; and with an 8 byte long every decoding reads out of bounds."
  },
  {
   "property": "C80",
   "status": "proved",
   "theorems": [
    "C80_dataline"
   ],
   "note": "Both kinds of files, little endian hosts (big endian hosts refuse every frame, C52)."
  },
  {
   "property": "C81",
   "status": "partial",
   "theorems": [
    "C81_whole_lines_partial",
    "C81_refuted_halves",
    "C81_keys_partial"
   ],
   "note": "Complete for the images whose lines are whole; for the visible images in halves (AV, BIV, BIVH) the first half minus two pixels is right, the rest is refuted with its exact content. Keys: TECNAVIA files never set them. Calibration and dates not modelled; sizeof(long) = 4."
  },
  {
   "property": "C82",
   "status": "proved",
   "theorems": [
    "C82_formats",
    "C82_code"
   ],
   "note": "All strings and all labels."
  },
  {
   "property": "C83",
   "status": "partial",
   "theorems": [
    "C83_refuted_missing_lines",
    "C83_tecnavia_partial"
   ],
   "note": "Refuted for plain files: any number of trailing data lines may be missing and read as zero. TECNAVIA files are refused."
  },
  {
   "property": "C84",
   "status": "partial",
   "theorems": [
    "C84_layout_partial",
    "C84_refuted"
   ],
   "note": "Refuted for one pair of the 124 fields (snmxwp_ir and snmxwp_v1 share bytes 466-467), proved for all others."
  },
  {
   "property": "C85",
   "status": "proved",
   "theorems": [
    "C85_image",
    "C85_again_partial"
   ],
   "note": "New objects: C85_image. Used objects: C85_again_partial needs the old image to be at least as large, as the claim says; the other case is C87_refuted_again."
  },
  {
   "property": "C86",
   "status": "proved",
   "theorems": [
    "C86_truncated"
   ],
   "note": "The read ends in std::terminate (rethrow without an active exception), so no image is returned."
  },
  {
   "property": "C87",
   "status": "partial",
   "theorems": [
    "C87_new_object_partial",
    "C87_refuted_wide",
    "C87_refuted_again"
   ],
   "note": "Refuted for lines of more than 5000 pixels and for a larger image read into a used object. Proved for every byte string read into a new object with lines of at most 5000 pixels and an image size that fits in int."
  },
  {
   "property": "C88",
   "status": "partial",
   "theorems": [
    "C88_accessors_partial",
    "C88_header_size",
    "C88_refuted_histogram",
    "C88_refuted_times",
    "C88_refuted_attitude"
   ],
   "note": "Proved for every accessor but five; these are shown wrong for every header: two histograms give 20 of 256 classes, the horizon times come from another field, two attitudes have a fourth component from the next field."
  },
  {
   "property": "C89",
   "status": "proved",
   "theorems": [
    "C89_datetime",
    "C89_distinct"
   ],
   "note": "Years 1900 to 9999, any century prefix in the date word."
  },
  {
   "property": "C90",
   "status": "proved",
   "theorems": [
    "C90_functions"
   ],
   "note": "Values are modelled as integers times a power of ten, the conversion to float being exact for them up to rounding of the scaled value, which is not modelled."
  },
  {
   "property": "C91",
   "status": "partial",
   "theorems": [
    "C91_crop",
    "C91_area",
    "C91_refuted_outside"
   ],
   "note": "Proved for corners inside the image. Refuted for areas outside the image: the window reaches from the area to the border of the image."
  },
  {
   "property": "C92",
   "status": "partial",
   "theorems": [
    "C92_cap",
    "C92_refuted_thin"
   ],
   "note": "Limit, no enlargement and proportions proved; very thin images are scaled to an empty side (refuted_thin)."
  },
  {
   "property": "C93",
   "status": "partial",
   "theorems": [
    "C93_inside",
    "C93_requested_partial",
    "C93_refuted_overflow",
    "C93_projwin",
    "C93_refuted_border"
   ],
   "note": "Proved when start plus length fits an int; otherwise signed overflow. A projected window starting up to one pixel outside is silently moved to the border."
  },
  {
   "property": "C94",
   "status": "proved",
   "theorems": [
    "C94_georeference",
    "C94_cut"
   ],
   "note": "Exact rational arithmetic."
  },
  {
   "property": "C95",
   "status": "partial",
   "theorems": [
    "C95_same_shape_partial",
    "C95_refuted_cut",
    "C95_refuted_crash"
   ],
   "note": "Proved for files of the same shape. Refuted: the window and bands computed for the first file are kept, later files are cut to it or make the program dereference a null pointer."
  },
  {
   "property": "C96",
   "status": "partial",
   "theorems": [
    "C96_items_partial",
    "C96_refuted_wrap",
    "C96_default_order"
   ],
   "note": "Proved for numbers below 2^32 and names; larger numbers wrap modulo 2^32."
  },
  {
   "property": "C97",
   "status": "proved",
   "theorems": [
    "C97_clean",
    "C97_time",
    "C97_distinct"
   ],
   "note": "For dates in the form YYYY-MM-DD HH:MM:SS."
  },
  {
   "property": "C98",
   "status": "partial",
   "theorems": [
    "C98_display",
    "C98_refuted_export",
    "C98_no_extension"
   ],
   "note": "Display reports failure; export dereferences the null result (refuted_export)."
  },
  {
   "property": "C99",
   "status": "partial",
   "theorems": [
    "C99_sources",
    "C99_channel",
    "C99_refuted_wrap"
   ],
   "note": "Channel numbers above 2^32 wrap to a valid channel."
  },
  {
   "property": "C100",
   "status": "partial",
   "theorems": [
    "C100_deleted_once_partial",
    "C100_refuted_leak",
    "C100_refuted_refused"
   ],
   "note": "Proved for sources with a band of a known channel; others, and a first source that is refused, are never deleted."
  },
  {
   "property": "C101",
   "status": "partial",
   "theorems": [
    "C101_extras_partial",
    "C101_xrit_partial",
    "C101_refuted_leak"
   ],
   "note": "Proved when opening ends with a dataset or with nothing (XRIT: when every file has a channel number). Refuted when an exception is thrown: the source is lost."
  },
  {
   "property": "C102",
   "status": "partial",
   "theorems": [
    "C102_unknown",
    "C102_refuted_channel"
   ],
   "note": "Unknown option values return nothing; unsupported channels throw an exception through GDALOpen."
  },
  {
   "property": "C103",
   "status": "partial",
   "theorems": [
    "C103_read_partial",
    "C103_refuted_edge",
    "C103_order"
   ],
   "note": "Proved when the image size is a multiple of the block size; otherwise the last blocks cannot be read."
  },
  {
   "property": "C104",
   "status": "partial",
   "theorems": [
    "C104_exact_partial",
    "C104_visible",
    "C104_order",
    "C104_band_partial",
    "C104_refuted_clamp",
    "C104_refuted_space",
    "C104_refuted_longitude"
   ],
   "note": "Exact real arithmetic, spherical earth. Proved for a satellite at longitude 0 and angles up to one radian. Refuted: larger angles are stored as 1; the longitude of the satellite is ignored; points off the earth have the value of the point under the satellite."
  },
  {
   "property": "C105",
   "status": "proved",
   "theorems": [
    "C105_direction",
    "C105_range",
    "C105_rotation",
    "C105_noon",
    "C105_band"
   ],
   "note": "Exact real arithmetic."
  },
  {
   "property": "C106",
   "status": "partial",
   "theorems": [
    "C106_range",
    "C106_order",
    "C106_value_partial",
    "C106_season",
    "C106_refuted_night"
   ],
   "note": "Range and order proved, value proved with the sun at least 10 degrees up and below 99%, also the effect of the distance of the sun; refuted at night, where a positive radiance gives a positive reflectance. Exact arithmetic except the conversion to float."
  },
  {
   "property": "C107",
   "status": "partial",
   "theorems": [
    "C107_range",
    "C107_order_partial",
    "C107_refuted_order",
    "C107_value_partial"
   ],
   "note": "Range proved; value proved against an independent formula with the sun at least 10 degrees up, below 99% and above the thermal radiances. Order proved outside the guard that replaces radiances just below the thermal one; refuted within it: for every temperature of the thermal channels from 270 K and every time and place there are two 3.9 temperatures of which the higher gives the lower reflectance."
  },
  {
   "property": "C108",
   "status": "proved",
   "theorems": [
    "C108_round_trip"
   ],
   "note": "53 bit rounding with unbounded exponents, any values of pi and asin."
  },
  {
   "property": "C109",
   "status": "partial",
   "theorems": [
    "C109_nominal",
    "C109_other_partial",
    "C109_refuted_small",
    "C109_seviri"
   ],
   "note": "Real arithmetic. Proved for the nominal sizes and for sizes whose factor does not round to a nominal one and fits an int; sizes of 18 m or less are undefined behaviour."
  },
  {
   "property": "C110",
   "status": "partial",
   "theorems": [
    "C110_refuted_trace"
   ],
   "note": "Refuted: the trace file in /tmp is opened unconditionally and written without a check."
  },
  {
   "property": "C111",
   "status": "partial",
   "theorems": [
    "C111_closed_once",
    "C111_nothing_lost_partial",
    "C111_refuted_overwrite",
    "C111_refuted_moved"
   ],
   "note": "At most once, proved for every sequence of operations. Exactly once only when new_from_samples and new_from_file are called on objects that hold nothing; otherwise what they held is lost. Functions of a moved object other than destruction and assignment write to a NULL trace file."
  },
  {
   "property": "C112",
   "status": "partial",
   "theorems": [
    "C112_read_back_partial",
    "C112_refuted_corner"
   ],
   "note": "grib_api as in the record faithful (doubles read back exactly), key names of the editions as in names_ok. The corner moves to the nearest whole number of pixels from the sub-satellite point: it is kept if it was there, and C112_refuted_corner shows the loss otherwise. Pixel sizes are those of read_size: for the high resolution they change (C114)."
  },
  {
   "property": "C113",
   "status": "partial",
   "theorems": [
    "C113_pixels_partial",
    "C113_all_missing",
    "C113_refuted_collision",
    "C113_refuted_nan"
   ],
   "note": "Scale not zero, source values and no data value not NaN. grib_api as in the records faithful and packing. Refuted: pixels whose value is that of missing ones; NaN."
  },
  {
   "property": "C114",
   "status": "partial",
   "theorems": [
    "C114_refuted_hrv"
   ],
   "note": "Refuted for every high resolution image: the pixels of its copy differ by more than 0.004 m, and copying the copy is refused."
  },
  {
   "property": "C115",
   "status": "partial",
   "theorems": [
    "C115_refuted_open",
    "C115_refuted_values",
    "C115_read_refused",
    "C115_refuted_sources"
   ],
   "note": "Refuted with messages of other satellites, unreadable or too many values, sources without reference system or band."
  },
  {
   "property": "C116",
   "status": "partial",
   "theorems": [
    "C116_refuted_old_file",
    "C116_written",
    "C116_templates"
   ],
   "note": "Refuted: the result of write() is ignored, an old file of that name is returned as the copy."
  },
  {
   "property": "C117",
   "status": "partial",
   "theorems": [
    "C117_copy_partial",
    "C117_refuted_south_up",
    "C117_refuted_lat_lon",
    "C117_refuted_nameless",
    "C117_refuted_dropped",
    "C117_refuted_unreadable"
   ],
   "note": "Proved for geostationary images with the north at the top, nominal pixel sizes, whole pixels to the sub-satellite point, a named satellite and bands of supported types with different valid names; the longitude has the precision of a float. Refuted: south up images are mirrored, latitude-longitude images lose their place, copies without satellite name do not open, bands that cannot be written are dropped (undefined with a channel), unreadable bands become no-data. Other pixel sizes are not covered."
  },
  {
   "property": "C118",
   "status": "partial",
   "theorems": [
    "C118_pixels_partial",
    "C118_refuted_long"
   ],
   "note": "Proved for all types but the 32 bit integers, for which every read overruns the buffer: refuted."
  },
  {
   "property": "C119",
   "status": "partial",
   "theorems": [
    "C119_copy_partial",
    "C119_refuted_later",
    "C119_refuted_projection"
   ],
   "note": "Proved for the satellites 55 and 56; copies of the others are written but refused when opened, and a file without projection variable is dereferenced: refuted. HRV sizes read back between 1000.12 and 1000.13."
  },
  {
   "property": "C120",
   "status": "partial",
   "theorems": [
    "C120_seconds_partial",
    "C120_refuted_seconds",
    "C120_refuted_unreadable",
    "C120_calendar"
   ],
   "note": "Proved for all days from the year 1 to 9999 against a calendar made of successive days, at full minutes; seconds are dropped and unreadable times become 2000-01-01: refuted."
  },
  {
   "property": "C121",
   "status": "partial",
   "theorems": [
    "C121_own_bytes_partial",
    "C121_refuted_resampling",
    "C121_refuted_landmark",
    "C121_refuted_constants",
    "C121_refuted_dcr"
   ],
   "note": "True of every field but four families, which are refuted for all files: ResamplingFunction[1..11] are all read from the first byte, CalibrationConstants advance 8 bytes per entry instead of 4, the spin rate of the landmark results is read two bytes late, and DCRValues are read from the start of their record."
  },
  {
   "property": "C122",
   "status": "partial",
   "theorems": [
    "C122_long_enough_partial",
    "C122_calibration",
    "C122_refuted_prologue",
    "C122_refuted_epilogue",
    "C122_short_file"
   ],
   "note": "Refuted: any prologue data field under 425450 bytes and any epilogue data field under 380325 bytes is read past the end of the buffer. Long enough data fields are decoded completely; a file shorter than announced terminates the program."
  },
  {
   "property": "C123",
   "status": "proved",
   "theorems": [
    "C123_temperature",
    "C123_positive",
    "C123_no_radiance",
    "C123_increasing"
   ],
   "note": "Over the reals, with the infinities and NaN of the floating point unit; rounding is not modelled. Temperatures are unique solutions of Planck's law."
  },
  {
   "property": "C124",
   "status": "partial",
   "theorems": [
    "C124_values_partial",
    "C124_refuted_channels",
    "C124_refuted_bits",
    "C124_refuted_samples"
   ],
   "note": "Values are right for the channels 1-12, fewer than 31 bits and samples within the table. Refuted: other channel numbers (a byte of the header), more bits, and samples above the table are undefined behaviour instead of being refused."
  },
  {
   "property": "C125",
   "status": "partial",
   "theorems": [
    "C125_meteosat7_partial",
    "C125_increasing",
    "C125_refuted_other_satellites"
   ],
   "note": "True for Meteosat 7 whenever the coefficients are digits and blanks. Refuted for every other satellite: a table of ones, announced in kelvin."
  },
  {
   "property": "C126",
   "status": "partial",
   "theorems": [
    "C126_own_coefficients_partial",
    "C126_header_coefficients",
    "C126_formats",
    "C126_refuted_xw",
    "C126_refuted_goes_wv",
    "C126_infrared_tables",
    "C126_visible",
    "C126_refuted_gms_visible"
   ],
   "note": "True for all formats and radiometers except: XW images are calibrated with an uninitialised structure, water vapour images of GOES and GMS are ones in kelvin, GMS visible counts are fractions announced in per cent."
  },
  {
   "property": "C127",
   "status": "partial",
   "theorems": [
    "C127_values_partial",
    "C127_idempotent",
    "C127_bounds_partial",
    "C127_refuted_bounds",
    "C127_refuted_nodata"
   ],
   "note": "Values and idempotence hold. Refuted: with a negative scale minimum and maximum are exchanged, and the no-data value is 0 whatever the calibrated no-data count is."
  },
  {
   "property": "C128",
   "status": "partial",
   "theorems": [
    "C128_refuted_terminates"
   ],
   "note": "Refuted: the test joins inequalities with or, so every channel terminates the program."
  },
  {
   "property": "C129",
   "status": "partial",
   "theorems": [
    "C129_zenith_partial",
    "C129_refuted_negative"
   ],
   "note": "True for scan angles of 0 to 90 degrees; refuted beyond the limb on the negative side, where the result is NaN."
  },
  {
   "property": "C130",
   "status": "partial",
   "theorems": [
    "C130_bytes_partial",
    "C130_refuted_half",
    "C130_refuted_swapped",
    "C130_driver_partial"
   ],
   "note": "False: the bytes are kept as they are but counted as samples, so half of the samples lie outside of the block, 8 bit pixels are read in pairs and 16 bit ones swapped on little endian hosts; refuted for every non-empty segment. What is true (which bytes make which sample) is the partial theorem."
  },
  {
   "property": "C131",
   "status": "partial",
   "theorems": [
    "C131_pixels_partial",
    "C131_refuted_small",
    "C131_formats"
   ],
   "note": "Holds when the library makes at least the announced number of pixels (the library is a parameter); a smaller image is read past its end, refuted for all of them."
  },
  {
   "property": "C132",
   "status": "partial",
   "theorems": [
    "C132_keys_partial",
    "C132_refuted_keys",
    "C132_size"
   ],
   "note": "Number of keys, stations and CRCs are right for every message; key number and public key are read one byte early, refuted for every key."
  },
  {
   "property": "C133",
   "status": "partial",
   "theorems": [
    "C133_text",
    "C133_gts",
    "C133_binary",
    "C133_nothing_else",
    "C133_refuted_directory",
    "C133_refuted_lost"
   ],
   "note": "Texts, GTS and binary messages proved; refuted: the name is not checked and may lead out of the directory, and a GTS copy that cannot be written is lost silently."
  },
  {
   "property": "C134",
   "status": "partial",
   "theorems": [
    "C134_prologue_partial",
    "C134_refuted_length"
   ],
   "note": "Proved for lengths within the data; lengths beyond it or below 8 read outside of the buffer, refuted for all of them."
  },
  {
   "property": "C135",
   "status": "partial",
   "theorems": [
    "C135_print_partial",
    "C135_refuted_text",
    "C135_refuted_image",
    "C135_refuted_foreign"
   ],
   "note": "Exactly the printable contents print, the rest is undefined behaviour: uncompressed images, texts and keys without NUL, foreign prologues. Printing of level 1.5 records is a parameter."
  },
  {
   "property": "C136",
   "status": "partial",
   "theorems": [
    "C136_texts_partial",
    "C136_distinct",
    "C136_refuted_fractions"
   ],
   "note": "Proved for every moment with fractions below 1000; fractions above print ambiguously (witness). get_timechar returns a dangling pointer (not modelled)."
  },
  {
   "property": "C137",
   "status": "partial",
   "theorems": [
    "C137_cuc_partial",
    "C137_refuted_cuc",
    "C137_generalized_partial",
    "C137_refuted_zone"
   ],
   "note": "Generalized times: text always, seconds on hosts in UTC; refuted elsewhere because mktime is local. Unsegmented times: exact below 2^29 seconds; refuted above 2^31, where four neighbouring times are one double."
  },
  {
   "property": "C138",
   "status": "partial",
   "theorems": [
    "C138_default_partial",
    "C138_one",
    "C138_refuted_stream"
   ],
   "note": "Objects made empty hold and free at most one part; objects made from a stream delete pointers that were never set, refuted for every file."
  },
  {
   "property": "C139",
   "status": "partial",
   "theorems": [
    "C139_geometry_partial",
    "C139_refuted_b"
   ],
   "note": "A and X formats proved; B formats have the visible scale also for infrared and water vapour images, refuted for each. Added after a mutant of the geometry survived."
  },
  {
   "property": "C140",
   "status": "partial",
   "theorems": [
    "C140_channel_is_opened",
    "C140_second_channel",
    "C140_refuted_absent",
    "C140_refuted_question",
    "C140_refuted_closed"
   ],
   "note": "Proved for any history of good channels; refuted: a missing channel leaves the old data declared good, asking about a channel changes the size told, setting one on a closed object is undefined, a second channel leaks the first. Restricted to calibration keys of at most 31 characters and hash not 0."
  },
  {
   "property": "C141",
   "status": "partial",
   "theorems": [
    "C141_table",
    "C141_refuted_outside",
    "C141_refuted_long_names"
   ],
   "note": "Proved when the keys fit the buffer; refuted for variable names of 28 characters or more, for which all counts get the same value, and for counts outside the table, which are answered like the others."
  },
  {
   "property": "C142",
   "status": "partial",
   "theorems": [
    "C142_converted_partial",
    "C142_refuted_position",
    "C142_refuted_small_file",
    "C142_refuted_start",
    "C142_file_name"
   ],
   "note": "Size, satellite, time, channel, samples proved; the place only for equal offsets, refuted for all others (column and line offsets are exchanged). Refuted: data smaller than the image and unreadable start times are undefined behaviour."
  },
  {
   "property": "C143",
   "status": "partial",
   "theorems": [
    "C143_assembled",
    "C143_refuted_number",
    "C143_refuted_short"
   ],
   "note": "Assembly proved for files in any order. The last part is refuted: a number outside of the plan is used as an index as it is (undefined behaviour), and a shorter or missing data field is read past its end."
  },
  {
   "property": "C144",
   "status": "partial",
   "theorems": [
    "C144_window",
    "C144_outside",
    "C144_refuted_position"
   ],
   "note": "Contents and refusal proved. Place on the grid refuted for every part: AreaStartPix and AreaStartLin are counted from 0 with -a and from 1 without, so each part is placed one pixel to the west and one line to the north."
  },
  {
   "property": "C145",
   "status": "partial",
   "theorems": [
    "C145_reopened_partial",
    "C145_time",
    "C145_refuted_orientation"
   ],
   "note": "Satellite, minute, channel, size, grid and set of samples proved; places refuted: row r of the file is row 3711 - r of the HRIT driver, mirrored for products stored with east left, under the same north-up grid."
  },
  {
   "property": "C146",
   "status": "partial",
   "theorems": [
    "C146_names",
    "C146_words",
    "C146_refuted_satellite"
   ],
   "note": "Names are the same exactly for the same channel and minute; refuted for satellites: they are not part of the name, a file of another MSG satellite is replaced."
  },
  {
   "property": "C147",
   "status": "partial",
   "theorems": [
    "C147_picture_partial",
    "C147_refuted_mirrored"
   ],
   "note": "Proved for products stored with east left (negative column scale factor); one stored the other way is mirrored, since the picture is always turned by 180 degrees."
  },
  {
   "property": "C148",
   "status": "partial",
   "theorems": [
    "C148_reopened_partial",
    "C148_refuted_sampled",
    "C148_time",
    "C148_refuted_position",
    "C148_refuted_title"
   ],
   "note": "Proved for A format files except the place on earth and the channel number: the driver finds no geotransform and channel 0 in every converted file (C148_refuted_position). Refuted for B format files, whose SampleX of 2 makes the driver refuse the converted file, and for headers with ten-digit years and times, which overflow the title buffer."
  },
  {
   "property": "C149",
   "status": "proved",
   "theorems": [
    "C149_names"
   ],
   "note": "Both directions, for all pairs of dated files."
  },
  {
   "property": "C150",
   "status": "partial",
   "theorems": [
    "C150_day_partial",
    "C150_refuted_zone"
   ],
   "note": "Proved for standard times up to twelve hours from UTC (UTC-12 excluded); refuted for all zones further east or west, where the day is another one: noon of local time is taken as UTC."
  },
  {
   "property": "C151",
   "status": "partial",
   "theorems": [
    "C151_minute_partial",
    "C151_refuted_summer"
   ],
   "note": "Proved where no daylight saving is in force at that minute; refuted for all files but the first where it is: mktime changes the structure that the next names are made of."
  },
  {
   "property": "C152",
   "status": "partial",
   "theorems": [
    "C152_reopened_partial",
    "C152_refuted_sampled",
    "C152_refuted_position"
   ],
   "note": "Proved for images of the A format and visible images of the B format, as far as C81 goes (second halves of lines that come in halves are shifted, C81_refuted_halves), where no daylight saving is in force. Refuted: the driver refuses all other images (SampleX of 2), and finds no geotransform in any file."
  },
  {
   "property": "C153",
   "status": "partial",
   "theorems": [
    "C153_names_partial",
    "C153_one_file",
    "C153_refuted_visible"
   ],
   "note": "Names are the same exactly for the same satellite, format, channel name and minute; refuted since visible images of full and reduced resolution have the same channel name."
  },
  {
   "property": "C154",
   "status": "partial",
   "theorems": [
    "C154_drawn_partial",
    "C154_refuted_brightest",
    "C154_refuted_constant",
    "C154_refuted_missing",
    "C154_refuted_hrv"
   ],
   "note": "Proved for complete images of 3712 x 3712 samples without constant segments, apart from samples equal to the largest one, which print a NUL. Refuted: a constant segment divides by zero; with a segment missing, or for every HRV product, the zeros of the buffer are below the smallest sample and the tone is looked up far outside the table, when no sample is 0."
  },
  {
   "property": "C155",
   "status": "partial",
   "theorems": [
    "C155_opened_partial",
    "C155_missing_files",
    "C155_refuted_wrong_prologue"
   ],
   "note": "Proved for products whose prologue and epilogue are complete, named MSG in their annotation, and whose segments agree. Missing files make the open fail. Refuted: an epilogue (any file that is not a prologue) given as prologue is accepted and its absent prologue dereferenced."
  },
  {
   "property": "C156",
   "status": "proved",
   "theorems": [
    "C156_rows",
    "C156_hrv_rows"
   ],
   "note": "For the rows of counts, HRV and the other channels, from the bytes of the files through the scan and the segment cache."
  },
  {
   "property": "C157",
   "status": "partial",
   "theorems": [
    "C157_corner_partial",
    "C157_refuted_centre",
    "C157_hrv_corner_partial",
    "C157_refuted_hrv_rows"
   ],
   "note": "Proved: with nominal offsets (1856, or 5568 and an uppermost HRV line of 11136) the north-west corner of the pixel, not its middle, is where the sample is. Refuted: the middle never is, whatever the offsets in the header, which are not used; and a HRV image whose uppermost line is not 11136 is placed that many rows too far north."
  },
  {
   "property": "C158",
   "status": "partial",
   "theorems": [
    "C158_images_partial",
    "C158_one_image",
    "C158_refuted_ragged",
    "C158_refuted_unknown"
   ],
   "note": "Proved for headers whose channels are of the known kinds, with equally long lines per channel. Refuted: a channel with lines of different lengths leaves a file that is no PGM image; two channels with unknown numbers go to one file and the first is lost."
  },
  {
   "property": "C159",
   "status": "partial",
   "theorems": [
    "C159_refuted_status",
    "C159_unreadable_partial"
   ],
   "note": "Proved for files that are not OpenMTP-IDS. Refuted: for every readable file the status is success exactly when the water vapour image is not written."
  },
  {
   "property": "C160",
   "status": "partial",
   "theorems": [
    "C160_sector_partial",
    "C160_refuted_start"
   ],
   "note": "Proved with rounded double arithmetic for every image of 2664 or more lines, all wide enough, including padding, headers and channel selection. Refuted: the position of the first pixel is 546 in every line, wherever the original line started."
  },
  {
   "property": "C161",
   "status": "partial",
   "theorems": [
    "C161_refuted_unreadable",
    "C161_refuted_small"
   ],
   "note": "Refuted: every unreadable file aborts the program, since the handler is for another type, and every image with fewer than 2664 lines or with a line of the sector under 802 pixels leads to undefined behaviour."
  },
  {
   "property": "C162",
   "status": "proved",
   "theorems": [
    "C162_write_all_or_retry",
    "C162_write_all_or_throw"
   ],
   "note": "For all sequences of partial writes; the results of the system calls are a parameter."
  },
  {
   "property": "C163",
   "status": "proved",
   "theorems": [
    "C163_read_all_or_retry",
    "C163_read_all_or_throw"
   ],
   "note": "For all sequences of partial reads; the results of the system calls are a parameter."
  },
  {
   "property": "C164",
   "status": "partial",
   "theorems": [
    "C164_write_then_read_partial",
    "C164_failed_write",
    "C164_refuted_unsized_file"
   ],
   "note": "Proved for regular files and every sequence of partial writes; a failed write leaves a prefix. Refuted: a file whose size the system does not announce (in /proc, a FIFO) reads as empty."
  },
  {
   "property": "C165",
   "status": "partial",
   "theorems": [
    "C165_atomic",
    "C165_refuted_no_leftover"
   ],
   "note": "The destination is proved to hold the old or the complete new content at every moment. Refuted: when a write, close or rename fails the temporary file stays in the directory."
  },
  {
   "property": "C166",
   "status": "proved",
   "theorems": [
    "C166_readlinkat",
    "C166_readlinkat_only"
   ],
   "note": "Both that the loop ends with the text and that no other result is possible."
  },
  {
   "property": "C167",
   "status": "partial",
   "theorems": [
    "C167_elapsed_partial",
    "C167_refuted_long_spans"
   ],
   "note": "Proved up to 2^63 - 10^9 nanoseconds. Refuted: from 2^63 nanoseconds on the signed product overflows, although the unsigned result could hold twice as much."
  },
  {
   "property": "C168",
   "status": "partial",
   "theorems": [
    "C168_which_partial",
    "C168_which_other",
    "C168_refuted_current_directory"
   ],
   "note": "Proved for the non-empty entries. Refuted: an empty entry of the search path beside others is skipped instead of standing for the current directory."
  },
  {
   "property": "C169",
   "status": "partial",
   "theorems": [
    "C169_type_tests_partial",
    "C169_refuted_islnk"
   ],
   "note": "Proved for all types except links. Refuted: islnk follows the link and never recognises one."
  },
  {
   "property": "C170",
   "status": "partial",
   "theorems": [
    "C170_rmtree_partial",
    "C170_refuted_link_to_directory",
    "C170_rmtree_ifexists",
    "C170_refuted_unknown_type"
   ],
   "note": "Proved for a directory, when the file system tells the types of the entries. Refuted: a link to a directory as argument empties that directory and deletes the link; and with entry types unknown a link in the tree is followed and what is behind it deleted."
  },
  {
   "property": "C171",
   "status": "partial",
   "theorems": [
    "C171_mappings_partial",
    "C171_refuted_assign_to_empty"
   ],
   "note": "Proved for every history. Refuted: assigning to an object that was moved from, or unmapped, throws and the mapping is not moved."
  },
  {
   "property": "C172",
   "status": "partial",
   "theorems": [
    "C172_descriptors_partial",
    "C172_refuted_failed_close"
   ],
   "note": "Proved while no close fails. Refuted: after a close that reports an error, the destructor closes whatever was opened with the same number since."
  },
  {
   "property": "C173",
   "status": "partial",
   "theorems": [
    "C173_child_descriptors_partial",
    "C173_refuted_standard_descriptors",
    "C173_refuted_shared_descriptor",
    "C173_pass_implies_close"
   ],
   "note": "Proved for distinct descriptors of at least 3 (the pipes always are while 0-2 are open). Refuted: redirecting to one of the descriptors 0-2 closes it; the same descriptor for output and error makes the child exit."
  },
  {
   "property": "C174",
   "status": "partial",
   "theorems": [
    "C174_parent_descriptors_partial",
    "C174_refuted_failed_fork"
   ],
   "note": "Proved when the process is started, for every sequence of close calls. Refuted: when fork fails the child's ends of the pipes stay open."
  },
  {
   "property": "C175",
   "status": "partial",
   "theorems": [
    "C175_exit_code_partial",
    "C175_time_limit_partial",
    "C175_sleeps",
    "C175_refuted_success_is_false",
    "C175_refuted_killed_is_success",
    "C175_signals_partial",
    "C175_refuted_unstarted"
   ],
   "note": "Proved for exits. Refuted: a child killed by a signal gives code 0; wait(ms) after an exit with code 0 returns false; before the start signals go to the caller's own process group."
  },
  {
   "property": "C176",
   "status": "proved",
   "theorems": [
    "C176_texts",
    "C176_distinct"
   ],
   "note": "For all exit codes 0-255 and signals 1-126."
  },
  {
   "property": "C177",
   "status": "partial",
   "theorems": [
    "C177_setenv",
    "C177_environment_partial",
    "C177_refuted_one_variable",
    "C177_refuted_copy_after",
    "C177_refuted_nothing_to_run"
   ],
   "note": "setenv and the order copy, then set, are proved. Refuted: set without copy loses every other variable; copy after set does not override; with neither arguments nor executable the behaviour is undefined."
  },
  {
   "property": "C178",
   "status": "partial",
   "theorems": [
    "C178_colours_partial",
    "C178_refuted_background",
    "C178_not_a_terminal"
   ],
   "note": "Proved for every foreground colour and every bright background. Refuted: each background colour that is not bright becomes the colour of the text, for all texts."
  },
  {
   "property": "C179",
   "status": "partial",
   "theorems": [
    "C179_open_partial",
    "C179_not_opened",
    "C179_refuted_no_image",
    "C179_refuted_sizes"
   ],
   "note": "Proved for every file with the attributes named and dimensions below 2^31. Refuted: a file with no image opens, with no size of its own; images of different sizes open at the size of the first; without a Time attribute the time shown is 0000-00-00 00:00:00 (part of the first theorem)."
  },
  {
   "property": "C180",
   "status": "partial",
   "theorems": [
    "C180_copy_partial",
    "C180_refused",
    "C180_refuted_message",
    "C180_refuted_cut"
   ],
   "note": "Proved: a readable file is copied, the copy reads back as the same image and is a fixed point, other files are untouched, and files that are not OpenMTP-IDS are refused. Refuted: a missing input and a copy that cannot be opened or written print a destroyed text, and a copy cut off on closing is reported as success although it cannot be read. Output to the terminal and memory exhaustion are not modelled."
  },
  {
   "property": "C181",
   "status": "partial",
   "theorems": [
    "C181_each_once_partial",
    "C181_interrupted",
    "C181_not_open",
    "C181_refuted_leak",
    "C181_refuted_moved"
   ],
   "note": "Proved for every directory, also when the body throws or reading fails after the first entry. Refuted: an error on the first entry leaves the stream open, a stream that cannot be made leaves its descriptor open, and an error in an iterator that was moved is undefined."
  },
  {
   "property": "C182",
   "status": "partial",
   "theorems": [
    "C182_type_partial",
    "C182_refuted_links",
    "C182_refuted_moved"
   ],
   "note": "Proved when the file system tells the types, and for all entries but links when it does not. Refuted: a link of untold type is taken for its target and throws when it dangles; after a move the tests are undefined."
  },
  {
   "property": "C183",
   "status": "partial",
   "theorems": [
    "C183_restored_partial",
    "C183_in_force",
    "C183_refuted_lowered"
   ],
   "note": "Proved for all nestings and exceptions when limits are changed by the objects only, for a process without privileges. Refuted: lowering the hard limit in the block ends the program."
  },
  {
   "property": "C184",
   "status": "partial",
   "theorems": [
    "C184_times_partial",
    "C184_refuted_ends",
    "C184_refuted_other"
   ],
   "note": "Proved while the descriptor stays open on a file whose times may be set. Refuted: otherwise the program ends, and a descriptor used again gives the times to another file."
  },
  {
   "property": "C185",
   "status": "partial",
   "theorems": [
    "C185_outline_partial",
    "C185_text",
    "C185_silent",
    "C185_refuted_handler_in_task"
   ],
   "note": "Proved for every program that sets its handler before the tasks. Refuted: after a handler set within a task, following tasks and their parts are at the same depth."
  },
  {
   "property": "C186",
   "status": "partial",
   "theorems": [
    "C186_deleted_once_partial",
    "C186_refuted_same"
   ],
   "note": "Proved for distinct handlers; the last one is never deleted, since the single Progress object is not. Refuted: setting the current handler again, or none, makes the next message undefined."
  },
  {
   "property": "C187",
   "status": "partial",
   "theorems": [
    "C187_exit_partial",
    "C187_refuted_skipped",
    "C187_refuted_unknown"
   ],
   "note": "Proved for hooks that throw only std::exception and fewer than 2^32 tests. Refuted: the failing tear down of a test that skips itself is not noticed; any other exception of a hook ends the program without a report."
  },
  {
   "property": "C188",
   "status": "partial",
   "theorems": [
    "C188_calls_partial",
    "C188_refuted_no_teardown",
    "C188_refuted_case_setup"
   ],
   "note": "Calls, order, set up before and tear down after each call and nesting are proved. Refuted: a set up that throws is not followed by a tear down, for a test that is skipped by it and for a test case."
  },
  {
   "property": "C189",
   "status": "partial",
   "theorems": [
    "C189_report_partial",
    "C189_refuted_lost"
   ],
   "note": "Proved for tests without failing tear down. Refuted: the error of a test is replaced by the one of its tear down."
  },
  {
   "property": "C190",
   "status": "partial",
   "theorems": [
    "C190_skip_partial",
    "C190_refuted_checked"
   ],
   "note": "Proved when TestSkipped reaches the runner. Refuted: inside wassert it becomes a failure, since TestSkipped is a std::exception."
  },
  {
   "property": "C191",
   "status": "proved",
   "theorems": [
    "C191_stack",
    "C191_throws"
   ],
   "note": "Exceptions that are not std::exception pass through the checks unchanged."
  },
  {
   "property": "C192",
   "status": "partial",
   "theorems": [
    "C192_equal_partial",
    "C192_refuted_blank",
    "C192_match_partial",
    "C192_refuted_order"
   ],
   "note": "What the two checks accept is characterised exactly. Refuted: expected lines of which the last is empty or ends with white space never match; contents_match looks for each expression in the whole file, so order, repetition and further lines are not noticed. Regular expressions are an oracle."
  },
  {
   "property": "C193",
   "status": "proved",
   "theorems": [
    "C193_throws",
    "C193_checks",
    "C193_cstring"
   ],
   "note": "Files are their contents; paths are lists of elements, as std::filesystem::path gives them."
  },
  {
   "property": "C194",
   "status": "partial",
   "theorems": [
    "C194_area",
    "C194_refuted_rest",
    "C194_options_partial",
    "C194_no_files",
    "C194_refusals",
    "C194_refuted_cap",
    "C194_refuted_resize",
    "C194_area_result"
   ],
   "note": "Proved for the options as getopt_long gives them; numbers with a fraction are read by an oracle. Refuted: text after the fourth number of --area is ignored; the size limit also holds for a conversion after an option for drawing; --resize with a missing number is undefined behaviour; numbers that are no int are too."
  },
  {
   "property": "C195",
   "status": "partial",
   "theorems": [
    "C195_centre",
    "C195_window_partial",
    "C195_refuted_metres"
   ],
   "note": "Proved for images whose projected coordinates are degrees. Refuted: on images in metres, which are all those of this library, the window is empty and the program uses a null pointer."
  },
  {
   "property": "C196",
   "status": "partial",
   "theorems": [
    "C196_labels_partial",
    "C196_refuted_missing",
    "C196_refuted_names"
   ],
   "note": "Proved for a template that can be opened. Refuted: one that cannot be is a null pointer that is used; several inputs are converted to one and the same file."
  },
  {
   "property": "C197",
   "status": "partial",
   "theorems": [
    "C197_dump_partial",
    "C197_refuted_order",
    "C197_refuted_header",
    "C197_refuted_last",
    "C197_refusals"
   ],
   "note": "Proved on little-endian hosts for header texts of one line each: size and number of samples are right. Refuted: the samples have their bytes in the order of the host, so a reader sees another picture unless every sample is a multiple of 257; with the usual header of lines of 80 characters the comments run over several lines and no reader accepts the file; the last selected channel is read after its release."
  },
  {
   "property": "C198",
   "status": "partial",
   "theorems": [
    "C198_picture_partial",
    "C198_refuted_scale",
    "C198_refuted_name",
    "C198_refuted_channel",
    "C198_refuted_unselected",
    "C198_refuted_last"
   ],
   "note": "Proved for channels other than the last selected one: the unscaled picture. normalize, scale and the product with the factor are parameters. Refuted: the factor has no effect on the file; the name is MSG1.format for every file and channel; channels out of range or not selected end the program with an exception; the last selected channel is undefined behaviour."
  },
  {
   "property": "C199",
   "status": "partial",
   "theorems": [
    "C199_picture_partial",
    "C199_refuted_overlay",
    "C199_refuted_small_file",
    "C199_file_name"
   ],
   "note": "Proved without overlay for data files as large as the INFO file says; normalize, scale, composite are parameters. Refuted: the overlay argument is not used, SEVIRI_OVERLAY.pgm is read instead; smaller data files are read past their end."
  },
  {
   "property": "C200",
   "status": "partial",
   "theorems": [
    "C200_stat",
    "C200_default_partial",
    "C200_refuted_notdir",
    "C200_unlink",
    "C200_rename_partial",
    "C200_refuted_rename"
   ],
   "note": "Proved for stat, unlink_ifexists and what rename_ifexists does. Refuted: a name on the way that is a plain file gives ENOTDIR and an exception although there is no such file (C200_refuted_notdir); rename_ifexists also returns false for an existing source when the directory of the destination is missing (C200_refuted_rename). Permissions are not modelled."
  },
  {
   "property": "C201",
   "status": "partial",
   "theorems": [
    "C201_created",
    "C201_removed_partial",
    "C201_nothing_to_do",
    "C201_refuted_chdir",
    "C201_refuted_terminate"
   ],
   "note": "Proved for absolute prefixes and for an unchanged current directory. Refuted: the path is kept as given, so after chdir the file of a relative prefix (always so for Tempfile()) stays, and a file of that name elsewhere is removed (C201_refuted_chdir); a removal that fails ends the program, the destructor throws (C201_refuted_terminate)."
  },
  {
   "property": "C202",
   "status": "proved",
   "theorems": [
    "C202_try",
    "C202_wait_retry",
    "C202_never_false",
    "C202_waits",
    "C202_wait_once"
   ],
   "note": "The kernel is the sequence of answers of fcntl."
  },
  {
   "property": "C203",
   "status": "partial",
   "theorems": [
    "C203_segments",
    "C203_prologue",
    "C203_none",
    "C203_unreadable",
    "C203_missing",
    "C203_driver",
    "C203_refuted_wrong",
    "C203_refuted_long",
    "C203_refuted_pattern",
    "C203_refuted_twice"
   ],
   "note": "Proved for products with plain fields; refuted for refused options, long identifiers, wildcards in options, and two copies of a segment."
  },
  {
   "property": "C204",
   "status": "partial",
   "theorems": [
    "C204_picture",
    "C204_refuted_overlay",
    "C204_refuted_larger",
    "C204_no_overlay"
   ],
   "note": "Name, orientation and the effect of -n, -o, -g proved for all channels below 12; refuted for -o with HRV and for factors of 1 or more. normalize, scale, composite and the reading of pictures are oracles."
  },
  {
   "property": "C205",
   "status": "partial",
   "theorems": [
    "C205_area",
    "C205_refuted_few",
    "C205_refuted_again"
   ],
   "note": "Proved for texts with four numbers; refuted for fewer and for a second -a."
  },
  {
   "property": "C206",
   "status": "partial",
   "theorems": [
    "C206_created",
    "C206_removed_partial",
    "C206_refuted_moved",
    "C206_refuted_other",
    "C206_quiet"
   ],
   "note": "Proved for directories that are still at their path and whose tree the destructor can remove. Refuted when the directory was moved or another one took its place; the destructor never throws."
  },
  {
   "property": "C207",
   "status": "proved",
   "theorems": [
    "C207_absent",
    "C207_present",
    "C207_paths",
    "C207_changes",
    "C207_renamed",
    "C207_absolute"
   ],
   "note": "The kernel's calls are modelled on a tree of inodes; permissions are not."
  },
  {
   "property": "C208",
   "status": "partial",
   "theorems": [
    "C208_reasons_partial",
    "C208_refuted_no_reason"
   ],
   "note": "Proved when at least one skipped test has a reason. Refuted otherwise: the number of tests skipped without a reason is printed only below the list of reasons, so that it is lost when there are none."
  },
  {
   "property": "C209",
   "status": "proved",
   "theorems": [
    "C209_elapsed",
    "C209_case_time",
    "C209_slowest"
   ],
   "note": "The text of times from one second on is left to printf; sorting is any function that sorts."
  },
  {
   "property": "C210",
   "status": "partial",
   "theorems": [
    "C210_summary_partial",
    "C210_refuted_setup",
    "C210_refuted_unpicked"
   ],
   "note": "Proved for the tests that the results hold. Refuted for the rest: the tests of a test case whose set up fails, and those of a test case of which the patterns pick none, are in none of the numbers."
  },
  {
   "property": "C211",
   "status": "proved",
   "theorems": [
    "C211_words",
    "C211_told_apart"
   ],
   "note": "Words of the documented meanings come from the enumerators of the headers. Two enumerators have no text of their own and count as undefined: no earth model, and undefined projection."
  },
  {
   "property": "C212",
   "status": "partial",
   "theorems": [
    "C212_marks_partial",
    "C212_refuted_teardown",
    "C212_status"
   ],
   "note": "Proved for hooks that throw nothing but exceptions of the standard library: the line of every test case. Refuted for the rest: a test case whose cleaning up fails gets the marks of one in which it works."
  },
  {
   "property": "C213",
   "status": "partial",
   "theorems": [
    "C213_lines_partial",
    "C213_refuted_skipped"
   ],
   "note": "Proved for hooks that throw nothing but exceptions of the standard library: every line of the run. Refuted for the rest: when a test asks to be skipped and its cleaning up fails, its line says skipped without an error, that of the test case says failed, and the exit status is 0."
  },
  {
   "property": "C214",
   "status": "proved",
   "theorems": [
    "C214_output"
   ],
   "note": "Hooks that throw something else end the program (C187)."
  },
  {
   "property": "C215",
   "status": "partial",
   "theorems": [
    "C215_view_partial",
    "C215_nothing_else",
    "C215_band_shown",
    "C215_refuted_newline",
    "C215_refuted_types"
   ],
   "note": "Proved for texts without line breaks and for types 0 to 11 of GDALDataType; doubles are compared as written, with the six digits of the stream. Refuted otherwise: a metadata item with a line break and two blanks in it reads as two items, and all types from 12 on (GDT_UInt64, GDT_Int64, GDT_Int8 of newer GDAL) are shown as unknown. Metadata of other domains, such as the msat domain, are not shown at all (C215_nothing_else)."
  },
  {
   "property": "C216",
   "status": "partial",
   "theorems": [
    "C216_listing_partial",
    "C216_refuted_bytes",
    "C216_status",
    "C216_refuted_missing",
    "C216_names"
   ],
   "note": "Proved but for the two bytes in front of the file and of each record, which are written as numbers without anything between them: 1 and 23 look like 12 and 3 (refuted). A file that cannot be opened is undefined behaviour: the text of the error is destroyed before it is printed (refuted). Texts of errors are a parameter."
  },
  {
   "property": "C217",
   "status": "partial",
   "theorems": [
    "C217_reading",
    "C217_derived_partial",
    "C217_reflectance",
    "C217_netcdf",
    "C217_refuted_date"
   ],
   "note": "C217_reading says exactly which texts are read and as which numbers (blanks and signs before a number, fields at most four or two characters long, anything after the seconds). C217_derived_partial, C217_reflectance and C217_netcdf: nothing is made or opened with another text. C217_refuted_date: the numbers need not be a date, month 99 is accepted."
  },
  {
   "property": "C218",
   "status": "partial",
   "theorems": [
    "C218_radiance_partial",
    "C218_refuted_thermal",
    "C218_refuted_channels"
   ],
   "note": "C218_radiance_partial: the solar channels. C218_refuted_thermal: the offset of a thermal channel is not divided by the band correction, so temperatures are too high by the same amount (up to 0.015 K) everywhere. C218_refuted_channels: any other channel reads outside the table."
  },
  {
   "property": "C219",
   "status": "partial",
   "theorems": [
    "C219_fields",
    "C219_calibration_time",
    "C219_listing",
    "C219_refuted_channel",
    "C219_refuted_histogram",
    "C219_program",
    "C219_refuted_missing"
   ],
   "note": "The header in memory, the calibration and the image of C85, C88 and C125 are used; how numbers with fractions are printed is a parameter. Refuted in part: the channel is on no line (C219_refuted_channel), the classes of a histogram from the twentieth on are listed as 0 (C219_refuted_histogram), and a missing file ends the program without a message (C219_refuted_missing). The fields the library itself reads from elsewhere (C88) are left out of C219_fields."
  },
  {
   "property": "C220",
   "status": "partial",
   "theorems": [
    "C220_listing_partial",
    "C220_read",
    "C220_values",
    "C220_refuted_quality",
    "C220_refuted_ancillary",
    "C220_refuted_forged"
   ],
   "note": "Headers read from a file are in range by themselves (C220_read); texts must not hold a rule of 54 dashes, and the name of a projection must be of one line (C220_refuted_forged shows why). Refuted in part: lines of good quality and those of number 0 are only counted (C220_refuted_quality), and an ancillary text without a zero byte is read past its end (C220_refuted_ancillary). How a float is printed is a parameter; the line called Subsatellite Lat. holds the longitude."
  },
  {
   "property": "C221",
   "status": "partial",
   "theorems": [
    "C221_listing_partial",
    "C221_refuted_no_channel"
   ],
   "note": "Proved for the object after the directory was opened and a channel of it set, with files that hold numbers where numbers belong (C221_listing_partial). Refuted for an object without a channel: the null name makes the stream bad, the listing ends there and all that is written later is lost (C221_refuted_no_channel). How a float is read and printed is a parameter."
  },
  {
   "property": "C222",
   "status": "partial",
   "theorems": [
    "C222_statistics_partial",
    "C222_refuted_timeliness",
    "C222_timeliness"
   ],
   "note": "Proved for the timeliness and completeness record (C222_timeliness) and for the statistics but one flag per channel (C222_statistics_partial). Refuted for that flag: whether the image of a channel was late is read and never listed, so records that differ there look the same (C222_refuted_timeliness). Both listings have the same title. A satellite that is not an MSG is not held to a name. How a float is printed is a parameter."
  },
  {
   "property": "C223",
   "status": "proved",
   "theorems": [
    "C223_description"
   ],
   "note": "How a float is printed is a parameter; an enumeration is the number in the file."
  },
  {
   "property": "C224",
   "status": "proved",
   "theorems": [
    "C224_geometry"
   ],
   "note": "How a float is printed is a parameter; an enumeration is the number in the file."
  },
  {
   "property": "C225",
   "status": "partial",
   "theorems": [
    "C225_navigation_partial",
    "C225_refuted_spin_rate"
   ],
   "note": "Proved but for the value of the spin rate at a landmark (C225_navigation_partial). Refuted there: the two bytes after the time, with the sign and the exponent, are never read, so files that differ in them are listed the same (C225_refuted_spin_rate). A time past the end of its day is not covered. How a float is printed is a parameter."
  }
 ]
}