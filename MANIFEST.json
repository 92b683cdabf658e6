{
 "claims": [
  {
   "property": "C01",
   "status": "proved",
   "theorems": [
    "C01_header_round_trip"
   ],
   "note": "All header field values representable in the C++ field types."
  },
  {
   "property": "C02",
   "status": "proved",
   "theorems": [
    "C02_foreign_header_refused",
    "C02_flagged_header_accepted"
   ],
   "note": "Decoder accepts a 28-byte header iff it carries the library's flag."
  },
  {
   "property": "C03",
   "status": "proved",
   "theorems": [
    "C03_payload_framing",
    "C03_transfer"
   ],
   "note": "Payload delivered unchanged for every body up to the limit established under C04."
  },
  {
   "property": "C04",
   "status": "partial",
   "theorems": [
    "C04_receive_exact",
    "C04_receive_in_bounds_refuted"
   ],
   "note": "Fails in the code: exact characterisation proved. A receiver stays inside its buffer iff the announced body is at most 31457253 bytes; larger ones write outside it, near 2^64 the allocation throws."
  },
  {
   "property": "C05",
   "status": "partial",
   "theorems": [
    "C05_append_history",
    "C05_second_growth_out_of_bounds",
    "C05_growth_preserves_content_refuted"
   ],
   "note": "Fails in the code after the first growth step; proved for histories inside the preallocated block, with the exact failing case."
  },
  {
   "property": "C15",
   "status": "proved",
   "theorems": [
    "C15_archive_round_trip",
    "C15_small_archives_fit"
   ],
   "note": "For all addition histories whose intermediate archives stay inside explicit format limits; codec assumed only to satisfy inflate(deflate d) = d. The limit on the directory offset is real: see C17_archive_lost_at_blind_offset."
  },
  {
   "property": "C16",
   "status": "proved",
   "theorems": [
    "C16_archive_listing"
   ],
   "note": "Same limits as C15."
  },
  {
   "property": "C17",
   "status": "partial",
   "theorems": [
    "C17_no_silent_overwrite",
    "C17_archive_lost_at_blind_offset",
    "C17_no_silent_overwrite_refuted"
   ],
   "note": "Holds inside the limits of C15; false in general: a directory at offset 101010256 makes the next addition replace the whole archive."
  },
  {
   "property": "C18",
   "status": "partial",
   "theorems": [
    "C18_remove_exact",
    "C18_remove_refuted"
   ],
   "note": "Property is false of the code; exact effect of removal characterised for all archives the writer produces, with a witness."
  },
  {
   "property": "C19",
   "status": "partial",
   "theorems": [
    "C19_import_terminates_iff",
    "C19_import_terminates_refuted"
   ],
   "note": "Exact condition proved: terminates iff no entry name occurs twice. False for archives with a repeated name."
  },
  {
   "property": "C21",
   "status": "proved",
   "theorems": [
    "C21_write_buffer",
    "C21_write_at_position_refuted"
   ],
   "note": "All histories of writes and cleans; additionally the position argument of a write is shown to be ignored."
  },
  {
   "property": "C22",
   "status": "proved",
   "theorems": [
    "C22_io_buffer"
   ],
   "note": ""
  },
  {
   "property": "C58",
   "status": "proved",
   "theorems": [
    "C58_close_reopen"
   ],
   "note": "Failing file operations are not modelled."
  },
  {
   "property": "C59",
   "status": "partial",
   "theorems": [
    "C59_open_write_discards",
    "C59_open_write_keeps_files_refuted"
   ],
   "note": "Property is false of the code; the actual behaviour is proved for every previous file content."
  },
  {
   "property": "C60",
   "status": "partial",
   "theorems": [
    "C60_crc_ignored",
    "C60_damage_detected_refuted"
   ],
   "note": "Property is false of the code; the checksum is never looked at when reading."
  },
  {
   "property": "C23",
   "status": "proved",
   "theorems": [
    "C23_sha256_correct"
   ],
   "note": "All messages below 2^61 bytes (the standard's limit); specification written from FIPS 180-4 with constants computed from primes."
  },
  {
   "property": "C24",
   "status": "proved",
   "theorems": [
    "C24_streaming",
    "C24_split_irrelevant"
   ],
   "note": "All histories of adds, digest requests and resets."
  },
  {
   "property": "C25",
   "status": "proved",
   "theorems": [
    "C25_digest_repeatable",
    "C24_streaming"
   ],
   "note": ""
  },
  {
   "property": "C26",
   "status": "proved",
   "theorems": [
    "C26_own_checksum",
    "C26_check_iff",
    "C26_other_checksum"
   ],
   "note": "Buffers below 2^61 bytes. Checks are case-insensitive and stop at a zero byte; stored bytes that are not UTF-8 make the check throw instead of failing."
  },
  {
   "property": "C27",
   "status": "proved",
   "theorems": [
    "C27_text_form",
    "C27_text_roundtrip",
    "C27_text_injective"
   ],
   "note": ""
  },
  {
   "property": "C28",
   "status": "partial",
   "theorems": [
    "C28_parse",
    "C28_rejected",
    "C28_constructor",
    "C28_accepted_ok",
    "C28_strict_refuted",
    "C28_throw_refuted"
   ],
   "note": "False of the code: digits are not checked because the exception macro only prints. Shape checking, correct parsing of well-formed text and the rejection of other shapes are proved."
  },
  {
   "property": "C29",
   "status": "partial",
   "theorems": [
    "C29_words_roundtrip",
    "C29_words_back",
    "C29_array_roundtrip",
    "C29_array_sizes",
    "C29_struct_roundtrip",
    "C29_struct_back",
    "C29_equality",
    "C29_overflow_refuted"
   ],
   "note": "Proved when int arithmetic wraps around, and in general when the top byte of each word is below 128; otherwise the code has a signed overflow."
  },
  {
   "property": "C30",
   "status": "proved",
   "theorems": [
    "C30_injective",
    "C30_total",
    "C30_small_alphabet_collides"
   ],
   "note": "ASCII alphabets; 41 shown to be sharp."
  },
  {
   "property": "C31",
   "status": "proved",
   "theorems": [
    "C31_utf8_bound"
   ],
   "note": ""
  },
  {
   "property": "C32",
   "status": "proved",
   "theorems": [
    "C32_utf32_roundtrip",
    "C32_utf32_total",
    "C32_utf8_decode",
    "C32_linux_roundtrip"
   ],
   "note": "std::wstring_convert is modelled as a strict converter."
  },
  {
   "property": "C33",
   "status": "proved",
   "theorems": [
    "C33_left",
    "C33_truncate",
    "C33_right",
    "C33_mid",
    "C33_wellformed"
   ],
   "note": ""
  },
  {
   "property": "C34",
   "status": "partial",
   "theorems": [
    "C34_equality",
    "C34_equivalence",
    "C34_hash",
    "C34_container",
    "C34_symdef_map_refuted"
   ],
   "note": "Equality and the case-insensitive hash are consistent (proved); the container TSymDefMap uses the case-sensitive hash and loses elements. toupper/tolower in the C locale."
  },
  {
   "property": "C35",
   "status": "partial",
   "theorems": [
    "C35_replace",
    "C35_single",
    "C35_empty_pattern_never_ends",
    "C35_empty_pattern_refuted"
   ],
   "note": "Proved for non-empty patterns; an empty pattern never ends."
  },
  {
   "property": "C36",
   "status": "partial",
   "theorems": [
    "C36_split_partial",
    "C36_split_never_ends",
    "C36_split_refuted"
   ],
   "note": "False of the code: splitting ends only for empty text or text that ends with a one-unit separator."
  },
  {
   "property": "C37",
   "status": "proved",
   "theorems": [
    "C37_find",
    "C37_reverse_find",
    "C37_find_char",
    "C37_reverse_find_char",
    "C37_one_of",
    "C37_reverse_one_of",
    "C37_ends_with"
   ],
   "note": ""
  },
  {
   "property": "C61",
   "status": "proved",
   "theorems": [
    "C61_ordering"
   ],
   "note": ""
  },
  {
   "property": "C62",
   "status": "partial",
   "theorems": [
    "C62_char_buffer",
    "C62_copy_into",
    "C62_copy_into_pascal",
    "C62_copy_into_units",
    "C62_copy_splits_character_refuted"
   ],
   "note": "Bounds and termination proved; copying UTF-16 units can cut a character in two."
  },
  {
   "property": "C63",
   "status": "proved",
   "theorems": [
    "C63_trim"
   ],
   "note": ""
  },
  {
   "property": "C64",
   "status": "proved",
   "theorems": [
    "C64_iid_order"
   ],
   "note": ""
  },
  {
   "property": "C38",
   "status": "proved",
   "theorems": [
    "C38_enum_roundtrip",
    "C38_enum_distinct",
    "C38_enum_any_case",
    "C38_bool_roundtrip"
   ],
   "note": ""
  },
  {
   "property": "C39",
   "status": "proved",
   "theorems": [
    "C39_same_resolution",
    "C39_mirrored",
    "C39_mirror_up_down",
    "C39_shifted",
    "C39_accepted_in_range",
    "C39_accepted_shape",
    "C39_none",
    "C39_overflow_refuted",
    "C39_garbage_refuted",
    "C39_undefined_refuted"
   ],
   "note": "Round trip and scaling proved for all values of all resolutions; out-of-range and malformed text is accepted or undefined as shown."
  },
  {
   "property": "C40",
   "status": "partial",
   "theorems": [
    "C40_address_roundtrip",
    "C40_dotted_partial",
    "C40_rejected",
    "C40_wraparound_refuted"
   ],
   "note": "Addresses 1..65535 in both forms; larger ones wrap around and are accepted."
  },
  {
   "property": "C41",
   "status": "partial",
   "theorems": [
    "C41_list_roundtrip",
    "C41_reading_ends",
    "C41_empty_list_refuted",
    "C41_empty_element_refuted"
   ],
   "note": "Non-empty lists round trip; the empty list does not, and an empty element cuts the list."
  },
  {
   "property": "C42",
   "status": "proved",
   "theorems": [
    "C42_date_roundtrip",
    "C42_date_format"
   ],
   "note": ""
  },
  {
   "property": "C43",
   "status": "partial",
   "theorems": [
    "C43_hex_roundtrip",
    "C43_hex_shape",
    "C43_hex_read",
    "C43_hex_write_clamped",
    "C43_wraparound_refuted",
    "C43_no_prefix_refuted"
   ],
   "note": "16-bit values round trip; values from 2^64 wrap around before the range check."
  },
  {
   "property": "C44",
   "status": "partial",
   "theorems": [
    "C44_roundtrip",
    "C44_read",
    "C44_wrong_length",
    "C44_success_refuted"
   ],
   "note": "Round trip and both accepted forms; text of a wrong length reports success."
  },
  {
   "property": "C45",
   "status": "partial",
   "theorems": [
    "C45_offset_roundtrip",
    "C45_gap_refuted",
    "C45_silent_cut_refuted"
   ],
   "note": "Offsets without gaps round trip; a zero between used offsets loses data."
  },
  {
   "property": "C65",
   "status": "partial",
   "theorems": [
    "C65_unknown_reported_partial",
    "C65_known_not_reported",
    "C65_unknown_silent_refuted",
    "C65_silent_tables"
   ],
   "note": "12 of 23 enumerations report unknown text, the other 11 silently default."
  },
  {
   "property": "C67",
   "status": "partial",
   "theorems": [
    "C67_int_roundtrip",
    "C67_break_roundtrip",
    "C67_large_unsigned_refuted",
    "C67_silent_cut_refuted"
   ],
   "note": "Exact for 32-bit signed values; larger unsigned values cannot be read and narrow types are cut silently."
  },
  {
   "property": "C68",
   "status": "proved",
   "theorems": [
    "C68_round_trip",
    "C68_throws_iff",
    "C68_accepted_ok",
    "C68_ends"
   ],
   "note": "Documents without floating point numbers; numbers in canonical form (non-negative integers are unsigned)."
  },
  {
   "property": "C06",
   "status": "partial",
   "theorems": [
    "C06_round_trip",
    "C06_status",
    "C06_commit_throws_iff",
    "C06_empty_file_refuted",
    "C06_no_type_refuted",
    "C06_cut_text_refuted"
   ],
   "note": "Every message with valid texts round trips through the JSON text; an empty file reply arrives as an error, cut texts and untyped messages make sending throw."
  },
  {
   "property": "C07",
   "status": "partial",
   "theorems": [
    "C07_exception_iff",
    "C07_reported",
    "C07_failed",
    "C07_escapes_refuted",
    "C07_missing_key_refuted",
    "C07_overflow_refuted",
    "C07_fraction_refuted"
   ],
   "note": "Exact condition for escaping exceptions; no undefined behaviour for documents with the needed keys, texts below 1024 bytes and no fractions; each restriction is shown to be needed."
  },
  {
   "property": "C08",
   "status": "partial",
   "theorems": [
    "C08_stations_partial",
    "C08_kept_refuted"
   ],
   "note": "Well-formed entries kept in order, misshapen ones dropped; any text of 47 characters is kept."
  },
  {
   "property": "C11",
   "status": "partial",
   "theorems": [
    "C11_service_name",
    "C11_unique",
    "C11_distinct_refuted"
   ],
   "note": "The published name consists of allowed characters only and is unique per identity; distinct station names can give the same filtered text."
  },
  {
   "property": "C10",
   "status": "partial",
   "theorems": [
    "C10_recipients",
    "C10_exactly",
    "C10_once_partial",
    "C10_twice_refuted"
   ],
   "note": "Exactly the intended stations are contacted; once each when stations have distinct places in the list, twice when a station was found under two addresses."
  },
  {
   "property": "C12",
   "status": "partial",
   "theorems": [
    "C12_never_ends_iff",
    "C12_ends_partial",
    "C12_empty_throws",
    "C12_round_trip_partial",
    "C12_termination_refuted",
    "C12_long_name_refuted",
    "C12_key_in_name_refuted"
   ],
   "note": "Exact condition for endless parsing; round trip for short names without the key text; each restriction is shown to be needed."
  },
  {
   "property": "C09",
   "status": "partial",
   "theorems": [
    "C09_distinct_partial",
    "C09_join_updates",
    "C09_late_iff",
    "C09_leave_keeps",
    "C09_leave_removes",
    "C09_duplicate_refuted",
    "C09_duplicate_answer_refuted",
    "C09_left_refuted"
   ],
   "note": "Distinctness under stated conditions; duplicates and stations that never disappear have concrete histories."
  },
  {
   "property": "C69",
   "status": "partial",
   "theorems": [
    "C69_in_range_partial",
    "C69_past_the_end",
    "C69_bounds_refuted"
   ],
   "note": "Reading position equal to the number of services is outside the list."
  },
  {
   "property": "C70",
   "status": "proved",
   "theorems": [
    "C70_filter",
    "C70_plain"
   ],
   "note": "Over the answers delivered by the mDNS library."
  },
  {
   "property": "C13",
   "status": "partial",
   "theorems": [
    "C13_once",
    "C13_ends",
    "C13_over_is_final",
    "C13_chunks",
    "C13_answered",
    "C13_incomplete_waits",
    "C13_crash_causes",
    "C13_closes_refuted",
    "C13_bad_type_crash_refuted",
    "C13_no_callback_crash_refuted"
   ],
   "note": "At most one call and one reply, only for a complete package, for every stream and chunking; a silent peer keeps the session open and some bodies end the program."
  },
  {
   "property": "C71",
   "status": "partial",
   "theorems": [
    "C71_send_once_partial",
    "C71_reply",
    "C71_send_twice_refuted",
    "C71_leak_refuted"
   ],
   "note": "A successful file reply that is sent with a buffer is deleted twice; a failed reply with a buffer is never deleted by the server."
  },
  {
   "property": "C72",
   "status": "partial",
   "theorems": [
    "C72_reply",
    "C72_incomplete",
    "C72_foreign_taken_refuted",
    "C72_foreign_message_refuted"
   ],
   "note": "Complete replies arrive exactly and incomplete ones are refused; a foreign header is taken as an empty reply."
  },
  {
   "property": "C14",
   "status": "partial",
   "theorems": [
    "C14_woken_partial",
    "C14_lost_iff",
    "C14_no_way_out",
    "C14_dangling_iff",
    "C14_hangs_refuted",
    "C14_stopped_refuted",
    "C14_early_refuted"
   ],
   "note": "The exact condition for the lost wake-up, over all interleavings; spurious wake-ups and a stopped worker are further ways to fail."
  },
  {
   "property": "C73",
   "status": "partial",
   "theorems": [
    "C73_pause_partial",
    "C73_busy_refuted",
    "C73_no_pause_refuted"
   ],
   "note": "Holds for a single start; from the second start on the ticks follow each other without a pause."
  },
  {
   "property": "C20",
   "status": "partial",
   "theorems": [
    "C20_mvr_partial",
    "C20_mvr_any_file",
    "C20_mvr_refuted",
    "C20_gdtf_partial",
    "C20_gdtf_ordinary_partial",
    "C20_gdtf_any_file",
    "C20_gdtf_refuted"
   ],
   "note": "Entry names without a parent step stay inside the target folder; other names reach any file. Symbolic links are left out."
  },
  {
   "property": "C56",
   "status": "proved",
   "theorems": [
    "C56_keeps",
    "C56_idempotent",
    "C56_unchanged_iff"
   ],
   "note": "For every name."
  },
  {
   "property": "C57",
   "status": "partial",
   "theorems": [
    "C57_lossless",
    "C57_no_separator_iff",
    "C57_folder_extraction_partial",
    "C57_separator_left_refuted"
   ],
   "note": "Leading and doubled separators are left in the folder part."
  },
  {
   "property": "C55",
   "status": "partial",
   "theorems": [
    "C55_reports_partial",
    "C55_unique",
    "C55_repeated_refuted"
   ],
   "note": "For every hash function and bucket count, when no mandatory name is listed twice; a text search over the 57 call sites (all in GDTFManager.cpp, names expanded) finds none that does so; that search is not part of the proof. A name listed twice is reported missing although present."
  },
  {
   "property": "C46",
   "status": "partial",
   "theorems": [
    "C46_partition_partial",
    "C46_read",
    "C46_above_refuted"
   ],
   "note": "For functions whose start values are at most the channel maximum; reading keeps start values above it."
  },
  {
   "property": "C47",
   "status": "proved",
   "theorems": [
    "C47_increasing",
    "C47_ends",
    "C47_terminates",
    "C47_physical"
   ],
   "note": "For every list of set nodes; the reading loop ends."
  },
  {
   "property": "C48",
   "status": "partial",
   "theorems": [
    "C48_cover_partial",
    "C48_keep",
    "C48_stable",
    "C48_read_back",
    "C48_empty_refuted",
    "C48_overlap_refuted"
   ],
   "note": "For functions with at least one channel set; without sets nothing is written. Sorting is any function that returns a sorted permutation."
  },
  {
   "property": "C51",
   "status": "partial",
   "theorems": [
    "C51_bytes_partial",
    "C51_virtual",
    "C51_always",
    "C51_hole_refuted",
    "C51_cut_refuted"
   ],
   "note": "For offset lists without holes below 65536; a hole gives a resolution above the number of bytes."
  },
  {
   "property": "C49",
   "status": "partial",
   "theorems": [
    "C49_span_partial",
    "C49_unlisted",
    "C49_virtual_refuted",
    "C49_high_refuted",
    "C49_order_refuted",
    "C49_short_refuted",
    "C49_nested_refuted"
   ],
   "note": "For modes whose references list their breaks in increasing order and are not nested, when some address is at most 512."
  },
  {
   "property": "C50",
   "status": "partial",
   "theorems": [
    "C50_terminates_iff",
    "C50_cycle",
    "C50_unique",
    "C50_sorted",
    "C50_contents",
    "C50_exact_partial",
    "C50_undefined_iff",
    "C50_cycle_refuted",
    "C50_child_refuted",
    "C50_undefined_refuted"
   ],
   "note": "Sorted and duplicate free always; ends exactly without cyclic references; overwrite channels on children of a referenced geometry are missed."
  },
  {
   "property": "C52",
   "status": "partial",
   "theorems": [
    "C52_objects",
    "C52_geometries",
    "C52_units",
    "C52_attributes",
    "C52_attribute_found",
    "C52_channel_partial",
    "C52_function_partial",
    "C52_number_refuted",
    "C52_null_refuted"
   ],
   "note": "Equal for every kind of object and every hash; channels and functions of a mode when the index is built with the final names and every first logical channel has an attribute."
  },
  {
   "property": "C53",
   "status": "partial",
   "theorems": [
    "C53_repeats_partial",
    "C53_size_partial",
    "C53_set",
    "C53_missing_refuted",
    "C53_bar_refuted",
    "C53_empty_refuted"
   ],
   "note": "For modes whose channels all have a geometry, whose attributes have names and whose geometry names have no '|'. Every hash."
  },
  {
   "property": "C54",
   "status": "partial",
   "theorems": [
    "C54_reported",
    "C54_sound",
    "C54_complete_partial",
    "C54_plain",
    "C54_later_refuted",
    "C54_second_refuted"
   ],
   "note": "Every error has a cause. Only the first later function that overlaps is checked, and a second function without mode master is accepted."
  },
  {
   "property": "C74",
   "status": "partial",
   "theorems": [
    "C74_undefined_iff",
    "C74_defined",
    "C74_refuted"
   ],
   "note": "Exact condition; undefined when no attribute is called NoFeature but a main attribute reference names it."
  },
  {
   "property": "C66",
   "status": "partial",
   "theorems": [
    "C66_stable",
    "C66_close",
    "C66_text",
    "C66_nearest",
    "C66_refuted"
   ],
   "note": "The text never changes on a second round trip; the value is kept to one millionth, exactly from 2^33 on. Values below one millionth are lost."
  },
  {
   "property": "C75",
   "status": "partial",
   "theorems": [
    "C75_matrix",
    "C75_rotation",
    "C75_vector",
    "C75_color",
    "C75_colors",
    "C75_list",
    "C75_comma_refuted",
    "C75_empty_refuted"
   ],
   "note": "For the decimal point '.', non-empty lists of doubles. With ',' as decimal point of the locale the texts are not read back; a one-element list is reported as an error; the empty list in braces is read as [0]."
  },
  {
   "property": "C76",
   "status": "partial",
   "theorems": [
    "C76_vector",
    "C76_color",
    "C76_matrix",
    "C76_ends",
    "C76_word_refuted",
    "C76_line_refuted",
    "C76_range_refuted"
   ],
   "note": "Brackets and counts are checked; words are read as 0 without an error, a matrix with a short line is accepted with an error and the old row, numbers out of range are undefined in atof."
  },
  {
   "property": "C77",
   "status": "partial",
   "theorems": [
    "C77_document",
    "C77_same",
    "C77_again",
    "C77_line",
    "C77_white_refuted",
    "C77_deep_refuted",
    "C77_declaration_refuted",
    "C77_comment_refuted"
   ],
   "note": "For documents with one root. Texts of white space are lost; trees nested 99 deep are written but not read; a document that was read gets a second declaration when written; a comment after the root loses its last byte."
  },
  {
   "property": "C78",
   "status": "partial",
   "theorems": [
    "C78_ends",
    "C78_accepted",
    "C78_value",
    "C78_references",
    "C78_mark",
    "C78_declarations",
    "C78_number_refuted",
    "C78_surrogate_refuted",
    "C78_stale_refuted",
    "C78_end_tag_refuted",
    "C78_closed_end_tag_refuted"
   ],
   "note": "Numbers of 2^32 and more wrap, surrogates give invalid UTF-8, an unknown reference may leave a stale byte, an end tag at document level hides the rest of the text, an end tag closed like an empty element is an element."
  },
  {
   "property": "C79",
   "status": "partial",
   "theorems": [
    "C79_set",
    "C79_read",
    "C79_file",
    "C79_child",
    "C79_order",
    "C79_first",
    "C79_text",
    "C79_text_keeps",
    "C79_last_refuted"
   ],
   "note": "GetLastChildNode gives the first child."
  },
  {
   "property": "C80",
   "status": "partial",
   "theorems": [
    "C80_written",
    "C80_read_partial",
    "C80_round_trip_partial",
    "C80_reference_partial",
    "C80_equal_partial",
    "C80_long_label_refuted",
    "C80_empty_label_refuted",
    "C80_chain_refuted"
   ],
   "note": "Reading follows one reference, not a reference to a reference; labels of 192 and more bytes are written as a reference; an empty label ends the name when it is read."
  },
  {
   "property": "C81",
   "status": "partial",
   "theorems": [
    "C81_skip_ends",
    "C81_inside_partial",
    "C81_knot_refuted",
    "C81_full_buffer_refuted"
   ],
   "note": "mdns_string_extract never ends for a label followed by a reference back to it (20 bytes stop an announcing program, 26 one that looks for stations); a message that fills the buffer is read one byte too far."
  },
  {
   "property": "C82",
   "status": "partial",
   "theorems": [
    "C82_calls_partial",
    "C82_txt_length_refuted",
    "C82_stale_refuted",
    "C82_questions_refuted",
    "C82_discovery_refuted"
   ],
   "note": "For messages with readable names. The length of a TXT record and the number of questions are not compared with the message; short messages are filled up with earlier ones; executeDiscovery fails with the first answer."
  },
  {
   "property": "C83",
   "status": "partial",
   "theorems": [
    "C83_query",
    "C83_discovery",
    "C83_answer_partial",
    "C83_host_refuted",
    "C83_srv_refuted"
   ],
   "note": "Questions and discovery answers always; answers for host names up to (capacity - service - 60) / 2 bytes, that is 214 for MVR-xchange. Longer ones write before address 0 or behind the buffer."
  },
  {
   "property": "C84",
   "status": "partial",
   "theorems": [
    "C84_found_partial",
    "C84_station_partial",
    "C84_empty_group_refuted",
    "C84_long_name_refuted",
    "C84_no_answer_refuted"
   ],
   "note": "For group names of 1 to 63 allowed characters and station names up to 193 bytes. A group name without any allowed character makes receivers read outside their buffer; with a station name of 194 bytes every receiver fails with an exception."
  },
  {
   "property": "C85",
   "status": "partial",
   "theorems": [
    "C85_senders_partial",
    "C85_twice",
    "C85_address_set",
    "C85_same_computer_refuted",
    "C85_prefix_refuted"
   ],
   "note": "Records of one sender are mixed up: two programs on one computer in the same group, or in groups whose names begin alike, both get the name and identifier of the first."
  },
  {
   "property": "C86",
   "status": "partial",
   "theorems": [
    "C86_interfaces",
    "C86_loopback_refuted",
    "C86_skipped_refuted"
   ],
   "note": "The exact condition; it compares the last byte of the address with 127 instead of the first."
  },
  {
   "property": "C87",
   "status": "proved",
   "theorems": [
    "C87_attributes",
    "C87_exact",
    "C87_double",
    "C87_members",
    "C87_left_out",
    "C87_not_used"
   ],
   "note": "All classes of GDTFManager.cpp; references to other objects are their texts. Members whose values have no text of their own (uninitialised, out of range) are excluded by attrs_ok."
  },
  {
   "property": "C88",
   "status": "proved",
   "theorems": [
    "C88_tree",
    "C88_places",
    "C88_geometries",
    "C88_any_number"
   ],
   "note": "For trees of objects as the classes build them: children of the classes their parents look for, first channel function at 0, channel sets that do not overlap."
  },
  {
   "property": "C89",
   "status": "partial",
   "theorems": [
    "C89_file",
    "C89_deep",
    "C89_refuted",
    "C89_cr_refuted"
   ],
   "note": "Up to 98 levels and without CR. Deeper trees are written to a file that cannot be read; a CR comes back as LF."
  },
  {
   "property": "C90",
   "status": "partial",
   "theorems": [
    "C90_reports",
    "C90_clean",
    "C90_display_refuted"
   ],
   "note": "The exact number of reports. Width, Height and IsCurved of a display are written but not in its list of attributes, so every display is reported three times."
  },
  {
   "property": "C91",
   "status": "proved",
   "theorems": [
    "C91_tolerant",
    "C91_written",
    "C91_order"
   ],
   "note": "Names of added attributes and nodes are ASCII without zero and CR."
  },
  {
   "property": "C92",
   "status": "partial",
   "theorems": [
    "C92_presets_refuted",
    "C92_slash_refuted",
    "C92_first_refuted",
    "C92_laser_refuted",
    "C92_null_refuted"
   ],
   "note": "What is kept is C87 and C88. Presets are never read, a / in a fixture name becomes _, the first channel function is moved to 0; a laser read without a report, and a macro value without channel, cannot be written."
  },
  {
   "property": "C93",
   "status": "proved",
   "theorems": [
    "C93_members",
    "C93_left_out"
   ],
   "note": "The members of a custom command share one text, see C94 and C97. A GUID is always written."
  },
  {
   "property": "C94",
   "status": "proved",
   "theorems": [
    "C94_tree",
    "C94_places",
    "C94_children",
    "C94_any_number",
    "C94_slots",
    "C94_names"
   ],
   "note": "For objects as the classes can be set up: groups with children, mapping definitions with a source, gobo rotation only with a gobo, custom commands without a comma or /percent in the function; what happens otherwise is C97."
  },
  {
   "property": "C95",
   "status": "partial",
   "theorems": [
    "C95_scene",
    "C95_objects"
   ],
   "note": "For references that reading can resolve: no classes (never written), multipatch parents before their children, symbols among the geometries of scene objects and definitions; the exceptions are C97. Provider and version are not read."
  },
  {
   "property": "C96",
   "status": "proved",
   "theorems": [
    "C96_file",
    "C96_deep",
    "C96_deep_refuted",
    "C96_white_refuted",
    "C96_cr_refuted"
   ],
   "note": "Texts with a carriage return and blank texts in nodes of their own are changed by the parser; groups nested 48 deep are written to a file that cannot be read."
  },
  {
   "property": "C97",
   "status": "partial",
   "theorems": [
    "C97_class_refuted",
    "C97_group_refuted",
    "C97_multipatch_refuted",
    "C97_symbol_refuted",
    "C97_command_refuted",
    "C97_matrix_refuted",
    "C97_custom_id_refuted",
    "C97_gobo_refuted",
    "C97_new_refuted"
   ],
   "note": "What is kept is C93 to C95. Lost: classes, empty groups, multipatch parents that come later, symbols of layers and groups, custom commands with a comma, offsets in matrices below 1e-7, custom ids above 2^31, gobo rotations without gobo; some objects cannot be written before a source is set."
  },
  {
   "property": "C98",
   "status": "partial",
   "theorems": [
    "C98_ends",
    "C98_symbols",
    "C98_dangling",
    "C98_uuid",
    "C98_uuid_refuted"
   ],
   "note": "Reading always ends. A GUID of the wrong length and a symbol without definition dereference a null pointer."
  },
  {
   "property": "C99",
   "status": "proved",
   "theorems": [
    "C99_duplicates"
   ],
   "note": "For every document that is read without undefined behaviour."
  },
  {
   "property": "C100",
   "status": "partial",
   "theorems": [
    "C100_address",
    "C100_universe",
    "C100_never",
    "C100_zero_refuted",
    "C100_file_refuted"
   ],
   "note": "Addresses from 1 to 512. The universe of a stored address above 2^64-512 is never found, and a file with address -1 holds one; address 0 is taken for the last of the universe before."
  },
  {
   "property": "C101",
   "status": "proved",
   "theorems": [
    "C101_pointers",
    "C101_one",
    "C101_quiet",
    "C101_file"
   ],
   "note": "References by text, as in C87 to C89; a fixture is linked if each reference text means one object, compared without case. Aborting while reading is not modelled."
  },
  {
   "property": "C102",
   "status": "partial",
   "theorems": [
    "C102_unit_refuted",
    "C102_feature_refuted",
    "C102_case_refuted",
    "C102_main_refuted",
    "C102_silent_refuted",
    "C102_nested_refuted",
    "C102_pin_refuted",
    "C102_undefined_refuted"
   ],
   "note": "All refutations: each part of the statement is false for some fixture that can be written."
  },
  {
   "property": "C103",
   "status": "partial",
   "theorems": [
    "C103_built",
    "C103_asked",
    "C103_channel",
    "C103_function",
    "C103_first",
    "C103_read",
    "C103_rename_refuted",
    "C103_saved_refuted",
    "C103_wrong_refuted"
   ],
   "note": "Holds if no reference is asked for before the last change (C103_asked with C103_channel and C103_function). A channel keeps the name of the first request or of reading for good (C103_first, C103_read): after renaming a geometry of a fixture that was read, or exchanging geometries, references lead nowhere or to another channel."
  },
  {
   "property": "C104",
   "status": "partial",
   "theorems": [
    "C104_different",
    "C104_written",
    "C104_clash_refuted"
   ],
   "note": "The generated names differ from each other and are those of the references; a name given in the file can equal a generated one."
  },
  {
   "property": "C105",
   "status": "partial",
   "theorems": [
    "C105_mvr",
    "C105_mvr_apart",
    "C105_gdtf",
    "C105_gdtf_resources",
    "C105_mvr_refuted",
    "C105_gdtf_refuted"
   ],
   "note": "Holds in MVR files for names without : and %, and in GDTF files for all folders the library writes. False in general: \"a*b\" and \"a%2Ab\" are the same file, and so are wheels/low/a.png and wheelslow/a.png in a GDTF file."
  },
  {
   "property": "C106",
   "status": "partial",
   "theorems": [
    "C106_new",
    "C106_all",
    "C106_refresh",
    "C106_twice_refuted",
    "C106_description_refuted",
    "C106_later_refuted"
   ],
   "note": "Holds for names that differ from each other and from description.xml, and for what is done before the first Close. Of two resources with the same name the first stays; a resource named description.xml replaces the description; what is added or changed after Close is not written by a second Close although all calls succeed (RefreshBuffer writes it)."
  },
  {
   "property": "C107",
   "status": "partial",
   "theorems": [
    "C107_again",
    "C107_kept",
    "C107_only",
    "C107_wheel_refuted",
    "C107_low_refuted",
    "C107_case_refuted"
   ],
   "note": "Exactly the entries whose names end in 3ds, svg or glb are kept, and they are moved to models/3ds, models/svg and models/gltf; this keeps the models of normal detail. Wheel images, the thumbnail and everything else are lost, and models of low and high detail replace the normal ones."
  },
  {
   "property": "C108",
   "status": "partial",
   "theorems": [
    "C108_objects",
    "C108_accepted",
    "C108_others",
    "C108_group_refuted",
    "C108_position_refuted",
    "C108_class_refuted",
    "C108_symdef_refuted"
   ],
   "note": "Holds for all scene objects except the matrix of groups, which is dropped. Two positions or classes whose names differ only in case become one; creating the second position changes the GUID of the first. A symbol or mapping definition with a GUID used before keeps its old name."
  },
  {
   "property": "C109",
   "status": "partial",
   "theorems": [
    "C109_children",
    "C109_layers",
    "C109_focus_refuted"
   ],
   "note": "Holds for every sequence of calls in which no focus point is created with the name of one that was read before; such a focus point gets into two containers and the chains are mixed up."
  },
  {
   "property": "C110",
   "status": "partial",
   "theorems": [
    "C110_new",
    "C110_all",
    "C110_same_name_refuted",
    "C110_again_refuted",
    "C110_missing_refuted",
    "C110_extension_refuted",
    "C110_case_refuted",
    "C110_gone_refuted"
   ],
   "note": "Holds for names that differ from each other, GDTF names that are equal if they are equal up to case, and files that are still there at Close. Of equal names the first stays; a second Close writes the file again without the buffers; GDTF files that are in no folder, files deleted before Close and GDTF names without the extension are left out without an error."
  },
  {
   "property": "C111",
   "status": "partial",
   "theorems": [
    "C111_read",
    "C111_gdtf",
    "C111_scene",
    "C111_folder_refuted",
    "C111_end",
    "C111_second_refuted",
    "C111_stale_refuted",
    "C111_again_refuted",
    "C111_missing_refuted",
    "C111_damaged_refuted"
   ],
   "note": "Holds for entries without folders in their names, read once by a new object. Entries in folders are listed but not unpacked; the working folder is shared by all objects and not emptied, so reading another scene replaces files that were handed out, deleting its object deletes them, and a fixture without GDTF file gets that of another scene; reading a second time lists everything twice; a missing file and entries that cannot be decompressed are no errors."
  },
  {
   "property": "C112",
   "status": "partial",
   "theorems": [
    "C112_calls",
    "C112_read_only",
    "C112_saved",
    "C112_truncate_refuted",
    "C112_keep_refuted",
    "C112_position_refuted",
    "C112_nothing_refuted"
   ],
   "note": "Holds for files opened for reading and writing and emptied, for files opened for reading, and for saving as the library does it. Opened for writing only the meaning of the truncate flag is inverted; opened for reading and writing without truncating, everything is written at the end whatever the position."
  },
  {
   "property": "C113",
   "status": "partial",
   "theorems": [
    "C113_delete",
    "C113_delete_answer",
    "C113_duplicate",
    "C113_delete_refuted",
    "C113_missing_refuted",
    "C113_overwrite_refuted",
    "C113_self_refuted",
    "C113_folder_refuted"
   ],
   "note": "What is done to the disk holds for deleting and for duplicating an existing file into an existing folder under another name. The answer of DeleteOnDisk is inverted; DuplicateOnDisk always reports success, ignores the overwrite flag, empties the destination if the source is missing and empties a file that is duplicated to itself."
  },
  {
   "property": "C114",
   "status": "partial",
   "theorems": [
    "C114_get",
    "C114_none",
    "C114_name",
    "C114_set",
    "C114_add",
    "C114_dot_refuted",
    "C114_folder_refuted"
   ],
   "note": "Holds for names with an extension, and for names without one if no folder has a dot in its name; otherwise part of the folder is taken as extension. Setting an extension that is given with its dot removes the extension."
  },
  {
   "property": "C115",
   "status": "partial",
   "theorems": [
    "C115_index_access",
    "C115_wrong_check_at_size",
    "C115_wrong_check_partial",
    "C115_wrong_check_refuted",
    "C115_loop",
    "C115_mode_break",
    "C115_provider",
    "C115_values_wrong",
    "C115_values_partial",
    "C115_values_refuted"
   ],
   "note": "Proved for all functions that give an object by index; four of them, the points of a gamut and the addresses of a fixture accept the index equal to the number of elements. CSceneObjImpl::GetProtocolAt reports success and gives nothing to the caller."
  },
  {
   "property": "C116",
   "status": "partial",
   "theorems": [
    "C116_identifier_order",
    "C116_identifiers_distinct",
    "C116_query",
    "C116_unknown",
    "C116_casts",
    "C116_refuted"
   ],
   "note": "IID_StdFile makes nothing, a null result parameter leaks the object, and a VCOMPtr accepts an object of another interface."
  },
  {
   "property": "C117",
   "status": "partial",
   "theorems": [
    "C117_reference_counts",
    "C117_nothing_left",
    "C117_exceptions",
    "C117_refuted"
   ],
   "note": "For programs that use the identifier of the type of the variable, do not call through objects that were not set up where the library does not check it, do not pass a folder as result of its own GetParentFolder, and pass an empty variable to GetRootNode; the last two are refuted otherwise."
  },
  {
   "property": "C118",
   "status": "partial",
   "theorems": [
    "C118_linked",
    "C118_created",
    "C118_not_set_up",
    "C118_unchecked",
    "C118_refuted"
   ],
   "note": "Ten functions report success and give out an empty object when there is no linked object, four do not check their own pointer, and ten classes leave it unwritten."
  },
  {
   "property": "C119",
   "status": "partial",
   "theorems": [
    "C119_set_value",
    "C119_value",
    "C119_value_refuted",
    "C119_cdata",
    "C119_cdata_refuted",
    "C119_cdata_keeps",
    "C119_attribute",
    "C119_attribute_set",
    "C119_delete_attribute",
    "C119_attribute_refuted"
   ],
   "note": "A value is read back exactly for nodes that have no child or start with a text, CDATA exactly for nodes with at most one section; an attribute with a name that is not allowed ends in an exception."
  },
  {
   "property": "C120",
   "status": "partial",
   "theorems": [
    "C120_forward",
    "C120_backward",
    "C120_loop",
    "C120_loop_back",
    "C120_child",
    "C120_find",
    "C120_child_attribute",
    "C120_bad_name_refuted"
   ],
   "note": "All of it for names that XML allows; for others the error is ElementNotFound instead of BadName."
  },
  {
   "property": "C121",
   "status": "partial",
   "theorems": [
    "C121_create",
    "C121_append",
    "C121_copy_partial",
    "C121_copy_lost",
    "C121_copy_refuted",
    "C121_delete",
    "C121_delete_elements",
    "C121_delete_refuted"
   ],
   "note": "Holds for new children. A copy is silently not added for an index between the number of elements and the number of all children, and deleting a node also deletes the text after it."
  },
  {
   "property": "C122",
   "status": "partial",
   "theorems": [
    "C122_set",
    "C122_get",
    "C122_set_attribute",
    "C122_get_attribute",
    "C122_round_trip",
    "C122_attribute_round_trip",
    "C122_others",
    "C122_steps_get",
    "C122_steps_set",
    "C122_steps_round_trip",
    "C122_refuted"
   ],
   "note": "For paths of names, with an attribute at the end, and for existing nodes also with indices and conditions on attributes; values are read back if the node is new, empty or starts with a text. A path with an index that does not exist writes into a new node and does not find it again."
  },
  {
   "property": "C123",
   "status": "partial",
   "theorems": [
    "C123_product",
    "C123_associative",
    "C123_identity",
    "C123_invert",
    "C123_invert_points",
    "C123_regular",
    "C123_invert_refuted"
   ],
   "note": "Over the real numbers. A matrix is inverted if neither the sum of the absolute terms of its determinant nor the quotient of both is below 1e-8; otherwise it is silently transposed, also when it has an inverse, as for scaling by 1/1000."
  },
  {
   "property": "C124",
   "status": "partial",
   "theorems": [
    "C124_inverse_transform",
    "C124_transform_back",
    "C124_refuted",
    "C124_two",
    "C124_inverse_transform2"
   ],
   "note": "Over the real numbers. Holds exactly for matrices with orthonormal rows, with two coordinates exactly for those that also do not leave the plane; false for scaling."
  },
  {
   "property": "C125",
   "status": "proved",
   "theorems": [
    "C125_steps",
    "C125_angles",
    "C125_rigid",
    "C125_round_point"
   ],
   "note": "Over the real numbers."
  },
  {
   "property": "C126",
   "status": "partial",
   "theorems": [
    "C126_normalize",
    "C126_rotation",
    "C126_rotation_rigid",
    "C126_rotation_z",
    "C126_direction_refuted",
    "C126_zero_axis_refuted",
    "C126_rotation_u",
    "C126_rotation_u_refuted",
    "C126_flip",
    "C126_is_flipped",
    "C126_is_flipped_refuted",
    "C126_is_equal",
    "C126_is_equal_refl_sym",
    "C126_is_equal_refuted",
    "C126_interface"
   ],
   "note": "Over the real numbers. SetRotation turns the other way round than RotateZAfter and is no rotation for a zero axis; SetRotation with an upright vector depends on the old second vector; small matrices count as flipped in both orientations; equality is not transitive."
  },
  {
   "property": "C127",
   "status": "proved",
   "theorems": [
    "C127_cross",
    "C127_circle",
    "C127_circle_area",
    "C127_area",
    "C127_longest_edge"
   ],
   "note": "Over the real numbers."
  },
  {
   "property": "C128",
   "status": "partial",
   "theorems": [
    "C128_set",
    "C128_set_green",
    "C128_set_green_refuted",
    "C128_gradient_ends",
    "C128_gradient",
    "C128_range",
    "C128_of_rgb",
    "C128_brightness",
    "C128_linear",
    "C128_black",
    "C128_white_refuted",
    "C128_grey_refuted"
   ],
   "note": "Over the real numbers. SetGreen stores 257 times the value; the linear values of a colour come back up to 1e-5, but the curve of sRGB is applied only on the way back, so that grey becomes brighter, and white loses one in red and green."
  },
  {
   "property": "C129",
   "status": "partial",
   "theorems": [
    "C129_found",
    "C129_first",
    "C129_only",
    "C129_second",
    "C129_below_refuted",
    "C129_only_refuted",
    "C129_kept",
    "C129_kept_refuted",
    "C129_found_type",
    "C129_kept_apart"
   ],
   "note": "Every resource in the folder of its kind is found where it is unpacked to, for names without separators, and in archives with the folders of this library nothing else is found. A file in a folder below is not found, a file of a folder such as models3ds is taken for a model, and the paths of the three levels of detail share one member, so that the second call changes what the first returned."
  },
  {
   "property": "C130",
   "status": "partial",
   "theorems": [
    "C130_gdtf",
    "C130_gdtf_usual",
    "C130_gdtf_written",
    "C130_get",
    "C130_get_says",
    "C130_get_refuted",
    "C130_mvr",
    "C130_mvr_written",
    "C130_mvr_refuted"
   ],
   "note": "The version of a fixture is exactly what the text says, or 0 and 0, and is handed out if both numbers are above 0; a file of version 1.0 is reported as having none (C130_get_refuted). Every pair of ints is read from a scene; larger numbers are undefined behaviour (C130_mvr_refuted)."
  },
  {
   "property": "C131",
   "status": "partial",
   "theorems": [
    "C131_parallel",
    "C131_point",
    "C131_flags",
    "C131_common",
    "C131_parallel_refuted",
    "C131_stable",
    "C131_stable_short",
    "C131_bounds",
    "C131_bounds_apart",
    "C131_meet_at",
    "C131_meet_flag",
    "C131_meet",
    "C131_meet_refuted",
    "C131_meet_sound",
    "C131_left",
    "C131_equation",
    "C131_same_side",
    "C131_inside_point",
    "C131_inside_flag",
    "C131_inside_vertical",
    "C131_inside_refuted",
    "C131_rotate",
    "C131_rotate_clockwise"
   ],
   "note": "Over the real numbers. Points, flags, sides and equations are right wherever lines are not called parallel; but short segments that cross at right angles are called parallel (C131_parallel_refuted), and two segments that start at one point do not meet by one function and are parallel by the other (C131_meet_refuted); whether a segment that ends on another one meets it depends on which of them is vertical (C131_inside_refuted)."
  },
  {
   "property": "C132",
   "status": "partial",
   "theorems": [
    "C132_project",
    "C132_distance",
    "C132_distance_refuted",
    "C132_closest",
    "C132_closest1_near",
    "C132_closest1_far",
    "C132_closest1_refuted"
   ],
   "note": "Over the real numbers. Projection and closest point are right; the distance from a line shorter than 0.001 is 0 for every point (C132_distance_refuted), and the function for the closest point with one argument gives an end for points far away (C132_closest1_refuted)."
  },
  {
   "property": "C133",
   "status": "partial",
   "theorems": [
    "C133_sin",
    "C133_cos",
    "C133_sin_refuted",
    "C133_ends",
    "C133_ang180",
    "C133_ang360",
    "C133_unique",
    "C133_short_refuted",
    "C133_between",
    "C133_is_between",
    "C133_interpolate"
   ],
   "note": "Over the real numbers. Sine and cosine are right from -360 to 720 degrees, but not periodic beyond (C133_sin_refuted); angles of vectors are right above a length of 0.0000000001 (below: C133_short_refuted)."
  },
  {
   "property": "C134",
   "status": "proved",
   "theorems": [
    "C134_relative",
    "C134_relative_length",
    "C134_perp_line",
    "C134_perp_line_near",
    "C134_on_line",
    "C134_on_line_sound",
    "C134_distance_seg",
    "C134_angle90"
   ],
   "note": "Over the real numbers, for lines longer than 0.0000000001 (distance from a segment: 0.001); angles between lines with a cosine above 0.99999 are 0."
  },
  {
   "property": "C135",
   "status": "partial",
   "theorems": [
    "C135_distance",
    "C135_vertical",
    "C135_vertical_refuted",
    "C135_on_line",
    "C135_on_line_sound",
    "C135_start_refuted",
    "C135_plane_point",
    "C135_plane_found",
    "C135_plane_outside",
    "C135_on_plane",
    "C135_plane_parallel",
    "C135_on_plane_sound",
    "C135_on_plane_refuted",
    "C135_on_segment",
    "C135_on_segment_all",
    "C135_on_segment_sound",
    "C135_on_vertical"
   ],
   "note": "Over the real numbers. Distances and intersections with planes are right; the height before the start of a line is wrong (C135_vertical_refuted), the start of a line is not on it (C135_start_refuted), and IsOnPlane reads its normal vector through a reference to a destroyed temporary object, so its result is not determined (C135_on_plane_refuted)."
  },
  {
   "property": "C136",
   "status": "partial",
   "theorems": [
    "C136_unit_set",
    "C136_type_set",
    "C136_from_set",
    "C136_to_set",
    "C136_written",
    "C136_created",
    "C136_read_back",
    "C136_no_unit",
    "C136_no_unit_refuted",
    "C136_order_refuted"
   ],
   "note": "A node without a PhysicalUnit is read with the unit None, not that of its type."
  },
  {
   "property": "C137",
   "status": "partial",
   "theorems": [
    "C137_all_read",
    "C137_prefix",
    "C137_stopped",
    "C137_keeps_asking",
    "C137_once_refuted"
   ],
   "note": "True for callbacks that keep saying stop; one that says it once loses a single element, because the return ends the function for one child and the traversal goes on."
  },
  {
   "property": "C138",
   "status": "partial",
   "theorems": [
    "C138_total",
    "C138_none_refuted",
    "C138_steps",
    "C138_reports",
    "C138_end",
    "C138_nine",
    "C138_over_refuted",
    "C138_under_refuted"
   ],
   "note": "The steps are right and files with each of the nine elements end at their total; C138_end says exactly which other files do. Others are done too early or never."
  }
 ]
}