{
 "claims": [
  {
   "property": "C01",
   "status": "proved",
   "theorems": [
    "C01_bcd_round_trip"
   ],
   "note": ""
  },
  {
   "property": "C02",
   "status": "partial",
   "theorems": [
    "C02_bcd_truncates_and_frames_partial",
    "C02_bcd_dirty_nibble_refuted"
   ],
   "note": "Encoding truncates to the low digits and leaves other bytes alone when the destination half bytes are zero; the refuted theorem shows a non-zero half byte is added to."
  },
  {
   "property": "C03",
   "status": "proved",
   "theorems": [
    "C03_bcd_decode_positional"
   ],
   "note": ""
  },
  {
   "property": "C04",
   "status": "proved",
   "theorems": [
    "C04_raw_integer_round_trip"
   ],
   "note": ""
  },
  {
   "property": "C05",
   "status": "proved",
   "theorems": [
    "C05_ebcdic_ascii_round_trip",
    "C05_ebcdic_alphanumerics"
   ],
   "note": ""
  },
  {
   "property": "C06",
   "status": "proved",
   "theorems": [
    "C06_ibm_decode_exact"
   ],
   "note": ""
  },
  {
   "property": "C07",
   "status": "partial",
   "theorems": [
    "C07_ibm_encode_truncates",
    "C07_ibm_relative_error",
    "C07_ibm_normalised_words_survive",
    "C07_ibm_zero_if_defined",
    "C07_ibm_zero_refuted",
    "C07_ibm_exponent_too_small_refuted"
   ],
   "note": "The exponent comes from log(), which is a parameter: the bounds hold whenever it is large enough; zero is undefined by the standard (refuted) and an exponent one too small loses the value (refuted)."
  },
  {
   "property": "C08",
   "status": "proved",
   "theorems": [
    "C08_ieee_double_identity",
    "C08_ieee_single_rounds",
    "C08_rne32_is_nearest",
    "C08_ieee_single_representable",
    "C08_ieee_single_nan"
   ],
   "note": ""
  },
  {
   "property": "C09",
   "status": "partial",
   "theorems": [
    "C09_integer_samples_survive_partial",
    "C09_negative_samples_refuted"
   ],
   "note": "Non-negative samples always, negative ones with gcc's double to unsigned conversion; by the standard it is undefined (refuted)."
  },
  {
   "property": "C10",
   "status": "proved",
   "theorems": [
    "C10_format_dispatch_agrees",
    "C10_constructed_objects_have_a_supported_format"
   ],
   "note": ""
  },
  {
   "property": "C11",
   "status": "partial",
   "theorems": [
    "C11_accepted_layouts_safe_partial",
    "C11_accepted_layouts_safe_refuted"
   ],
   "note": "Proved for layouts whose first entry lies inside the block and whose bounds do not wrap at 2^32; refuted without that: the constructor does not check the first entry."
  },
  {
   "property": "C12",
   "status": "proved",
   "theorems": [
    "C12_valid_layouts_accepted",
    "C12_default_layout_valid"
   ],
   "note": ""
  },
  {
   "property": "C13",
   "status": "proved",
   "theorems": [
    "C13_header_block_can_be_written",
    "C13_header_fields_round_trip"
   ],
   "note": ""
  },
  {
   "property": "C14",
   "status": "partial",
   "theorems": [
    "C14_float_values_never_written_refuted",
    "C14_integers_in_float_fields_partial"
   ],
   "note": "Integers stored in float fields survive up to 2^24 in magnitude; a header value given as a float cannot be written at all (refuted)."
  },
  {
   "property": "C15",
   "status": "proved",
   "theorems": [
    "C15_binary_header_round_trip"
   ],
   "note": ""
  },
  {
   "property": "C16",
   "status": "proved",
   "theorems": [
    "C16_rev0_file_round_trip"
   ],
   "note": ""
  },
  {
   "property": "C17",
   "status": "proved",
   "theorems": [
    "C17_rev1_file_round_trip"
   ],
   "note": ""
  },
  {
   "property": "C18",
   "status": "partial",
   "theorems": [
    "C18_rev2_file_round_trip_partial",
    "C18_additional_headers_refuted",
    "C18_trailer_stanza_refuted"
   ],
   "note": "Proved without additional trace headers and trailer stanzas; both are refuted: the writer stores one additional header fewer than the reader expects, and a file with an announced stanza cannot be opened."
  },
  {
   "property": "C19",
   "status": "proved",
   "theorems": [
    "C19_file_layout"
   ],
   "note": ""
  },
  {
   "property": "C20",
   "status": "proved",
   "theorems": [
    "C20_writing_only_appends"
   ],
   "note": ""
  },
  {
   "property": "C21",
   "status": "partial",
   "theorems": [
    "C21_exact_traces_do_not_mix_partial",
    "C21_longer_trace_not_written",
    "C21_sample_areas",
    "C21_stale_samples_refuted",
    "C21_longer_trace_undefined_refuted"
   ],
   "note": "A trace with exactly the announced number of samples is stored independently of the others, and a longer one is never written. Refuted: a shorter trace is filled with the samples left in the reused buffer, and a longer one is undefined behaviour instead of an exception. C21_sample_areas gives the exact content of every sample area for traces of any length: own samples, then what the trace before left, then zeros."
  },
  {
   "property": "C22",
   "status": "proved",
   "theorems": [
    "C22_read_header_and_read_trace_agree"
   ],
   "note": "Stated for every mixture of calls whose read_trace version returns traces; the constructors are covered by \"opened\"."
  },
  {
   "property": "C23",
   "status": "partial",
   "theorems": [
    "C23_read_trace_loop_ends_partial",
    "C23_read_header_loop_ends_partial",
    "C23_no_progress_refuted",
    "C23_negative_count_refuted"
   ],
   "note": "The read loops end when every trace occupies at least one byte (and, for read_header, the sample count field is unsigned or the length fixed). Refuted without: -1 additional headers with no samples, and a negative sample count, loop forever."
  },
  {
   "property": "C24",
   "status": "proved",
   "theorems": [
    "C24_truncated_files_are_reported"
   ],
   "note": ""
  },
  {
   "property": "C25",
   "status": "proved",
   "theorems": [
    "C25_extended_text_headers"
   ],
   "note": ""
  },
  {
   "property": "C26",
   "status": "partial",
   "theorems": [
    "C26_announced_stanzas_refuted",
    "C26_unknown_number_variable_length_partial",
    "C26_unknown_number_fixed_length_refuted"
   ],
   "note": "Refuted: a file that announces a positive number of stanzas never opens. With the number -1, proved for variable-length traces without additional headers; refuted for fixed-length traces, whose headers are left out of the computed position."
  },
  {
   "property": "C27",
   "status": "proved",
   "theorems": [
    "C27_override_is_honoured",
    "C27_stored_values_do_not_matter",
    "C27_own_header"
   ],
   "note": ""
  },
  {
   "property": "C28",
   "status": "proved",
   "theorems": [
    "C28_unsupported_byte_order_refused"
   ],
   "note": ""
  },
  {
   "property": "C29",
   "status": "partial",
   "theorems": [
    "C29_opening_is_safe_partial",
    "C29_reading_is_safe_partial",
    "C29_sizes_overflow_refuted"
   ],
   "note": "Proved when the sizes computed from the header stay in 32 bits; refuted otherwise (three headers that overflow an int)."
  },
  {
   "property": "C30",
   "status": "proved",
   "theorems": [
    "C30_wrong_size_throws"
   ],
   "note": ""
  },
  {
   "property": "C31",
   "status": "proved",
   "theorems": [
    "C31_sorted_iteration"
   ],
   "note": ""
  },
  {
   "property": "C32",
   "status": "proved",
   "theorems": [
    "C32_key_queries"
   ],
   "note": "Keys that are NaN are excluded from queries (a NaN query finds the first key: see C32 in DESIGN.md)."
  },
  {
   "property": "C33",
   "status": "proved",
   "theorems": [
    "C33_missing_header_throws"
   ],
   "note": ""
  },
  {
   "property": "C34",
   "status": "proved",
   "theorems": [
    "C34_header_is_a_map"
   ],
   "note": ""
  },
  {
   "property": "C35",
   "status": "proved",
   "theorems": [
    "C35_value_semantics",
    "C35_copies_are_independent"
   ],
   "note": ""
  },
  {
   "property": "C36",
   "status": "partial",
   "theorems": [
    "C36_general_header1_partial",
    "C36_general_header1_refuted"
   ],
   "note": "Round trip for a base scan interval below 8 ms, scans per block a power of two and at most 99 channel sets; refuted outside."
  },
  {
   "property": "C37",
   "status": "partial",
   "theorems": [
    "C37_general_header2_partial",
    "C37_general_headerN_partial",
    "C37_general_headerN_refuted"
   ],
   "note": "Round trip for the fields revision 2 stores and for source numbers that are not negative and below 2^23; refuted for negative ones."
  },
  {
   "property": "C38",
   "status": "partial",
   "theorems": [
    "C38_channel_set_partial",
    "C38_channel_set_refuted"
   ],
   "note": "Round trip for even start and end times, descale exponents that are not negative, a power of two of subscans and an extension flag below 8; refuted outside."
  },
  {
   "property": "C39",
   "status": "partial",
   "theorems": [
    "C39_trace_header_partial",
    "C39_trace_header_refuted"
   ],
   "note": "Round trip with both escapes for skews below half a sample and trace numbers up to 9999; refuted outside."
  },
  {
   "property": "C40",
   "status": "partial",
   "theorems": [
    "C40_read_partial",
    "C40_write_partial",
    "C40_round_trip_partial",
    "C40_standard_round_trip_partial",
    "C40_buffer_overflow_refuted",
    "C40_uint64_refuted",
    "C40_layouts_refuted",
    "C40_line_type_refuted"
   ],
   "note": "Proved: reading user-defined extension layouts never leaves the buffers, succeeds when the bytes are there and decodes every field except uint64_t ones (values of uint64_t fields are not described because the code reads them from the wrong place); writing is safe and succeeds for headers with values of the right kind; round trip through write_trace and read; standard block of revision 2. Assumes layouts inside 32 bytes without overlap, distinct names, at most as many blocks as layouts, no IBM fields when writing, and for writing that the 20-byte array trc_hdr_buf and the 32-byte member after it may be used as one buffer. Refuted: without that assumption every extension write is undefined; a uint64_t field comes back wrong; layouts outside the block or fewer layouts than blocks make reading undefined; an integer receiver line comes back as a double."
  },
  {
   "property": "C41",
   "status": "partial",
   "theorems": [
    "C41_decode_partial",
    "C41_reads_partial",
    "C41_round_trip_partial",
    "C41_unreadable_formats_refuted",
    "C41_first_word_only_refuted",
    "C41_24bit_little_endian_refuted"
   ],
   "note": "Decoding of arbitrary words and the round trip are proved for 8036, 8038, 8058, 8080, 9038, 9058, 9080. Refuted for 8015, 8024, 8044, 8048 (undefined behaviour), 8022, 8042 (only the first word is used) and 9036 (bytes assembled in the wrong order)."
  },
  {
   "property": "C42",
   "status": "partial",
   "theorems": [
    "C42_record_round_trip_partial"
   ],
   "note": "Proved for records of revision 2.x whose values fit the header fields and whose traces have a header extension, in seven of the fourteen sample formats; see C36 to C41 for what fails outside these bounds."
  },
  {
   "property": "C43",
   "status": "partial",
   "theorems": [
    "C43_record_cursor_partial",
    "C43_trailer_refuted"
   ],
   "note": "Proved for files of any number of records without general trailer; refuted for files with a general trailer, which the reader takes for the next record."
  },
  {
   "property": "C44",
   "status": "partial",
   "theorems": [
    "C44_channel_limit_partial",
    "C44_accepts_partial",
    "C44_uninitialised_refuted"
   ],
   "note": "Proved when the uninitialised member chans_in_record happens to be zero; refuted for other contents of that memory."
  },
  {
   "property": "C45",
   "status": "partial",
   "theorems": [
    "C45_block_counts_partial",
    "C45_opens_partial",
    "C45_channel_sets_refuted"
   ],
   "note": "Proved for arbitrary files of revision below 3 for the skew, extended and external blocks; refuted for the number of channel sets, whose escape is never recognised."
  },
  {
   "property": "C46",
   "status": "partial",
   "theorems": [
    "C46_sample_count_refuted"
   ],
   "note": "Refuted: a trace without extension is always read with no samples."
  },
  {
   "property": "C47",
   "status": "proved",
   "theorems": [
    "C47_message_survives_moves"
   ],
   "note": ""
  },
  {
   "property": "C48",
   "status": "partial",
   "theorems": [
    "C48_open_safe_partial",
    "C48_traces_safe_partial",
    "C48_channel_set_number_refuted",
    "C48_sensor_block_refuted"
   ],
   "note": "Opening arbitrary files and reading traces in arbitrary reader states is proved safe for revision below 3, ten formats and existing channel set numbers. Refuted for unknown channel set numbers, for four formats and for revision 3 sensor blocks."
  },
  {
   "property": "C49",
   "status": "partial",
   "theorems": [
    "C49_next_record_partial",
    "C49_stale_block_refuted",
    "C49_stale_count_refuted"
   ],
   "note": "Proved for all headers of a record of revision below 3 except further general headers that only the previous record has and FF counts without general header 2; both exceptions are refuted."
  },
  {
   "property": "C50",
   "status": "partial",
   "theorems": [
    "C50_decode_partial",
    "C50_reads_partial",
    "C50_first_block_partial",
    "C50_more_blocks_refuted",
    "C50_extended_line_refuted"
   ],
   "note": "Proved: decoding of header, fields and samples of every trace in seven sample formats in every reader state of revision below 3, no undefined behaviour and completeness in ten formats when the trace has at most as many blocks as layouts and its channel set is in the table. Refuted: with more blocks than layouts (a byte of the file) reading is undefined behaviour; in revision 2 a fractional receiver line is in no field of the library layouts."
  },
  {
   "property": "C51",
   "status": "partial",
   "theorems": [
    "C51_general_headers_partial",
    "C51_general_header2_refuted"
   ],
   "note": "Proved for every file: general headers 1 and 3, and general header 2 up to the number of trailer blocks. Refuted: the record length is skipped in reading and its bytes are taken for the fields that follow."
  },
  {
   "property": "C52",
   "status": "partial",
   "theorems": [
    "C52_blocks_partial",
    "C52_source_offsets_refuted",
    "C52_negative_line_refuted",
    "C52_same_type_refuted"
   ],
   "note": "Proved for 23 block types with 2 to 14 additional blocks: the accessor shows the last block of the type or nothing. Refuted: source offsets are read as one byte each, negative line and point numbers are shown as large positive ones, of several blocks of one type only the last is shown; a file with a sensor block does not open (C48)."
  },
  {
   "property": "C53",
   "status": "partial",
   "theorems": [
    "C53_channel_sets_partial",
    "C53_descale_refuted",
    "C53_filter_delay_refuted"
   ],
   "note": "Proved for every file with 2 to 14 additional blocks: all members except descale multiplier and filter delay, which are refuted. The FF escape of the number of channel sets is refuted in C45."
  },
  {
   "property": "C54",
   "status": "partial",
   "theorems": [
    "C54_places_partial",
    "C54_opens_partial",
    "C54_open_safe_partial",
    "C54_external_count_refuted",
    "C54_additional_count_refuted"
   ],
   "note": "Proved: places of the extended and external blocks, position of the first trace, expected number of traces, every complete file opens, no undefined behaviour without a sensor block. Refuted: counts of additional and external blocks that general header 1 leaves to general header 2."
  },
  {
   "property": "C55",
   "status": "partial",
   "theorems": [
    "C55_decode_partial",
    "C55_reads_partial",
    "C55_trace_number_refuted",
    "C55_descale_refuted",
    "C55_sample_count_refuted",
    "C55_negative_receiver_refuted",
    "C55_channel_set_number_refuted"
   ],
   "note": "Proved in every state within the first record: header words, extension fields (receiver numbers that are not negative), number of samples, samples in seven formats of channel sets without descale multiplier, position, no undefined behaviour and completeness in ten formats with fewer than 2^32 bits of samples and a channel set in the table. Refuted: the trace number escape, descale multipliers, negative receiver numbers, sample sizes of 2^32 bits and more, unknown channel sets."
  },
  {
   "property": "C56",
   "status": "proved",
   "theorems": [
    "C56_binary_header_members",
    "C56_read_binary_header",
    "C56_overridden_header"
   ],
   "note": ""
  },
  {
   "property": "C57",
   "status": "proved",
   "theorems": [
    "C57_traces_decoded",
    "C57_complete_traces_are_read"
   ],
   "note": ""
  },
  {
   "property": "C58",
   "status": "proved",
   "theorems": [
    "C58_default_layouts"
   ],
   "note": ""
  },
  {
   "property": "C59",
   "status": "proved",
   "theorems": [
    "C59_written_binary_header"
   ],
   "note": ""
  },
  {
   "property": "C60",
   "status": "proved",
   "theorems": [
    "C60_written_traces",
    "C60_default_layout"
   ],
   "note": ""
  },
  {
   "property": "C61",
   "status": "proved",
   "theorems": [
    "C61_first_trace_completes",
    "C61_bad_first_trace"
   ],
   "note": ""
  },
  {
   "property": "C62",
   "status": "partial",
   "theorems": [
    "C62_copy_partial",
    "C62_marked_big_endian_refuted",
    "C62_copy_refuted",
    "C62_real_field_refuted"
   ],
   "note": "Proved for files that hold only what the reader shows and the writer stores: unassigned bytes zero, no byte order marker 01 02 03 04, no additional trace headers or trailer stanzas, traces right behind the text headers, integer fields, samples that survive the conversion to double and back. Refuted without these conditions: the copy of a file with the marker 01 02 03 04 announces the other byte order; the other conditions each have a file whose copy differs or is refused."
  },
  {
   "property": "C63",
   "status": "partial",
   "theorems": [
    "C63_same_calls",
    "C63_refused_traces_partial",
    "C63_none_accepted_partial",
    "C63_negative_count_refuted",
    "C63_second_block_refuted",
    "C63_blank_header_refuted"
   ],
   "note": "Proved where a trace that is refused shows its fault before its first header block is written, and some trace was accepted or the caller gave a binary header; without an accepted trace the file still has no trace. Refuted without these conditions: a negative sample count and a real number in an additional header block are found after bytes of the trace were written, which stay in the file; a refused first trace leaves its sample count and interval in a blank binary header."
  },
  {
   "property": "C64",
   "status": "proved",
   "theorems": [
    "C64_same_calls",
    "C64_fixed_length",
    "C64_fail_stop"
   ],
   "note": ""
  },
  {
   "property": "C65",
   "status": "proved",
   "theorems": [
    "C65_sorted_reader",
    "C65_only_memory"
   ],
   "note": ""
  },
  {
   "property": "C66",
   "status": "partial",
   "theorems": [
    "C66_block_attributes_partial",
    "C66_client_name_refuted",
    "C66_explosive_info_refuted",
    "C66_other_field_refuted",
    "C66_same_names_partial",
    "C66_missing_attributes_refuted"
   ],
   "note": "Proved for all other methods and attributes. Refuted: general_header_client_name returns the survey block, general_header_explosive_info the airgun block; group_idx and offset_crossline of electromagnetic sources and freq2, amp2, phase2 of calibration blocks show other members; six members have no attribute. Negative source line and point numbers fail as in C52."
  },
  {
   "property": "C67",
   "status": "proved",
   "theorems": [
    "C67_binary_header",
    "C67_values_taken",
    "C67_assignments"
   ],
   "note": ""
  },
  {
   "property": "C68",
   "status": "proved",
   "theorems": [
    "C68_for_loop",
    "C68_adjacent_headers",
    "C68_cut_files",
    "C68_sorted_loop"
   ],
   "note": ""
  },
  {
   "property": "C69",
   "status": "proved",
   "theorems": [
    "C69_text_headers"
   ],
   "note": ""
  },
  {
   "property": "C70",
   "status": "partial",
   "theorems": [
    "C70_member_descriptions_partial",
    "C70_orientation_refuted",
    "C70_trace_header_partial",
    "C70_undescribed_refuted"
   ],
   "note": "Proved for all classes but the orientation block and for all but five names. Refuted: in the orientation block two enumerators read behind the table and two have the description of another; NANOSECOND and the mantissas and exponents of two fields have no description."
  },
  {
   "property": "C71",
   "status": "partial",
   "theorems": [
    "C71_assignments_partial",
    "C71_overlap_refuted",
    "C71_texts_partial",
    "C71_texts_refuted"
   ],
   "note": "Proved for numbers in all classes but two, in which one member has two attributes (refuted). Refuted for texts: a shorter text reads back with NUL characters behind it, and a longer one may be cut inside a character and then cannot be read back; the partial theorem says what is read back for texts that fit."
  },
  {
   "property": "C72",
   "status": "partial",
   "theorems": [
    "C72_loop_partial",
    "C72_trailer_refuted"
   ],
   "note": "Proved for files of the records of C43 without general trailer; refuted for files with a general trailer: the loop raises before it has seen the last trace."
  },
  {
   "property": "C73",
   "status": "partial",
   "theorems": [
    "C73_stanzas_partial",
    "C73_ebcdic_stanzas_refuted",
    "C73_conversion_refuted"
   ],
   "note": "Proved for stanzas in UTF-8 of the files of C26. Refuted: stanzas in EBCDIC raise UnicodeDecodeError; the conversions have no effect on the text passed to them."
  },
  {
   "property": "C74",
   "status": "proved",
   "theorems": [
    "C74_general_header1",
    "C74_general_header2",
    "C74_general_headerN"
   ],
   "note": ""
  },
  {
   "property": "C75",
   "status": "partial",
   "theorems": [
    "C75_channel_set_partial",
    "C75_extension_flag_refuted"
   ],
   "note": "Proved for all members; the extension flag only below 8. Refuted for the others: they are shown as 248 to 255."
  },
  {
   "property": "C76",
   "status": "proved",
   "theorems": [
    "C76_trace_header"
   ],
   "note": ""
  },
  {
   "property": "C77",
   "status": "proved",
   "theorems": [
    "C77_open_ends"
   ],
   "note": ""
  },
  {
   "property": "C78",
   "status": "partial",
   "theorems": [
    "C78_empty_file_refuted"
   ],
   "note": "Refuted: the constructor dereferences the end of an empty map."
  },
  {
   "property": "C79",
   "status": "partial",
   "theorems": [
    "C79_default_text_partial",
    "C79_rev0_default_refuted"
   ],
   "note": "Proved for revisions 1 and 2. Refuted for revision 0: 32 form feeds instead of 12 blanks, and the template loses its last 20 characters."
  },
  {
   "property": "C80",
   "status": "proved",
   "theorems": [
    "C80_other_codes_refused"
   ],
   "note": ""
  },
  {
   "property": "C81",
   "status": "proved",
   "theorems": [
    "C81_accepted_tables",
    "C81_mismatch_refused"
   ],
   "note": ""
  },
  {
   "property": "C82",
   "status": "partial",
   "theorems": [
    "C82_round_trip_partial",
    "C82_operand_order_refuted"
   ],
   "note": "Proved for compilers that evaluate the left operand first, refuted for the other order."
  },
  {
   "property": "C83",
   "status": "partial",
   "theorems": [
    "C83_copy_refuted"
   ],
   "note": "Refuted: the copy constructor dereferences a null pointer."
  },
  {
   "property": "C84",
   "status": "partial",
   "theorems": [
    "C84_read_back_refuted",
    "C84_written_refuted"
   ],
   "note": "Refuted: the numbers are big-endian and the marker in the file tells the opposite, so the reader takes the file for native order."
  },
  {
   "property": "C85",
   "status": "proved",
   "theorems": [
    "C85_sercel_layouts"
   ],
   "note": ""
  },
  {
   "property": "C86",
   "status": "partial",
   "theorems": [
    "C86_wide_count_refuted",
    "C86_many_samples_refuted"
   ],
   "note": "C57 is the positive statement. Refuted: the default layout makes the 16-bit number of samples signed, so that complete traces of 32768 samples and more are refused; with an 8-byte field the size computation wraps and the trace comes back without samples."
  },
  {
   "property": "C87",
   "status": "partial",
   "theorems": [
    "C87_default_header_refuted",
    "C87_unannounced_text_headers_refuted"
   ],
   "note": "C17 is the positive statement. Refuted: the default header stores revision 0, so that traces of different lengths are misread; the stored number of text headers is stale when they were not announced."
  },
  {
   "property": "C88",
   "status": "partial",
   "theorems": [
    "C88_skipped_header_blocks_refuted"
   ],
   "note": "C24 is the positive statement. Refuted: blocks without layout are skipped without being read, so a trace cut inside one is returned."
  },
  {
   "property": "C89",
   "status": "partial",
   "theorems": [
    "C89_reader_partial",
    "C89_variable_length_refuted"
   ],
   "note": "Proved as long as the file is the reason for the exceptions. Refuted otherwise: after the exception for a trace whose header gives -1 samples the next call returns the bytes behind that header as a trace."
  },
  {
   "property": "C90",
   "status": "partial",
   "theorems": [
    "C90_missing_name_refuted",
    "C90_padding_refuted"
   ],
   "note": "Refuted: such a trace makes the writer dereference an empty optional; where padding bytes differ the header stays blank. Intervals below -32768 are not described in C61; the writer of revision 2 throws std::bad_variant_access for an interval given as a double."
  },
  {
   "property": "C91",
   "status": "proved",
   "theorems": [
    "C91_python_objects",
    "C91_nothing_leaks"
   ],
   "note": ""
  },
  {
   "property": "C92",
   "status": "partial",
   "theorems": [
    "C92_set_get_partial",
    "C92_big_int_refuted"
   ],
   "note": "proved for floats and ints of at most 64 bits; an int beyond 64 bits silently becomes the nearest float (C92_big_int_refuted)"
  },
  {
   "property": "C93",
   "status": "proved",
   "theorems": [
    "C93_new_trace"
   ],
   "note": ""
  },
  {
   "property": "C94",
   "status": "partial",
   "theorems": [
    "C94_edit_partial",
    "C94_samp_num_refuted",
    "C94_out_of_range_refuted"
   ],
   "note": "Proved for files that hold only what the reader shows and the writer stores (the conditions of C62), layouts of integers, numbers that fit the field, and every field except SAMP_NUM of files with traces of different lengths. Refuted beyond: a smaller SAMP_NUM makes the writer write behind its buffer, a larger one stores samples of the trace before; a number that does not fit is stored modulo the size of the field."
  },
  {
   "property": "C95",
   "status": "partial",
   "theorems": [
    "C95_convert_partial",
    "C95_default_layout_partial",
    "C95_exact_partial",
    "C95_succeeds_partial",
    "C95_no_room_refuted",
    "C95_fixed_point_refuted",
    "C95_blank_refuted"
   ],
   "note": "Proved for SEG-D files of revision below 3 whose sample format is 8036, 8038, 8058, 8080, 9038, 9058 or 9080, read without layouts for header extensions: order, positions, header integers (C95_convert_partial, C95_default_layout_partial) and samples (exact when they are single precision numbers and the SEG-Y format is IEEE, C95_exact_partial); conditions for success (C95_succeeds_partial). Refuted: traces without room are undefined behaviour (C95_no_room_refuted), fixed point header values cannot be stored (C95_fixed_point_refuted), a blank binary header is undefined behaviour (C95_blank_refuted). Missing: revision 3, the other sample formats, fractional descale exponents."
  },
  {
   "property": "C96",
   "status": "partial",
   "theorems": [
    "C96_same_calls",
    "C96_refused_traces_partial",
    "C96_extension_refuted"
   ],
   "note": "Proved where a refused trace has what its header extensions need and there is memory for its samples, that is, it is refused for its trace header or for the number of channels. For all traces: a refused trace takes no channel, nothing in the file changes, and only the trace header and whole extension blocks can have been added (C98). Refuted without the condition: a missing or real value in an extension block is found after the trace header was written, which stays in the file and makes it unreadable."
  },
  {
   "property": "C97",
   "status": "partial",
   "theorems": [
    "C97_same_calls",
    "C97_persistent_partial",
    "C97_defined",
    "C97_lost_trace_refuted",
    "C97_endless_refuted",
    "C97_memory_refuted"
   ],
   "note": "Proved: such a client gets the traces of a client that stops, then only that exception again, and meets no undefined behaviour that the other would not meet, if memory suffices and no layout stores a real number as SCAN_TYPE_NUM, CH_SET_NUM or SAMP_NUM (both conditions needed, C97_memory_refuted); after an exception for the file every call throws, for all files, layouts and histories (C99). Refuted: a complete trace is lost when it is the last of its record and the next record's headers are damaged (C97_lost_trace_refuted); has_trace stays true for ever in a file cut inside a trace (C97_endless_refuted)."
  },
  {
   "property": "C98",
   "status": "proved",
   "theorems": [
    "C98_what_stays"
   ],
   "note": ""
  },
  {
   "property": "C99",
   "status": "proved",
   "theorems": [
    "C99_fail_stop"
   ],
   "note": ""
  },
  {
   "property": "C100",
   "status": "partial",
   "theorems": [
    "C100_alone_partial",
    "C100_defined_partial",
    "C100_shared_array_refuted"
   ],
   "note": "Proved for any interleaving if at most one writer has format 8015 or if the traces of such writers have a number of samples divisible by four, with and without exceptions, including that no undefined behaviour is added. Refuted otherwise: the samples of format 8015 are collected in static variables shared by all writers, so one writer's samples end up in another's file or overrun its buffer (C100_shared_array_refuted)."
  },
  {
   "property": "C101",
   "status": "partial",
   "theorems": [
    "C101_untouched_partial",
    "C101_existing_file_refuted"
   ],
   "note": "Proved: no other file changes, and if the operating system refuses to open the file nothing changes. Refuted for refused arguments: the constructor opens the file with truncation first, so a text header of 3199 characters, an unknown byte order or sample format destroys an existing file (C101_existing_file_refuted). What is left is C102."
  },
  {
   "property": "C102",
   "status": "proved",
   "theorems": [
    "C102_content"
   ],
   "note": ""
  },
  {
   "property": "C103",
   "status": "proved",
   "theorems": [
    "C103_layouts",
    "C103_returned",
    "C103_copy",
    "C103_type_error"
   ],
   "note": ""
  },
  {
   "property": "C104",
   "status": "partial",
   "theorems": [
    "C104_record_partial",
    "C104_additional_headers_refuted",
    "C104_announced_refuted"
   ],
   "note": "Proved for records without additional general headers and without extended and external headers, under the conditions of C42. Refuted for the others: additional general headers are refused with a RuntimeError because their class is registered without shared_ptr as holder (C104_additional_headers_refuted; that pybind11 does so is part of the trusted base), and announced extended or external headers cannot be given, so the constructor reads blocks that do not exist (C104_announced_refuted)."
  },
  {
   "property": "C105",
   "status": "partial",
   "theorems": [
    "C105_file",
    "C105_answers",
    "C105_room",
    "C105_silent_refuted",
    "C105_rev2_terminates_refuted"
   ],
   "note": "Proved: what is on the disk, for every behaviour of the buffer, and that a disk with room changes nothing (C105_file, C105_answers, C105_room). Refuted: that the program learns of the loss (with revisions 0 and 1 bytes still in the buffer when the writer ends are lost without an exception, C105_silent_refuted) and that it can go on (the destructor of OSEGYRev2 uses the failed stream, which ends the program, C105_rev2_terminates_refuted). The behaviour of std::basic_filebuf is part of the trusted base; failures while the constructor runs are in C108; disks that get room again are not described."
  },
  {
   "property": "C106",
   "status": "proved",
   "theorems": [
    "C106_disk_full",
    "C106_killed"
   ],
   "note": ""
  },
  {
   "property": "C107",
   "status": "partial",
   "theorems": [
    "C107_revision3_partial",
    "C107_old_revisions_refuted"
   ],
   "note": "Proved for revision 3 (C107_revision3_partial), with only the low byte of the filter delay and without the escape for the number of additional general headers (C53). Refuted for earlier revisions (C107_old_revisions_refuted): all accessors have a value, five times zero and a description of 27 characters that nobody has written."
  },
  {
   "property": "C108",
   "status": "proved",
   "theorems": [
    "C108_constructor",
    "C108_constructor_throws",
    "C108_room",
    "C108_disk_full",
    "C108_killed"
   ],
   "note": ""
  },
  {
   "property": "C109",
   "status": "partial",
   "theorems": [
    "C109_file",
    "C109_room",
    "C109_killed",
    "C109_read_partial",
    "C109_stopped_partial",
    "C109_silent_refuted"
   ],
   "note": "C109_file, C109_room and C109_killed hold for all arguments. The reader is proved for the records of C42 (C109_read_partial), also if only the first traces are written and others are refused in between before anything of them is stored (C109_stopped_partial); with several records in a file the claim is false, a complete last trace is lost when the headers behind it are cut (C97_lost_trace). Refuted (C109_silent_refuted): the destructor closes the stream and nobody sees that the bytes it kept have no room."
  },
  {
   "property": "C110",
   "status": "proved",
   "theorems": [
    "C110_segd",
    "C110_segy",
    "C110_segd_unbuffered"
   ],
   "note": ""
  }
 ]
}
