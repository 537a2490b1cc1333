{
 "claims": [
  {
   "property": "C01",
   "status": "proved",
   "theorems": [
    "C01_steim1_lossless",
    "C01_full_range_refuted",
    "C01_small_buffer_refuted"
   ],
   "note": "For buffers of at least one frame. If overflow wraps, all int32 series; under strict C semantics differences must fit int32 (refuted otherwise). Buffers of 1..63 bytes dereference NULL when swapping (refuted)."
  },
  {
   "property": "C02",
   "status": "proved",
   "theorems": [
    "C02_steim2_lossless_or_refused"
   ],
   "note": "Same guards as C01; refusal exactly when a stored difference does not fit 30 bits."
  },
  {
   "property": "C03",
   "status": "proved",
   "theorems": [
    "C03_steim1_decoder_safe",
    "C03_steim2_decoder_safe",
    "C03_steim_decoders_ignore_tail",
    "C03_zero_count_refuted",
    "C03_hostile_overflow_refuted"
   ],
   "note": "Memory safety for all bytes and positive counts. Under strict C semantics signed overflow remains possible (refuted), as is a read before the output for a zero count."
  },
  {
   "property": "C04",
   "status": "partial",
   "theorems": [
    "C04_byte_swaps_reverse",
    "C04_int32_roundtrip",
    "C04_int16_roundtrip",
    "C04_float32_roundtrip",
    "C04_float64_roundtrip",
    "C04_text_roundtrip",
    "C04_int16_range_refuted"
   ],
   "note": "Round trips proved in full. The clause that the 16-bit encoder reports unrepresentable samples is false of the code (refuted with a witness)."
  },
  {
   "property": "C05",
   "status": "partial",
   "theorems": [
    "C05_cdsn",
    "C05_dwwssn",
    "C05_sro",
    "C05_sro_undefined_gain",
    "C05_geoscope_gain3",
    "C05_geoscope_gain4",
    "C05_geoscope24_big_endian",
    "C05_geoscope24_little_endian_refuted"
   ],
   "note": "Proved for every format in both byte orders except GEOSCOPE 24-bit little-endian data, where the code is wrong (refuted)."
  },
  {
   "property": "C06",
   "status": "proved",
   "theorems": [
    "C06_checksum_is_crc32c",
    "C06_crc32c_is_polynomial_division",
    "C06_remainder_unique",
    "C06_chaining",
    "C06_short_misaligned_refuted",
    "C06_short_misaligned_value_refuted",
    "C06_empty_piece_refuted"
   ],
   "note": "For every alignment provided the buffer holds at least the bytes up to the next 4-byte boundary; 1-2 byte misaligned buffers read out of bounds (refuted), which record checksums never hit."
  },
  {
   "property": "C07",
   "status": "partial",
   "theorems": [
    "C07_burst_detected",
    "C07_four_bytes_detected",
    "C07_record_rejected",
    "C07_parse_rejected",
    "C07_length_field_refuted"
   ],
   "note": "Algebraic fact, and rejection of the damaged record by the unpacker at its length, proved in full; through msr3_parse proved unless the signature or length fields are damaged, where a chosen continuation is accepted (refuted)."
  },
  {
   "property": "C08",
   "status": "partial",
   "theorems": [
    "C08_epoch_calendar_epoch",
    "C08_fields_in_range",
    "C08_calendar_epoch_calendar",
    "C08_calendar_representable",
    "C08_year_1677_refuted",
    "C08_year_2262_refuted",
    "C08_error_value_refuted"
   ],
   "note": "Proved from 1678 on and for calendar times before 2262-04-11T23:47:16.854775808. Epoch values in 1677 do not convert back, and later 2262 dates overflow although accepted (both refuted)."
  },
  {
   "property": "C09",
   "status": "partial",
   "theorems": [
    "C09_gregorian_days",
    "C09_all_days_counted",
    "C09_gmtime_is_counted_date",
    "C09_monotone",
    "C09_second_60_refuted"
   ],
   "note": "Proved for every date; monotonicity fails for second 60, which the code accepts (refuted)."
  },
  {
   "property": "C10",
   "status": "partial",
   "theorems": [
    "C10_md_doy_md",
    "C10_doy_md_doy",
    "C10_doy2md_calendar",
    "C10_doy2md_rejects",
    "C10_md2doy_rejects",
    "C10_day_zero_refuted"
   ],
   "note": "Both inverses proved; rejection of bad input proved except day-of-month 0, which the code accepts (refuted)."
  },
  {
   "property": "C11",
   "status": "partial",
   "theorems": [
    "C11_date_formats",
    "C11_month_day_parser",
    "C11_seed_parser",
    "C11_epoch_seconds",
    "C11_nanosecond_epoch_prints",
    "C11_doy_format_refuted",
    "C11_nanosecond_epoch_refuted",
    "C11_epoch_sign_refuted",
    "C11_epoch_year_refuted",
    "C11_epoch_micro_none_refuted",
    "C11_year_1677_refuted",
    "C11_negative_fraction_refuted"
   ],
   "note": "Proved for the date-time formats from 1678 on and for epoch seconds outside the stated corner cases; the day-of-year formats, nanosecond epochs, small negative and four-digit epoch seconds do not read back (refuted)."
  },
  {
   "property": "C12",
   "status": "partial",
   "theorems": [
    "C12_build",
    "C12_split",
    "C12_build_split",
    "C12_split_safe",
    "C12_record_identifier",
    "C12_synclist_buffers_refuted"
   ],
   "note": "Round trip and bounds proved. ms_sid2nslc has no destination sizes; it is proved safe for destinations larger than the identifier, and refuted for the 11-byte buffers of mstl3_printsynclist."
  },
  {
   "property": "C13",
   "status": "proved",
   "theorems": [
    "C13_seed_to_extended",
    "C13_seed_refused",
    "C13_extended_to_seed",
    "C13_extended_to_seed_in_place",
    "C13_extended_refused",
    "C13_round_trips"
   ],
   "note": ""
  },
  {
   "property": "C14",
   "status": "partial",
   "theorems": [
    "C14_length",
    "C14_clean",
    "C14_cleantail",
    "C14_open",
    "C14_open_null",
    "C14_overread_refuted"
   ],
   "note": "Results and bounds proved when the source has a byte after the requested length or a terminator; without one the code reads one byte too far (refuted)."
  },
  {
   "property": "C15",
   "status": "proved",
   "theorems": [
    "C15_contains",
    "C15_whole",
    "C15_safe"
   ],
   "note": "Patterns of the documented language have the documented meaning; every text terminates in bounds."
  },
  {
   "property": "C16",
   "status": "partial",
   "theorems": [
    "C16_whole",
    "C16_escape_any",
    "C16_safe",
    "C16_escape_refuted",
    "C16_dangling_refuted"
   ],
   "note": "Documented meaning proved for patterns without escapes; an escaped character matches anything (refuted), and a pattern ending in [^ is read past its end (refuted)."
  },
  {
   "property": "C17",
   "status": "partial",
   "theorems": [
    "C17_match",
    "C17_any_range_partial",
    "C17_add",
    "C17_build",
    "C17_open_range_refuted",
    "C17_long_pattern_refuted",
    "C17_unrestricted_refuted"
   ],
   "note": "Proved for closed ranges and patterns of up to 99 characters; refuted for ranges with one open bound, longer patterns, and entries without windows not made by ms3_addselect."
  },
  {
   "property": "C18",
   "status": "proved",
   "theorems": [
    "C18_limits",
    "C18_filters"
   ],
   "note": ""
  },
  {
   "property": "C19",
   "status": "proved",
   "theorems": [
    "C19_run"
   ],
   "note": "Reader failures included: what was processed before the failure is described too. Totals assumed below 2^63."
  },
  {
   "property": "C20",
   "status": "proved",
   "theorems": [
    "C20_list",
    "C20_total",
    "C20_long_line_refuted"
   ],
   "note": "The refuted theorem shows the proviso on line length is needed."
  },
  {
   "property": "C21",
   "status": "partial",
   "theorems": [
    "C21_arguments",
    "C21_value",
    "C21_negative_fraction_refuted",
    "C21_binary_stdout_refuted"
   ],
   "note": "Whole argument loop proved (build without URL support); negative fractions are refused and a lone hyphen accepted for -gmin/-gmax, and -b - is never accepted (refuted)."
  },
  {
   "property": "C22",
   "status": "partial",
   "theorems": [
    "C22_detected_length",
    "C22_prefix_stable",
    "C22_exact",
    "C22_wrap_refuted",
    "C22_big_endian_host_refuted"
   ],
   "note": "Proved on little-endian hosts, exact for every supported record; the 32-bit sum wraps for extreme fields and big-endian hosts do not swap the fields (refuted)."
  },
  {
   "property": "C23",
   "status": "proved",
   "theorems": [
    "C23_hint",
    "C23_tail",
    "C23_complete",
    "C23_below_fixed_header_refuted"
   ],
   "note": "Little-endian host. Below the fixed header no hint is given (refuted, outside the quantifier)."
  },
  {
   "property": "C24",
   "status": "partial",
   "theorems": [
    "C24_roundtrip",
    "C24_rate",
    "C24_no_samples",
    "C24_low_rate_refuted",
    "C24_no_samples_encoding_refuted",
    "C24_start_time_refuted",
    "C24_extra_zero_refuted"
   ],
   "note": "Any packing host, little-endian reader, series split over any number of records. Guards: rate outside (0,1), start time from 1678 and not the error value, no zero byte in identifier and extra headers; each exclusion is refuted by a witness."
  },
  {
   "property": "C25",
   "status": "proved",
   "theorems": [
    "C25_samples",
    "C25_flush"
   ],
   "note": "Version 3 records, same guards as C24 for reading back; storable and compressible as in C01/C02."
  },
  {
   "property": "C27",
   "status": "partial",
   "theorems": [
    "C27_terminates",
    "C27_terminates_refuted"
   ],
   "note": "Terminates below 2^32 samples; refuted at 2^32 samples with the flush flag. Version 3 records."
  },
  {
   "property": "C26",
   "status": "partial",
   "theorems": [
    "C26_start",
    "C26_exact"
   ],
   "note": "Version 3 records (the version 2 packer is not covered). Finite nonzero rates, series up to 2^61 ns starting after 1902; to the nearest nanosecond up to double rounding, exact for whole nanoseconds below 2^48."
  },
  {
   "property": "C41",
   "status": "partial",
   "theorems": [
    "C41_file",
    "C41_endtime",
    "C41_unaffected",
    "C41_exact",
    "C41_no_rate",
    "C41_two_leap_seconds_refuted"
   ],
   "note": "At most one leap second inside; with two only one second is taken off (refuted). Spans up to 2^61 ns, times between 1823 and 2116. Reading of the leap second file is C46; C41_file joins both."
  },
  {
   "property": "C28",
   "status": "partial",
   "theorems": [
    "C28_segments_well_formed",
    "C28_extremes_partial",
    "C28_default_narrow",
    "C28_defined",
    "C28_added",
    "C28_extremes_refuted"
   ],
   "note": "Links, order and count proved for all records, tolerances and heal settings. Extremes proved when time tolerances do not exceed the sample period (the default never does, for ordinary records); refuted for larger ones, where a segment can shrink. Counts are modulo 2^32."
  },
  {
   "property": "C29",
   "status": "partial",
   "theorems": [
    "C29_conserved_partial",
    "C29_coverage_refuted"
   ],
   "note": "Totals and record lists proved for all records; coverage proved when time tolerances do not exceed the sample period, refuted for larger ones."
  },
  {
   "property": "C30",
   "status": "partial",
   "theorems": [
    "C30_unique_sorted_partial",
    "C30_lookup",
    "C30_heights",
    "C30_version_0_refuted"
   ],
   "note": "For all heights. Records of version 0, when versions are kept apart, get no entry of their own (refuted)."
  },
  {
   "property": "C31",
   "status": "partial",
   "theorems": [
    "C31_tiling_partial",
    "C31_tiling_any_tolerance_partial",
    "C31_rate_tolerance_refuted"
   ],
   "note": "Default tolerances and positive rates, tiling exactly or up to a quarter of the sample period; refuted when a rate tolerance is supplied."
  },
  {
   "property": "C32",
   "status": "partial",
   "theorems": [
    "C32_default_tolerance_partial",
    "C32_joined",
    "C32_supplied_tolerance_refuted",
    "C32_same_rate_refuted"
   ],
   "note": "Default tolerance proved up to rounding (1e-14); a supplied tolerance works the wrong way round (refuted for all rates)."
  },
  {
   "property": "C33",
   "status": "partial",
   "theorems": [
    "C33_lines_partial",
    "C33_records_partial",
    "C33_gap",
    "C33_overlap",
    "C33_no_rate_refuted"
   ],
   "note": "Proved for all trace lists with times inside 64 bits and finite rates, values up to double rounding (relative 2^-50); pairs whose first segment has no sampling rate get no line (refuted). The %f and %g conversions of the values are not modelled."
  },
  {
   "property": "C34",
   "status": "partial",
   "theorems": [
    "C34_reference_partial",
    "C34_chunking_partial",
    "C34_range_status_refuted",
    "C34_unpacking_refuted",
    "C34_overflow_refuted"
   ],
   "note": "Little-endian hosts, files without version 2 headers. Independence refuted for the status after an empty byte range and for unpacking records whose data are misplaced; a length overflow makes reading leave the buffer."
  },
  {
   "property": "C35",
   "status": "partial",
   "theorems": [
    "C35_records_partial",
    "C35_empty_refuted"
   ],
   "note": "Little-endian hosts, records whose samples decode at any address. A file without records gives not-SEED, not end-of-file (refuted)."
  },
  {
   "property": "C36",
   "status": "partial",
   "theorems": [
    "C36_suffix",
    "C36_range_partial",
    "C36_unchanged_partial",
    "C36_zero_end_refuted",
    "C36_large_start_refuted",
    "C36_large_end_refuted",
    "C36_bare_suffix_refuted",
    "C36_long_path_refuted"
   ],
   "note": "Proved for offsets below 2^63 (the end not 0 and not 2^63-1) and paths below 512 bytes; the rest refuted."
  },
  {
   "property": "C37",
   "status": "partial",
   "theorems": [
    "C37_histories_partial",
    "C37_newest_partial",
    "C37_emit",
    "C37_clear",
    "C37_direct",
    "C37_long_message",
    "C37_long_refuted",
    "C37_empty_refuted",
    "C37_counter_refuted",
    "C37_lowered_refuted",
    "C37_memory_refuted"
   ],
   "note": "Proved for all histories of log, emit, clear and set calls in which retained messages have 1 to 200 bytes and fewer than 2^31 are logged. Refuted: longer and empty retained messages access the byte outside the buffer, the counter overflows, lowering the maximum does not trim, custom allocators are freed with free."
  },
  {
   "property": "C39",
   "status": "partial",
   "theorems": [
    "C39_inside_partial",
    "C39_compressed",
    "C39_outside",
    "C39_record_partial",
    "C39_deferred_partial",
    "C39_count_refuted",
    "C39_truncated_refuted",
    "C39_offset_refuted"
   ],
   "note": "Exactly when the samples stated fit in the bytes available to the decoder; the decoders of fixed-width encodings do not check, so a count beyond the payload, a payload of more than 64 KiB that is copied, and a version 2 data offset beyond the record read outside (refuted)."
  },
  {
   "property": "C42",
   "status": "partial",
   "theorems": [
    "C42_record_partial",
    "C42_samples_partial",
    "C42_samples3_partial",
    "C42_room",
    "C42_overflow_refuted",
    "C42_order_refuted",
    "C42_encoding_refuted",
    "C42_frames_refuted",
    "C42_truncated_refuted"
   ],
   "note": "Proved for buffers with room for the identifier as well: header fields, valid checksum, bytes taken over, nothing beyond written; samples when the payload is in version 3 byte order and Steim padding is at the end. Refuted: overflow by the identifier length, big-endian payloads, unspecified encodings, frames dropped, sizes modulo 2^16."
  },
  {
   "property": "C40",
   "status": "partial",
   "theorems": [
    "C40_int_double",
    "C40_float_double",
    "C40_int_float",
    "C40_double_float",
    "C40_to_int_partial",
    "C40_text",
    "C40_negative_refuted",
    "C40_fraction_refuted",
    "C40_unchanged_refuted",
    "C40_silent_refuted",
    "C40_half_refuted",
    "C40_range_refuted"
   ],
   "note": "Conversions to float and double proved nearest for all patterns; to integer for non-negative samples that fit. Refuted: negative samples, negative fractions undetected, samples overwritten before an error, unreported loss to float, the double below one half, samples out of range."
  },
  {
   "property": "C38",
   "status": "partial",
   "theorems": [
    "C38_terminates",
    "C38_detect_extent",
    "C38_extent",
    "C38_extent_of",
    "C38_detect_partial",
    "C38_unpack_partial",
    "C38_parse_partial",
    "C38_extent_exact_refuted",
    "C38_outside_refuted",
    "C38_data_refuted",
    "C38_detect_refuted",
    "C38_other_refuted"
   ],
   "note": "Termination proved for every buffer. Reads stay within 193 bytes after the buffer for header parsing, 4 for detection, and within the buffer when every blockette the links lead to is in it (and the samples fit). Refuted: cut-off blockettes, links to the end, texts filling the record, data offsets and lengths beyond it; also shifts and writes that are undefined."
  },
  {
   "property": "C43",
   "status": "partial",
   "theorems": [
    "C43_header_partial",
    "C43_samples_partial",
    "C43_parse_partial",
    "C43_order_partial",
    "C43_order_refuted",
    "C43_year_refuted",
    "C43_length_refuted",
    "C43_fraction_refuted"
   ],
   "note": "Proved for all well-formed headers and chains of the thirteen known blockettes, uncompressed samples below 64 KiB, and every date of 1900-2100 except three days of 2056 in the other byte order. Refuted: those days, years outside 1900-2100 in the host order, two blockettes 1000 that differ, fractions of a second out of range. Missing: compressed samples (decoders are C06-C10)."
  },
  {
   "property": "C44",
   "status": "partial",
   "theorems": [
    "C44_roundtrip_partial",
    "C44_everything",
    "C44_no_fault",
    "C44_no_samples_partial",
    "C44_length",
    "C44_later_times_refuted",
    "C44_first_time_refuted",
    "C44_quality_refuted",
    "C44_steim_refuted",
    "C44_date_refuted",
    "C44_text_refuted"
   ],
   "note": "Round trip proved for all packable samples, lengths and dates that a version 2 header can hold and that are recognized, without extra headers, with the time that is stored (microseconds of the first record) and the rate within 0.0001 Hz or the nearest float. Refuted: times of later records (microseconds of the first are kept), nanoseconds and publication versions, a quality of 0 appears, Steim records of 256 bytes with blockette 100 only are not parsed, dates not recognized, long text not packed. Missing: extra headers, samples of fixed size in records above 64 KiB. Faults in the computation of the factors are C45."
  },
  {
   "property": "C45",
   "status": "partial",
   "theorems": [
    "C45_whole",
    "C45_whole_period",
    "C45_large_partial",
    "C45_large_period_partial",
    "C45_fraction",
    "C45_fraction_period",
    "C45_zero",
    "C45_direct",
    "C45_conversion_refuted",
    "C45_square_refuted",
    "C45_range_refuted",
    "C45_limit_refuted",
    "C45_overflow_refuted"
   ],
   "note": "Proved with the rounding of every operation, including the approximate inverse square root: whole numbers of hertz and seconds, products of two different factors, unit fractions 1/2 to 1/30. Refuted: squares of a prime (76729 Hz), the largest rates are refused, 16383.5 Hz, int overflow in the search for a fraction, rates of 2^31 Hz and more. Missing: other fractions, periods above 2^28 s."
  },
  {
   "property": "C46",
   "status": "partial",
   "theorems": [
    "C46_file",
    "C46_ends",
    "C46_unreadable",
    "C46_error_refuted",
    "C46_long_comment_refuted",
    "C46_overflow_refuted"
   ],
   "note": "Proved for files whose lines have at most 198 characters and whose numbers give times in 64 bits. Refuted: longer comments, an error while reading (the list in use is dropped), numbers out of range."
  },
  {
   "property": "C47",
   "status": "partial",
   "theorems": [
    "C47_lines",
    "C47_records",
    "C47_epoch_refuted"
   ],
   "note": "Proved for all lists of well-formed entries with times in 1844-2096 and finite rates, all options, below 2^31 lines; the texts of the times read back as the instants in the formats with a date. Refuted in the epoch format: the sign of a time in the second before 1970 is lost. Missing: the texts made by %f and %g."
  },
  {
   "property": "C48",
   "status": "partial",
   "theorems": [
    "C48_lines",
    "C48_stale_codes_refuted",
    "C48_overflow_refuted"
   ],
   "note": "Proved for identifiers made of codes of at most ten characters. Refuted: an identifier of another form is listed under the codes of the entry before it, codes of eleven characters overflow the arrays. Missing: the text made by %g."
  },
  {
   "property": "C49",
   "status": "partial",
   "theorems": [
    "C49_dates",
    "C49_rejects",
    "C49_seconds",
    "C49_foreign",
    "C49_comma_fraction_refuted",
    "C49_day_zero_refuted",
    "C49_long_fraction_refuted",
    "C49_overflow_refuted",
    "C49_sign_refuted"
   ],
   "note": "Proved for all texts of the forms, their fractions of at most nine digits. Refuted: a fraction after a comma is dropped, day zero of a month is taken for the last day of the month before, a fraction that rounds to a whole second is refused, numbers over 2^31 and times past the end of the range overflow, the sign of times less than a second before 1970 is lost."
  },
  {
   "property": "C50",
   "status": "partial",
   "theorems": [
    "C50_file",
    "C50_selects",
    "C50_stops",
    "C50_neither",
    "C50_bad_date_refuted",
    "C50_unknown_line_refuted",
    "C50_long_line_refuted",
    "C50_channel_set_refuted",
    "C50_version_text_refuted",
    "C50_fraction_sign_refuted"
   ],
   "note": "Proved for files whose lines have at most 198 characters, dates of the forms of C49 and fewer than 2^31 lines; a version over 255 is refused. Refuted: bad dates and 1902-01-01 are taken as open bounds, lines of neither form are counted, a long comment can add a selection, channels with a set are not extended, a version that is no number turns dates into codes, a fraction with a sign is undefined."
  },
  {
   "property": "C51",
   "status": "partial",
   "theorems": [
    "C51_packed",
    "C51_packed_2",
    "C51_maintained",
    "C51_failure_refuted",
    "C51_next_start_refuted",
    "C51_again_refuted",
    "C51_earliest_refuted",
    "C51_extra_refuted"
   ],
   "note": "Proved for lists whose segments can be packed: positive rates that are doubles, spans of at most 73 years, samples of the type of the encoding, fewer than 65536 per segment and no extra headers for version 2. Refuted: a segment that fails counts as -1 records and no error is returned, samples added after everything was packed are dated one period early, another call gives records without samples, the earliest time of an entry is not advanced, the extra headers of the caller are freed."
  },
  {
   "property": "C52",
   "status": "partial",
   "theorems": [
    "C52_dump",
    "C52_null",
    "C52_layout",
    "C52_escape_refuted",
    "C52_lengths_refuted",
    "C52_deep_refuted",
    "C52_identifier_refuted"
   ],
   "note": "Proved for all byte sequences in which every quote in the extra headers begins or ends a string and which are nested to a depth of at most 93; the indentation of the lines is proved too. Refuted: brackets nested more deeply are lost, and an identifier is cut after 189 characters, as messages have at most 199; a quote escaped by a backslash, after which space gets into the string; lengths of extra headers and data that do not fit are not reported."
  },
  {
   "property": "C53",
   "status": "partial",
   "theorems": [
    "C53_dump",
    "C53_short",
    "C53_refused",
    "C53_visits",
    "C53_safe",
    "C53_ends",
    "C53_extent",
    "C53_endless_refuted",
    "C53_read_refuted",
    "C53_extent_refuted",
    "C53_precision_refuted",
    "C53_shift_refuted",
    "C53_count_refuted",
    "C53_no_1000_refuted",
    "C53_swapflag_refuted"
   ],
   "note": "Proved for records whose blockettes are inside; it is characterised exactly which records make the dump loop for ever, and that reads go at most 193 bytes past the end at levels 0 and 1. Of the text of an opaque blockette the first 169 characters are shown. Refuted: a record the library accepts makes the dump loop for ever; reads past the end; faults that are not counted or counted without being there; the byte order flag 1 is ignored."
  },
  {
   "property": "C54",
   "status": "partial",
   "theorems": [
    "C54_records",
    "C54_file",
    "C54_stops",
    "C54_last_record_refuted"
   ],
   "note": "Proved for version 3 records on a little-endian host, as records that can be read (C35) and can be added (C28). Refuted: a record of 40 bytes at the end of the buffer is not read. Which records are selected and the settings of the list (healing always on) are those of the model's b_selected and b_conf, which the theorems use and do not restate."
  },
  {
   "property": "C55",
   "status": "partial",
   "theorems": [
    "C55_unpacked",
    "C55_small",
    "C55_unusable",
    "C55_deferred",
    "C55_same_samples",
    "C55_byte_order_refuted",
    "C55_alignment_refuted",
    "C55_first_type_refuted",
    "C55_no_encoding_refuted"
   ],
   "note": "Proved for fewer than 2^60 samples of one type, a known encoding in the first record, payloads swapped if headers are, and integer payloads aligned where the host needs it; same_samples for records with samples. Refuted without each of these. The bit patterns of floats decoded from GEOSCOPE data are the model's float_bits, which no theorem restates."
  },
  {
   "property": "C56",
   "status": "partial",
   "theorems": [
    "C56_records",
    "C56_window",
    "C56_reading",
    "C56_nothing",
    "C56_deferred",
    "C56_same_samples",
    "C56_path_refuted"
   ],
   "note": "Proved for files of version 3 records that can be read (C35) on a little-endian host (C56_reading: any file, without a record list). Refuted: the samples of a path with a byte range, of a path with file:// and of standard input cannot be unpacked later."
  },
  {
   "property": "C57",
   "status": "partial",
   "theorems": [
    "C57_written",
    "C57_stdout",
    "C57_read_back",
    "C57_record",
    "C57_unopened",
    "C57_failed_write_refuted",
    "C57_stdout_twice_refuted"
   ],
   "note": "Proved for version 3 and lists whose segments can be packed (as C51), when every write takes all of its record. Refuted: a failed write is not reported and counted as written, standard output is closed by the call."
  },
  {
   "property": "C58",
   "status": "proved",
   "theorems": [
    "C58_channels",
    "C58_any_tolerance",
    "C58_order"
   ],
   "note": "Default tolerances, records of a channel at one rate, stretches tiled up to a quarter of the sample period and not continuing each other by less than about half of it; C58_any_tolerance for other tolerances. Strict arithmetic."
  },
  {
   "property": "C59",
   "status": "proved",
   "theorems": [
    "C59_back",
    "C59_leap_refuted"
   ],
   "note": "Version 3, default tolerances, strict arithmetic on a little-endian host, segments of at most 18 years that start between 1902 and 2046, a file that is empty before. The refuted theorem shows that the condition on leap seconds is needed: a segment with a leap second in it can come back as two."
  },
  {
   "property": "C60",
   "status": "partial",
   "theorems": [
    "C60_summary",
    "C60_details",
    "C60_flags",
    "C60_encodings",
    "C60_integers",
    "C60_floats",
    "C60_text",
    "C60_record",
    "C60_text_newline_refuted",
    "C60_text_nul_refuted",
    "C60_offset_refuted"
   ],
   "note": "Proved with the texts of %g as arguments that are plain numbers, identifiers without commas, times from 1678 on. Refuted: a text whose length is a multiple of 199 is not ended by a newline, a text with a zero character is cut, an offset of ten digits or more is not separated from the identifier."
  },
  {
   "property": "C61",
   "status": "partial",
   "theorems": [
    "C61_run",
    "C61_stop",
    "C61_enough",
    "C61_again",
    "C61_files_refuted"
   ],
   "note": "Version 3 records, little-endian host; without -L and -r, messages on standard error and the reports on the trace list (C33, C47, C48 for these). The additions to the trace list are assumed to succeed, and the texts of %g are arguments. Refuted: the totals count paths that are not opened any more once there are enough records."
  },
  {
   "property": "C62",
   "status": "partial",
   "theorems": [
    "C62_get",
    "C62_set",
    "C62_session",
    "C62_empty",
    "C62_new",
    "C62_again",
    "C62_merge",
    "C62_entry",
    "C62_replace",
    "C62_int_refuted",
    "C62_silent_refuted",
    "C62_state_refuted",
    "C62_zero_refuted"
   ],
   "note": "Reading and writing JSON text are arguments, allocation does not fail, keys of patches are distinct. Refuted: an integer of more than 32 bits is given with its low 32 bits, a change whose text is too long is reported as done, a query with a kept state finds nothing set for a record that had no extra headers, a text asked for with size 0 is written beyond its memory."
  },
  {
   "property": "C63",
   "status": "partial",
   "theorems": [
    "C63_header",
    "C63_read",
    "C63_switches",
    "C63_refused",
    "C63_snr_refuted",
    "C63_wave_refuted",
    "C63_abort_refuted",
    "C63_correction_refuted",
    "C63_duration_refuted",
    "C63_exception_refuted",
    "C63_pick_refuted"
   ],
   "note": "The header as packed, without samples; reading JSON text is an argument. Reading back is for headers of less than 65536 bytes and a record length, exceptions without type and clock status, and texts that do not end in a space; what reads back is stated as bits and blockettes and the requests for extra headers they give rise to. Refuted: more than six numbers of MEDSNR are written over what follows and beyond the record, a wave of a generic detection is lost and appears where there is none, an abort as read is refused on packing, negative corrections are not rounded, a negative duration is undefined behaviour, the type of an exception is written beyond its array when read back, a pick algorithm of 255 is dropped."
  },
  {
   "property": "C64",
   "status": "partial",
   "theorems": [
    "C64_roundtrip",
    "C64_everything",
    "C64_no_samples",
    "C64_refused",
    "C64_frames_refuted"
   ],
   "note": "Reading JSON text is an argument and the times of later records are an argument (ms_sampletime is C45). Encodings as in C44 (fixed-size samples and Steim, no more than 65535 samples in a record). Reading back has the conditions of C63 on the document. Refuted: compressed samples behind a blockette that contains 64 zeros in a row at the place of a frame are packed and the record is refused when read, because frames of zeros are looked for from the beginning of the record."
  },
  {
   "property": "C66",
   "status": "proved",
   "theorems": [
    "C66_record",
    "C66_record_failure",
    "C66_list",
    "C66_again",
    "C66_kept_refuted",
    "C66_room_refuted"
   ],
   "note": "Buffers with room for the samples stated; without it the size wraps at 64 bits (refuted). On refusal the buffer in question loses its samples: its pointer is overwritten (refuted that they are kept)."
  },
  {
   "property": "C65",
   "status": "proved",
   "theorems": [
    "C65_document",
    "C65_accepted",
    "C65_units",
    "C65_record",
    "C65_packed"
   ],
   "note": "Records whose length a blockette 1000 states, without samples or with uncompressed ones, as in C43. Reading JSON text is an argument that reads the text of a timing quality, writing an argument. If the document cannot be written in 65535 bytes the extra headers are dropped but for a timing quality stated first. C65_packed states the switches and the leap second; times, amplitudes and texts come back as C63 says of the blockettes."
  }
 ]
}