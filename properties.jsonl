{"id": "C01", "title": "Steim-1 compression is lossless", "statement": "Compressing 32-bit integer samples with Steim-1 into a buffer and decompressing the produced bytes with the sample count the encoder reported returns exactly that many leading input samples, bit for bit, in either byte order, whenever successive differences are representable in 32 bits. The bytes reported as written never exceed the buffer, are a whole number of 64-byte frames, and at least one sample is consumed for any buffer of one frame or more.", "quantifier": "for all non-empty lists of int32 samples whose successive differences fit int32, all buffer sizes >= 64, both byte orders, any initial difference that fits", "why_tests_cant": "The packing choice depends on every window of up to four differences and on frame boundaries; the space of sample sequences is unbounded and each frame position interacts with the constants stored in frame 0.", "anchors": ["libmseed/packdata.c:msr_encode_steim1", "libmseed/unpackdata.c:msr_decode_steim1"]}
{"id": "C02", "title": "Steim-2 compression is lossless or refused", "statement": "Compressing 32-bit integer samples with Steim-2 either reports an error (exactly because a difference that had to be stored does not fit in 30 bits) or produces frames that decompress, in either byte order, to exactly the reported number of leading input samples.", "quantifier": "for all non-empty lists of int32 samples with differences representable in int32, all buffer sizes >= 64, both byte orders", "why_tests_cant": "Seven packing widths interact with frame boundaries and look-ahead windows; unit tests cover a handful of series.", "anchors": ["libmseed/packdata.c:msr_encode_steim2", "libmseed/unpackdata.c:msr_decode_steim2"]}
{"id": "C03", "title": "Steim decoders are safe on arbitrary bytes", "statement": "Decompressing any byte string as Steim-1 or Steim-2 never reads outside the declared input, never writes more samples than requested, always terminates, and reports either the number of samples decoded (at most the number requested) or an error code; the result is a function of the input bytes only.", "quantifier": "for all byte strings (corrupt, truncated or hostile), all positive requested sample counts, output capacities and byte orders", "why_tests_cant": "The input space of a decompressor is every byte string; fuzzing samples it.", "anchors": ["libmseed/unpackdata.c:msr_decode_steim1", "libmseed/unpackdata.c:msr_decode_steim2"]}
{"id": "C04", "title": "Fixed-width encodings round-trip", "statement": "Writing samples as text, 16-bit integer, 32-bit integer, 32-bit float or 64-bit float and reading them back in the same byte order returns exactly the leading samples that fit in the buffer, with the reported count being the minimum of the number of samples and the number that fit; a sample that cannot be represented as a 16-bit integer makes the 16-bit encoder report an error instead of writing a wrong value.", "quantifier": "for all sample lists, all buffer sizes, both byte orders", "why_tests_cant": "All 2^32 or 2^64 sample values at all lengths and positions; tests check a few.", "anchors": ["libmseed/packdata.c:msr_encode_text", "libmseed/packdata.c:msr_encode_int16", "libmseed/packdata.c:msr_encode_int32", "libmseed/packdata.c:msr_encode_float32", "libmseed/packdata.c:msr_encode_float64", "libmseed/unpackdata.c:msr_decode_int16", "libmseed/unpackdata.c:msr_decode_int32", "libmseed/unpackdata.c:msr_decode_float32", "libmseed/unpackdata.c:msr_decode_float64"]}
{"id": "C05", "title": "Gain-ranged legacy encodings decode to mantissa times gain", "statement": "Every GEOSCOPE (24-bit, 16-bit with 3- or 4-bit gain), CDSN, SRO and DWWSSN data word decodes to the value its format defines: sign-corrected mantissa multiplied or divided by the power of two selected by its gain bits, and a series decodes position by position, independent of neighbouring words.", "quantifier": "for all 16-bit (24-bit) words and all series lengths, both byte orders", "why_tests_cant": "Each code has a large word space and an unbounded series; tests only check a few reference records.", "anchors": ["libmseed/unpackdata.c:msr_decode_geoscope", "libmseed/unpackdata.c:msr_decode_cdsn", "libmseed/unpackdata.c:msr_decode_sro", "libmseed/unpackdata.c:msr_decode_dwwssn"]}
{"id": "C06", "title": "The record checksum is CRC-32C", "statement": "The checksum routine computes the CRC-32C (Castagnoli, reflected, initial and final complement) of its input as defined by the bitwise polynomial division, independent of the alignment of the buffer and of how the slicing loops partition the input, and the checksum of a concatenation can be computed by chaining non-empty pieces.", "quantifier": "for all byte strings, all alignments of the buffer, all splits into pieces and all starting values", "why_tests_cant": "Depends on a 2048-entry table and three unrolled loops whose interaction with length and alignment modulo 4/8 is combinatorial.", "anchors": ["libmseed/crc32c.c:ms_crc32c", "libmseed/crc32c.c:s_crc_generic_align", "libmseed/crc32c.c:s_crc_generic_sb8", "libmseed/crc32c.c:s_crc_generic_sb4", "libmseed/crc32c.c:s_crc_generic_sb1"]}
{"id": "C07", "title": "The checksum detects every short burst of corruption", "statement": "Two byte strings of the same length that differ only within a window of at most 32 consecutive bits have different checksums, so a version 3 record damaged in such a window outside the checksum field is rejected when checksum validation is requested.", "quantifier": "for all byte strings, all positions and all non-zero 32-bit error patterns", "why_tests_cant": "There are astronomically many messages, positions and error patterns; this is an algebraic fact about the polynomial and the code computing it.", "anchors": ["libmseed/crc32c.c:ms_crc32c", "libmseed/unpack.c:msr3_unpack_mseed3"]}
{"id": "C08", "title": "Calendar and epoch nanoseconds are inverse", "statement": "Converting a calendar time (year, day-of-year, hour, minute, second, nanosecond) to an epoch nanosecond value and back returns the same calendar time, and converting an epoch value to calendar fields and back returns the same epoch value; the calendar fields produced are always in range.", "quantifier": "for all representable epoch values and all valid calendar times in the range covered by 64-bit nanoseconds", "why_tests_cant": "2^64 instants including every leap-year and century rule and negative (pre-1970) times with nanosecond borrow.", "anchors": ["libmseed/genutils.c:ms_nstime2time", "libmseed/genutils.c:ms_time2nstime", "libmseed/genutils.c:ms_time2nstime_int", "libmseed/gmtime64.c:ms_gmtime64_r"]}
{"id": "C09", "title": "Calendar conversion agrees with the proleptic Gregorian calendar", "statement": "The day number computed from year and day-of-year is the number of days since 1970-01-01 counted one day at a time with the Gregorian leap-year rule, and later calendar times always convert to later epoch values.", "quantifier": "for all years in the supported range, all days and times of day", "why_tests_cant": "Leap-year arithmetic with shifts and divisions over hundreds of years; order preservation is a relation over all pairs.", "anchors": ["libmseed/genutils.c:ms_time2nstime_int", "libmseed/genutils.c:LEAPYEAR"]}
{"id": "C10", "title": "Month/day and day-of-year conversions are inverse", "statement": "For every valid year, converting a valid month and day of month to day-of-year and back returns the same month and day, converting a valid day-of-year to month/day and back returns the same day-of-year, and inputs outside the calendar are rejected.", "quantifier": "for all years 1678..2262, all months, days and days-of-year, including invalid ones", "why_tests_cant": "All dates and all invalid combinations; off-by-one errors hide at leap-year boundaries.", "anchors": ["libmseed/genutils.c:ms_doy2md", "libmseed/genutils.c:ms_md2doy"]}
{"id": "C11", "title": "Printed times parse back to the same instant", "statement": "A time printed in any of the library's date-time formats with nanosecond resolution is parsed back to exactly the same nanosecond value, and with coarser resolution to the value truncated to that resolution.", "quantifier": "for all representable instants and all documented formats", "why_tests_cant": "All instants times formats times sub-second settings; the optional sub-second printing depends on the value.", "anchors": ["libmseed/genutils.c:ms_nstime2timestr", "libmseed/genutils.c:ms_timestr2nstime", "libmseed/genutils.c:ms_mdtimestr2nstime", "libmseed/genutils.c:ms_seedtimestr2nstime"]}
{"id": "C12", "title": "Source identifiers and network/station/location/channel codes convert back and forth", "statement": "Building a source identifier from network, station, location and channel codes and splitting it again returns the same codes, for codes made of characters allowed in them; the conversion never writes beyond the stated destination size.", "quantifier": "for all code strings without separators, and all destination sizes", "why_tests_cant": "All strings and all buffer sizes; truncation and separators are boundary cases.", "anchors": ["libmseed/genutils.c:ms_nslc2sid", "libmseed/genutils.c:ms_sid2nslc"]}
{"id": "C13", "title": "SEED and extended channel codes convert back and forth", "statement": "A three-character SEED channel converts to an extended channel and back unchanged, an extended channel that has a SEED form converts to it and back unchanged, and every other extended channel is refused rather than shortened.", "quantifier": "for all strings", "why_tests_cant": "Arbitrary channel strings; the refused class is infinite.", "anchors": ["libmseed/genutils.c:ms_xchan2seedchan", "libmseed/genutils.c:ms_seedchan2xchan"]}
{"id": "C14", "title": "Fixed-field string helpers copy exactly what they document", "statement": "The clean, tail-trimming and open (space padded) string copies produce the documented result: all spaces removed, trailing spaces removed, or padded with spaces to the width; they never read beyond the requested source length or the terminator, never write beyond the destination, and report the length of what was copied.", "quantifier": "for all strings and all lengths", "why_tests_cant": "Arbitrary strings with embedded, leading and trailing spaces and lengths including zero.", "anchors": ["libmseed/genutils.c:ms_strncpclean", "libmseed/genutils.c:ms_strncpcleantail", "libmseed/genutils.c:ms_strncpopen"]}
{"id": "C15", "title": "Command-line glob patterns mean what is documented", "statement": "A pattern given with -m or -r selects exactly the source identifiers containing a substring matched by the pattern, where * matches any run of characters, ? any one character, [set] and [^set] membership in a set of characters and ranges, \\c the character c, and any other character itself; matching always terminates.", "quantifier": "for all patterns and all identifier strings", "why_tests_cant": "Recursive backtracking over unbounded patterns and strings.", "anchors": ["src/msi.c:my_globmatch", "src/msi.c:processparam"]}
{"id": "C16", "title": "Selection patterns mean what is documented", "statement": "The library's data-selection patterns follow the same documented glob language as the command line ones, including that an escaped character matches only itself.", "quantifier": "for all patterns and all identifier strings", "why_tests_cant": "Recursive backtracking over unbounded patterns and strings.", "anchors": ["libmseed/selection.c:ms_globmatch"]}
{"id": "C17", "title": "A record is selected exactly when an entry matches its identifier, version and time", "statement": "Matching an identifier, time range and publication version against a selection list succeeds exactly when some entry's pattern matches the identifier, its version is zero or equal, and (it has no windows or) one of its time windows overlaps the range, unset bounds being open; adding a selection makes its own matches selected and never unselects anything.", "quantifier": "for all selection lists, identifiers, versions and time ranges", "why_tests_cant": "All lists of entries and windows, all open/closed bound combinations.", "anchors": ["libmseed/selection.c:ms3_matchselect", "libmseed/selection.c:ms3_addselect"]}
{"id": "C18", "title": "Start and end time limits keep exactly the overlapping records", "statement": "With -ts and/or -te a record is processed exactly when its time span from first to last sample reaches the start limit or later and begins at the end limit or earlier; records are otherwise unaffected, and an absent limit imposes nothing.", "quantifier": "for all record start/end times (start <= end) and all limits", "why_tests_cant": "All orderings of four time values including equalities.", "anchors": ["src/msi.c:main"]}
{"id": "C19", "title": "The count limit, totals and outputs of the inspector agree", "statement": "With any combination of limits and patterns, the records processed are exactly the first n (with -n n) of the records read, in input order over all files, that pass the filters; the printed record and sample totals are the count and sample sum of exactly those records; and the file written with -o is the concatenation of exactly those records' bytes.", "quantifier": "for all sequences of files and records, all filter settings and counts", "why_tests_cant": "Relates an unbounded stream of records and all option combinations to the output.", "anchors": ["src/msi.c:main"]}
{"id": "C20", "title": "List files contribute exactly their non-comment lines", "statement": "A list file adds one input file per line, in order, skipping empty lines and lines starting with '#', provided lines are shorter than the line buffer.", "quantifier": "for all list file contents", "why_tests_cant": "All file contents, including missing final newline and lines at the buffer limit.", "anchors": ["src/msi.c:addlistfile", "src/msi.c:addfile"]}
{"id": "C21", "title": "Option values are taken from the next argument only when it can be a value", "statement": "An option that needs a value consumes exactly the next argument when it exists and does not start with '-', with '-o -' and negative numbers for -gmin/-gmax as the only exceptions; otherwise the program stops with an error before processing anything.", "quantifier": "for all argument vectors", "why_tests_cant": "All argument vectors.", "anchors": ["src/msi.c:getoptval", "src/msi.c:lisnumber"]}
{"id": "C22", "title": "Version 3 record length detection is exact and prefix-stable", "statement": "For a buffer that begins with a version 3 record, the detected length is the fixed header plus identifier, extra header and payload lengths stated in the header, and the answer does not depend on any bytes after the fixed header.", "quantifier": "for all buffers of at least the fixed header size", "why_tests_cant": "All header contents including extreme length fields.", "anchors": ["libmseed/parseutils.c:ms3_detect"]}
{"id": "C23", "title": "Parsing asks for exactly the bytes it still needs", "statement": "Parsing a buffer holding only part of a version 3 record returns a positive hint equal to the number of missing bytes; supplying that many more bytes makes the same record parse, and parsing the complete record does not depend on bytes after it.", "quantifier": "for all version 3 records and all truncation points from the fixed header on", "why_tests_cant": "All truncation points of all records.", "anchors": ["libmseed/parseutils.c:msr3_parse", "libmseed/parseutils.c:ms3_detect"]}
{"id": "C24", "title": "A packed version 3 record parses back to the same header and samples", "statement": "Packing a record in format version 3 and parsing the result returns the same identifier, start time, sample rate, encoding, publication version, flags, extra headers, sample count and samples, with a valid checksum.", "quantifier": "for all records with valid field values and samples representable in the chosen encoding", "why_tests_cant": "Joint space of all header fields, identifiers, extra headers, encodings and sample values.", "anchors": ["libmseed/pack.c:msr3_pack_mseed3", "libmseed/pack.c:msr3_pack_header3", "libmseed/unpack.c:msr3_unpack_mseed3"]}
{"id": "C25", "title": "Packing neither loses, duplicates nor reorders samples", "statement": "Packing any series into records and concatenating the samples of the emitted records in order reproduces exactly the leading samples reported as packed; with the flush flag and sufficient record length all samples are packed; every emitted record is at most the requested record length and holds at least one sample.", "quantifier": "for all sample series, record lengths and encodings", "why_tests_cant": "Unbounded series lengths and all record-length/encoding combinations; the split points are data dependent.", "anchors": ["libmseed/pack.c:msr3_pack_mseed3", "libmseed/pack.c:msr_pack_data"]}
{"id": "C26", "title": "Records after the first start at the right time", "statement": "When a series is split over several records, each record's start time is the series start time advanced by the number of samples packed before it at the sample rate.", "quantifier": "for all series, rates and split points", "why_tests_cant": "All split points and rates; errors accumulate only in long series.", "anchors": ["libmseed/pack.c:msr3_pack_mseed3", "libmseed/pack.c:msr3_pack_mseed2", "libmseed/genutils.c:ms_sampletime"]}
{"id": "C27", "title": "Packing terminates", "statement": "Packing a series terminates for every input, and with the flush flag ends with every sample packed or an error.", "quantifier": "for all sample counts, encodings and record lengths", "why_tests_cant": "Termination is a liveness property over unbounded inputs.", "anchors": ["libmseed/pack.c:msr3_pack_mseed3", "libmseed/pack.c:msr_pack_data"]}
{"id": "C28", "title": "Trace list segments stay ordered and well formed", "statement": "After adding any sequence of records, with any tolerances and heal setting, each trace identifier's segments are linked consistently in both directions, sorted by start time (earlier first, longer first on ties), the stored segment count equals the number of segments, and the trace's earliest and latest times are the extremes of its segments.", "quantifier": "for all sequences of added records", "why_tests_cant": "An invariant of a pointer structure over all histories of insertions and merges.", "anchors": ["libmseed/tracelist.c:mstl3_addmsr_recordptr"]}
{"id": "C29", "title": "Trace list conserves samples and coverage", "statement": "After adding any sequence of records, the total sample count over all segments of an identifier equals the sum of the record sample counts, every record's time span is inside one segment of its identifier, and each segment's record list (when kept) contains exactly the records merged into it, in time order.", "quantifier": "for all sequences of added records", "why_tests_cant": "Quantifies over all insertion orders and merge patterns.", "anchors": ["libmseed/tracelist.c:mstl3_addmsr_recordptr", "libmseed/tracelist.c:mstl3_addmsrtoseg", "libmseed/tracelist.c:mstl3_addsegtoseg", "libmseed/tracelist.c:mstl3_add_recordptr"]}
{"id": "C30", "title": "Trace identifiers are kept unique and sorted", "statement": "After adding any sequence of records the trace list holds exactly one entry per distinct identifier (and publication version when versions are split), entries are enumerated in ascending order, and looking up an identifier finds its entry exactly when a record with it was added.", "quantifier": "for all sequences of added records and all outcomes of the random skip-list heights", "why_tests_cant": "Skip-list shape is randomised; correctness must hold for every shape.", "anchors": ["libmseed/tracelist.c:mstl3_findID", "libmseed/tracelist.c:mstl3_addID", "libmseed/tracelist.c:lm_random_height"]}
{"id": "C31", "title": "Continuous data merges into one segment in any order", "statement": "Records that tile a time interval exactly at one sample rate end up as a single segment covering the interval when healing is enabled, whatever the order in which they are added.", "quantifier": "for all record lists tiling an interval and all permutations of them", "why_tests_cant": "Factorially many orders.", "anchors": ["libmseed/tracelist.c:mstl3_addmsr_recordptr"]}
{"id": "C32", "title": "Sample rate tolerance joins similar rates only", "statement": "Records are considered the same rate exactly when the difference of their rates is within the tolerance the user supplies with -rt, or within 0.01% when none is supplied.", "quantifier": "for all pairs of rates and tolerances", "why_tests_cant": "All pairs of rates.", "anchors": ["libmseed/tracelist.c:IS_SAMPRATE_SIMILAR", "src/msi.c:samprate_callback"]}
{"id": "C33", "title": "The gap list reports every gap and overlap once", "statement": "The gap list contains exactly one line for each pair of consecutive segments of the same identifier, whose gap value is the start time of the later one minus the end time of the earlier one, filtered by the given minimum and maximum; an overlap is reported as a negative value whose magnitude never exceeds the time covered by the later segment.", "quantifier": "for all trace lists and filter limits", "why_tests_cant": "All segment configurations.", "anchors": ["libmseed/tracelist.c:mstl3_printgaplist"]}
{"id": "C34", "title": "Reading a file does not depend on how the operating system chunks it", "statement": "The sequence of records and the final status obtained by reading a stream of version 3 records do not depend on the sizes in which the input arrives.", "quantifier": "for all files and all schedules of read sizes", "why_tests_cant": "All schedules of short reads.", "anchors": ["libmseed/fileutils.c:ms3_readmsr_selection", "libmseed/fileutils.c:ms3_shift_msfp"]}
{"id": "C35", "title": "A file of records reads back completely and in order", "statement": "Reading a file that is a concatenation of valid version 3 records returns exactly those records, in order, each once, with their byte offsets, then end-of-file; with skipping enabled, bytes that cannot start a record between them do not lose or duplicate a record.", "quantifier": "for all lists of records and all interleaved non-record bytes that contain no record header", "why_tests_cant": "Unbounded sequences; buffer shifting happens at data-dependent offsets.", "anchors": ["libmseed/fileutils.c:ms3_readmsr_selection"]}
{"id": "C36", "title": "A byte range limits reading to records in it", "statement": "With a path suffix @start-end only records that start at or after the start offset and before the end offset are returned, and a path without a valid range suffix is used unchanged.", "quantifier": "for all paths, all ranges and all files", "why_tests_cant": "All strings and offsets.", "anchors": ["libmseed/fileutils.c:parse_pathname_range", "libmseed/fileutils.c:ms3_readmsr_selection"]}
{"id": "C37", "title": "Error messages are retained newest-first up to the configured number", "statement": "With message retention enabled, after any sequence of logged messages the registry holds exactly the most recent messages up to the configured maximum, emitting prints the newest requested number in the order they were logged and removes them, and logging never writes outside its message buffer.", "quantifier": "for all sequences of log, emit and clear operations", "why_tests_cant": "Histories of operations.", "anchors": ["libmseed/logging.c:rlog_int", "libmseed/logging.c:add_message_int", "libmseed/logging.c:ms_rlog_emit", "libmseed/logging.c:ms_rlog_free"]}
{"id": "C38", "title": "Version 2 blockette chains are walked safely", "statement": "Examining or parsing any version 2 record, however corrupt its blockette chain, terminates and never reads outside the record buffer.", "quantifier": "for all buffers that look like a version 2 header", "why_tests_cant": "Hostile chains.", "anchors": ["libmseed/parseutils.c:ms3_detect", "libmseed/unpack.c:msr3_unpack_mseed2"]}
{"id": "C39", "title": "Reading data never goes outside the record", "statement": "Unpacking the samples of any parsed record never reads outside the record bytes, whatever the header claims about sample count, data offset and encoding.", "quantifier": "for all parsed records", "why_tests_cant": "All inconsistent headers.", "anchors": ["libmseed/unpack.c:msr3_unpack_data", "libmseed/unpack.c:msr3_data_bounds", "libmseed/unpack.c:ms_decode_data"]}
{"id": "C40", "title": "Sample type conversion preserves values or reports loss", "statement": "Converting the samples of a segment between integer, float and double types yields the nearest representable value, and when precision would be lost and truncation was not allowed, reports an error and leaves the data unchanged.", "quantifier": "for all sample values and type pairs", "why_tests_cant": "All 2^64 values; rounding at negative values and ties.", "anchors": ["libmseed/tracelist.c:mstl3_convertsamples"]}
{"id": "C41", "title": "Leap seconds move record end times by whole seconds", "statement": "The time of the last sample of a record is the start time plus (samples - 1) sample periods, reduced by one second for each listed leap second inside the record, and unaffected when none is.", "quantifier": "for all leap second lists, start times, rates and sample counts", "why_tests_cant": "All combinations of lists and spans.", "anchors": ["libmseed/genutils.c:ms_sampletime", "libmseed/genutils.c:ms_readleapsecondfile"]}
{"id": "C42", "title": "Repacking a record keeps its data payload", "statement": "Repacking a parsed record's header as version 3 yields a record whose payload bytes and decoded samples are those of the original and whose checksum is valid, without writing beyond the given buffer.", "quantifier": "for all parsed records and buffer sizes", "why_tests_cant": "All headers and buffer sizes.", "anchors": ["libmseed/pack.c:msr3_repack_mseed3"]}
{"id": "C43", "title": "Parsing a version 2 record returns what its header states", "statement": "Parsing a well-formed version 2 record in either byte order, with any chain of blockettes, returns the identifier, start time with corrections, rate, flags, version, encoding, length, extra headers and uncompressed samples that its fixed header and blockettes state.", "quantifier": "for all headers, blockette chains, byte orders, dates and sample values", "why_tests_cant": "All chains of blockettes in every order, every date in both byte orders.", "anchors": ["libmseed/unpack.c:msr3_unpack_mseed2", "libmseed/parseutils.c:ms3_detect", "libmseed/parseutils.c:msr3_parse"]}
{"id": "C44", "title": "Version 2 records written from samples read back", "statement": "Packing samples as version 2 records yields records of the length asked for that parse, on hosts of either byte order, to the identifier, flags, encoding, rate and samples given and to the time of their first sample; together they hold the samples packed, in order, and with the flush flag all of them. The packer ends without a fault.", "quantifier": "for all identifiers, start times, rates, record lengths, encodings and sample values", "why_tests_cant": "All combinations of time, rate, encoding, record length and sample values; two byte orders.", "anchors": ["libmseed/pack.c:msr3_pack_mseed2", "libmseed/pack.c:msr3_pack_header2", "libmseed/unpack.c:msr3_unpack_mseed2"]}
{"id": "C45", "title": "Factor and multiplier represent the rate", "statement": "The factor and multiplier computed for a version 2 header represent the sample rate: exactly for zero, whole numbers of hertz or seconds up to 32767 and such numbers plus a unit fraction, for larger whole numbers exactly when they are a product of two factors that fit and otherwise to within one part in their square root; the computation ends without a fault.", "quantifier": "for all rates and periods, with the tolerances of the computation", "why_tests_cant": "All doubles: the search starts from an approximate inverse square root and a continued fraction in rounded arithmetic.", "anchors": ["libmseed/pack.c:ms_genfactmult", "libmseed/pack.c:ms_reduce_rate", "libmseed/pack.c:ms_ratapprox", "libmseed/pack.c:ms_rsqrt64"]}
{"id": "C46", "title": "Leap second files are read as written", "statement": "Reading a leap second list in NTP format replaces the list in use by the entries of the file in its order, converted to nanoseconds since 1970, and returns their number; comments of any length, empty lines and the date of expiry add nothing, reading ends without a fault for every file, and a file that cannot be read leaves the list in use alone.", "quantifier": "for all files, current times and lists in use", "why_tests_cant": "All files: lengths of lines relative to the buffer, spacing, comments, numbers near the limits.", "anchors": ["libmseed/genutils.c:ms_readleapsecondfile", "libmseed/genutils.c:ms_readleapseconds"]}
{"id": "C47", "title": "The trace summary shows every segment", "statement": "The printed trace list has, for every trace list entry in order, one line for each of its segments in time order, showing the identifier (with its version when asked for), start and end as texts that stand for these instants, sampling rate and count with the details option, and with the gaps option the gap to the segment before it (an overlap limited to what the segment covers, in days, hours or seconds; none for the first); the totals are the numbers of entries and lines.", "quantifier": "for all trace lists of well-formed entries, all options and time formats", "why_tests_cant": "All trace lists: numbers of entries and segments, rounding of every gap, all instants.", "anchors": ["libmseed/tracelist.c:mstl3_printtracelist"]}
{"id": "C48", "title": "The SYNC list shows every segment under its codes", "statement": "The SYNC list has, for every trace list entry in order, one line for each of its segments in time order, with the network, station, location and channel codes of the identifier of the entry, start and end times, rate, count and the date of the list, and making it has no fault.", "quantifier": "for all trace lists, dates, DCC names and sub-second options", "why_tests_cant": "All identifiers a record may carry: codes of any length, other namespaces, identifiers of other forms between usual ones.", "anchors": ["libmseed/tracelist.c:mstl3_printsynclist", "libmseed/genutils.c:ms_sid2nslc"]}
{"id": "C49", "title": "Hand-written dates are read as the instant they write", "statement": "A text in one of the calendar forms (year-month-day, year/month/day, year-day, year,day, with any trailing part of the time of day left out, numbers of any width, a fraction of a second and Z at the end) or a number of seconds since 1970 is read as the instant it writes; a text of such a form that names no day, a time of day out of range, a longer text and a text with any other character are refused.", "quantifier": "for all texts", "why_tests_cant": "All texts: widths of numbers, separators, omitted parts, fractions, every calendar date.", "anchors": ["libmseed/genutils.c:ms_timestr2nstime", "libmseed/genutils.c:ms_mdtimestr2nstime", "libmseed/genutils.c:ms_seedtimestr2nstime"]}
{"id": "C50", "title": "Selection files select what their lines ask for", "statement": "Reading a selection file adds, in the order of the file, one selection for each line of either documented form (identifier or four codes, with optional times and version) and returns their number; blank lines and comments add nothing, a record is selected by the list exactly when a line asks for it, and a line with a bad date or version or of neither form is refused.", "quantifier": "for all files, lists and records", "why_tests_cant": "All files: spacing, forms of dates, lengths of lines relative to the buffer, codes with patterns.", "anchors": ["libmseed/selection.c:ms3_readselectionsfile", "libmseed/selection.c:ms3_addselect_comp", "libmseed/selection.c:ms3_addselect"]}
{"id": "C51", "title": "A trace list is packed segment by segment", "statement": "Packing a trace list hands over, entry after entry and segment after segment, records that parse to the identifier, version, rate and samples of the segment with the time of their first sample, and returns the numbers of records and samples; with the flush flag every sample is in a record, otherwise those that do not fill a record stay in their segment with the time of the first of them, and with the maintain flag the list is unchanged. Samples added later are packed at their times, a segment that cannot be packed makes the call fail, and what the caller gave remains theirs.", "quantifier": "for all trace lists, options, leap second lists and memory contents, versions 2 and 3", "why_tests_cant": "All lists: numbers of entries and segments, lengths relative to records, rates, all histories of calls.", "anchors": ["libmseed/tracelist.c:mstl3_pack", "libmseed/pack.c:msr3_pack"]}
{"id": "C52", "title": "The dump of a version 3 record shows its header and counts its faults", "statement": "The raw dump of a version 3 record reads nothing outside of the record, refuses one that is too short for its header or its identifier, and otherwise returns the number of header rules that are broken, prints the fields of the header from the details level on and the extra headers as the text in the record except for space between its tokens, in lines that are indented by their depth; a record with lengths that do not fit is reported.", "quantifier": "for all byte sequences, record lengths, details levels and byte orders of the host", "why_tests_cant": "All byte sequences: every length of identifier and extra headers, all field values.", "anchors": ["libmseed/parseutils.c:ms_parse_raw3", "libmseed/extraheaders.c:mseh_print"]}
{"id": "C53", "title": "The dump of a version 2 record shows every blockette, counts the faults and ends", "statement": "The raw dump of a version 2 record ends, reads nothing outside of the record, prints the fields of the fixed header and of every blockette met in the order of the chain, each from its details level on and in the byte order of the record, and returns the number of rules broken by the header, the blockettes and the chain.", "quantifier": "for all byte sequences, record lengths, details levels, byte order flags and byte orders of the host", "why_tests_cant": "All byte sequences: chains of any shape, links that lead back or to themselves, blockettes at the end of the record.", "anchors": ["libmseed/parseutils.c:ms_parse_raw2"]}
{"id": "C54", "title": "A buffer of records is read into a trace list like a file", "statement": "Reading a buffer into a trace list adds exactly the selected records of the buffer, in order and with their samples if asked for, the same that reading the bytes as a file returns; it returns their number and makes, when a record list is asked for, an entry for each that points at the record and its payload; bytes that are no record end the reading with their error code, with the records before them in the list.", "quantifier": "for all version 3 records, buffers, selections, flags, tolerances and trace lists", "why_tests_cant": "All buffers: numbers and lengths of records, what follows them, selections, addresses.", "anchors": ["libmseed/tracelist.c:mstl3_readbuffer_selection", "libmseed/tracelist.c:mstl3_readbuffer"]}
{"id": "C55", "title": "Samples unpacked later from a record list are those unpacked while reading", "statement": "Unpacking the record list of a segment gives the samples of its records in order, whether they are in memory or in a file, and returns their number; for a buffer read with a record list these are the samples the segment has when they are unpacked while reading, and the rest of the list is the same; a buffer too small or a record that cannot be used is an error that leaves the segment as it was.", "quantifier": "for all segments, record lists, encodings, buffers and addresses", "why_tests_cant": "All record lists: encodings, places, addresses, numbers of samples, sizes of the output buffer.", "anchors": ["libmseed/tracelist.c:mstl3_unpack_recordlist", "libmseed/tracelist.c:mstl3_readbuffer_selection", "libmseed/unpack.c:msr3_unpack_data"]}
{"id": "C56", "title": "A file is read into a trace list, and its samples can be unpacked later", "statement": "Reading a path into a trace list adds exactly the selected records of the file it stands for (by name, by name behind file://, by standard input for a dash), in order and with their samples if asked for; a path that stands for nothing is an error that leaves the list as it was. With a time window these are the records that share an instant with it. With a record list there is an entry for each record at its place in the file; without unpacking the list is the same but for the samples, and these can be unpacked later from the file and are those that are unpacked while reading.", "quantifier": "for all paths, file systems, files of version 3 records, sizes of reads, selections, flags, tolerances and trace lists", "why_tests_cant": "All files and paths: numbers, lengths and places of records, bytes between them, how reads split them, selections.", "anchors": ["libmseed/fileutils.c:ms3_readtracelist_selection", "libmseed/fileutils.c:ms3_readtracelist_timewin", "libmseed/fileutils.c:ms3_readmsr_selection", "libmseed/msio.c:msio_fopen", "libmseed/tracelist.c:mstl3_unpack_recordlist"]}
{"id": "C57", "title": "A trace list written to a file is read back", "statement": "Writing a trace list puts behind what the file holds (or instead of it) the records of all segments, entry after entry, returns their number and leaves the list and the other files as they were; the records can be read and give the identifiers, versions, rates, times and all samples of the segments. Reading the file afterwards returns the records that were in it and then these. A single record structure is written likewise. A failure to write is reported, and standard output can be written to like a file.", "quantifier": "for all trace lists, options, paths, file systems, contents of the file and sizes of reads, version 3", "why_tests_cant": "All lists: numbers of entries and segments, lengths relative to records, encodings, what the file holds.", "anchors": ["libmseed/fileutils.c:mstl3_writemseed", "libmseed/fileutils.c:msr3_writemseed", "libmseed/fileutils.c:ms_record_handler_int", "libmseed/tracelist.c:mstl3_pack", "libmseed/fileutils.c:ms3_readtracelist_selection"]}
{"id": "C58", "title": "Channels with gaps are recovered from their records in any order", "statement": "Records of any number of channels, in each of which the records form stretches of data that are continuous in themselves and do not continue each other, give with healing one entry for each channel, in order, and in it one segment for each stretch, made of its records in time order, whatever the order in which the records are added; so two orders give the same list.", "quantifier": "for all sets of channels, stretches and records, all permutations of the records and all heights of new entries", "why_tests_cant": "Factorially many orders; records of all channels can arrive interleaved.", "anchors": ["libmseed/tracelist.c:mstl3_addmsr_recordptr", "libmseed/tracelist.c:mstl3_addID"]}
{"id": "C59", "title": "A trace list written to a file and read back is the same list", "statement": "A trace list whose entries have one sampling rate each and segments with samples, separated by more than one and a half sample periods and without leap seconds in them, is written to a file; the list read from this file has the same entries in the same order with the same segments: starts, samples, sample types and rates are the same, and the ends are those of the last samples up to a nanosecond and the rounding of doubles.", "quantifier": "for all such trace lists (any numbers of entries, segments and samples), record lengths, encodings, paths, file systems, leap second lists, sizes of reads and heights of new entries, version 3, rates of 1 to 200000 samples per second", "why_tests_cant": "Composes packing, writing, reading and adding for all lists; where records begin depends on lengths and encodings, and their times are rounded.", "anchors": ["libmseed/fileutils.c:mstl3_writemseed", "libmseed/fileutils.c:ms3_readtracelist_selection", "libmseed/tracelist.c:mstl3_pack", "libmseed/pack.c:msr3_pack_mseed3", "libmseed/tracelist.c:mstl3_addmsr_recordptr", "libmseed/genutils.c:ms_sampletime"]}
{"id": "C60", "title": "What the inspector prints of a record can be read back", "statement": "The line printed for a record has six fields, in which its identifier, version, length, number of samples and start time can be read; with details there is a line for each field of the header with its value, the name of the encoding, and a line for exactly the flags that are set. The samples printed are those of the record, six in a line, or the whole text on lines of its own; a record is printed as its offset, its header and its samples, and the offset is a word of its own.", "quantifier": "for all record structures with fields in range, levels of details, samples of all types and offsets", "why_tests_cant": "All field values and sample lists: numbers of all widths, flags, encodings, lengths of texts relative to the log buffer.", "anchors": ["libmseed/msrutils.c:msr3_print", "libmseed/lookup.c:ms_encodingstr", "libmseed/lookup.c:ms_samplesize", "src/msi.c:main"]}
{"id": "C61", "title": "The inspector's outputs are those of the first records that pass, and its copy gives them again", "statement": "Given files of records with right checksums, the inspector exits with 0 and processes exactly the first records, as many as asked for, of all that pass the filters, in the order of the files: it prints their texts and then the totals, copies their bytes to the -o file, puts their samples into the binary file and makes the trace list of them. A path that stands for nothing gives exit status 1, with the outputs of all before it. The -o file, given to the inspector with the same options, gives the same texts, samples, traces and copy. The totals count the files read.", "quantifier": "for all file systems, lists of paths, files of version 3 records with other bytes between them, sizes of reads, filters, counts, options and trace list settings", "why_tests_cant": "Composes reading, filtering, counting, unpacking, printing and tracing for all inputs; the interplay of the record count with several files and of offsets with skipped bytes is not sampled by tests.", "anchors": ["src/msi.c:main", "libmseed/fileutils.c:ms3_readmsr_r", "libmseed/msrutils.c:msr3_print", "libmseed/unpack.c:msr3_unpack_data", "libmseed/tracelist.c:mstl3_addmsr"]}
{"id": "C62", "title": "Extra headers are read and changed at their JSON Pointers, and nothing else changes", "statement": "A query of a record's extra headers gives the value at the path its pointer is written for, converted to the type asked for, and says whether there is none or one of another type. Setting a value, merging a patch (RFC 7386) or adding to an array changes the value at the path and makes the objects the path needs; every value at a path apart is as before, and a request that cannot be done changes nothing. Requests with a kept state act one after the other, and what is written at the end is the document they leave. A value set is found again. Entries for detections, calibrations, exceptions and recenterings have exactly the members their structures have values for.", "quantifier": "for all documents, pointers (with escapes, indices and errors), values, patches, sequences of requests, structures, readers and writers of JSON text", "why_tests_cant": "Documents, pointers and sequences of requests are unbounded; that nothing else changes is a statement about all other paths.", "anchors": ["libmseed/extraheaders.c:mseh_get_ptr_r", "libmseed/extraheaders.c:mseh_set_ptr_r", "libmseed/extraheaders.c:mseh_add_event_detection_r", "libmseed/extraheaders.c:mseh_add_calibration_r", "libmseed/extraheaders.c:mseh_add_timing_exception_r", "libmseed/extraheaders.c:mseh_add_recenter_r", "libmseed/extraheaders.c:mseh_serialize", "libmseed/extraheaders.c:mseh_replace", "libmseed/yyjson.c:unsafe_yyjson_mut_ptr_putx", "libmseed/yyjson.c:yyjson_mut_merge_patch"]}
{"id": "C63", "title": "A version 2 header states the extra headers of its record", "statement": "The version 2 header packed for a record with extra headers has the data quality, the flags and the time correction these state, and after blockettes 1000, 1001 (timing quality and microseconds) and 100 one blockette for each timing exception (500), event detection (200 or 201) and calibration (300, 310, 320 or 390, and 395 for its end), in their order, with the times, numbers and texts of its members; if they do not fit into the record, packing fails. The record reads back, on a host of either byte order, with the identifier, times, rate, flags, version and the extra headers these bits and blockettes stand for. Text that is not a document is refused.", "quantifier": "for all documents with times that are dates and numbers in range (any number of entries and members), record lengths, times, rates, flags, byte orders and contents of memory", "why_tests_cant": "Documents are unbounded and every member is optional; sizes of headers relative to record lengths, roundings and cut texts are not sampled by tests.", "anchors": ["libmseed/pack.c:msr3_pack_header2", "libmseed/pack.c:ms_timestr2btime", "libmseed/unpack.c:msr3_unpack_mseed2"]}
{"id": "C64", "title": "Version 2 records with extra headers read back as packed", "statement": "Packing samples with extra headers into version 2 records ends without a fault; every record has the length asked for and parses, on a host of either byte order, to the identifier, rate, flags and version given, the time of its first sample, the samples it was made of, and the extra headers its bits and blockettes stand for, the same in every record; together the records hold the samples packed, in order. Asked to flush, the packer packs all samples if the header leaves room for one sample or frame. A header that does not fit, or extra headers that are not a document, gives no record; without samples there is one record with a header.", "quantifier": "for all documents with times that are dates and numbers in range, samples of the integer encodings and text, record lengths, times, rates, byte orders and contents of memory; reading back compressed samples if the data begin before the middle of the record less half a frame, others in records of up to 65536 bytes", "why_tests_cant": "Sizes of headers relative to record lengths and frames, numbers of records and documents are unbounded; headers of an unusual size are rare in files.", "anchors": ["libmseed/pack.c:msr3_pack_mseed2", "libmseed/pack.c:msr3_pack_header2", "libmseed/unpack.c:msr3_unpack_mseed2", "libmseed/unpack.c:msr3_data_bounds"]}
{"id": "C65", "title": "The extra headers of a version 2 record state its flags and blockettes", "statement": "Reading a version 2 record, the calls that build its extra headers all succeed, and the document they leave has: true for each flag of the fixed header whose bit is set, the leap second (the negative one if both bits are set), the time correction in seconds if it is not zero, the timing quality of the last blockette 1001 and the clock model of the last blockette 500; lists with one entry for each event detection (200, 201), calibration (300, 310, 320, 390, 395) and timing exception (500) in the order of the chain, each with the members its blockette has values for; and nothing else. A record that states nothing has no extra headers, one with only a timing quality has the text of that, and otherwise the extra headers are the text of the document if it has at most 65535 bytes. After packing a document as version 2 and reading the record, the switches that are true are those that were, and the leap second has the sign it had.", "quantifier": "for all version 2 records with blockettes of the known types in any number and order, flags, corrections and texts, byte orders, readers of the timing quality text and writers of JSON text", "why_tests_cant": "Chains of blockettes are unbounded and every flag is independent; that nothing else is stated is about all other paths.", "anchors": ["libmseed/unpack.c:msr3_unpack_mseed2", "libmseed/extraheaders.c:mseh_set_ptr_r", "libmseed/extraheaders.c:mseh_add_event_detection_r", "libmseed/extraheaders.c:mseh_add_calibration_r", "libmseed/extraheaders.c:mseh_add_timing_exception_r", "libmseed/extraheaders.c:mseh_serialize"]}
{"id": "C66", "title": "Resizing gives back what is after the samples", "statement": "msr3_resize_buffer and mstl3_resize_buffers leave every buffer with exactly the bytes of its samples: the bytes after them are given back, the samples, their number and type are unchanged, and buffers without samples or without spare bytes are untouched; resizing again changes nothing. If the allocator refuses a request, an error is returned, the buffers before it are resized, those after it are untouched, and the one in question loses its samples.", "quantifier": "for all records and trace lists whose buffers have room for the samples they state, with any number of identifiers, segments and samples of any type, and every pattern of refused requests", "why_tests_cant": "Lists and sample counts are unbounded, and every one of the requests may be the one that is refused.", "anchors": ["libmseed/msrutils.c:msr3_resize_buffer", "libmseed/tracelist.c:mstl3_resize_buffers", "libmseed/lookup.c:ms_samplesize"]}
