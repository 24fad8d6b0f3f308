{"id": "C01", "title": "BCD encode/decode round trip", "statement": "Encoding a non-negative integer with to_bcd<num, skip_first> and decoding the produced bytes with from_bcd of the same digit count and alignment returns the same integer, and both calls advance their pointers by the same number of bytes, whenever the value has at most num decimal digits (with skip_first, provided the half byte that receives the first digit is zero before the call).", "quantifier": "every digit count 1..12, both alignments, every 4- or 8-byte non-negative value below 10^num, every previous buffer content", "why_tests_cant": "10^12 values times alignments and prior buffer contents; the double-dabble loop must be right for every bit pattern", "anchors": ["include/util.hpp: to_bcd, from_bcd"]}
{"id": "C02", "title": "BCD encoding truncates to the low digits and touches only its own nibbles", "statement": "to_bcd<num> stores exactly the num low-order decimal digits of a non-negative value, most significant first; with skip_first the high nibble of the first byte is kept; bytes before and after the touched span are unchanged.", "quantifier": "every digit count 1..12, alignment, non-negative value of the type, buffer content", "why_tests_cant": "frame conditions and truncation range over all values and all surrounding bytes", "anchors": ["include/util.hpp: to_bcd"]}
{"id": "C03", "title": "BCD decoding is positional and consumes the right number of bytes", "statement": "from_bcd<num, skip_first> returns the base-10 positional value of the num nibbles starting at the high (or low) nibble, for any nibble values including A-F, and advances the pointer by (num+skip_first)/2 bytes.", "quantifier": "every digit count, alignment and every byte content", "why_tests_cant": "all 256^7 buffers; non-decimal nibbles such as FF are used as escape values by SEG-D", "anchors": ["include/util.hpp: from_bcd"]}
{"id": "C04", "title": "Raw integer codecs invert each other in both byte orders", "statement": "For every integer width 8, 16, 32, 64, signed or unsigned, and every supported endianness value, writing a value through the SEG-Y writer and reading it through the SEG-Y reader yields the value modulo its width, and the bytes are those of the big-endian (marker 0 and 0x04030201) or little-endian (marker 0x01020304) representation. (24 bits: C82.)", "quantifier": "every value of every width, both byte orders, both operand evaluation orders of the compiler", "why_tests_cant": "2^64 values per codec, and the 24-bit readers depend on an unspecified evaluation order that a test on one compiler cannot cover", "anchors": ["include/util.hpp: read, write, swap", "src/ISEGY.cpp: assign_raw_readers", "src/OSEGY.cpp: assign_raw_writers"]}
{"id": "C05", "title": "EBCDIC/ASCII conversion never loses text", "statement": "Converting any string from ASCII to EBCDIC and back, or from EBCDIC to ASCII and back, returns the original string, and the length is kept.", "quantifier": "every byte string of every length", "why_tests_cant": "every byte sequence; equivalently that two 256-entry tables are inverse permutations", "anchors": ["src/CommonSEGY.cpp: ascii_to_ebcdic, ebcdic_to_ascii, e2a, a2e"]}
{"id": "C06", "title": "IBM float decoding is exact", "statement": "Decoding any 32-bit IBM hexadecimal float gives a finite double whose real value is exactly (-1)^s * fraction/2^24 * 16^(exponent-64).", "quantifier": "all 2^32 words, both byte orders", "why_tests_cant": "exactness over 2^32 words in real arithmetic, with the zero-fraction and extreme exponent cases", "anchors": ["src/ISEGY.cpp: assign_raw_readers (dbl_from_ibm_float)"]}
{"id": "C07", "title": "IBM float encoding error bound and round trip", "statement": "Writing a double in sample format 1 and reading it back returns the value truncated toward zero to the 24-bit hexadecimal fraction of its magnitude: relative error below 2^-20, never larger in magnitude, sign kept; normalised IBM values come back bit-identical; zero comes back as zero.", "quantifier": "every double with magnitude in [16^-65, 16^63), every normalised IBM word, zero; every libm log that yields the right hexadecimal exponent", "why_tests_cant": "2^64 doubles; correctness depends on libm log near powers of 16 and on converting log(0) to an unsigned integer", "anchors": ["src/OSEGY.cpp: assign_raw_writers (write_ibm_float)", "src/ISEGY.cpp: dbl_from_ibm_float"]}
{"id": "C08", "title": "IEEE samples survive write and read", "statement": "A double written in format 6 comes back bit-identical; a double written in format 5 comes back as the nearest binary32 value (ties to even); any value that is representable as binary32 comes back unchanged.", "quantifier": "all 2^64 double bit patterns, all 2^32 single bit patterns, both byte orders", "why_tests_cant": "exhaustive over 2^64 bit patterns including subnormals, infinities and NaNs", "anchors": ["src/OSEGY.cpp: write_IEEE_float, write_IEEE_double", "src/ISEGY.cpp: dbl_from_IEEE_float, dbl_from_IEEE_double"]}
{"id": "C09", "title": "Integer sample formats survive write and read", "statement": "A trace sample that is an integer inside the range of the integer sample format (2,3,7,8,9,10,11,12,15,16) is read back as the same double.", "quantifier": "every integer of every format's range (up to 2^53 for the 64-bit formats), both byte orders", "why_tests_cant": "ranges up to 2^53 and negative values go through a double-to-unsigned conversion the language leaves undefined", "anchors": ["src/OSEGY.cpp: assign_sample_writer", "src/ISEGY.cpp: assign_sample_reader"]}
{"id": "C10", "title": "Sample format dispatch agrees between reader and writer", "statement": "Reader and writer accept exactly the same format codes {1,2,3,5,6,7,8,9,10,11,12,15,16} and use the same number of bytes per sample for each; every other code is refused with an exception before any sample is processed.", "quantifier": "every 16-bit format code, every sample", "why_tests_cant": "needs all 65536 codes and, for each, every sample value", "anchors": ["src/ISEGY.cpp: assign_sample_reader, assign_bytes_per_sample", "src/OSEGY.cpp: assign_sample_writer, assign_bytes_per_sample"]}
{"id": "C11", "title": "Accepted trace header layouts are safe", "statement": "If a reader or writer object is constructed successfully with a user-supplied trace header layout, then all fields of the layout lie inside the 240-byte header and do not overlap, so no access leaves the header buffer.", "quantifier": "every layout (any number of header maps, offsets, types)", "why_tests_cant": "quantifies over every layout; the single-entry and the 2^32 wrap-around cases are easily missed", "anchors": ["src/CommonSEGY.cpp: check_tr_hdr_map"]}
{"id": "C12", "title": "Valid trace header layouts are accepted", "statement": "A layout with 8-character names, in-bounds, non-overlapping fields and a consistent additional header count is never rejected; the built-in default layout is such a layout.", "quantifier": "every valid layout", "why_tests_cant": "completeness over all layouts", "anchors": ["src/CommonSEGY.cpp: check_tr_hdr_map, default_trace_header"]}
{"id": "C13", "title": "Trace header fields round trip through the header block", "statement": "Writing a trace header under an accepted layout and reading it back yields for each integer field of the layout the value set by the user (reduced to the field width), zero for fields the user did not set, and nothing for names outside the layout; bytes not covered by any field are zero.", "quantifier": "every safe layout with distinct names, every header content, both byte orders", "why_tests_cant": "non-interference between fields must hold for all layouts and contents", "anchors": ["src/OSEGY.cpp: write_trace_header", "src/ISEGY.cpp: read_trc_header"]}
{"id": "C14", "title": "Floating-point trace header fields round trip", "statement": "A header field declared with type ieee_double, ieee_single or ibm that holds a floating-point value can be written and read back.", "quantifier": "every layout with a floating-point field and every double value of it", "why_tests_cant": "the claim ranges over all values and layouts", "anchors": ["src/OSEGY.cpp: write_trace_header, write_additional_trace_headers", "src/ISEGY.cpp: read_trc_header"]}
{"id": "C15", "title": "Binary header round trip", "statement": "A binary header with byte order marker 0 or 0x01020304 written by any SEG-Y writer is returned unchanged by the reader (fields beyond revision 1 only when the stored major revision is above 1); all other bytes of the 400-byte block are zero. (Marker 0x04030201: C84.)", "quantifier": "every binary header record (43 fields), endianness 0, 0x01020304 and 0x04030201", "why_tests_cant": "43 fields with up to 64 bits each and three byte-order markers", "anchors": ["src/OSEGY.cpp: write_bin_header", "src/ISEGY.cpp: fill_bin_header"]}
{"id": "C16", "title": "Revision 0 file round trip", "statement": "Any sequence of traces written with OSEGYRev0 is read back by ISEGY: the same number of traces in the same order, each with the header fields of the layout and each with its samples as represented in the sample format; has_trace is true before each trace and false after the last; the text header is returned unchanged.", "quantifier": "every text header, binary header, layout, and every finite sequence of traces that fits the declared sample count", "why_tests_cant": "unbounded histories of write_trace calls and all contents", "anchors": ["src/OSEGYRev0.cpp", "src/OSEGY.cpp", "src/ISEGY.cpp"]}
{"id": "C17", "title": "Revision 1 file round trip, fixed and variable length", "statement": "Any sequence of traces written with OSEGYRev1, in fixed or variable trace length mode, with any number of extended text headers announced in the binary header, is read back by ISEGY unchanged and in order; a header that names no revision stands for traces of equal length. (Headers that do not say what is written: C87.)", "quantifier": "every list of text headers, binary header, layout and every finite trace sequence with arbitrary lengths", "why_tests_cant": "unbounded histories; each trace may have a different length", "anchors": ["src/OSEGYRev1.cpp", "src/OSEGY.cpp", "src/ISEGY.cpp"]}
{"id": "C18", "title": "Revision 2 file round trip", "statement": "Any sequence of traces written with OSEGYRev2 is read back by ISEGY unchanged and in order, including additional trace headers and trailer stanzas.", "quantifier": "every list of text headers and stanzas, binary header, layout list, and every finite trace sequence", "why_tests_cant": "unbounded histories, additional headers, destructor behaviour", "anchors": ["src/OSEGYRev2.cpp", "src/OSEGY.cpp", "src/ISEGY.cpp"]}
{"id": "C19", "title": "Written file layout", "statement": "After writing n traces the file is exactly 3200 + 400 + 3200*(extended text headers) bytes of preamble followed by n records, record k being the 240-byte header(s) of trace k and its samples; the file size is the sum of those sizes.", "quantifier": "every number and content of traces, all three revisions", "why_tests_cant": "sizes and positions for unbounded trace sequences", "anchors": ["src/OSEGY.cpp", "src/OSEGYRev0.cpp", "src/OSEGYRev1.cpp", "src/OSEGYRev2.cpp"]}
{"id": "C20", "title": "Writing a trace only appends", "statement": "write_trace never changes any byte of a previously written trace or text header; the only bytes before the end of file it can change are the 400 bytes of the binary header, and only while the first trace is written.", "quantifier": "every history of write_trace calls on every revision's writer", "why_tests_cant": "invariant over arbitrary call histories", "anchors": ["src/OSEGYRev0.cpp: write_trace", "src/OSEGYRev1.cpp: write_trace", "src/OSEGYRev2.cpp: write_trace"]}
{"id": "C21", "title": "Samples of one trace never leak into another", "statement": "The samples returned for a trace depend only on the samples that were passed to write_trace for that trace: in fixed-length mode a shorter trace is padded with zeros and a longer one is refused.", "quantifier": "every trace sequence in fixed-length mode, every sample count", "why_tests_cant": "depends on the history of a reused buffer; every pair of consecutive traces matters", "anchors": ["src/OSEGY.cpp: write_trace_samples_fix, write_trace_samples_var"]}
{"id": "C22", "title": "read_header and read_trace advance identically", "statement": "At any reachable point at which read_trace would return a trace, read_header returns its header and leaves the reader at the same position, so the two can be mixed freely.", "quantifier": "every file content and every interleaving of read_header and read_trace calls", "why_tests_cant": "all files, all interleavings; the two functions compute the skip differently", "anchors": ["src/ISEGY.cpp: read_header, read_trace"]}
{"id": "C23", "title": "Reading loops terminate", "statement": "For every file that can be opened, the loop while(has_trace()) read_trace() (or read_header()) ends after finitely many steps, by reaching the end or by an exception. (Opening: C77.)", "quantifier": "every file content and binary header override", "why_tests_cant": "termination on arbitrary, possibly hostile, files cannot be tested", "anchors": ["src/ISEGY.cpp: has_trace, read_trace, read_header, read_trc_header"]}
{"id": "C24", "title": "Truncated files are reported, never silently misread", "statement": "If a file without trailer stanzas, whose trace header blocks all have a layout, ends inside a trace, reading reports all complete traces unchanged and then raises an exception for the partial one; no partial trace is returned. If it ends inside the text and binary headers the constructor throws. (Blocks without layout: C88.)", "quantifier": "every file and every truncation point", "why_tests_cant": "every crash/truncation point of every file", "anchors": ["src/ISEGY.cpp: fill_buf_from_file, read_trace, has_trace"]}
{"id": "C25", "title": "Extended text headers are read completely", "statement": "With a declared count n >= 0 exactly n further 3200-byte headers are returned in order and the trace data starts right after them; with -1 headers are read up to and including the first one starting with ((SEG: EndText)).", "quantifier": "every count and every header content", "why_tests_cant": "unbounded number of headers and content; sentinel search", "anchors": ["src/ISEGY.cpp: read_ext_text_headers"]}
{"id": "C26", "title": "Trailer stanzas are read back", "statement": "A file whose binary header announces n trailer stanzas and which ends with n 3200-byte stanzas opens successfully, returns those stanzas and ends the trace data before them.", "quantifier": "every n and every stanza content", "why_tests_cant": "all counts, including negative ones and the variable (-1) case", "anchors": ["src/ISEGY.cpp: read_trailer_stanzas", "src/OSEGYRev2.cpp: destructor", "src/OSEGY.cpp: write_trailer_stanzas"]}
{"id": "C27", "title": "Binary header override is honoured", "statement": "An ISEGY opened with a caller-supplied binary header uses the caller's values (sample count, format, revision, header counts) and not those in the file, except the endianness marker, which always comes from the file.", "quantifier": "every supplied header and every file content", "why_tests_cant": "independence of all bytes of the file's binary header", "anchors": ["src/ISEGY.cpp: initialization, fill_bin_header"]}
{"id": "C28", "title": "Unsupported byte order is refused", "statement": "Opening a file whose endianness marker is not 0, 0x01020304 or 0x04030201, or creating a writer with such a marker, raises an exception.", "quantifier": "every 32-bit marker, every rest of file", "why_tests_cant": "2^32 markers", "anchors": ["src/ISEGY.cpp: assign_raw_readers", "src/OSEGY.cpp: assign_raw_writers"]}
{"id": "C29", "title": "Reading arbitrary bytes is memory safe", "statement": "With a safe trace header layout, opening any byte sequence as SEG-Y and reading any number of traces never performs undefined behaviour: every call returns or throws.", "quantifier": "every file content of every length, every number of calls", "why_tests_cant": "hostile inputs; signed overflow and buffer bounds over all files", "anchors": ["src/ISEGY.cpp"]}
{"id": "C30", "title": "Text header size is enforced", "statement": "A writer given a text header (or stanza) that is not exactly 3200 bytes throws. (Default text: C79.)", "quantifier": "every text header string of every length", "why_tests_cant": "all lengths and contents", "anchors": ["src/OSEGYRev0.cpp", "src/OSEGYRev1.cpp", "src/OSEGYRev2.cpp", "src/CommonSEGY.cpp: default_text_header"]}
{"id": "C31", "title": "Sorted reader enumerates a stable sorted permutation", "statement": "ISEGYSorted1D returns every trace of the file exactly once, in non-decreasing order of the chosen header, and traces with equal keys in file order.", "quantifier": "every file, every header name present in all traces", "why_tests_cant": "all files with arbitrarily many traces and key distributions", "anchors": ["src/ISEGYSorted1D.cpp: Impl, has_trace, read_trace, read_header"]}
{"id": "C32", "title": "Sorted reader key queries", "statement": "get_keys returns the strictly increasing list of distinct keys; get_traces(v, n) and get_headers(v, n) return the first n traces with key v in file order (all of them when n is at least their number), and calling them does not disturb the sorted iteration.", "quantifier": "every file, key, limit, and every interleaving with read_trace", "why_tests_cant": "all interleavings of queries and iteration", "anchors": ["src/ISEGYSorted1D.cpp: get_keys, get_headers, get_traces"]}
{"id": "C33", "title": "Sorted reader reports a missing key header", "statement": "Constructing ISEGYSorted1D with a header name that is absent from a trace raises an exception. (Empty files: C78.)", "quantifier": "every file and header name", "why_tests_cant": "all files", "anchors": ["src/ISEGYSorted1D.cpp: Impl"]}
{"id": "C34", "title": "Trace header is a map", "statement": "After any sequence of set calls, get returns the last value set for the key (or nothing), keys lists each key exactly once, and other keys are unaffected.", "quantifier": "every sequence of operations and every key", "why_tests_cant": "operation histories of any length", "anchors": ["src/Trace.cpp: Header::get, set, keys"]}
{"id": "C35", "title": "Traces and headers have value semantics", "statement": "Copies of a Trace or Header are independent: after any sequence of construction, copy, assignment, self-assignment and mutation, each object shows exactly the mutations applied to it.", "quantifier": "every program over a finite set of objects", "why_tests_cant": "all operation sequences with aliasing", "anchors": ["src/Trace.cpp: copy/move constructors and assignment operators"]}
{"id": "C36", "title": "SEG-D general header 1 round trip", "statement": "General header block 1 written by OSEGDRev2_1 is decoded by ISEGD to the same values, for all field values in range (file number and other counts above the BCD range are replaced by the FF escape). (Decoding of arbitrary blocks: C74.)", "quantifier": "every general header record in range", "why_tests_cant": "24 packed BCD/nibble fields over their whole ranges", "anchors": ["src/OSEGD.cpp: write_general_header1", "src/ISEGD.cpp: read_gen_hdr1"]}
{"id": "C37", "title": "SEG-D general header 2 and N round trip", "statement": "General header block 2 and every further general header block written by OSEGDRev2_1 is decoded by ISEGD to the same values.", "quantifier": "every general header 2 and general header N in range, any number of blocks", "why_tests_cant": "fixed-point source coordinates over 2^40 values, any number of blocks", "anchors": ["src/OSEGD.cpp: write_general_header2_rev2, write_general_headerN", "src/ISEGD.cpp: read_gen_hdr2_rev2, read_rev2_add_gen_hdr_blks"]}
{"id": "C38", "title": "SEG-D channel set header round trip", "statement": "A channel set header written by OSEGDRev2_1 is decoded by ISEGD to the same values.", "quantifier": "every channel set header in range", "why_tests_cant": "packed BCD, nibble and sign-magnitude fields over their ranges", "anchors": ["src/OSEGD.cpp: write_ch_set_hdr", "src/ISEGD.cpp: read_ch_set_hdr"]}
{"id": "C39", "title": "SEG-D trace header round trip", "statement": "The 20-byte demux trace header written for a trace is decoded to the same FFID, scan type, channel set, channel number, timing word, skew, edit code, time break and extension count.", "quantifier": "every header content in range, including extended file and channel-set numbers", "why_tests_cant": "escape encodings (FFFF, FF) and fixed point over whole ranges", "anchors": ["src/OSEGD.cpp: write_trace_header", "src/ISEGD.cpp: read_trace_header"]}
{"id": "C40", "title": "SEG-D trace header extensions are written and read safely", "statement": "Writing and reading trace header extension blocks stays inside the library's buffers and round-trips the values of the layout.", "quantifier": "every layout and header content, any number of extensions", "why_tests_cant": "buffer bounds over all layouts", "anchors": ["src/OSEGD.cpp: write_ext_trace_headers", "src/ISEGD.cpp: read_trace_header_ext"]}
{"id": "C41", "title": "SEG-D sample formats decode correctly", "statement": "For each SEG-D format code accepted by the library, sample words decode to the value defined by the format and samples written by the SEG-D writer are read back equal. (Other codes: C80.)", "quantifier": "all sample words of all accepted format codes", "why_tests_cant": "2^8 to 2^64 words per format, block formats with shared exponents", "anchors": ["src/ISEGD.cpp: assign_sample_reading", "src/OSEGD.cpp: assign_sample_writers"]}
{"id": "C42", "title": "SEG-D revision 2.1 file round trip", "statement": "A record written with OSEGDRev2_1 (general headers, channel set headers, skew/extended/external blocks and all traces) is read back by ISEGD with equal headers, traces in order and has_trace false exactly after the last.", "quantifier": "every set of headers and every trace content with the declared number of channels", "why_tests_cant": "unbounded number of channel sets, channels, samples", "anchors": ["src/OSEGDRev2_1.cpp", "src/OSEGD.cpp", "src/ISEGD.cpp"]}
{"id": "C43", "title": "SEG-D record and trace cursor", "statement": "In a file of several records, has_trace is true exactly while channels of the current record remain, the number of traces of a record is the sum of the channel counts of its channel set headers, and has_record is false exactly at the end of the file.", "quantifier": "every well-formed multi-record file", "why_tests_cant": "any number of records and channels", "anchors": ["src/ISEGD.cpp: read_trace, has_trace, has_record, read_headers_before_traces"]}
{"id": "C44", "title": "SEG-D writer enforces the declared channel count", "statement": "OSEGDRev2_1 accepts exactly as many traces as the channel set headers declare and throws for every further one. (Tables that do not match: C81.)", "quantifier": "every set of channel set headers and every call history", "why_tests_cant": "call histories of any length and uninitialised state", "anchors": ["src/OSEGD.cpp: OSEGD", "src/OSEGDRev2_1.cpp: write_trace"]}
{"id": "C45", "title": "SEG-D variable block counts", "statement": "The numbers of channel sets, skew, extended and external header blocks of a record are taken from general header 1, or from general header 2 when the BCD field holds the FF escape.", "quantifier": "every general header 1 and 2", "why_tests_cant": "all escape combinations", "anchors": ["src/ISEGD.cpp: read_headers_before_traces"]}
{"id": "C46", "title": "SEG-D channel set sample count", "statement": "A SEG-D trace without a header extension carrying the sample count is read with the number of samples implied by its channel set header.", "quantifier": "every channel set header of revision below 3", "why_tests_cant": "all channel set headers", "anchors": ["src/ISEGD.cpp: read_trace_samples, read_ch_set_hdr", "src/CommonSEGD.cpp: ChannelSetHeader"]}
{"id": "C47", "title": "Exceptions carry their message", "statement": "what() of an exception thrown by the library gives file, line and message, also after the exception object was moved. (Copies: C83.)", "quantifier": "every file name, line number and message, any number of moves and copies", "why_tests_cant": "all messages and copy histories; a copy made by catch-by-value or exception_ptr is rarely exercised", "anchors": ["src/Exception.cpp"]}
{"id": "C48", "title": "Opening and reading a SEG-D file never runs into undefined behaviour", "statement": "Opening an arbitrary byte string as a SEG-D file either gives a reader or throws; it never reads or writes outside the library's buffers and performs no undefined conversion. The same holds for reading its traces.", "quantifier": "every byte string", "why_tests_cant": "arbitrary damaged files", "anchors": ["src/ISEGD.cpp: read_headers_before_traces, read_trace"]}
{"id": "C49", "title": "Headers shown for a SEG-D record come from that record", "statement": "After the last trace of a record has been read from a file of several records, the general headers, channel set headers, extended and external blocks given by the reader are those of the next record; nothing of the previous record is shown as part of it.", "quantifier": "every file and every reachable state of the reader", "why_tests_cant": "needs every pair of consecutive records with different optional blocks", "anchors": ["src/ISEGD.cpp: read_trace, read_headers_before_traces, read_general_headers"]}
{"id": "C50", "title": "Sercel trace header extension layouts", "statement": "A SEG-D file opened with one of the library's Sercel layouts (or with any layouts whose fields are disjoint, lie inside their blocks and have distinct names, and which keep SAMP_NUM at its standard place) shows for every trace the trace header words, the value of every field of every extension block and nothing else, and the same samples as without layouts; reading never leaves the library's buffers.", "quantifier": "every file of revision below 3, every state of the reader, every number of extension blocks, all admissible layouts", "why_tests_cant": "three tables of some 50 fields each, 256 block counts, arbitrary bytes and reader histories", "anchors": ["src/CommonSEGD.cpp: sercel_428xl, sercel_428, sercel_408", "src/ISEGD.cpp: read_trace_header_ext, read_trace_samples"]}
{"id": "C51", "title": "General headers of SEG-D revision 3", "statement": "After opening a SEG-D revision 3 file the general headers 1, 2 and 3 given by the reader hold the values the standard defines for their bytes.", "quantifier": "every byte string of revision 3 that opens", "why_tests_cant": "arbitrary header bytes", "anchors": ["src/ISEGD.cpp: read_gen_hdr2_and_3, read_general_headers"]}
{"id": "C52", "title": "Additional general header blocks of SEG-D revision 3", "statement": "For every kind of additional general header block of revision 3 (vibrator, explosive, airgun, position, client, coordinate system, ... blocks) the reader gives the values of the blocks of that kind in the file, and nothing if the file has none.", "quantifier": "every byte string of revision 3 that opens, all block kinds, any number and order of blocks", "why_tests_cant": "some 25 block layouts with fixed point, signed and BCD members, over arbitrary bytes", "anchors": ["src/ISEGD.cpp: read_general_headers, read_rev3_add_gen_hdr_blks and the readers it calls", "include/CommonSEGD.hpp: AdditionalGeneralHeader"]}
{"id": "C53", "title": "Channel set headers of SEG-D revision 3", "statement": "The channel set headers given for a revision 3 file hold the values the standard defines for the 96-byte descriptors at their places in the file, scan type by scan type.", "quantifier": "every byte string of revision 3 that opens, any number of scan types and channel sets", "why_tests_cant": "unbounded number of descriptors, arbitrary bytes", "anchors": ["src/ISEGD.cpp: read_ch_set_hdr, read_headers_before_traces", "src/CommonSEGD.cpp: ChannelSetHeader"]}
{"id": "C54", "title": "Opening SEG-D revision 3 files", "statement": "Every complete revision 3 file opens; the extended and external header blocks are those at the places the standard's counts give, the reader then stands at the first trace and expects as many traces as the channel sets have channels; no byte string of revision 3 leads to undefined behaviour.", "quantifier": "every byte string of revision 3", "why_tests_cant": "block counts from two headers, arbitrary and damaged files", "anchors": ["src/ISEGD.cpp: read_headers_before_traces, read_general_headers"]}
{"id": "C55", "title": "Traces of SEG-D revision 3 files", "statement": "A trace read from a revision 3 file shows the trace header words, the fields of its first standard extension block, as many samples as that block (or, without one, the channel set header) says, and as samples the words of the file scaled as the channel set header says; the reader then stands at the next trace. Reading never leaves the library's buffers.", "quantifier": "every byte string of revision 3 that opens, every state of the reader within the first record", "why_tests_cant": "arbitrary trace bytes, 4-byte sample counts, all reader histories", "anchors": ["src/ISEGD.cpp: read_trace, read_trace_header, read_trace_header_ext, read_trace_samples"]}
{"id": "C56", "title": "Binary header of SEG-Y files", "statement": "After opening a SEG-Y file every member of the binary header holds the number written at its place in the SEG-Y standard, in the byte order given by bytes 3297-3300; members that only revision 2 defines are zero for older revisions; files with any other byte order constant are refused. A header given by the caller is kept, apart from the byte order.", "quantifier": "every byte string that opens, both constructors, both byte orders", "why_tests_cant": "44 members over arbitrary bytes; a consistent mistake in reader and writer survives every round trip test", "anchors": ["src/ISEGY.cpp: initialization, fill_bin_header, assign_bin_header", "include/CommonSEGY.hpp: BinaryHeader"]}
{"id": "C57", "title": "Traces of SEG-Y files", "statement": "Reading traces and headers in any order returns consecutive traces of the file: each header shows the numbers at the places its layout gives, the samples are the numbers written in the bytes behind the header blocks in the data sample format, as many as the file says, and the next trace follows immediately. Every trace that is completely in the file is read.", "quantifier": "every byte string that opens, every layout whose number of samples has at most 4 bytes (wider ones: C86), any sequence of calls", "why_tests_cant": "13 field types, 13 sample formats, two byte orders, unbounded numbers of traces, arbitrary bytes", "anchors": ["src/ISEGY.cpp: read_trace, read_header, read_trc_header, read_trc_smpls_fix, read_trc_smpls_var, assign_sample_reader"]}
{"id": "C58", "title": "Default trace header layout of SEG-Y", "statement": "With the default layouts each name shows the field of the SEG-Y standard it stands for: the 90 fields of the standard trace header and, in traces with additional header blocks, the 25 fields of trace header extension 1.", "quantifier": "every byte string that opens with the default layouts, any sequence of calls, all names", "why_tests_cant": "115 table entries over arbitrary bytes; a wrong offset is invisible to round trip tests", "anchors": ["src/CommonSEGY.cpp: default_trace_header"]}
{"id": "C59", "title": "Binary header of written SEG-Y files", "statement": "In a file written by any of the three writers every member of the binary header stands at its place in the SEG-Y standard as the caller gave it, in the byte order asked for with the endianness member; the data sample format is the default one if none was given; bytes 3297-3300 tell the byte order used if the marker was 0 or 0x01020304 (otherwise: C84). This holds after every number of written traces.", "quantifier": "all writers, headers, layouts and traces, up to 65536 text headers, all accepted values of the endianness member", "why_tests_cant": "44 members with all values; a consistent mistake in reader and writer survives every round trip test", "anchors": ["src/OSEGY.cpp: write_bin_header, assign_raw_writers", "src/OSEGYRev0.cpp", "src/OSEGYRev1.cpp", "src/OSEGYRev2.cpp"]}
{"id": "C60", "title": "Traces of written SEG-Y files", "statement": "In a written file the traces follow the text headers without gaps up to the end of the file. Every header field of the layout holds the integer the trace gives for its name (zero if it gives none), bytes outside the fields are zero, and each sample is stored in the data sample format in the byte order asked for: IEEE formats correctly rounded, integer formats toward zero, IBM cut to six hexadecimal digits where the platform's log() yields the exponent. With the default layouts the fields are those of the SEG-Y standard.", "quantifier": "all writers, layouts inside the 240-byte blocks, headers and traces, any number of traces", "why_tests_cant": "13 field types, 13 sample formats, two byte orders, 115 table entries, unbounded sequences of traces", "anchors": ["src/OSEGY.cpp: write_trace, write_trace_header, write_additional_trace_headers, assign_sample_writer", "src/CommonSEGY.cpp: default_trace_header"]}
{"id": "C61", "title": "First trace completes a blank binary header", "statement": "A writer opened with a blank binary header takes the number of samples from SAMP_NUM and the sampling interval from SAMP_INT of the first trace and stores both in the binary header of the file, whose other members stay as they were; a first trace with more than 32767 samples or with an interval that is zero or above 32767 is refused with the exception of the library. (Without these names, and padding: C90.)", "quantifier": "all writers, first traces and further traces; blank header objects whose padding bytes are zero", "why_tests_cant": "all header values of two types, all later traces", "anchors": ["src/OSEGYRev0.cpp: OSEGYRev0", "src/OSEGYRev1.cpp: OSEGYRev1", "src/OSEGYRev2.cpp: OSEGYRev2"]}
{"id": "C62", "title": "Copy of a SEG-Y file", "statement": "Reading a SEG-Y file completely and writing its text headers, binary header and traces with the writer of its revision gives a file equal to the original byte by byte.", "quantifier": "all byte strings that open and can be read to the end, both byte orders, all sample formats, all layouts of integer fields, any number of traces and text headers", "why_tests_cant": "equality of whole files over all contents, formats and trace counts; each layer's rounding and defaults enter", "anchors": ["src/ISEGY.cpp", "src/OSEGY.cpp", "src/OSEGYRev0.cpp", "src/OSEGYRev1.cpp", "src/OSEGYRev2.cpp"]}
{"id": "C63", "title": "SEG-Y writers after refused traces", "statement": "A client that goes on writing after write_trace threw gets the file of a client that wrote the accepted traces alone; if every trace was refused the file holds no trace and its text header is the one given.", "quantifier": "all writers, headers, layouts and traces in any number and order", "why_tests_cant": "every position of the refused traces, every reason for an exception, unbounded sequences; the state left behind by an exception is invisible to tests that stop at it", "anchors": ["src/OSEGY.cpp: write_trace, write_additional_trace_headers", "src/OSEGYRev0.cpp", "src/OSEGYRev1.cpp", "src/OSEGYRev2.cpp"]}
{"id": "C64", "title": "SEG-Y reader after an exception", "statement": "A client that goes on calling read_trace and read_header after an exception for a file of fixed trace length gets what a client that stops at the first exception gets, and from then on an exception from every call; in all files, once the file was the reason for an exception, every further call throws it again and has_trace keeps its answer.", "quantifier": "every byte string that opens, every layout, any sequence of calls", "why_tests_cant": "arbitrary bytes, every place a file can end, unbounded sequences of calls after the exception", "anchors": ["src/ISEGY.cpp: read_trace, read_header, has_trace, fill_buf_from_file, skip_bytes"]}
{"id": "C65", "title": "Sorted SEG-Y reader after an exception", "statement": "Calls of a sorted reader that return do so with what they would have returned had the calls that threw not been made, and the traversal goes on where it was. The only exception its reading calls throw is that of the memory allocation, and only for the samples of traces of variable length.", "quantifier": "every byte string and every header name a sorted reader opens with, any sequence of read_trace, read_header, get_traces and get_headers that does not read on after has_trace became false", "why_tests_cant": "arbitrary bytes and overlapping traces, all interleavings of two ways to read, unbounded sequences", "anchors": ["src/ISEGYSorted1D.cpp: read_trace, read_header, get_traces, get_headers", "src/ISEGY.cpp: read_trace, read_header"]}
{"id": "C66", "title": "Blocks of SEG-D revision 3 files in Python", "statement": "Each method of ISEGD for a general header block returns None if the file has no such block, else an object whose attributes are the fields of the last block of this type under the names of the standard: numbers as int, coordinates as float, texts as str (UnicodeDecodeError if they are not UTF-8). In every header class the attribute with the name of a member shows this member.", "quantifier": "every byte string of revision 3 that opens, all block methods and attributes, all objects", "why_tests_cant": "some 300 bindings of names to members, arbitrary block bytes; a swapped binding needs a test for exactly this attribute", "anchors": ["src/pybind/pybind.cpp: ISEGD_py, GeneralHeader*_py"]}
{"id": "C67", "title": "Binary header of SEG-Y files in Python", "statement": "The attributes of binary_header() are the numbers the SEG-Y standard puts at their places in the file. They take exactly the numbers their fields can hold and raise TypeError otherwise. After any assignments each attribute shows the last number assigned to it and the others show what they did before.", "quantifier": "every byte string that opens, all 44 attributes, any sequence of assignments of int and float", "why_tests_cant": "all attributes with all values in any order", "anchors": ["src/pybind/pybind.cpp: BinaryHeader_py, ISEGY_py"]}
{"id": "C68", "title": "for loops over SEG-Y readers in Python", "statement": "A for loop over a reader runs its body once for each remaining trace in order (for the sorted reader in the order of the header), after any calls of read_trace and read_header, and ends without an exception; of a cut file every complete trace is visited, then the loop ends if the cut is between two traces and raises if it is inside one.", "quantifier": "every file and reader state, every loop body, any number of traces", "why_tests_cant": "arbitrary file contents and cuts, unbounded numbers of traces, the exception protocol between C++ and Python", "anchors": ["src/pybind/pybind.cpp: __iter__, __next__ of ISEGY, ISEGYSorted1D"]}
{"id": "C69", "title": "Text headers of SEG-Y files in Python", "statement": "text_headers() gives the bytes of all text headers of the file: its first 3200 bytes and the blocks behind the binary header.", "quantifier": "every byte string that opens", "why_tests_cant": "arbitrary bytes of any encoding, any number of headers", "anchors": ["src/pybind/pybind.cpp: text_headers"]}
{"id": "C70", "title": "Descriptions of header members", "statement": "name_as_string returns for every enumerator of every header class a description that contains the words of the enumerator, a different one for each; every name of the default trace header layouts has exactly one description.", "quantifier": "all 331 enumerators of 30 classes, all 115 names of the default layouts", "why_tests_cant": "tables indexed by enumerators: one missing line shifts all that follow and reads behind the end", "anchors": ["src/CommonSEGY.cpp: name_as_string, trace_header_description", "src/CommonSEGD.cpp: name_as_string", "include/CommonSEGY.hpp: BinaryHeader::Name", "include/CommonSEGD.hpp: Name"]}
{"id": "C71", "title": "SEG-D header objects in Python", "statement": "After any assignments each attribute of a header object shows the last value assigned to it and the others show what they did before; a text reads back equal.", "quantifier": "all header classes and attributes, any sequence of assignments", "why_tests_cant": "some 300 attributes with all values in any order", "anchors": ["src/pybind/pybind.cpp: GeneralHeader*_py", "include/CommonSEGD.hpp"]}
{"id": "C72", "title": "for loops over SEG-D readers in Python", "statement": "A for loop over a SEG-D reader runs its body once for each trace of all records, in order, and ends without an exception.", "quantifier": "all files of records of revision below 3, every loop body, any number of records and traces", "why_tests_cant": "unbounded numbers of records and traces, the exception protocol between C++ and Python", "anchors": ["src/pybind/pybind.cpp: __iter__, __next__ of ISEGD"]}
{"id": "C73", "title": "Trailer stanzas and character sets in Python", "statement": "trailer_stanzas() gives the trailer stanzas of the file; the conversions between EBCDIC and ASCII convert the text passed to them.", "quantifier": "every file with stanzas that opens, all texts", "why_tests_cant": "arbitrary bytes of any encoding", "anchors": ["src/pybind/pybind.cpp: trailer_stanzas, ebcdic_to_ascii, ascii_to_ebcdic"]}
{"id": "C74", "title": "Decoding of SEG-D general headers", "statement": "For any 32 bytes the reader gives for general header 1, 2 (revision below 3) and N the values the SEG-D standard assigns to these bytes, digit by digit and field by field.", "quantifier": "all byte strings of 32 bytes", "why_tests_cant": "2^256 blocks; fields with escapes, signs and fractions; a consistent mistake in reader and writer survives every round trip test", "anchors": ["src/ISEGD.cpp: read_general_header1, read_general_header2_rev2, read_general_headers_N"]}
{"id": "C75", "title": "Decoding of SEG-D channel set headers", "statement": "For any 32 bytes the reader gives the values the SEG-D standard assigns to a channel set descriptor of revision below 3 with these bytes.", "quantifier": "all byte strings of 32 bytes", "why_tests_cant": "2^256 blocks; half bytes, signs and powers of two", "anchors": ["src/ISEGD.cpp: read_channel_sets"]}
{"id": "C76", "title": "Decoding of SEG-D trace headers", "statement": "For any 20 bytes the trace header shows the values the SEG-D standard assigns to a demux trace header with these bytes; the extended file and channel set numbers replace the decimal ones when they are there.", "quantifier": "all byte strings of 20 bytes", "why_tests_cant": "2^160 headers with two escapes", "anchors": ["src/ISEGD.cpp: read_trace_header"]}
{"id": "C77", "title": "Opening a SEG-Y file ends", "statement": "Opening any byte string as a SEG-Y file ends, with a reader or an exception.", "quantifier": "every byte string, every layout, both constructors", "why_tests_cant": "arbitrary counts in the file control loops over text headers and stanzas", "anchors": ["src/ISEGY.cpp: initialization, read_ext_text_headers, read_trailer_stanzas"]}
{"id": "C78", "title": "Sorted reader on an empty file", "statement": "Constructing ISEGYSorted1D on a file without traces gives an iterator with no traces.", "quantifier": "every file without traces", "why_tests_cant": "the dereferenced end of a map need not crash in a test", "anchors": ["src/ISEGYSorted1D.cpp: ISEGYSorted1D"]}
{"id": "C79", "title": "Default text headers of written files", "statement": "A writer without text header argument stores a 3200-byte default header in which the revision field is adapted and every other character is that of the built-in template.", "quantifier": "all three writers, all binary headers, layouts and traces", "why_tests_cant": "every byte of 3200, after any number of traces", "anchors": ["src/OSEGYRev0.cpp", "src/OSEGYRev1.cpp", "src/OSEGYRev2.cpp", "src/CommonSEGY.cpp: default_text_header"]}
{"id": "C80", "title": "Unknown SEG-D formats are refused", "statement": "A SEG-D file whose format code is none of the fourteen of the library is refused with the exception of the library as soon as its general headers are there, and so is a writer asked for such a code; an open reader has one of the fourteen codes.", "quantifier": "every byte string of revision below 3, all 10000 codes and all numbers", "why_tests_cant": "arbitrary files around the code", "anchors": ["src/ISEGD.cpp: assign_sample_reader", "src/OSEGD.cpp: assign_sample_writers"]}
{"id": "C81", "title": "Channel set tables of the SEG-D writer", "statement": "OSEGDRev2_1 is constructed only with as many scan types, and in each as many channel set headers, as the general headers announce; otherwise its constructor throws.", "quantifier": "all general headers, tables and blocks", "why_tests_cant": "tables of any shape", "anchors": ["src/OSEGDRev2_1.cpp: OSEGDRev2_1"]}
{"id": "C82", "title": "24-bit codecs invert each other", "statement": "Writing a 24-bit value through the SEG-Y writer and reading it through the SEG-Y reader yields the value modulo 2^24, and the bytes are those of the byte order, whatever compiler is used.", "quantifier": "all values, signed and unsigned, both byte orders, both orders in which a compiler may evaluate operands", "why_tests_cant": "a test runs with one compiler", "anchors": ["src/ISEGY.cpp: assign_raw_readers", "src/OSEGY.cpp: assign_raw_writers"]}
{"id": "C83", "title": "Copies of exceptions", "statement": "what() of a copy of an exception thrown by the library gives the message.", "quantifier": "all exceptions", "why_tests_cant": "compilers elide most copies", "anchors": ["src/Exception.cpp: Exception(Exception const&)"]}
{"id": "C84", "title": "Byte order marker 0x04030201", "statement": "A file written with the endianness member 0x04030201 tells the byte order it was written in and is read back with the same header.", "quantifier": "all writers, binary headers and traces", "why_tests_cant": "one of three markers in combination with all others members", "anchors": ["src/OSEGY.cpp: assign_raw_writers, write_bin_header", "src/ISEGY.cpp: initialization"]}
{"id": "C85", "title": "Sercel layouts are admissible", "statement": "In the three trace header extension layouts the library offers for Sercel systems the fields lie inside their blocks and do not overlap, no name occurs twice or is a word of the trace header, and the number of samples is at its standard place.", "quantifier": "all fields of the seven blocks of the three layouts", "why_tests_cant": "pairwise conditions over all fields", "anchors": ["src/CommonSEGD.cpp: sercel_428xl, sercel_428, sercel_408"]}
{"id": "C86", "title": "Large sample counts in SEG-Y trace headers", "statement": "A complete trace of variable length is read with all its samples whatever number its header gives.", "quantifier": "all counts that the fields of the standard or of a layout can hold", "why_tests_cant": "traces of 2^62 samples, and the boundary at 2^15", "anchors": ["src/ISEGY.cpp: read_trc_smpls_var", "src/CommonSEGY.cpp: default_trace_header"]}
{"id": "C87", "title": "Revision 1 headers that do not say what is written", "statement": "Traces written with OSEGYRev1 are read back unchanged also with the default binary header and when the number of extended text headers was left zero.", "quantifier": "all headers, traces of any length, any number of text headers", "why_tests_cant": "needs files of several traces of different lengths and all header members", "anchors": ["src/OSEGYRev1.cpp"]}
{"id": "C88", "title": "Cut files with header blocks without layout", "statement": "If the file ends inside a trace, in particular inside a header block that the layouts do not describe, reading raises an exception for it.", "quantifier": "all files, layouts and cuts", "why_tests_cant": "every place a file can be cut", "anchors": ["src/ISEGY.cpp: read_trc_header"]}
{"id": "C89", "title": "SEG-Y reader after an exception, variable trace length", "statement": "A client that goes on calling read_trace and read_header after an exception gets what a client that stops at the first exception gets, and from then on an exception from every call.", "quantifier": "every byte string that opens, every layout, any sequence of calls", "why_tests_cant": "arbitrary bytes, unbounded sequences of calls after the exception", "anchors": ["src/ISEGY.cpp: read_trace, read_header, read_trc_smpls_var"]}
{"id": "C90", "title": "First traces without SAMP_NUM or SAMP_INT", "statement": "A writer opened with a blank binary header refuses a first trace that lacks SAMP_NUM or SAMP_INT with an exception, and recognises every header object whose members are all zero as blank.", "quantifier": "all writers and first traces, all contents of padding bytes", "why_tests_cant": "undefined behaviour need not show in a test; padding depends on the history of the memory", "anchors": ["src/OSEGYRev0.cpp", "src/OSEGYRev1.cpp", "src/OSEGYRev2.cpp"]}
{"id": "C91", "title": "Traces and headers in Python", "statement": "A Python program that makes, binds, deletes and modifies traces and headers sees what it would see if objects were never destroyed and t.header() were the header of t: no access to freed memory, no stale copy, no lost change; and it keeps alive no object that no name reaches.", "quantifier": "all programs of any length over any number of names", "why_tests_cant": "lifetimes depend on the whole history of references; a use after free need not show in a test", "anchors": ["src/pybind/pybind.cpp:30-34, 52-59", "src/Trace.hpp"]}
{"id": "C92", "title": "Headers as dicts in Python", "statement": "After h.set(k, v), h.get(k) is v through every name for the same header, other keys and other headers keep their values, and str and bytes of the same UTF-8 bytes are the same key.", "quantifier": "all programs, keys, and values", "why_tests_cant": "all interleavings of aliases, all keys and all 64-bit values", "anchors": ["src/pybind/pybind.cpp:52-59", "src/Trace.hpp: Trace::Header"]}
{"id": "C93", "title": "Traces made from a dict and a list in Python", "statement": "Trace(d, l) has the samples l, its header has exactly the keys of d and the values of d under them.", "quantifier": "all dicts and lists of numbers, at any point of any program", "why_tests_cant": "all dicts and lists", "anchors": ["src/pybind/pybind.cpp:30-34, 52-59", "src/Trace.hpp"]}
{"id": "C94", "title": "Changing trace headers while copying a SEG-Y file", "statement": "A client that reads a SEG-Y file trace by trace, sets header fields to numbers of its choice and writes each trace with the writer of the file's revision gets the old file with only the bytes of the fields it set changed, and these fields hold the numbers.", "quantifier": "all files, layouts, numbers of traces, and choices of fields and numbers per trace", "why_tests_cant": "any file, any set of fields per trace; a test compares particular bytes of particular files", "anchors": ["src/ISEGY.cpp: read_trace", "src/OSEGY.cpp", "src/OSEGYRev0.cpp", "src/OSEGYRev1.cpp", "src/OSEGYRev2.cpp", "src/Trace.hpp"]}
{"id": "C95", "title": "Converting SEG-D to SEG-Y", "statement": "A client that reads a SEG-D file trace by trace and writes each trace with a SEG-Y writer gets a SEG-Y file with one trace per SEG-D trace, in the same order; header fields hold the values the SEG-D header has under the same names, and the samples are the descaled SEG-D samples, unchanged where the SEG-Y format can hold them.", "quantifier": "all SEG-D files of any number of records and traces, all SEG-Y writers, binary headers and layouts", "why_tests_cant": "the property joins two libraries' whole input spaces; overruns of buffers and empty optionals need not show in a test", "anchors": ["src/ISEGD.cpp: read_trace", "src/OSEGY.cpp", "src/OSEGYRev0.cpp", "src/OSEGYRev1.cpp", "src/OSEGYRev2.cpp"]}
{"id": "C96", "title": "SEG-D writer after refused traces", "statement": "A client of the SEG-D writer that goes on after an exception from write_trace ends with the file of a client that wrote the accepted traces alone; a refused trace takes no channel of the record.", "quantifier": "all writers, layouts and sequences of traces", "why_tests_cant": "arbitrary mixes of accepted and refused traces; the partial writes of every way to fail", "anchors": ["src/OSEGD.cpp: write_trace, write_trace_header", "src/OSEGDRev2_1.cpp"]}
{"id": "C97", "title": "SEG-D reader after an exception", "statement": "A client of the SEG-D reader that catches exceptions from read_trace and goes on while has_trace is true gets the traces that a client stopping at the first exception gets and no other, gets every trace that is complete in the file, and comes to an end.", "quantifier": "every byte string that opens, every layout, any number of calls", "why_tests_cant": "arbitrary bytes, unbounded sequences of calls after the exception", "anchors": ["src/ISEGD.cpp: has_trace, read_trace, read_headers_before_traces", "src/CommonSEGD.cpp"]}
{"id": "C98", "title": "What a refused trace leaves in a SEG-D file", "statement": "A trace that the SEG-D writer refuses with an exception takes no channel of the record and changes no byte that was in the file; at most the 20 bytes of its trace header and whole extension blocks of 32 bytes, no more than it announces, are added to the file.", "quantifier": "all writers, layouts, earlier traces accepted or refused, and refused traces", "why_tests_cant": "every way a trace can be refused after any history of the object", "anchors": ["src/OSEGD.cpp: write_trace, write_trace_header", "src/OSEGDRev2_1.cpp"]}
{"id": "C99", "title": "SEG-D reader after the file failed", "statement": "Once read_trace of the SEG-D reader has thrown because the file ended, every further call throws the same exception and has_trace keeps its answer, whatever other exceptions came before.", "quantifier": "every byte string that opens, every layout, any amount of memory, any number of calls", "why_tests_cant": "arbitrary bytes and histories of calls", "anchors": ["src/ISEGD.cpp: has_trace, read_trace, fill_buf_from_file", "src/CommonSEGD.cpp"]}
{"id": "C100", "title": "SEG-D writers in one program", "statement": "Several SEG-D writers in one program do not disturb each other: whatever the order in which the program constructs writers and calls write_trace, with or without exceptions, every call returns or throws, and every file contains, what it would if that writer were the only one.", "quantifier": "all programs in one thread with any number of writers on different files, all headers, layouts and traces, any interleaving of calls", "why_tests_cant": "unbounded interleavings; the values of one writer that end up in another's file depend on the order of the calls", "anchors": ["src/OSEGD.cpp: assign_sample_writing, write_trace", "src/OSEGDRev2_1.cpp"]}
{"id": "C101", "title": "An existing file and a constructor that throws", "statement": "If the constructor of a writer throws, because of its arguments or because the file cannot be opened, a file that exists under the name is left as it was.", "quantifier": "all four writer classes, all arguments, any content of the directory", "why_tests_cant": "every way to refuse arguments of any size, and what the destruction of a half constructed writer does to the file", "anchors": ["src/CommonSEGY.cpp", "src/CommonSEGD.cpp", "src/OSEGYRev0.cpp", "src/OSEGYRev1.cpp", "src/OSEGYRev2.cpp", "src/OSEGDRev2_1.cpp"]}
{"id": "C102", "title": "Content of the file after the construction of a writer", "statement": "The content of a writer's file after its construction is a function of the constructor's arguments: nothing of the old content remains and no other file changes. If the constructor throws, the file is empty (layouts, text sizes, scan type count or SEG-D sample format refused), has the first text header alone (byte order refused), has all text headers and the binary header (sample format refused or no memory), or has whole blocks of 32 bytes, at least the two general headers (a SEG-D scan type with a wrong number of channel sets).", "quantifier": "all four writer classes, all arguments, any content of the directory", "why_tests_cant": "all combinations of refused arguments with headers of unbounded number", "anchors": ["src/CommonSEGY.cpp", "src/CommonSEGD.cpp", "src/OSEGYRev0.cpp", "src/OSEGYRev1.cpp", "src/OSEGYRev2.cpp", "src/OSEGD.cpp", "src/OSEGDRev2_1.cpp"]}
{"id": "C103", "title": "Copying a SEG-Y file in Python", "statement": "The layouts given to a reader or writer in Python as a list of (name, dict) are those it describes: the layouts in their order, in each exactly the items of its dict, in whatever order they were put in; layouts the module returns can be passed on; if the list describes no layouts the call raises TypeError and nothing else does. A Python program that copies a file trace by trace succeeds exactly when copying it in C++ with these layouts succeeds, and gives the same file.", "quantifier": "all files, all lists of dicts with any keys, names and types, any number of traces", "why_tests_cant": "all dicts in all orders of insertion, all files", "anchors": ["src/pybind/pybind.cpp:72-73, 170-178, 242-275", "src/ISEGY.cpp", "src/OSEGY.cpp"]}
{"id": "C104", "title": "Writing SEG-D files in Python", "statement": "What the C++ class OSEGDRev2_1 can write can be written in Python: a program constructs the writer with the headers of a record, writes its traces, and iterating over the file gives them back.", "quantifier": "all records of revision 2.1, with any number of header blocks, channel sets and traces", "why_tests_cant": "all records; the constructor's undefined behaviour need not show in a test", "anchors": ["src/pybind/pybind.cpp:385-386, 1219-1230", "include/OSEGDRev2_1.hpp:44-53", "src/OSEGDRev2_1.cpp"]}
{"id": "C105", "title": "A disk that becomes full", "statement": "If the disk becomes full while a SEG-Y file is written, the program learns of it by an exception from the writer, can go on after it, and finds on the disk the beginning of the file it wanted to write: everything that fits, with nothing missing in between. If there is room for the whole file, nothing of this happens and the file is complete.", "quantifier": "all three revisions, all traces, all sizes of the disk, all moments at which the stream hands its buffer to the operating system", "why_tests_cant": "needs a disk of every size and every division of the bytes into buffers", "anchors": ["src/OSEGY.cpp:236-459", "src/OSEGYRev0.cpp:63-105", "src/OSEGYRev1.cpp:74-118", "src/OSEGYRev2.cpp:126-174", "src/CommonSEGY.cpp:27"]}
{"id": "C106", "title": "A SEG-Y file whose writing was cut off", "statement": "If the disk becomes full while a SEG-Y file is written, or the program is killed at any moment after the writer was constructed, then a reader of what is found on the disk gives exactly the traces that are completely stored, unchanged; after them it is at the end if nothing else is in the file, and throws if something is cut off. If not even the headers are complete, the constructor of the reader throws.", "quantifier": "all three revisions, all traces that come back from a complete file (C16-C18), all sizes of the disk, all moments, all divisions of the bytes into buffers; for a killed program: a binary header given to the constructor", "why_tests_cant": "needs a crash at every operation of every run", "anchors": ["src/OSEGY.cpp:236-459", "src/OSEGYRev0.cpp:63-105", "src/OSEGYRev1.cpp:74-118", "src/OSEGYRev2.cpp:126-174", "src/ISEGY.cpp:150-456"]}
{"id": "C107", "title": "Members of channel set headers that only SEG-D revision 3 has", "statement": "For a file of revision 3 or later, number_of_samples, samp_int, filter_phase, physical_unit, filter_delay and description of a channel set header give the values stored in the file; for a file of an earlier revision, which has no such fields, they give nothing.", "quantifier": "all files the reader's constructor accepts (revision 3: without the escape for the number of additional general headers), all scan types and channel sets", "why_tests_cant": "the values of the older files are those of uninitialised or zeroed memory; a test sees only one run", "anchors": ["src/CommonSEGD.cpp:251-281", "src/ISEGD.cpp:986-1114"]}
{"id": "C108", "title": "A SEG-Y writer on a disk of any size, from its constructor on", "statement": "The constructor of a SEG-Y writer on a disk without room for the headers throws, and leaves as many bytes of the headers as there is room for; or it returns, and the stream has the headers. With room for everything, nothing fails and the file is the complete one. If the disk becomes full, or the program is killed, at any moment from the opening of the file to the end of the destructor, a reader of what is found gives exactly the completely stored traces, or its constructor throws if the headers are not complete.", "quantifier": "all three revisions, all textual headers up to 64 KiB, all traces that come back from a complete file (C16-C18), all sizes of the disk, all moments, all divisions of the bytes into buffers; with and without a binary header given to the constructor", "why_tests_cant": "needs a crash at every operation of every run, also while the binary header is overwritten by its completed form", "anchors": ["src/CommonSEGY.cpp:18-31", "src/OSEGYRev0.cpp:31-105", "src/OSEGYRev1.cpp:31-118", "src/OSEGYRev2.cpp:33-174", "src/OSEGY.cpp:236-459", "src/ISEGY.cpp:89-456"]}
{"id": "C109", "title": "A SEG-D writer on a disk of any size", "statement": "A SEG-D writer on a disk of limited size leaves as many bytes as fit of the file it would have written on a disk without an end, and its calls answer as they would there, up to one that throws because the disk is full; a program killed at any operation leaves a beginning of that file. A reader of what is there gives exactly the traces that are completely stored and throws at the first that is not. A program none of whose calls threw has stored all its traces.", "quantifier": "all arguments of the constructor, all traces, refused ones included; all sizes of the disk, all moments, all divisions of the bytes into buffers; the reader for all records of C42", "why_tests_cant": "needs a crash at every operation of every run and a file cut at every byte", "anchors": ["src/CommonSEGD.cpp:21-43", "src/OSEGD.cpp:884-1085", "src/OSEGD.cpp:1277-1296", "src/OSEGDRev2_1.cpp:24-95", "src/ISEGD.cpp:127-210", "src/ISEGD.cpp:1238-1388"]}
{"id": "C110", "title": "What is in the file when a writer reports a full disk", "statement": "When write_trace throws because the disk is full, the file contains what the calls that returned have written, except at most as many bytes at its end as the stream kept in its buffer; with a stream that keeps nothing, all of it.", "quantifier": "SEG-Y and SEG-D writers; all arguments, all traces (for SEG-D also refused ones before), all sizes of the disk, all divisions of the bytes into buffers. If no binary header was given to a SEG-Y writer and its first call throws, the file may have the completed header instead of the first one", "why_tests_cant": "needs a disk that becomes full at every byte of every file, for every behaviour of the buffer", "anchors": ["src/OSEGD.cpp:884-1085", "src/OSEGDRev2_1.cpp:71-81", "src/OSEGY.cpp:236-459", "src/CommonSEGD.cpp:21-43", "src/CommonSEGY.cpp:18-31"]}
