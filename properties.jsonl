{"id": "C01", "title": "GSF integer fields round-trip exactly on their range and wrap outside it", "statement": "Writing an integer v into an n-byte GSF integer field produces exactly n bytes, and reading them back yields v mod 256^n for unsigned fields; so the value read equals the value written iff 0 <= v < 256^n. For signed fields the value read equals v for every -2^(8n-1) <= v < 2^(8n-1). Reading from fewer than n remaining bytes raises EOFError, never a wrong number.", "quantifier": "every integer v, every field width n >= 1, every surrounding file content and position", "why_tests_cant": "Fields are 1-8 bytes wide; the tests use a handful of values and never the wrap-around boundary for every width.", "anchors": ["mediagrains/gsf.py: _encode_uint, _encode_sint, SyncGSFBlock.read_uint, SyncGSFBlock.read_sint, SyncGSFBlock.read_optional_sint"]}
{"id": "C02", "title": "Scalar fields (bool, UUID, created date, timestamp, rational) round-trip", "statement": "For every UUID, every calendar date-time with second resolution in UTC, every timestamp with |seconds| < 2^48, every non-negative fraction whose reduced numerator and denominator are < 2^32, and both booleans, decoding the encoder's bytes returns the same value and consumes exactly the bytes written. In version 7 files the sign of a timestamp is lost and only non-negative timestamps round-trip.", "quantifier": "every value of each scalar type in the stated range, all supported major versions", "why_tests_cant": "The value space (96-bit timestamps, 64-bit rationals, all dates) cannot be enumerated; the loss of sign in version 7 is only visible on negative values.", "anchors": ["mediagrains/gsf.py: _encode_bool, _encode_uuid, _encode_ts, _encode_ts_v7, _encode_rational, SyncGSFBlock.read_bool, read_uuid, read_datetime, read_timestamp, read_timestamp_v7, read_rational"]}
{"id": "C03", "title": "Text fields round-trip exactly when they fit and carry no edge NULs", "statement": "A string stored in a fixed-width (64- or 16-byte) or length-prefixed text field is read back identically whenever its UTF-8 form fits in the field and it neither starts nor ends with NUL. When the UTF-8 form is longer than the field the encoder cuts it at the byte limit, and if the cut falls inside a multi-byte character the resulting file cannot be decoded: the decoder raises a GSF decode error.", "quantifier": "every Unicode string (sequence of scalar values), both field kinds, every field width", "why_tests_cant": "UTF-8 has four encoded lengths and many boundary code points; cut positions depend on length mod character boundaries. Tests use short ASCII strings.", "anchors": ["mediagrains/gsf.py: GSFEncoderTag, GSFEncoderSegment._encode_header, GSFEncoderSegment.encode_grain, SyncGSFBlock.read_string, SyncGSFBlock.read_varstring"]}
{"id": "C04", "title": "Every size field in an encoded file is exact", "statement": "In the bytes produced by a complete dump, splitting the file purely by (4-byte tag, 4-byte little-endian size) pairs after the 12-byte file header succeeds, tiles the file exactly, and yields one head block, then one grai block per grain, then the 8-byte terminator; within every head, segm, grai, gbhd, vghd, cghd block the nested blocks likewise tile the block's payload after its fixed fields.", "quantifier": "every encoder configuration, segment list, tag list and grain list whose block sizes fit in 32 bits", "why_tests_cant": "Sizes are computed separately from the bytes they describe, by different arithmetic per grain type; all combinations of optional sub-blocks cannot be sampled.", "anchors": ["mediagrains/gsf.py: OpenGSFEncoderBase._encode_head_block, GSFEncoderSegment.segm_block_size, flow_block_size, _gbhd_size_for_grain, _vghd_size_for_grain, _cghd_size_for_grain, encode_grain, GSFEncoderTag.tag_block_size"]}
{"id": "C05", "title": "Grain round-trip through the wire format", "statement": "Decoding the bytes the encoder writes for a grain yields a grain with the same type, source and flow ids, origin and sync timestamps, rate, duration, time labels, type-specific metadata and payload bytes, for each of the six grain types and for file versions 7, 8 and 9, up to a stated normal form: component offsets become cumulative, time-label rates are reduced to lowest terms, a zero aspect ratio becomes absent, and an absent/empty payload is indistinguishable from an empty one. Grains already in normal form come back identical.", "quantifier": "every grain whose fields fit their wire widths; all six grain types; versions 7, 8, 9", "why_tests_cant": "The metadata space (optional blocks, list lengths, every field value) is unbounded; tests use a few fixed grains.", "anchors": ["mediagrains/gsf.py: GSFEncoderSegment.encode_grain, BaseGSFDecoderSession._sync_decode_gbhd, _sync_decode_tils, GSFSyncDecoderSession.grains"]}
{"id": "C06", "title": "Whole-file round-trip", "statement": "Decoding the bytes of a complete dump yields the same file id, creation time (to the second), version, file tags, and per segment the same local id, id, tags, flow description and count, and the grains of each segment in the order they were added.", "quantifier": "every set of segments with distinct 16-bit local ids, every tag and flow list, every number of grains", "why_tests_cant": "Arbitrary numbers of segments, tags and grains; offsets of later blocks depend on all earlier content.", "anchors": ["mediagrains/gsf.py: dumps, loads, GSFEncoder, GSFDecoder, OpenGSFEncoder._start_dump, GSFSyncDecoderSession._decode_file_headers, _sync_decode_head"]}
{"id": "C07", "title": "Decoded grains are grouped by segment without loss, duplication or reordering", "statement": "load/loads/decode return, for each local id occurring in the stream, exactly the sub-sequence of decoded grains with that local id, in stream order; every decoded grain appears in exactly one group.", "quantifier": "every sequence of decoded (grain, local id) pairs", "why_tests_cant": "Any interleaving of any number of segments.", "anchors": ["mediagrains/gsf.py: GSFDecoder._synchronously_decode, GSFDecoder._asynchronously_decode"]}
{"id": "C08", "title": "Filtering by local id only removes grains", "statement": "Asking the decoder for a set of local ids on a well-formed file yields exactly the grains of the unfiltered decode whose local id is in the set, in the same order and with the same contents; it never changes how the rest of the file is parsed.", "quantifier": "every well-formed file, every set of local ids, every loading mode", "why_tests_cant": "Skipped grains exercise a different seek path from decoded ones; equality must hold for all interleavings.", "anchors": ["mediagrains/gsf.py: GSFSyncDecoderSession.grains, GSFAsyncDecoderSession.grains"]}
{"id": "C09", "title": "Unknown blocks are skipped without effect", "statement": "Inserting any block with an unrecognised tag and a consistent size between top-level blocks (and between the children of head, segm, gbhd, vghd and cghd, with enclosing sizes adjusted) does not change the decoded headers or grains.", "quantifier": "every unrecognised 4-character tag, every payload, every insertion point of the stated kinds", "why_tests_cant": "Forward compatibility over all payload contents and positions.", "anchors": ["mediagrains/gsf.py: SyncGSFBlock.__enter__, __exit__, child_blocks, GSFSyncDecoderSession.grains, _sync_decode_gbhd, _sync_decode_head"]}
{"id": "C10", "title": "Loading mode does not change what is decoded", "statement": "For any seekable input and any two loading modes the sequence of grains, local ids and metadata (including how the iteration ends) is identical on well-formed files; where data is deferred, loading it later yields exactly the bytes eager loading would have produced, whatever the stream position at the time; with LOAD_NEVER the data is absent and nothing else differs.", "quantifier": "every well-formed file, every loading mode, every stream position at the time of deferred loading", "why_tests_cant": "Four modes times arbitrary files and access orders.", "anchors": ["mediagrains/gsf.py: GSFSyncDecoderSession.grains, GrainDataLoadingMode, mediagrains/utils/iobytes.py: IOBytes"]}
{"id": "C11", "title": "Concatenated GSF files decode as the concatenation", "statement": "With concatenation support (the default) decoding the concatenation of complete files yields the grains of each file in order, each parsed under its own file's version, and afterwards the reported headers are those of the last file; with concatenation disabled only the first file's grains are produced.", "quantifier": "every list of complete files, versions may differ", "why_tests_cant": "Any number of files with mixed versions and any grain content.", "anchors": ["mediagrains/gsf.py: GSFSyncDecoderSession.grains, SyncGSFBlock.__enter__"]}
{"id": "C12", "title": "The terminator ends the stream when concatenation is off and is transparent when it is on", "statement": "With support_concatenation=False nothing after the first terminator block influences the decoded grains; with it on, a terminator in the middle of a stream is skipped and the grains after it are still decoded.", "quantifier": "every well-formed prefix and arbitrary trailing bytes", "why_tests_cant": "Trailing bytes are arbitrary.", "anchors": ["mediagrains/gsf.py: GSFSyncDecoderSession.grains"]}
{"id": "C13", "title": "Truncated files yield a prefix", "statement": "Decoding a file cut at an arbitrary byte after its head block never raises and yields a prefix of the original grain sequence; every grain but the last is identical to the original, and the last one differs only in its payload being a prefix of the original payload.", "quantifier": "every well-formed file, every cut position after the head block", "why_tests_cant": "Every byte position of every file is a possible cut (interrupted copy or crash).", "anchors": ["mediagrains/gsf.py: GSFSyncDecoderSession.grains, SyncGSFBlock.__exit__, SyncGSFBlock.read_remaining_block"]}
{"id": "C14", "title": "Decoding arbitrary bytes always terminates", "statement": "For any byte string whatsoever the decoder stops after a number of blocks bounded by the input length, either having produced its grains or with an exception; there is no input on which it loops for ever.", "quantifier": "every byte string", "why_tests_cant": "Untrusted input; size fields may be 0, 1..7, huge or inconsistent.", "anchors": ["mediagrains/gsf.py: SyncGSFBlock.__enter__, __exit__, child_blocks, GSFSyncDecoderSession.grains, _sync_decode_head, _sync_decode_gbhd"]}
{"id": "C15", "title": "File type and version are checked first", "statement": "Decoding raises the bad-file-type error exactly when the first 8 bytes are present but are not the GSF magic (after UTF-8 decoding), raises the bad-version error exactly when the magic is right and the major version is not 7, 8 or 9, and in neither case is anything after byte 12 inspected; inputs shorter than 12 bytes raise EOFError.", "quantifier": "every byte string", "why_tests_cant": "All 2^96 header values and all trailing content.", "anchors": ["mediagrains/gsf.py: GSFSyncDecoderSession._decode_ssb_header, _decode_file_headers"]}
{"id": "C16", "title": "Streaming and all-at-once encoding agree", "statement": "Adding grains one at a time in streaming mode to a seekable output and closing it leaves the same bytes as adding the same grains before a single all-at-once dump, whenever the grains are added segment by segment; for arbitrary interleavings the two files decode to the same headers and the same grains per segment.", "quantifier": "every segment list, every interleaving of grain additions", "why_tests_cant": "All interleavings and counts.", "anchors": ["mediagrains/gsf.py: OpenGSFEncoder._start_dump, add_grains, _end_dump"]}
{"id": "C17", "title": "Segment counts in a finished file are right", "statement": "After a first dump is finished on a seekable output, the count field of every segment equals the number of grains of that segment in the file; on a non-seekable streaming output it stays -1. Back-patching the counts changes no byte outside the 8-byte count fields.", "quantifier": "every history of additions in one dump session", "why_tests_cant": "Back-patching offsets depend on all preceding header content.", "anchors": ["mediagrains/gsf.py: OpenGSFEncoder._end_dump, OpenGSFEncoderBase._set_segment_offsets, GSFEncoderSegment.set_size_position"]}
{"id": "C18", "title": "A crash during streaming loses nothing already added", "statement": "At every point of a streaming session after it has been started, the bytes written so far decode without error to exactly the grains added so far (in order), with the segment counts reported as -1.", "quantifier": "every streaming history and every crash point between operations", "why_tests_cant": "Crash points cannot be enumerated by tests.", "anchors": ["mediagrains/gsf.py: OpenGSFEncoder._start_dump, OpenGSFEncoder.add_grains"]}
{"id": "C19", "title": "Segment local ids are unique and automatic ids never clash", "statement": "Whatever sequence of segment additions (explicit or automatic local ids, with failures in between) is performed, no two segments share a local id, an automatic addition never fails for being a duplicate, and an explicit addition fails exactly when the id is already in use.", "quantifier": "every sequence of add_segment / add_grain calls before and between dumps", "why_tests_cant": "Depends on the history of explicit ids.", "anchors": ["mediagrains/gsf.py: GSFEncoder.add_segment, OpenGSFEncoderBase.add_segment, OpenGSFEncoderBase._get_segment"]}
{"id": "C20", "title": "Header changes during an active synchronous dump are rejected and harmless", "statement": "While a synchronous dump is active, adding a file tag, a segment, a segment tag or a flow raises and leaves the bytes that the rest of the session produces exactly as if the call had not been made.", "quantifier": "every active state and every rejected call", "why_tests_cant": "Requires comparing complete futures with and without the call.", "anchors": ["mediagrains/gsf.py: OpenGSFEncoderBase.add_tag, add_segment, GSFEncoder.add_tag, add_segment, GSFEncoderSegment.add_tag, add_flow"]}
{"id": "C21", "title": "Re-using an encoder for a second dump: exact effect on counts", "statement": "A second all-at-once dump of the same encoder object writes only the grains added since the previous dump, but the segment counts it reports are the cumulative totals; so the second file's counts are right exactly when the first dump wrote no grains for that segment.", "quantifier": "every two-dump history", "why_tests_cant": "State carried from one dump to the next is invisible in one-dump tests.", "anchors": ["mediagrains/gsf.py: GSFEncoderSegment.count, encode_all_grains, _write_count"]}
{"id": "C22", "title": "Synchronous and asynchronous decoders agree", "statement": "On every well-formed complete file the asynchronous decoder (over any of the async file wrappers) yields the same headers, grains and local ids as the synchronous one.", "quantifier": "every well-formed file, filter, loading mode", "why_tests_cant": "Two separate implementations over different IO primitives.", "anchors": ["mediagrains/gsf.py: AsyncGSFBlock, GSFAsyncDecoderSession, GSFSyncDecoderSession"]}
{"id": "C23", "title": "Deferred bytes behave like the bytes they stand for", "statement": "A deferred payload object reports its length without touching the stream, and on first access returns exactly the addressed region of the stream, leaves the stream position where it was, and never touches the stream again; the reported length is unchanged by loading iff the region lies inside the stream.", "quantifier": "every stream content, region, stream position, and access sequence", "why_tests_cant": "Any interleaving of accesses with other users of the stream.", "anchors": ["mediagrains/utils/iobytes.py: LazyLoader.__getattribute__, IOBytes"]}
{"id": "C24", "title": "Deferred async grains: loaded before exit, settled after exit", "statement": "While the async decoding context is open, awaiting any subset of deferred grains in any order and any number of times gives each grain exactly the bytes eager loading would have, independent of order; after the context exits a grain not awaited before has no data in the cancel mode.", "quantifier": "every set of deferred grains, every order and multiplicity of awaits, before and after exit", "why_tests_cant": "Schedules of awaits are unbounded.", "anchors": ["mediagrains/gsf.py: GSFAsyncDecoderSession.grains._read_out_of_order, _kill_unused_lazy_loaders, mediagrains/grains/Grain.py: Grain.__await__"]}
{"id": "C25", "title": "The in-memory async file behaves like a file", "statement": "Every sequence of reads, writes, seeks, truncates and tells on the in-memory async file that never truncates to a size above the current length, never shrinks and later writes beyond the end, and never uses the unsized read while there is something left has the same results and final contents as on an ideal byte file (writes past the end zero-fill); the unsized read returns the right bytes but leaves the position where it was.", "quantifier": "every operation sequence in the stated class", "why_tests_cant": "Buffer growth doubles capacity; behaviour depends on the whole history.", "anchors": ["mediagrains/utils/asyncbinaryio.py: OpenAsyncBytesIO"]}
{"id": "C26", "title": "Forward-only streams: seeking equals reading and discarding", "statement": "On the stream wrapper every sequence of forward seeks, sized reads and tells returns the same bytes and positions as on the complete byte string held in memory; a backward seek is rejected and leaves the position unchanged; what an output stream sends is the contents of an ideal file written the same way, gaps zero-filled.", "quantifier": "every stream content and every operation sequence", "why_tests_cant": "Lazy alignment of two positions depends on history.", "anchors": ["mediagrains/utils/asyncbinaryio.py: OpenAsyncStreamWrapper"]}
{"id": "C27", "title": "Video components tile the frame buffer", "statement": "For every uncompressed video format, width and height, the component table built for a new video grain is contiguous from offset 0, its lengths add up to the size of the allocated buffer, and the grain's expected length equals that size. (AYUV is the exception: it is laid out with half the bytes its name calls for.)", "quantifier": "every known format and every pair of non-negative dimensions", "why_tests_cant": "Dimensions are unbounded and odd dimensions with sub-sampled chroma are special.", "anchors": ["mediagrains/grains/VideoGrain.py: VideoGrain.__init__ size_for_format, components_for_format, expected_length"]}
{"id": "C28", "title": "Component strides stay inside their component", "statement": "For each component of a new video grain stride*height <= length, with equality whenever the dimensions are compatible with the chroma sub-sampling, and otherwise exactly when the pixels left over at the edges do not make up another chroma value; so every addressed line lies inside the component.", "quantifier": "every known planar format and dimensions", "why_tests_cant": "Floor divisions interact: floor(w/2)*floor(h/2) vs floor(w*h/4).", "anchors": ["mediagrains/grains/VideoGrain.py: components_for_format"]}
{"id": "C29", "title": "Audio buffer sizes", "statement": "For every uncompressed audio format the buffer size of an audio grain is monotone and linear in the number of samples, is a whole number of sample frames, equals channels*samples*bytes-per-sample for plane and interleaved layouts, and rounds an odd channel count up for pair layouts.", "quantifier": "every audio format, channel count and sample count", "why_tests_cant": "Unbounded counts; bit-field dependent depth.", "anchors": ["mediagrains/grains/AudioGrain.py: size_for_audio_format, mediagrains/cogenums.py: COG_AUDIO_FORMAT_SAMPLEBYTES"]}
{"id": "C30", "title": "Planar format numbers are consistent with their properties", "statement": "For every chroma sub-sampling and bit depth, the format number computed for planar video decodes (through the library's own predicates) to exactly that sub-sampling, a byte width of 1, 2 or 4 that is the smallest holding the depth, and that active bit depth; and distinct (sub-sampling, depth) pairs give distinct numbers.", "quantifier": "every chroma format and every depth from 1 to 32", "why_tests_cant": "Bit-field packing over the whole domain.", "anchors": ["mediagrains/cogenums.py: COG_PLANAR_FORMAT, COG_FRAME_FORMAT_BYTES_PER_VALUE, H_SHIFT, V_SHIFT, ACTIVE_BITS"]}
{"id": "C31", "title": "v210 packing is lossless", "statement": "Converting a 10-bit 4:2:2 picture whose samples fit in 10 bits to v210 puts each sample in its stated word and field and nothing elsewhere; converting back returns the same samples in every plane, for every width and height. A v210 buffer with nothing in the unused fields comes back word for word.", "quantifier": "every picture content and size", "why_tests_cant": "Six samples are packed into four words with format-specific layout; all contents matter.", "anchors": ["mediagrains/numpy/convert.py: _convert_yuv422_10bit_to_v210, _convert_v210_to_yuv422_10bit"]}
{"id": "C32", "title": "Chroma up-sampling then down-sampling is the identity", "statement": "Duplicating chroma samples (4:2:2 to 4:4:4, 4:2:0 to 4:2:2) and averaging them back returns the original samples; averaging never leaves the range spanned by its inputs and rounds halves up.", "quantifier": "every sample array and bit depth", "why_tests_cant": "Integer rounding and dtype widths over all values.", "anchors": ["mediagrains/numpy/convert.py: _int_array_mean, _subsample mean functions, duplicate functions"]}
{"id": "C33", "title": "Bit-depth reduction rounds to nearest, except at the top of the range", "statement": "Converting a sample from depth d1 down to d2 gives the nearest d2-bit value, halves rounded up, for every sample below the top half-step; samples in the top half-step exceed the d2-bit maximum (and wrap to 0 when the target depth fills its storage: 8 bits, or 16). Converting up keeps the sample as the high bits whatever the noise; up and down again gives the sample or the next one.", "quantifier": "every sample value and every supported pair of depths", "why_tests_cant": "Only the top few code values misbehave.", "anchors": ["mediagrains/numpy/convert.py: _unbiased_right_shift, bit-depth conversions"]}
{"id": "C34", "title": "The conversion table is complete and well-founded", "statement": "Every pair of formats the library registers has a conversion; every registered two-step conversion is composed of registered conversions, its source and destination match the registration, and running it terminates and succeeds for every even size with a grain of the requested format and size. Formats with the same kind of picture convert without change.", "quantifier": "every ordered pair of registered formats", "why_tests_cant": "The registration loops build hundreds of entries.", "anchors": ["mediagrains/numpy/convert.py: registration loops, mediagrains/numpy/numpy_grains/VideoGrain.py: grain_conversion_two_step"]}
{"id": "C35", "title": "Component array views are disjoint and cover exactly the samples", "statement": "For the packed formats, the samples of the component arrays and the used items of the frame buffer correspond one to one in the stated order, so arrays are disjoint and inside the buffer; for planar formats the arrays are the planes.", "quantifier": "every packed format and every compatible size", "why_tests_cant": "Index arithmetic over all sizes.", "anchors": ["mediagrains/numpy/numpy_grains/VideoGrain.py: component array helpers"]}
{"id": "C36", "title": "Tone generation is seamless across grains", "statement": "The samples produced for consecutive grains of a test tone are consecutive samples of one periodic waveform: sample i of the grain starting at sample count c is waveform[(c+i) mod period], whatever the grain sizes.", "quantifier": "every start position, every sequence of grain sizes, every period", "why_tests_cant": "Wrap-around inside a grain depends on position relative to the period.", "anchors": ["mediagrains/patterngenerators/audio/tone.py: Tone"]}
{"id": "C37", "title": "Fixed-rate pattern generators number their grains consistently", "statement": "Grains obtained from a pattern generator over a time range have origin timestamps equal to consecutive grid points, cover the range without gap or duplicate, and iterating a range split into two adjacent pieces gives the same grains as iterating the whole range.", "quantifier": "every rate, start and end of range", "why_tests_cant": "All ranges and splits.", "anchors": ["mediagrains/patterngenerators/abc.py: PatternGenerator.__getitem__, get_range"]}
{"id": "C38", "title": "Colour bars need every component width to be a multiple of 8", "statement": "The colour bar generator succeeds exactly when each component width is a multiple of eight, and then each of the eight bars is exactly one eighth of the width with the standard value.", "quantifier": "every width", "why_tests_cant": "Boundary widths.", "anchors": ["mediagrains/patterngenerators/video/colourbars.py"]}
{"id": "C39", "title": "Wrapping a raw byte stream into grains loses nothing", "statement": "Wrapping a byte source with a fixed positive frame size yields grains whose payloads concatenate to the whole input for a buffered file (all of the frame size except perhaps the last) and to the input cut to whole frames for a pipe in any fragmentation, with timestamps advancing by exactly one frame period.", "quantifier": "every input, frame size and read fragmentation", "why_tests_cant": "Arbitrary lengths and short reads.", "anchors": ["mediagrains/utils/grain_wrapper.py"]}
{"id": "C40", "title": "ADTS AAC framing", "statement": "Splitting a concatenation of well-formed ADTS frames returns exactly those frames, from a file and from a pipe in any fragmentation (which then raises EOFError); the header fields extracted from a header built from given field values are those values; the grains made of the frames advance by exactly the samples of one frame.", "quantifier": "every sequence of frames, every field value", "why_tests_cant": "Bit-packed header over the entire field space.", "anchors": ["mediagrains/utils/adts_aac_parser.py, mediagrains/utils/adts_aac_grain_wrapper.py"]}
{"id": "C41", "title": "H.264 emulation prevention is undone exactly", "statement": "Removing emulation prevention bytes from an escaped payload returns the original payload, for every payload; of any unit exactly the bytes that are 3 after two zeros are removed; escaped payloads contain no start code.", "quantifier": "every byte string", "why_tests_cant": "Pattern 00 00 03 may occur at any alignment and back to back.", "anchors": ["mediagrains/utils/h264_parser.py: _parse_rbsp_bits"]}
{"id": "C42", "title": "H.264 Exp-Golomb codes, parameter sets and slice headers parse to what was encoded", "statement": "For every unsigned and signed value the bit reader decodes its Exp-Golomb code back to it consuming exactly the code, and nothing else decodes to it; every sequence parameter set, picture parameter set and slice header assembled field by field from given values, as bits or as an escaped unit, parses to those values, and the frame information derived from them is what the standard says. Refuted for picture parameter sets with an explicit slice group map.", "quantifier": "every value; every combination of optional SPS fields", "why_tests_cant": "Conditional syntax with many optional parts.", "anchors": ["mediagrains/utils/h264_parser.py: _parse_sps, _parse_pps, _parse_slice_header"]}
{"id": "C43", "title": "H.264 frame splitting conserves the stream", "statement": "Splitting any Annex-B byte stream into access units and concatenating the pieces returns the stream up to an exception or trailing data holding no start code. A stream of well-formed access units (with any zero bytes before and after units, zero words at the end of slice data, data partitions) is split into exactly these, however the input is fragmented into reads, and becomes one grain each. Refuted: through a pipe the generator never ends normally; slices of one picture with different non-zero nal_ref_idc are split; prefix units are put in the wrong access unit; the key flag of the last picture looks only at the slices before a data partition; for malformed streams the result depends on the fragments.", "quantifier": "every stream and fragmentation", "why_tests_cant": "Start codes can straddle any read boundary.", "anchors": ["mediagrains/utils/h264_parser.py, mediagrains/utils/h264_grain_wrapper.py"]}
{"id": "C44", "title": "Grain comparison is exactly field-wise agreement outside exclusions", "statement": "Comparing two grains is truthy iff every compared attribute agrees or is excluded; adding an exclusion can never turn a match into a mismatch of the remaining attributes, and the default excludes only the creation timestamp.", "quantifier": "every pair of grains and option list", "why_tests_cant": "Combinations of differing attributes and options are unbounded.", "anchors": ["mediagrains/comparison/_internal.py: ComparisonResult.excluded, GrainComparisonResult.compare, mediagrains/comparison/__init__.py: compare_grain"]}
{"id": "C45", "title": "Grain comparison is reflexive and symmetric", "statement": "Any grain matches itself under any options without matchers, and the verdict does not depend on the order of the two grains, for payload types without NaN.", "quantifier": "every grain (pair) and exclusion list", "why_tests_cant": "All payload contents and list lengths.", "anchors": ["mediagrains/comparison/_internal.py"]}
{"id": "C46", "title": "Payload comparison detects every difference on whole samples", "statement": "Two payloads that are whole numbers of samples match iff they are equal byte for byte for integer formats; for 24-bit formats trailing bytes that do not fill a 3-byte sample are ignored, so such payloads can differ and still match.", "quantifier": "every pair of payloads and sample width", "why_tests_cant": "Difference positions over arbitrary lengths.", "anchors": ["mediagrains/comparison/_internal.py: DataEqualityComparisonResult"]}
{"id": "C47", "title": "Pairwise comparison of grain sequences", "statement": "Comparing two sequences of grains is truthy iff they have the same length and match pairwise; the reported count is the number of pairs compared, which is the index of the first mismatch plus one if there is one; with return_last_only and either sequence empty the call raises.", "quantifier": "every pair of finite sequences and options", "why_tests_cant": "Arbitrary lengths and mismatch positions.", "anchors": ["mediagrains/comparison/_internal.py: GrainIteratorComparisonResult"]}
{"id": "C48", "title": "Event payload editing and JSON payload are consistent", "statement": "Setting an event grain's data to the JSON of a payload and reading back type, topic and entries gives that payload; appending entries preserves earlier ones; setting pre or post to a value and reading gives it, and setting it to None removes it (for pre only if it was present; otherwise a KeyError is raised).", "quantifier": "every event payload and edit sequence", "why_tests_cant": "Edit histories are unbounded.", "anchors": ["mediagrains/grains/EventGrain.py: EventGrain.data, EventGrain.DATA, append"]}
{"id": "C49", "title": "Time labels and unit offsets behave as lists", "statement": "Every sequence of insert, append, replace, delete and read on a grain's time labels (and on a coded grain's unit offsets) has the same outcome as on an ordinary list, including the errors for bad indices, although the backing metadata key disappears when the list becomes empty. l[:] is the list, l[::-1] the list backwards, and a step of 0 raises ValueError.", "quantifier": "every operation sequence", "why_tests_cant": "The key is created and deleted dynamically; histories are unbounded.", "anchors": ["mediagrains/grains/Grain.py: TIMELABELS, mediagrains/grains/CodedVideoGrain.py: UNITOFFSETS"]}
{"id": "C50", "title": "Constructing a grain from partial metadata fills the gaps and nothing else", "statement": "A grain built from any metadata dictionary has all the standard fields afterwards, keeps every field that was supplied, and constructing it again from its own metadata changes nothing.", "quantifier": "every subset of supplied fields", "why_tests_cant": "2^n subsets.", "anchors": ["mediagrains/grains/Grain.py: Grain.__init__, GrainFactory"]}
{"id": "C51", "title": "Reading a pipe as a file", "statement": "On the pipe wrapper, reads and forward seeks consume the same bytes as on a file; a read that cannot be satisfied raises EOFError and no data is silently invented.", "quantifier": "every input and operation sequence", "why_tests_cant": "Arbitrary fragmentation.", "anchors": ["mediagrains/tools/_file_or_pipe.py: InputStreamWrapper"]}
{"id": "C52", "title": "The decoder raises only a known set of exceptions", "statement": "Whatever the input bytes, opening it raises at most EOFError, the bad-file-type or bad-version error, GSFDecodeError, UnicodeDecodeError or ValueError, and iterating over the grains afterwards raises at most GSFDecodeError, UnicodeDecodeError, ValueError or the bad-version error of a later concatenated file.", "quantifier": "every byte string, filter, loading mode and kind of input", "why_tests_cant": "Untrusted input; all byte strings.", "anchors": ["mediagrains/gsf.py: GSFSyncDecoderSession._decode_file_headers, grains, SyncGSFBlock"]}
{"id": "C53", "title": "Grain objects survive being written to a file and read again", "statement": "When a grain object of any class is written by the encoder, in one piece or while streaming, the object that is made from the decoded item has the same class, identifiers, rate, duration, labels, class attributes and payload, up to an exact list of losses: the creation time becomes the time of reading, version 7 loses the sign of timestamps, label rates are reduced, component offsets are recomputed, coded aspect ratios and unknown keys of event entries are dropped, and empty payloads become the class's default. The object can be written again, and a second reading differs from the first in nothing but the creation time. With deferred loading the length is known at once and the rest holds once the payload was waited for, except that event grains cannot be made.", "quantifier": "every list of grain objects that fit the format, version, segment filter, loading mode and kind of input", "why_tests_cant": "All objects of six classes times all attribute values times every way to write and read.", "anchors": ["mediagrains/gsf.py: GSFEncoderSegment.add_grain, encode_grain, GSFSyncDecoderSession.grains, GSFAsyncDecoderSession.grains", "mediagrains/grains/Grain.py: GrainFactory, Grain", "mediagrains/grains/EventGrain.py: EventGrain.data"]}
{"id": "C54", "title": "Assigning an attribute changes that attribute and nothing else", "statement": "After any history of assignments to the attributes of a grain, accepted and refused ones mixed, every attribute reads as the last value accepted for it under any of its names, as it did before if there was none, and the class, payload, lengths, labels, components, offsets, event entries and other metadata are as before. Which values are refused and with which exception depends on the sort of the attribute alone. The same holds between the payload and the attributes.", "quantifier": "every grain any constructor makes, every history of assignments of any length", "why_tests_cant": "Unbounded histories over forty attributes with shared storage and two names for some.", "anchors": ["mediagrains/grains/Grain.py: property setters", "mediagrains/grains/VideoGrain.py, CodedVideoGrain.py, AudioGrain.py, CodedAudioGrain.py, EventGrain.py: property setters"]}
{"id": "C55", "title": "Copies of grains read as the original; deep copies share nothing with it", "statement": "Copying any grain a constructor made, also after assignments, gives a grain of the same class with the same metadata and payload; an event keeps type, topic and the known keys of its entries. Whatever sequence of copies, deep copies, assignments, new payloads and in-place changes of payloads follows, every grain reads as in a family where shallow copies have the metadata and the payload in common with their original and deep copies have nothing in common with anything.", "quantifier": "every grain any constructor makes, every finite sequence of operations on it and its copies", "why_tests_cant": "Aliasing shows only in particular sequences of copies and changes, of which there is no bound.", "anchors": ["mediagrains/grains/Grain.py: Grain.__copy__, Grain.__deepcopy__, GrainFactory"]}
{"id": "C56", "title": "What the command line tools wrap in GSF they extract unchanged, and the probe lists every grain", "statement": "Wrapping a file by a template and extracting the result gives the file, whatever the length; a pipe gives its complete frames whatever the fragments. The grains are pieces of the template's expected length, their origin timestamps one period apart, every other attribute the template's, and each comes back from the file. A wrapper that raises, or yields a grain that cannot be written, leaves a file from which what came before can be extracted. A template of a picture or a sound takes as much of the input for a grain as a new grain of its shape has. The probe of any readable file has one row per segment number, with that segment's grains in order, their timestamps and the range that joins their time ranges, and is a KeyError exactly if some grain belongs to no segment.", "quantifier": "every template a constructor makes that the format can hold, every input and fragmentation, every readable file", "why_tests_cant": "Inputs, fragmentations, templates and files are unbounded; the tools have no tests of their own.", "anchors": ["mediagrains/tools/wrap_in_gsf.py: wrap_to_gsf", "mediagrains/tools/extract_from_gsf.py: extract_gsf_essence, gsf_probe", "mediagrains/utils/grain_wrapper.py: GrainWrapper"]}
{"id": "C57", "title": "The channel arrays of numpy audio grains are the channels of the payload", "statement": "For every uncompressed format of 16, 32 or 64 bits the arrays of a numpy audio grain give, for channel ch and number i, exactly the bytes of that sample in the payload, and nothing outside the grain; any sequence of assignments to the arrays changes the payload in the samples assigned, the last value winning, and nowhere else; on bytes none is possible. 24 bits in three bytes come as 32-bit numbers, 256 times the sample, on a copy that leaves the payload as it is; 24 bits in four bytes are shifted in place. Different samples never share bytes, and together they cover the payload. Copies have the same samples where nothing is shifted. The arrays of the grains of a tone are its waveform.", "quantifier": "every format of the enumeration, every number of channels and samples, every payload of the right size, every sequence of assignments", "why_tests_cant": "Tests use a few channel counts and payloads and read; histories of assignments, all samples of all shapes, and writes outside the array assigned to are unbounded.", "anchors": ["mediagrains/numpy/numpy_grains/AudioGrain.py: _dtype_from_cogaudioformat, _channel_arrays_for_data_and_type, AudioGrain.__init__, data, __copy__, __deepcopy__"]}
{"id": "C58", "title": "The times of grains: ranges, rates and times of presentation", "statement": "The time range of an audio grain starts at its origin timestamp and ends within a nanosecond of its last sample; normalised at the sample rate it holds the times of exactly its samples. Of audio grains that follow each other every sample time is in the range of exactly one. The range of a picture is its timestamp, and normalised it ends at the next picture. Normalising keeps whole counts, gives ranges between whole counts and changes those no more; without a rate it changes nothing. A coded picture is presented as many pictures later as its temporal offset says, every other grain at its time. Histories of assignments to other attributes leave all times as they are; a new origin timestamp moves all by the difference. Grains read from a version 9 file have the times of those written. The range gsf_probe gives is the smallest with all in it.", "quantifier": "every grain object, every clock with the laws of mediatimestamp, every number of samples and rate below 250 million a second, every sequence of grains or assignments, every file", "why_tests_cant": "Tests check a few timestamps and rates; rounding at all counts and rates, sequences of any length, and all histories of assignments are unbounded.", "anchors": ["mediagrains/grains/Grain.py: final_origin_timestamp, origin_timerange, normalise_time, presentation_origin_timestamp, final_presentation_origin_timestamp, presentation_origin_timerange, media_rate", "mediagrains/grains/AudioGrain.py: final_origin_timestamp, media_rate", "mediagrains/grains/CodedAudioGrain.py: final_origin_timestamp, media_rate", "mediagrains/grains/VideoGrain.py: media_rate", "mediagrains/grains/CodedVideoGrain.py: media_rate, presentation_origin_timestamp, final_presentation_origin_timestamp, presentation_origin_timerange", "mediagrains/tools/extract_from_gsf.py: gsf_probe"]}
{"id": "C59", "title": "The options of comparisons mean what was written", "statement": "Whatever options are given to compare_grain in the documented notation (Exclude.x, Include.x, CompareOnlyMetadata, ExpectedDifference.x compared with a number on either side, PSNR.data compared with a list of limits on either side), the verdict is true exactly if the grains agree where nothing was excluded, all differences are in the relations asked for and 0 where none was asked for, and every component with a limit meets it. The order of the options and repetitions do not matter. Chained comparisons, 'and', 'or', '&' and '|' of options and equality of a PSNR do not mean what they say: all are refuted for every operand. Two Exclude or two Include options are equal exactly if they name the same attribute.", "quantifier": "every list of options, every pair of grains, every difference and list of PSNR values", "why_tests_cant": "Tests use single options on a few grains; combinations of options, all differences, and both spellings of each relation are unbounded.", "anchors": ["mediagrains/comparison/options.py", "mediagrains/comparison/_internal.py: ComparisonResult.excluded, ownoptions, DifferenceComparisonResult.compare, PSNRComparisonResult.compare", "mediagrains/comparison/__init__.py: compare_grain"]}
{"id": "C60", "title": "Grains that were saved or copied compare equal to what they were", "statement": "If grain objects are written to a GSF file and read again, compare_grains_pairwise finds every pair equal and the number of pairs right, provided that the file version keeps all of them (labels with the written keys and rates in lowest terms; integral numbers; the key frame flag given before version 9; no times before the epoch in version 7; a payload where one is due; only the known keys in event entries) and the options name no expectations and do not include the creation timestamp. A comparison with a copy of a grain that is no event gives the very result of a comparison with the grain itself, and is true against the original, unless the payload has yet to be loaded. The provisos about rates, key frames, times before the epoch, the creation timestamp and loading are necessary: a witness against each is given.", "quantifier": "every list of grain objects, file version 7 to 9, file identity, and list of options", "why_tests_cant": "Tests compare a few grains of each type; the claim covers all attributes and payloads of all lists of grains through encoder, decoder and comparison together.", "anchors": ["mediagrains/comparison/__init__.py: compare_grain, compare_grains_pairwise", "mediagrains/gsf.py", "mediagrains/grains/Grain.py: __copy__"]}
{"id": "C61", "title": "The peak signal to noise ratio measures the difference of the samples", "statement": "compute_psnr of two video grains of one size and sampling gives for each component ten times the logarithm of the squared peak (given, or the greatest value of the first grain's depth) over the mean squared difference of the samples of the components in that place, infinity exactly if they are the same; smaller squared differences give better ratios whatever the peak; the order of two grains of one depth does not matter; the grains stay as they are. The same holds for the channels of two audio grains of one format with whole samples of 16, 24 or 32 bits in any arrangement or floating point samples, where 24 bit samples shifted up give the ratio of the samples as they are. A channel of floating point samples with one that has no difference (NaN, or the same infinity twice) has no ratio. Other types, sizes, channel counts and formats are refused. Exceptions, with a witness each: 24 bits in four bytes change the payloads, v210 has no ratios, components are paired by place, different depths, payloads that are too short.", "quantifier": "all video grains of the 28 kinds of picture and audio grains of 15 formats, of all sizes, payloads and peaks", "why_tests_cant": "Tests compare two patterns with stored numbers; the claim covers every sample of every payload in every layout, and that nothing else is changed.", "anchors": ["mediagrains/comparison/psnr.py: compute_psnr, _compute_video_psnr, _compute_audio_psnr, _compute_element_psnr", "mediagrains/numpy/numpy_grains/VideoGrain.py", "mediagrains/numpy/numpy_grains/AudioGrain.py"]}
{"id": "C62", "title": "The report of a comparison names exactly the attributes that differ", "statement": "failing_attributes of the result of compare_grain lists, each once, exactly the attributes compared for the type of the grains that are not the same: plain attributes that are not equal, times whose difference is not as expected, lists with elements that do not agree, and the payload if it differs, is to be ignored or cannot be compared because the types or formats differ. Without PSNR of the payload the comparison is truthy exactly if everything reported is excused: excluded, the creation time unless it is included, the length of event grains with an excluded part, or a payload that cannot be compared; without options only the creation time may be reported. The result of an attribute is found by its name and says whether it is reported and excused. Exceptions, with a witness each: with PSNR of the payload a comparison can fail without reporting anything; a payload that is to be ignored is reported even if it is the same.", "quantifier": "all pairs of grain objects with any metadata and payload, all lists of options with any matchers", "why_tests_cant": "Tests change one attribute at a time and look for its name in the report; the claim covers any number of differences together with any options, and that nothing else is named.", "anchors": ["mediagrains/comparison/_internal.py: ComparisonResult.failing_attributes, subcomparison_for_attribute, excluded", "mediagrains/comparison/_internal.py: GrainComparisonResult", "mediagrains/comparison/__init__.py: compare_grain"]}
{"id": "C63", "title": "The strategies for random grains draw the grains asked for, and grains that tests can rely on", "statement": "A grain drawn from grains(grain_type, **kwargs) shows, for every argument that says something, a value that the argument allows (exceptions: format, and creation_timestamp of coded audio grains, are ignored). Without arguments drawing never raises; the grain is of the class of its type, its attributes are in the documented ranges and its payload is zeros of the expected length. grains_with_data never raises; the grain has exactly as many bytes as its format needs, no sample of it is NaN, every payload of that length can be drawn unless the samples are floats, it can be written to a file, and any list of such grains that is saved and read back compares equal to what it was. Two such grains that share their metadata compare equal only if they have the same payload (exception: samples of 24 bits). A template is copied unchanged but for its payload. Further exceptions, with a witness each: coded grains can be of unknown format with units in no order and always have an empty payload with data; event grains cannot be drawn with DONOTSET for a timestamp. Drawn events have exactly the types (URNs whose namespace identifier has at most 32 characters), topics, paths and values that the strategies say; drawn rates and durations are fractions in lowest terms from 0 to 200.", "quantifier": "all six grain types, all keyword arguments (values or strategies), everything that the strategies can draw, all options of a comparison without matchers, files of version 7, 8 and 9", "why_tests_cant": "Strategies are what tests are made of: a test sees a few hundred draws, the claim covers every draw, including that no two of them can be confused by a comparison.", "anchors": ["mediagrains/hypothesis/strategies.py: strategy_for_grain_attribute, _format_strategy, _grain_strategy", "mediagrains/hypothesis/strategies.py: empty_grains, audio_grains, coded_audio_grains, video_grains, coded_video_grains, event_grains, grains", "mediagrains/hypothesis/strategies.py: grains_with_data, grains_from_template_with_data"]}
{"id": "C64", "title": "Converting a video grain keeps its identity, times and layout, and its payload is the converted picture", "statement": "VideoGrain.convert(fmt) between any two of the formats that conversions are registered for gives a grain of that format with the same source, origin and sync timestamps, rate, duration, size and frame layout, with the flow id derived for the format and a payload of the length that the format needs, which shows exactly the picture that the conversion function gives. Converting to the format that the grain has gives the same metadata and payload, asformat the grain itself. Any number of conversions does the same, with the flow id that tells the formats gone through. Between formats of one kind all samples are kept and compute_psnr of the two grains is infinite; v210 unpacked and packed again has the payload that it had. Formats without conversions are refused. Assigning a payload of the right length keeps the metadata, and bytes() and length tell the payload. Exceptions, with a witness: time labels are dropped and the creation timestamp is new. A grain whose payload is awaited has none until then, and after awaiting is like one made with it; None is refused as payload, and an awaitable takes the place of the payload. Exception, with a witness: a numpy grain made of a grain whose payload is awaited has an empty payload and arrays that are outside of it.", "quantifier": "all video grains with a payload of the right length (even width and height), all pairs and sequences of the 29 formats, all payloads, all values of uuid5, all noise", "why_tests_cant": "Tests convert a few pictures and look at samples; the claim covers the metadata, every pair and every chain of formats, and the bytes of the payload.", "anchors": ["mediagrains/numpy/numpy_grains/VideoGrain.py: VideoGrain.__init__, data, length, __bytes__, __deepcopy__", "mediagrains/numpy/numpy_grains/VideoGrain.py: VideoGrain._similar_grain, flow_id_for_converted_flow, convert, asformat"]}
{"id": "C65", "title": "Colour conversions are the stated products without their fractions, and RGB to YUV and back loses 3 at most", "statement": "Converting RGB to YUV 4:4:4 of the same depth gives, for every sample, the whole part of the stated product, always within the range of the depth; greys get the chroma in the middle of the range or one less, and a luma that is theirs or one less. Converting YUV to RGB gives the whole part of the product where that is in range, and 0 where it is below. RGB to YUV and back to any RGB format of the depth lowers red and blue by at most 3, green by at most 2, and raises nothing; the grain keeps what conversions keep. Exception, with a witness: products above the range become 2^depth, which 8 and 16 bits store as 0, so that a bright red turns to cyan.", "quantifier": "all pictures of all RGB and YUV 4:4:4 formats of 8, 10, 12 and 16 bits (one-way also 32), all sizes, all arithmetic that is accurate to a thousandth", "why_tests_cant": "Tests convert a test card and compare a handful of colours; the bound holds for all 2^48 colours and any rounding of the products.", "anchors": ["mediagrains/numpy/convert.py: _convert_rgb_to_yuv444", "mediagrains/numpy/convert.py: _convert_yuv444_to_rgb"]}
{"id": "C66", "title": "Equal grains are those with equal metadata and the same payload, and nothing tells them apart", "statement": "A grain is a pair of its metadata and its payload: positions 0, 1, -1 and -2 give these, others raise IndexError, slices are those of the tuple, tuple(grain) has the two. g == h exactly if the metadata dictionaries are equal and the payloads are the same; it is reflexive, symmetric and transitive, a tuple is equal to a grain exactly if it is such a pair, other objects never are, and != is the opposite. Equal grains of their own type are of the same class, read alike through every attribute, time label, unit offset and event entry (equal values or the same exception), and compare as equal under any options without matchers. A copy is equal to the original unless the payload was not there yet. has_data and bytes() tell the payload of all grains but events. Exceptions, with a witness: the length of a payload that is yet to come may differ between equal grains; events with equal metadata in another order are unequal; a grain that was saved and read is not equal to what it was though it compares equal; reading a time label can make a grain unequal to what it was; events have a payload, but has_data() is False and bytes() raises. Searching a grain as a sequence (in, count, index with bounds, reversed) finds a value where it stands in the pair, and nowhere else.", "quantifier": "all grains of all classes with dictionaries that have each key once, all tuples, all positions and slices, all attribute names, all comparison options without matchers", "why_tests_cant": "Tests compare a grain with one or two tuples; transitivity and indistinguishability range over all pairs of grains and all attributes.", "anchors": ["mediagrains/grains/Grain.py: Grain.__len__, __getitem__, __eq__, __ne__, __bytes__, has_data"]}
{"id": "C67", "title": "However a grain was made and changed, its metadata is well formed, and the laws of the other properties apply to it", "statement": "Take any grain made by a constructor or read from any file, whose attributes, payload, length, time labels, unit offsets, components and event entries are then changed any number of times by any of the operations, whether these raise or not, and which is awaited and copied at will. Its metadata is a dictionary of sound values with each key once, nested to any depth, and has the part of the grain's class as a dictionary; its payload consists of bytes. The items of any file that can be decoded, damaged or not, have rates and durations that are fractions in lowest terms. So of every such grain the laws of assignment (C54), the reflexivity and symmetry of comparison (C45) and the laws of equality (C66) hold without further conditions. Exception, with a witness: the class need not be that of the type.", "quantifier": "all histories: all constructors with all arguments, all files of bytes with all decoding options, all sequences of assignments, list operations, event operations, awaits and copies with all values", "why_tests_cant": "Tests try single operations on freshly made grains; this is about all sequences of all operations on all grains, including those that fail half way.", "anchors": ["mediagrains/grains/Grain.py: Grain", "mediagrains/grains/VideoGrain.py: VideoGrain", "mediagrains/grains/CodedVideoGrain.py: CodedVideoGrain", "mediagrains/grains/AudioGrain.py: AudioGrain", "mediagrains/grains/CodedAudioGrain.py: CodedAudioGrain", "mediagrains/grains/EventGrain.py: EventGrain", "mediagrains/gsf.py: GSFSyncDecoderSession.grains"]}
{"id": "C68", "title": "What a failed payload comparison says is right", "statement": "Whenever two payloads are compared there is a message and it is built without an exception; the edit operations behind it take both payloads piece by piece, alternate between equal and changed pieces and turn one into the other; it reports extra values exactly if one payload goes on where the other ends, with their number and the first of them; otherwise all values before the reported index agree and some value at or after it differs. The values reported there need not differ, and the values listed for the second payload need not be those of the operation. The identifiers in the messages are formatted as the reference says: braces in keys are to be doubled, and anything else raises IndexError, KeyError or ValueError depending on the first field the braces make.", "quantifier": "every two payloads of every sample format", "why_tests_cant": "The operations depend on all of both payloads, on ties between longest matches and on the popularity heuristic for 200 values or more.", "anchors": ["mediagrains/comparison/_internal.py: DataEqualityComparisonResult.compare, DataEqualityComparisonResult._str"]}
{"id": "C69", "title": "A comparison reports exactly what assignments changed", "statement": "If a grain can be compared with itself and attributes of it are then assigned, in any order and number and with refused assignments among them, so that everything compared can still be read and the type stays, then comparing the grain before with the grain after goes through, reports exactly the compared attributes that read differently now (and the payload as well if the format does), and succeeds exactly if nothing but the time of creation does. One assignment is reported under the name the attribute is compared by, if the values differ, and not at all for the extension and the aspect ratios; a change of type is reported together with the payload.", "quantifier": "every grain of every class that can be compared with itself, every attribute, every history of assignments of modelled values", "why_tests_cant": "There are some forty pairs of classes and attributes, each with values of several sorts; tests change a few of them, one at a time, in grains they made themselves.", "anchors": ["mediagrains/comparison/_internal.py: GrainComparisonResult.compare, ComparisonResult.failing_attributes", "mediagrains/grains/Grain.py: property setters", "mediagrains/grains/VideoGrain.py: property setters", "mediagrains/grains/CodedVideoGrain.py: property setters", "mediagrains/grains/AudioGrain.py: property setters", "mediagrains/grains/CodedAudioGrain.py: property setters", "mediagrains/grains/EventGrain.py: property setters"]}
{"id": "C70", "title": "The texts of a comparison give its reasons", "statement": "A comparison of two grains fails exactly if some part of it is to blame: one that failed, reached through failed parts with nothing excluded on the way; then such a part without further parts exists and its own message stands in the comparison's message in parentheses. The message contains the messages of all that is reached through failed parts and depends on nothing else; it is the comparison's own message alone exactly if no part failed. The printed form has one line for each part, in order, indented by its depth and marked as ignored, the same or not the same, and the whole tree of marks and messages can be told from it.", "quantifier": "every two grains and options; every tree of results, whatever the messages of its nodes (for the printed form: messages of one line)", "why_tests_cant": "The tests of the comparison look at the verdict and the failing attributes; the texts are hardly tested and depend on the whole tree.", "anchors": ["mediagrains/comparison/_internal.py: ComparisonResult.msg, ComparisonResult._str, ComparisonResult.__str__, DataEqualityComparisonResult._str, GrainComparisonResult.compare"]}
{"id": "C71", "title": "Conversions to finer formats and back lose nothing", "statement": "A video grain converted through any number of formats of the same colour model and bits per sample that have at least as many chroma samples as its own (interleaved formats and v210 among them) shows the same picture: each sample of the last grain is the sample of the first that covers its place. If the last format is the first one, the payload is that of the first grain byte for byte, and the grain compares equal to it but for the flow.", "quantifier": "every chain of formats, every pair of even sizes, every payload (with v210 on the way: samples of 10 bits; for the payload: formats without unused bytes, and v210 with nothing in the unused fields)", "why_tests_cant": "The tests convert single small pictures between single pairs of formats; chains through the table, with its conversions in two steps, and all payloads are not covered.", "anchors": ["mediagrains/numpy/numpy_grains/VideoGrain.py: VideoGrain.convert, _similar_grain, flow_id_for_converted_flow", "mediagrains/numpy/convert.py: the conversions between formats of the same depth and colour model, v210 among them, and compose"]}
{"id": "C72", "title": "json.loads reads exactly the JSON texts", "statement": "Reading a text as JSON gives a value exactly if the text is one of the JSON grammar (white space, strings with all escapes and pairs of surrogates, integers without leading zeros, arrays, objects of which the last of several members with one name counts), and then the value the grammar gives it, of which there is one; every other text is a ValueError. What json.dumps writes is a text of the value. Any text of a payload, however laid out, sets an event grain to that payload; a text that is not JSON leaves the payload as it was.", "quantifier": "every text (with integers as the only numbers; for the event grain: every text that UTF-8 can carry)", "why_tests_cant": "The tests set an event grain to the output of json.dumps; the texts that other programs may write are not enumerable.", "anchors": ["mediagrains/grains/EventGrain.py: EventGrain.data, EventGrain.__init__ (json.dumps, json.loads)"]}
{"id": "C73", "title": "A wrapped BytesIO is a file, and cannot be told from the in-memory file where both are", "statement": "Every history of operations on the asynchronous wrapper of a BytesIO (without readall, negative sizes or positions, or empty writes beyond the end) has the results, the position and the contents of an ideal file that gives fewer bytes at its end. If moreover the history is one on which the in-memory asynchronous file is an ideal file, and no read asks for more than there is, the two give the same results apart from those of seeks. They differ at the end of the file, in readall, at positions before the start and in empty writes beyond the end.", "quantifier": "every contents, every operation sequence in the stated class", "why_tests_cant": "The tests use each kind of file in a few fixed sequences; code is written against the common interface and must work with every one.", "anchors": ["mediagrains/utils/asyncbinaryio.py: OpenAsyncBytesIOWrapper, OpenAsyncFileWrapper, OpenAsyncBytesIO"]}
{"id": "C74", "title": "A decoder object reads where it stands, in portions or file by file", "statement": "decode(s) on a decoder object gives what load of those bytes gives, whatever was done with the decoder before, and closes its session. Without support for concatenations, successive calls of decode() give complete files that follow each other one by one, from wherever the file stands, and leave it after the last. Grains taken in portions, each from a new generator, are together all the grains in order, and leave the decoder as reading everything does. The older decode_file_headers and grains give the header and the selected grains, without data when it is to be skipped and with deferred data when loading lazily; grains raises RuntimeError exactly without a session. A session whose version was refused is still a session: its grains are read.", "quantifier": "every decoder state, every input and portion sizes; every list of complete files, every header version", "why_tests_cant": "The tests use a new decoder for each file and read it once, whole; reuse, portions and refused files are never combined.", "anchors": ["mediagrains/gsf.py: GSFDecoder, GSFSyncDecoderSession.grains"]}
{"id": "C75", "title": "Deferred byte strings compare with bytes as bytes do, but with one another only as objects", "statement": "With bytes on either side, the six comparison operators of IOBytes mean what they mean for the bytes it stands for. Between two IOBytes, == and != say whether they are the same object, and the ordering operators raise TypeError. Indexing and iterating give the bytes; reversed() gives them in reverse if the stream holds the promised length, and raises IndexError if it is too short and nothing was loaded. No operator moves the stream. Grains are equal when metadata and payload bytes are, unless both payloads are deferred: then the payloads must be the same object. Shallow and deep copies are equal to the original. The same grain decoded lazily twice is never equal to itself.", "quantifier": "every collection of IOBytes with non-negative start and length, every operator, every operand, every index, every pair of grains", "why_tests_cant": "The tests compare IOBytes only with bytes, on a few values, and grains only with loaded payloads.", "anchors": ["mediagrains/utils/iobytes.py: LazyLoader, IOBytes", "mediagrains/grains/Grain.py: __eq__, __copy__, __deepcopy__", "mediagrains/gsf.py: GSFSyncDecoderSession.grains"]}
{"id": "C76", "title": "Creation times keep their instant", "statement": "A creation time given with any UTC offset is turned into the time of UTC at the same instant, counting the days of the Gregorian calendar one by one; there is only one such time, doing it again changes nothing, and it raises exactly if the instant is outside of the years 1 to 9999. The creation time read back from a file is the second in which the instant given is.", "quantifier": "every date and time of the years 1 to 9999, every offset", "why_tests_cant": "Offsets carry over the ends of days, months, leap years and centuries, and over both ends of the calendar.", "anchors": ["mediagrains/gsf.py: _ensure_utc_datetime, GSFEncoder.__init__, OpenGSFEncoderBase.__init__"]}
{"id": "C77", "title": "The wrapping tools do what their options say", "statement": "The size given to wrap_video_in_gsf is read from exactly the texts of two Python integers around an x, every other text being refused, and the template has the size, format, start, identifiers and rate asked for, with a duration of one period. A file of frames wrapped with these options gives a GSF file whose grains are the frames, at that rate from that start, and whose essence is the input. Raw audio is 1920 samples of two channels at 48 kHz unless told otherwise, and lasts as long as its samples. Exceptions: templates for audio have rate 0 whatever the options, and AAC needs the number of samples though the wrapper has a default for it.", "quantifier": "every text of a size, every option, every input", "why_tests_cant": "Options combine freely, none of the tools is tested, and the defaults take part in sizes and times much later.", "anchors": ["mediagrains/tools/wrap_in_gsf.py: wrap_video_in_gsf, wrap_audio_in_gsf"]}
{"id": "C78", "title": "Silence is silent and the 1 kHz tone repeats", "statement": "Every grain that Silence gives has exactly the bytes its format, channels and samples ask for, all zero, at every count of samples that is a multiple of the grain's, and nothing elsewhere; formats it cannot make are refused with ValueError. Tone1K repeats every millisecond, or every second where a millisecond is no whole number of samples. Exception: planes of 24 bits lack a quarter of their bytes.", "quantifier": "every format, number of channels and samples, sample rate and key", "why_tests_cant": "The tests use a few formats and sizes; the layout has four branches for every format and the offset into the waveform depends on the whole history of counts.", "anchors": ["mediagrains/patterngenerators/audio/tone.py: Tone1K, Silence, Tone"]}
