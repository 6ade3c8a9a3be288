# Formal model of mediagrains in Rocq/Coq 8.16.1

Source: bbc/rd-apmm-python-lib-mediagrains, pinned commit, read as text from /repo.
Properties: `properties.jsonl`. Status per property: `MANIFEST.json`. Mutation log: `seeded/LOG.jsonl`.
Build: `cd rocq && coq_makefile -f _CoqProject -o Makefile && make -j3` (about 5 minutes).

## Approach

* Shallow, executable Gallina models that follow the Python functions branch by branch;
  exceptions are values (`Err EEof`, `Err EDecode`, ...); loops over input run on explicit fuel and a
  theorem shows that the fuel used is always enough (the out-of-fuel error is unreachable).
* Bytes are `list Z` with every element in 0..255; Python ints are `Z`; Python `str` is a list of code points,
  UTF-8 is modelled (encode and strict decode).
* A file is (contents, position). Reads may be short at end of file; seeks past the end are allowed.
* Model files hold definitions only, each with the lines of /repo it follows. `*Spec.v` hold the specifications, which do
  not call the model's helpers. `*Proofs.v`, `*Main.v`, `*Facts.v` hold lemmas. `Props*.v` hold the property theorems and
  nothing else, each closed with `exact`, followed by `Print Assumptions`, with a concrete `Example` beside it.
* Where the code does not have a property, the property is proved under the weakest condition found and a
  `..._refuted` theorem gives the counterexample; all of them are listed under Findings.

## Map

| properties | model (what it follows) | specification | theorems |
|---|---|---|---|
| C01-C03 | Base, Utf8, GsfPrim (gsf.py field readers and writers) | GsfPrim statements on bytes and code points | PropsPrim |
| C05-C15, C18, C22 | GsfBlock, GsfDecode (gsf.py block decoders, GSFSyncDecoder, GSFAsyncDecoder), GsfGroup (load, loads, grouping) | GsfSpec, GsfFileSpec (grammar of files and the content they mean) | PropsFile, PropsEncode |
| C04, C06, C16, C17, C19-C21 | CogEnums, GsfEncode, GsfEncState (gsf.py encoder, segments, sessions), GsfDumps | GsfSplitSpec, GsfEncSpec, GsfEncDecodeSpec | PropsEncode |
| C23, C24 | IoBytes (utils/iobytes.py), LazyGrains (asynchronous lazy loading of gsf.py) | IoBytesSpec, LazySpec | PropsIO |
| C25, C26 | PySlice, AsyncBytes, AsyncStream (utils/asyncbinaryio.py) | AsyncBytesSpec, AsyncStreamSpec (ideal files) | PropsIO |
| C27-C30 | VideoLayout (grains/VideoGrain.py, AudioGrain.py sizes, cogenums.py) | LayoutSpec | PropsLayout |
| C31-C35 | NpView, NpConvert (numpy/) | NpSpec, NpConvSpec | PropsConvert |
| C36-C38 | PatternTime, Tone, VideoPattern (patterngenerators/) | PatternSpec | PropsPattern, PropsSteps |
| C39, C40, C51 | Wrap (utils/grain_wrapper.py, adts_*.py, tools/_file_or_pipe.py) | WrapSpec | PropsWrap |
| C41-C43, C52 | H264 (utils/h264_parser.py, h264_grain_wrapper.py) | H264Spec, H264StreamSpec (from the standard's syntax) | PropsH264 |
| C44-C47 | Difflib, PyValue, Json, GrainObj (grains/), StrFormat (str.format), Compare (comparison/) | CompareSpec | PropsCompare |
| C48 | Event (grains/EventGrain.py) | EventSpec, ListSpec | PropsEvent |
| C49 | PyList, Lists (Grain.TIMELABELS, CodedVideoGrain.UNITOFFSETS, VideoGrain.COMPONENT_LIST and MutableSequence) | ListsSpec, ListSpec | PropsLists |
| C50 | GrainObj (constructors of every class, GrainFactory) | BuildSpec | PropsBuild |
| C53 | GrainGsf (what the encoder reads from a grain object, what the decoder makes; gsf.py 886-1030, 1164-1213, 1310-1339, 2262-2448) | GrainGsfSpec, GrainGsfFileSpec | PropsGrainGsf |
| C54 | GrainSet (the property setters of every class) | GrainSetSpec | PropsSet |
| C55 | GrainCopy (Grain.__copy__ and __deepcopy__, with what copies share in memory) | GrainCopySpec | PropsCopy |
| C56 | Tools (tools/wrap_in_gsf.py, tools/extract_from_gsf.py, expected_length, GrainWrapper on objects) | ToolsSpec | PropsTools |
| C57 | NpAudio (numpy/numpy_grains/AudioGrain.py) | NpAudioSpec | PropsNpAudio |
| C58 | GrainTime (times, time ranges and rates in grains/*.py) | GrainTimeSpec | PropsTime |
| C59 | Options (comparison/options.py: the expressions options are written in) | OptionsSpec | PropsOptions |
| C60 | Compare + GrainGsf + GrainCopy (saving, reading and comparing; copying and comparing) | SavedSpec | PropsSaved |
| C61 | Psnr (comparison/psnr.py on grain objects and numpy views) | PsnrSpec | PropsPsnr |
| C62 | Compare (failing_attributes, subcomparison_for_attribute) | ReportSpec | PropsReport |
| C63 | Strategies (hypothesis/strategies.py) | StrategySpec | PropsStrategy |
| C64 | NpObject (numpy VideoGrain as an object: construction, payload, convert, asformat) | NpObjectSpec | PropsNpVideo |
| C65 | NpConvert (the two colour conversions) | ColourSpec | PropsColour |
| C66 | GrainPair, GrainSeq | GrainPairSpec, GrainSeqSpec (with CompareSpec) | PropsPair, PropsSeq |
| C67 | GrainObj, GrainSet, Lists, Event, GrainCopy, GrainGsf, GsfDecode | LifeSpec | PropsLife |
| C68 | Opcodes (difflib's blocks and operations; comparison/_internal.py 302-383), StrFormat | OpcodesSpec, FormatSpec | PropsNote, PropsFormat |
| C69 | GrainSet, Compare (no new code: the two together) | ChangeSpec (with GrainSetSpec, ReportSpec) | PropsChange |
| C70 | Render (comparison/_internal.py 118-127, 175-193, 357-384), Compare | RenderSpec | PropsRender |
| C71 | NpConvert, NpObject, Compare (no new code: chains of conversions) | RoundSpec | PropsRound |
| C72 | Json, Utf8, Event (no new code: the grammar of the texts) | GrammarSpec | PropsGrammar |
| C73 | WrapBytes (utils/asyncbinaryio.py, io.BytesIO) | WrapBytesSpec, AsyncBytesSpec | PropsWrapFile |
| C74 | Decoder (gsf.py 1344-1511) | DecoderSpec, GsfFileSpec | PropsDecoder |
| C75 | DeferOps (iobytes.py 74-113, Grain.py 341-372), DeferDecode | DeferSpec, IoBytesSpec, ListSpec | PropsDefer |
| C76 | Utc (gsf.py 1564-1583, with the arithmetic of Lib/datetime.py), UtcFile | UtcSpec (the calendar day by day) | PropsUtc |
| C77 | ToolArgs (tools/wrap_in_gsf.py 61-185, from the converted options to the template) | ToolArgsSpec | PropsToolArgs |
| C78 | ToneKinds (audio/tone.py 184-222) | ToneKindsSpec, PatternSpec | PropsToneKinds |

## Trusted base

* Coq 8.16.1 kernel. Every property theorem prints "Closed under the global context". The files load parts of the
  standard library whose module `Coq.ssr.ssrunder` declares the seven parameters `Under_rel.Over_rel`,
  `Under_rel.Under_rel_from_rel`, `Under_rel.over_rel`, `Under_rel.over_rel_done`, `Under_rel.Under_rel`,
  `Under_rel.Under_relE`, `Under_rel.under_rel_done`; no theorem depends on them.
* The reading of the Python source and of its language and libraries into Gallina. What is assumed of libraries:
  * `mediatimestamp`: a timestamp is its signed nanosecond count; conversion between counts and times at a rate and the
    iteration of ranges are a parameter (`clock`) with the laws stated where it is used; the first count of
    `TimeRange.at_rate` is a parameter in the wrappers. Counts without a rate are not modelled. Ranges (`span`) have an included
    start; `normalise` makes them half open at whole counts, `extend_to_encompass_timerange` joins them; a rate that is not
    positive raises.
  * `uuid.UUID` is 16 bytes; the texts of UUIDs and timestamps are symbolic (`PUuidStr`, `PTimeStr`).
  * `fractions.Fraction` is a reduced numerator and denominator; `datetime` has the proleptic Gregorian fields.
  * `numpy` elementwise integer arithmetic with wrapping; `struct` native little-endian with 8-byte `l`.
  * `bitstring` 4.1 or later; `json` (own model, no floats); `io.BytesIO` (own model); `difflib` of Python 3.11 (own model);
    `collections.abc.MutableSequence` (own model); `io.BytesIO`, raw and buffered files as contents and position.

## Simplified or not modelled

* GSF: short raw writes; the type checks of files in `__enter__`; lone surrogates;
  waiting inside asyncio's StreamReader; non-blocking reads that return None.
* Patterns: the sine and its float formatting are a parameter (`t_wave`); intensity scaling is a parameter (`scale`);
  negative channel counts.
* Wrappers: negative sample counts in the ADTS template; the `ceil` of a float quotient in the H.264 read size is taken as
  exact, which a division by a power of two is below 2^53 bytes; an H.264 template of rate 0.
* Numpy audio: negative sample counts; arrays are of a machine of little-endian order; awaiting a deferred payload, which is as
  assigning it.
* Times: sample rates, sample counts and temporal offsets that are not integers. The theorems about sample times are for rates
  below 250 million a second and clocks whose count 0 is time 0.
* Tools: messages, and the conversion of single options by argparse (`--size` is converted by the tool, and modelled for ASCII); what a wrapper yields is taken not to depend on what is written meanwhile, so the file and the
  wrapper are separate.
* Values: JSON floats and NaN, the 4300-digit limit, the recursion limit; numerals in strings given to `int()` or
  `Fraction()`, identifiers and times given to them, the text of other objects given as identifiers. Caller's
  dictionaries are returned, not mutated in place; sharing of values put into entries and list elements is not tracked. In the
  memory model of copies `meta['grain']` is one object with all that is in it, and only payloads are shared besides.
* difflib: `ratio() == 1.0` is taken as exact equality (numbers below 2^53), the queue as recursion in the order it gives.
* Options: names that start with two underscores, NaN as a PSNR, operands that are not numbers (of PSNR lists of them).
* Comparison: the messages of single comparisons are not modelled (in C70, on how they are put together, they are parameters), except
  for what goes into those about payloads (C68) and the formatting of identifiers
  with keys in them, as it may raise; `compute_psnr` is a parameter; unit offsets given as fractions raise a type error;
  every character from 161 up is taken as printable in `repr`.
* PSNR: the values are exact ratios (no rounding of doubles or logarithms); `max_val` is None or a whole number; the two grains are
  different objects with payloads of their own, and not numpy grains; views outside of a payload cannot be read (EIndex).
* Strategies: what can be drawn, not how likely, nor how examples shrink; `timestamps()` of mediatimestamp is taken to draw times of
  48 bits of seconds; arguments are None, DONOTSET, a value or a strategy, of the types that the documentation allows; coded audio
  grains replace a creation time that is falsy, taken as None only.
* Numpy video grains: `uuid5` is a parameter; the conversions look at the components that the constructor gives to a format and a
  size, not at components that were changed; that `VideoGrain(grain=g)` shares the metadata of `g` is not seen; sizes are even.
* Colour products: any numbers within a thousandth of the exact products (`accurate`), which double precision is for depths up to
  16 by a wide margin; the conversion of the clipped number to an unsigned integer is truncation modulo the size of the item.
* Grains as pairs: buffers that are equal to bytes count as bytes; values looked for in a grain are other objects than its own;
  comparison of a grain with a numpy payload is not modelled.
* Not modelled: `typing.py`, argparse.

## Findings: where the code does not do what one would expect

Each is a theorem, an example, or visible in a specification's condition.

GSF reading and writing
* Text is cut at the byte limit of its field (65535, 64, 16), possibly inside a UTF-8 character; the file cannot be decoded.
  A text that starts with NUL reads back as empty.
* `temporal_offset` 0x7fffffff reads back as None; version 7 loses the sign of timestamps; microseconds of `created` are dropped;
  component offsets are recomputed on reading; counts of labels, offsets and components wrap at 65536; negative rates wrap.
* `dumps(..., streaming=True)` always raises (C06_dumps_streaming_refuted). `loads` drops its keyword arguments.
* Streaming loses grains when segments come from an earlier session or are added to asynchronously (C16_lost_grains_refuted).
* Local segment ids clash after failed exits or mixed use (C19_disorderly_refuted). Asynchronous dumps accept new segments and
  tags that are never written (C20_async_refuted). The asynchronous encoder never closes the file it opened. A second dump's
  counts are cumulative. A segment's `_active_dump` stays set. `add_segment` advances the local id before it fails.
* A grain whose payload is pending writes the wrong size of `grdt`.
* `GSFDecoder.__enter__` stores its session before the headers are checked, so after a file was refused for its version the
  deprecated `grains` reads it all the same (C74_refused_read). Without support for concatenations, reading up to the header of a
  next file consumes its tag, so that file can no longer be read from there unless an end marker came first
  (C74_no_end_marker_refuted). `loads` drops its extra keyword arguments, so `support_concatenation=False` has no effect there.
* `IOBytes.__eq__` and the ordering operators hand on to `bytes`, which does not know IOBytes. Two IOBytes with the same bytes are
  therefore unequal, and ordering them raises TypeError (C75_equal_refuted). A grain decoded lazily twice from the same file is not
  equal to itself, although `compare_grain` calls the two equal (C75_decoded_twice). `reversed()` of an IOBytes whose stream is too
  short raises IndexError the first time and works after anything else loaded it (C75_reversed). C66 is about loaded payloads.
* Loading immediately from a truncated `grdt` gives short data synchronously; asynchronously the grain is dropped. The search for a
  wanted tag runs past the end of a `grai` block. Text of a flow that is not UTF-8, and impossible dates, escape as
  UnicodeDecodeError and ValueError. A truncated second header raises a decode error.
* Lazy loading: the load-on-exit mode changes a dictionary while iterating (C24_load_on_exit_refuted); simultaneous awaits read each
  other's bytes (C24_concurrent_refuted); an EOF leaves the position moved (C24_position_refuted); awaiting after the session
  raises RuntimeError.
* Grain objects through a file lose their creation time (it becomes the time of reading), the aspect ratios of coded video, keys of
  event entries other than path, pre and post; label rates come back in lowest terms; an empty payload comes back as None for a
  plain grain and None comes back as b"" for the others. An event entry without a path is written but cannot be read (KeyError). A
  plain Grain whose type says "event" writes its bytes as they are.
* The asynchronous decoder in its default mode raises AttributeError at the first event grain: it assigns `length`, which is refused
  because an event always has data (C53_deferred_events_refuted).

Files
* OpenAsyncBytesIO: `readall` does not advance (C25_readall_refuted); writing after truncation exposes old bytes
  (C25_stale_refuted); extending truncation is wrong (C25_extend_refuted); an empty write past the end extends.
  At a negative position, reading gives too few bytes or bytes from the end (C25_negative_read_refuted).
* The wrappers of BytesIO and of buffered files have a `readall` that raises AttributeError, as those files have none
  (C73_readall_refuted); at the end of the file they give fewer bytes where the in-memory file raises EOFError (C73_short_refuted);
  seeks return the position there and None here, and before the start they fail there and succeed here (C73_negative_refuted).
* The stream wrapper counts `readall` twice (C26_readall_refuted); its `__aexit__` swallows a backward seek.
* InputStreamWrapper.seek reads once (C51_short_seek_refuted); after EOFError the data read is lost (C51_lost_refuted); sizes
  below -1 read nothing.

Video and audio
* AYUV: the payload is too small for its components and the numpy views go out of bounds (C27_ayuv_refuted, C35_ayuv_refuted).
* Compressed formats get planar tables of three components; formats with alpha get three components; for odd sizes strides times
  heights need not agree with lengths (C28_only_compatible_refuted).
* Depth reduction overflows at the top, where white can become black (C33_top_refuted); noise makes up-then-down lossy; the clip
  bound 1 << depth wraps, so that bright reds turn to cyan (C34_clip_refuted, C65_bright_refuted); odd sizes raise
  (C34_odd_refuted); BGRA has no numpy type (C35_bgra_refuted).
* Tone: odd channel counts in pairs formats raise; S24_PLANES packs 3 bytes where 4 are expected (C36_planes_24_refuted, for every silence C78_planes_24_refuted); full
  volume can raise (C36_full_volume_refuted); `get` ignores `default`; a skip of 0 divides by zero.
* ColourBars and LumaSteps need component widths that are multiples of 8 (C38_steps_wrap_refuted, ZeroDivisionError below 8).
  MovingBarOverlay divides by zero when the chroma has no lines. It rounds its key before it asks its source, so that it has a
  grain at every time, unlike its source (C38_bar_off_grid_refuted); this takes TimeValue(key, rate) to round, as the test in
  still.py 43 does.
* Making a numpy AudioGrain of S24_PLANES shifts the payload it is given, so the caller's data change; a copy, deep or not, is
  shifted again, and a shallow one shifts the original too (C57_low_refuted); on bytes it raises ValueError (C57_low). Assignments to
  the arrays of S24 in three bytes are lost (C57_packed). The arrays of a payload that is too short read and write outside of it
  (C57_short_refuted). Compressed audio is read as 16 bits in planes (C57_compressed_refuted). `AudioGrain()` without a format raises
  NotImplementedError, since the default format is INVALID (C57_refused). Assigning `samples`, `channels` or a format leaves the arrays
  as they were.

Wrappers and H.264
* GrainWrapper on a file yields a short last frame (C39_last_frame_refuted) and takes short reads as frames
  (C39_short_reads_refuted); an expected length of 0 makes no grains. On a pipe the incomplete last frame is lost
  (C56_pipe_refuted). Every grain keeps the sync timestamp of the template (C56_sync_refuted).
* `wrap_audio_in_gsf` gives its templates rate 0 whatever the options (C77_audio_rate_refuted). The wrapper for raw audio asks for times
  at the template's rate, so it is asked for times at rate 0; what mediatimestamp does with that is not part of the model. For AAC the
  tool raises TypeError unless `--samples-per-grain` is given, so that the wrapper's default of 1024 is never used (C77_aac_refuted).
* `extract_gsf_essence` raises TypeError at a plain grain without a payload, after writing what came before (C56_no_payload).
  A file that was cut off within a grain is extracted without that grain and without an error (C56_truncated_refuted).
  `gsf_probe` raises KeyError at a grain of no segment; of segments with the same number it shows the last (C56_probe).
* Files of version 7 and 8 turn a missing temporal offset into one of 2147483647 pictures, so that the presentation time of coded
  video is years off (C58_version_refuted). An audio grain made without a sample rate has no time range: asking for it raises, and so
  does `gsf_probe` (C58_default_refuted). One without samples has the range "never", and a final time before its first
  (C58_empty_refuted). Coded video with a temporal offset and rate 0 raises when asked for its presentation time
  (C58_still_refuted).
* ADTS frames of length 6 swallow the rest (C40_length_6_refuted). Neither ADTS nor H.264 catches the pipe's EOFError, so piping
  into them raises (C43_pipe_refuted).
* H.264: slice group type 6 has the wrong width (C42_slice_groups_refuted); the nal_ref_idc rule is too strong
  (C43_ref_idc_refuted); type 14 does not start an access unit (C43_prefix_refuted); the last picture of a stream is called a
  key frame if its slices before the first data partition are intra coded (C43_partitions_refuted); malformed units depend on how the stream is
  fragmented (C43_fragments_refuted); trailing data without a unit is dropped; an extended aspect ratio of height 0 divides by
  zero; a missing SPS raises UnboundLocalError; key frames ignore slices after the first redundant one.

Comparison
* When formats differ the payload is not compared (C44_format_refuted); video comparison ignores components, extension and
  aspect ratios; event comparison has no data child; `Exclude.grain_type` lets different types match.
* 24-bit samples drop a trailing incomplete word (C46_trailing_refuted); floats: NaN never matches itself, both zeros match
  (C45_nan_refuted, C46_float_refuted); a payload that is not whole words raises struct.error even when excluded.
* With matchers the order of the grains matters (C45_matcher_refuted). Pairs with an empty sequence raise UnboundLocalError; a PSNR child has no `attr`, so
  that a comparison can fail with nothing in `failing_attributes` (C62_psnr_refuted); an excluded payload is reported even if it is the same (C62_ignored_refuted);
  keys of events and labels with braces in them make the comparison raise, even of a grain with itself and even if excluded (C45_braces_refuted).
* Converting to a format with fewer chroma samples and back loses chroma (C71_coarser_refuted); so does v210 lose bits of 16-bit samples beyond
  the ten, and a copy between RGB formats the unused byte of a pixel (C71_coarser_ex). Everything finer gives the payload back.
* Comparisons overlook the extension and both aspect ratios of video grains (C69_overlooked_refuted). An assignment that leaves an attribute
  unreadable makes the next comparison raise (C69_unreadable_refuted).
* The "first different values" of two payloads may be one value, before the first difference (C68_first_refuted); the lines below
  show the values of the second payload at the places of the first (`self.b[i1:i2]`), so that "equal" values differ (C68_values_refuted).
* Two bounds on a difference: `1 < ExpectedDifference.x < 5` and `... and ...` silently keep the last only (C59_chain_refuted,
  C59_and_refuted); `&` and `|` of options raise TypeError (C59_bits_refuted); `ExpectedDifference.x & (...)` gives an option that
  raises TypeError at every difference, since it calls something that is not callable (C59_useless_refuted). Bare names such as
  `ExpectedDifference.x` are accepted and ignored; elements of lists cannot be named; `PSNR.data == ...` is an AttributeError, and so is an
  option behind a condition that is not met (C59_equal_refuted, C59_conditional);
  limits beyond the number of components are ignored (C59_odd_ex, C59_verdict).
* PSNR: v210 pictures have no ratios at all, so any limit is met whatever they show (C61_v210_refuted). Components are paired by
  place (RGB against BGRx compares red with blue), transparency is not measured, and the peak is that of the first grain
  (C61_limits_refuted). Samples of 24 bits in four bytes: payloads of bytes raise ValueError; other payloads are overwritten with
  shifted samples, so that measuring (or comparing) twice gives something else (C61_low_refused, C61_twice_refuted). 64-bit samples
  raise TypeError. A sample that is infinite in one of the grains only is a ValueError, unless another of its channel has no
  difference at all: then the channel has the ratio NaN (C61_special). If one of two payloads is too short to hold all the samples
  and holds just one, that one is compared with all the others; otherwise too short payloads raise (C61_short_refuted).

Grains
* src_id or flow_id None becomes the text "None" and reading it raises ValueError (C50_none_refuted). VideoGrain given metadata
  without 'grain' raises KeyError where other classes fill it; a partial cog_frame is not filled. Grains built from metadata
  without payload get b"" instead of None. GrainFactory without metadata drops its payload.
* Assigning None or other text to an identifier, or a number that is no member to an enumeration, succeeds and the attribute then
  raises ValueError when read (C54_readable_refuted). Aspect ratios read as None but cannot be set to None (C54_aspect_refuted).
* `copy(grain)` shares the metadata: assigning an attribute of the copy assigns it to the original (C55_shallow). Shallow copying
  an event takes unknown keys out of the entries of the original (C55_event_refuted), and raises KeyError when an entry has no path.
  Copies of grains that were not loaded yet have an empty payload and cannot be loaded (C55_lazy_refuted). A grain whose type was
  assigned is copied into another class (C55_type_refuted). `bytes(grain)` without a payload returns None, a TypeError.
* Event grains: setting `pre` or `post` to None twice raises KeyError; assigning data with a bad entry leaves it half replaced; awaited
  bytes never reach the payload.
* Time labels: `g.timelabels = g.timelabels` and `g.timelabels += [x]` erase every label (C49_assign_self_refuted,
  C49_add_refuted); `g.timelabels.extend(g.timelabels)` never ends (C49_extend_self_refuted); assignment to slices raises
  TypeError; slices of absent lists raise IndexError; slices of components need equal counts (C49_slice_refuted).
* Saving and comparing: a grain read from a file does not compare equal to the grain written if a label's rate is not in lowest
  terms (50/2), if a coded video grain does not say whether it is a key frame (before version 9), if a time is before the epoch
  (version 7), or if the creation timestamp is included (C60_any_refuted). The copy of a grain whose payload has yet to be loaded
  does not compare equal to it (C60_waiting_refuted).

Strategies
* The argument `format` of four strategies is accepted and ignored (C63_format_refuted), so is `creation_timestamp` of coded audio
  grains (C63_creation_refuted). Event grains cannot be drawn with DONOTSET for a timestamp or an identifier, which the
  documentation offers: TypeError (C63_donotset_refuted).
* Coded grains can be of unknown format, which the documentation excludes, and `.filter(sorted)` does not sort the offsets of units
  but only drops empty lists (C63_coded_refuted). Audio grains can have the format S64_INVALID.
* `grains_with_data` of coded grains: the payload is always empty (C63_coded_data_refuted). Payloads of 24-bit samples can differ and
  still compare equal, which the strategy avoids for floats only (C63_distinct_refuted).
* `_format_strategy` returns a ValueError for other types instead of raising it; texts drawn for topics and types can end with a
  newline.

Conversions of grains
* `_similar_grain` promises a grain with "other parameters identical", but time labels are dropped and the creation timestamp is that
  of the conversion (C64_labels_refuted); converting to the format that a grain has keeps both.
* A numpy grain made of a grain whose payload is awaited (`VideoGrain(grain=g)`, or a deep copy) does not await it: its payload is
  empty, and its component arrays are views of memory outside of it (C64_pending_refuted).

Equality
* Grains define `__eq__` but not `__hash__`, so they cannot be put in sets or be keys (read, not modelled). Two numpy grains with
  equal metadata and arrays of more than one item raise ValueError on `==`, because a tuple asks for the truth of an array (read,
  not modelled).
* Equal grains can differ in the length that is said of a payload yet to come (C66_length_refuted). Events with equal metadata are
  unequal if the metadata is in another order (C66_events_refuted). Reading a time label fills it in, and so can make a grain differ
  from what it was (C66_reading_refuted). A grain that was saved and read is never equal to the original, because the creation
  timestamp is new (C66_saved_refuted).
* Assigning `grain_type` does not change the class, so a grain need not be of the class of its type (C67_type_refuted).
* `has_data()` of an event grain is False and `bytes()` of it raises TypeError, though `data` gives bytes (C66_bytes_refuted).

## Mutation testing

`seeded/LOG.jsonl` has one line per edit of a model definition: what was edited, the claim it should break, the theorems that
failed to compile, and what was tightened when nothing failed.
