{
 "claims": [
  {
   "property": "C01",
   "status": "proved",
   "theorems": [
    "C01_uint_length",
    "C01_uint_wraps",
    "C01_uint_roundtrip_iff",
    "C01_sint_roundtrip_iff",
    "C01_short_read_raises"
   ],
   "note": "every width and value"
  },
  {
   "property": "C02",
   "status": "proved",
   "theorems": [
    "C02_scalars_roundtrip",
    "C02_v7_timestamp_roundtrip_iff",
    "C02_dates",
    "C02_flags"
   ],
   "note": ""
  },
  {
   "property": "C03",
   "status": "proved",
   "theorems": [
    "C03_utf8_strict",
    "C03_utf8_canonical",
    "C03_fixed_field_roundtrip_iff",
    "C03_tag_field_roundtrip_iff",
    "C03_fixed_field_cut_undecodable",
    "C03_tag_field_cut_undecodable"
   ],
   "note": ""
  },
  {
   "property": "C04",
   "status": "proved",
   "theorems": [
    "C04_sizes_all_at_once",
    "C04_sizes_streaming",
    "C04_head_contents",
    "C04_grain_contents"
   ],
   "note": "Every complete file written all at once or streamed, sync or async, is tiled exactly by its size fields, nested blocks included."
  },
  {
   "property": "C05",
   "status": "proved",
   "theorems": [
    "C05_encodable",
    "C05_grain_roundtrip",
    "C05_normal_form_unchanged"
   ],
   "note": ""
  },
  {
   "property": "C06",
   "status": "proved",
   "theorems": [
    "C06_all_at_once",
    "C06_streaming",
    "C06_dumps_loads",
    "C06_dumps_streaming_refuted"
   ],
   "note": "Round trip of whole files for all histories, plus dumps/loads. dumps(streaming=True) always fails (theorem C06_dumps_streaming_refuted)."
  },
  {
   "property": "C07",
   "status": "proved",
   "theorems": [
    "C07_grouping",
    "C07_load"
   ],
   "note": "Grouping of load/loads/decode."
  },
  {
   "property": "C08",
   "status": "proved",
   "theorems": [
    "C08_filter"
   ],
   "note": ""
  },
  {
   "property": "C09",
   "status": "proved",
   "theorems": [
    "C09_unknown_blocks",
    "C09_insert"
   ],
   "note": ""
  },
  {
   "property": "C10",
   "status": "proved",
   "theorems": [
    "C10_modes_agree"
   ],
   "note": "the position-independence of deferred loading is by construction of the view: the slice (pos, length) of the input"
  },
  {
   "property": "C11",
   "status": "proved",
   "theorems": [
    "C11_concatenation",
    "C11_first_only"
   ],
   "note": ""
  },
  {
   "property": "C12",
   "status": "proved",
   "theorems": [
    "C12_terminator_stops",
    "C12_terminator_transparent"
   ],
   "note": ""
  },
  {
   "property": "C13",
   "status": "proved",
   "theorems": [
    "C13_truncation"
   ],
   "note": ""
  },
  {
   "property": "C14",
   "status": "proved",
   "theorems": [
    "C14_terminates"
   ],
   "note": ""
  },
  {
   "property": "C15",
   "status": "proved",
   "theorems": [
    "C15_bad_type",
    "C15_bad_version",
    "C15_short"
   ],
   "note": ""
  },
  {
   "property": "C16",
   "status": "proved",
   "theorems": [
    "C16_same_bytes",
    "C16_same_grains",
    "C16_lost_grains_refuted"
   ],
   "note": "Equal bytes when grains arrive segment by segment, else equal headers and per-segment grains. C16_lost_grains_refuted shows the two situations where streaming loses grains."
  },
  {
   "property": "C17",
   "status": "proved",
   "theorems": [
    "C17_counts_all_at_once",
    "C17_counts_streaming",
    "C17_backpatching"
   ],
   "note": ""
  },
  {
   "property": "C18",
   "status": "proved",
   "theorems": [
    "C18_crash"
   ],
   "note": ""
  },
  {
   "property": "C19",
   "status": "proved",
   "theorems": [
    "C19_unique",
    "C19_automatic",
    "C19_automatic_open",
    "C19_automatic_dumping",
    "C19_automatic_grains",
    "C19_explicit",
    "C19_explicit_open",
    "C19_disorderly_refuted"
   ],
   "note": "Proved for orderly use; C19_disorderly_refuted gives clashes outside it."
  },
  {
   "property": "C20",
   "status": "proved",
   "theorems": [
    "C20_refused",
    "C20_async_refuted"
   ],
   "note": "Synchronous dumps; C20_async_refuted shows asynchronous ones accept changes that are lost."
  },
  {
   "property": "C21",
   "status": "proved",
   "theorems": [
    "C21_second_dump",
    "C21_counts"
   ],
   "note": ""
  },
  {
   "property": "C22",
   "status": "proved",
   "theorems": [
    "C22_sync_async_agree"
   ],
   "note": ""
  },
  {
   "property": "C23",
   "status": "proved",
   "theorems": [
    "C23_deferred_bytes",
    "C23_length",
    "C23_negative_start"
   ],
   "note": "every history of uses, moves and changes by the other user of the stream"
  },
  {
   "property": "C24",
   "status": "proved",
   "theorems": [
    "C24_awaits_give_the_payloads",
    "C24_open",
    "C24_closed",
    "C24_load_on_exit_refuted",
    "C24_concurrent_refuted",
    "C24_position_refuted",
    "C24_serial"
   ],
   "note": "sequential awaits; the load-on-exit mode and simultaneous awaits are refuted"
  },
  {
   "property": "C25",
   "status": "proved",
   "theorems": [
    "C25_refines_ideal_file",
    "C25_readall",
    "C25_readall_refuted",
    "C25_stale_refuted",
    "C25_extend_refuted",
    "C25_negative",
    "C25_negative_read_refuted"
   ],
   "note": "every fair history; reading everything, stale bytes and extending truncation refuted"
  },
  {
   "property": "C26",
   "status": "proved",
   "theorems": [
    "C26_reading",
    "C26_readall",
    "C26_writing",
    "C26_readall_refuted"
   ],
   "note": "every history on an input stream and on an output stream; readall positions refuted"
  },
  {
   "property": "C27",
   "status": "proved",
   "theorems": [
    "C27_components_tile",
    "C27_planes",
    "C27_ayuv_refuted"
   ],
   "note": "AYUV is the one exception, refuted."
  },
  {
   "property": "C28",
   "status": "proved",
   "theorems": [
    "C28_strides",
    "C28_compatible",
    "C28_lines_inside",
    "C28_only_compatible_refuted"
   ],
   "note": "The statement with equality only for compatible sizes is refuted; the exact condition is proved."
  },
  {
   "property": "C29",
   "status": "proved",
   "theorems": [
    "C29_size",
    "C29_linear",
    "C29_monotone",
    "C29_compressed",
    "C29_table_complete"
   ],
   "note": ""
  },
  {
   "property": "C30",
   "status": "proved",
   "theorems": [
    "C30_planar_numbers",
    "C30_other_depths",
    "C30_distinct"
   ],
   "note": ""
  },
  {
   "property": "C31",
   "status": "proved",
   "theorems": [
    "C31_unpack",
    "C31_pack",
    "C31_round_trip",
    "C31_round_trip_words"
   ],
   "note": "All widths and heights; samples must fit in 10 bits (a larger sample spills into its neighbour)."
  },
  {
   "property": "C32",
   "status": "proved",
   "theorems": [
    "C32_mean_444",
    "C32_mean_422",
    "C32_dup_mean_422",
    "C32_dup_mean_420"
   ],
   "note": "Every depth and every arrangement (planar or interleaved) of 4:4:4, 4:2:2 and 4:2:0."
  },
  {
   "property": "C33",
   "status": "proved",
   "theorems": [
    "C33_down",
    "C33_up",
    "C33_up_down",
    "C33_top_refuted"
   ],
   "note": "The noise of the up-conversion is a parameter. C33_top_refuted: the top half-step leaves the range, and white becomes black in 8 bits."
  },
  {
   "property": "C34",
   "status": "proved",
   "theorems": [
    "C34_complete",
    "C34_only",
    "C34_unknown",
    "C34_two_steps",
    "C34_same_kind",
    "C34_odd_refuted",
    "C34_clip_refuted",
    "C34_middle",
    "C34_middle_v210"
   ],
   "note": "Even sizes; odd sizes can raise ValueError (C34_odd_refuted). Matrix products and noise are parameters. C34_clip_refuted: the clip bound 1 << depth is one too large."
  },
  {
   "property": "C35",
   "status": "proved",
   "theorems": [
    "C35_packed",
    "C35_planar",
    "C35_ayuv_refuted",
    "C35_bgra_refuted"
   ],
   "note": "AYUV views leave the buffer (C35_ayuv_refuted); BGRA is not accepted (C35_bgra_refuted)."
  },
  {
   "property": "C36",
   "status": "proved",
   "theorems": [
    "C36_samples",
    "C36_range",
    "C36_phase",
    "C36_cache",
    "C36_odd_pairs",
    "C36_planes_24_refuted",
    "C36_full_volume_refuted",
    "C36_refused"
   ],
   "note": ""
  },
  {
   "property": "C37",
   "status": "proved",
   "theorems": [
    "C37_on_grid",
    "C37_contains",
    "C37_item",
    "C37_grid_order",
    "C37_cover",
    "C37_range",
    "C37_skip",
    "C37_endless",
    "C37_split",
    "C37_split_skip",
    "C37_no_start",
    "C37_clock",
    "C37_slice_step",
    "C37_slice_period",
    "C37_refused"
   ],
   "note": ""
  },
  {
   "property": "C38",
   "status": "proved",
   "theorems": [
    "C38_bars",
    "C38_other_widths",
    "C38_other_formats",
    "C38_colours",
    "C38_steps",
    "C38_step_eighths",
    "C38_steps_narrow",
    "C38_steps_wrap_refuted",
    "C38_moving_bar",
    "C38_moving_bar_flat",
    "C38_bar_at",
    "C38_bar_formats",
    "C38_bar_off_grid_refuted"
   ],
   "note": "Refuted: a moving bar has a grain at every time, on the grid or not (C38_bar_off_grid_refuted)."
  },
  {
   "property": "C39",
   "status": "proved",
   "theorems": [
    "C39_file",
    "C39_pipe",
    "C39_short_reads",
    "C39_short_reads_refuted",
    "C39_last_frame_refuted",
    "C39_no_size"
   ],
   "note": "The last frame of a file can be short; raw files with short reads give short frames."
  },
  {
   "property": "C40",
   "status": "proved",
   "theorems": [
    "C40_header",
    "C40_only_headers",
    "C40_errors",
    "C40_file",
    "C40_cut",
    "C40_pipe",
    "C40_grains",
    "C40_length_6_refuted"
   ],
   "note": "A frame length of 6 swallows the rest of the file (C40_length_6_refuted); from a pipe the splitter always ends with EOFError."
  },
  {
   "property": "C41",
   "status": "proved",
   "theorems": [
    "C41_payload",
    "C41_start_code",
    "C41_escaped",
    "C41_zero_words",
    "C41_no_start_code"
   ],
   "note": "For every unit and every payload."
  },
  {
   "property": "C42",
   "status": "proved",
   "theorems": [
    "C42_unsigned",
    "C42_signed",
    "C42_fixed",
    "C42_unsigned_only",
    "C42_signed_only",
    "C42_fixed_only",
    "C42_sequence_set",
    "C42_picture_set",
    "C42_slice",
    "C42_unit_type",
    "C42_sequence_unit",
    "C42_picture_unit",
    "C42_slice_unit",
    "C42_frame_info",
    "C42_slice_groups_refuted"
   ],
   "note": "All optional parts of the syntax. C42_slice_groups_refuted: an explicit slice group map is read with the wrong width, so C42_picture_set needs readable_groups."
  },
  {
   "property": "C43",
   "status": "proved",
   "theorems": [
    "C43_conserved",
    "C43_access_units",
    "C43_grains",
    "C43_pipe",
    "C43_pipe_refuted",
    "C43_ref_idc_refuted",
    "C43_prefix_refuted",
    "C43_partitions_refuted",
    "C43_fragments_refuted"
   ],
   "note": "Conservation for every byte stream; exact splitting for every stream of well-formed access units, with zero bytes before and after units, zero words and data partitions. The refuted theorems show where the code departs from the standard."
  },
  {
   "property": "C44",
   "status": "proved",
   "theorems": [
    "C44_compare",
    "C44_total",
    "C44_exclusion",
    "C44_format_refuted"
   ],
   "note": "compare_grain is truthy exactly if the grains agree in the sense of grains_agree (CompareSpec.v); it succeeds exactly under can_compare; exclusions only ever help. With the format excluded, payloads of different formats are not compared (refuted theorem)."
  },
  {
   "property": "C45",
   "status": "proved",
   "theorems": [
    "C45_reflexive",
    "C45_symmetric",
    "C45_nan_refuted",
    "C45_matcher_refuted",
    "C45_braces_refuted"
   ],
   "note": "Without ExpectedDifference and PSNR options, for comparisons that go through. NaN samples, matchers and keys with braces break it, as the refuted theorems show."
  },
  {
   "property": "C46",
   "status": "proved",
   "theorems": [
    "C46_audio",
    "C46_video",
    "C46_whole_audio",
    "C46_whole_video",
    "C46_trailing_refuted",
    "C46_float_refuted"
   ],
   "note": "Byte equality for integer formats; 24-bit formats drop the rest bytes, floats compare by IEEE 754 (refuted theorems)."
  },
  {
   "property": "C47",
   "status": "proved",
   "theorems": [
    "C47_pairwise",
    "C47_total",
    "C47_unbound"
   ],
   "note": ""
  },
  {
   "property": "C48",
   "status": "proved",
   "theorems": [
    "C48_history",
    "C48_read",
    "C48_read_entry",
    "C48_read_none",
    "C48_set_pre",
    "C48_set_pre_none",
    "C48_set_post",
    "C48_json",
    "C48_round_trip",
    "C48_loads",
    "C48_new",
    "C48_built",
    "C48_construct"
   ],
   "note": "Every history of edits (type, topic, data, append, event_data, entries by key and by the path, pre and post attributes, with bad indices and missing keys) from any grain that shows a payload agrees with the specification, exceptions included; the JSON text read into any event grain gives the payload back, entries restricted to path, pre and post. Floats in JSON are not modelled."
  },
  {
   "property": "C49",
   "status": "proved",
   "theorems": [
    "C49_history",
    "C49_slices",
    "C49_shows_labels",
    "C49_shows_offsets",
    "C49_shows_comps",
    "C49_read_labels",
    "C49_read_offsets",
    "C49_assign_labels",
    "C49_assign_offsets",
    "C49_add_label",
    "C49_edit_tag",
    "C49_edit_count",
    "C49_edit_rate",
    "C49_edit_drop",
    "C49_edit_bad",
    "C49_positions",
    "C49_slice_items",
    "C49_assign_self_refuted",
    "C49_add_refuted",
    "C49_extend_self_refuted",
    "C49_no_components",
    "C49_slice_whole",
    "C49_slice_reverse",
    "C49_slice_no_step"
   ],
   "note": "Every history of the operations of MutableSequence by index (get, set, del, insert, append, pop, extend, clear, reverse, iteration, index, remove, count, in) on time labels, unit offsets and components agrees with an ordinary list of the normalised values, errors included, and leaves the rest of the grain alone. Slices agree except where [deviates] says: slices of an absent list raise IndexError, assignment to slices of time labels raises TypeError and of components needs equal counts. Assigning the view to itself, += and extending by itself are refuted."
  },
  {
   "property": "C50",
   "status": "proved",
   "theorems": [
    "C50_built",
    "C50_keeps",
    "C50_keeps_part",
    "C50_complete",
    "C50_nothing_else",
    "C50_again",
    "C50_factory_again",
    "C50_factory",
    "C50_total",
    "C50_video",
    "C50_video_total",
    "C50_coded_video",
    "C50_audio",
    "C50_audio_total",
    "C50_coded_audio",
    "C50_event",
    "C50_empty",
    "C50_none_refuted"
   ],
   "note": "Key by key for every metadata dictionary and every class: supplied fields are kept (objects stored as text, enumerations as integers), missing standard fields are filled with the stated defaults, nothing else is added, and constructing again from the result changes nothing; exactly when construction succeeds is C50_total. Two things the statement does not allow for: a VideoGrain with a partial cog_frame gets only its components filled in and raises KeyError without format and layout (C50_total, cb_numbers), and identifiers left out of the keyword constructors become the text None (C50_none_refuted). Event grains given bytes are the subject of C48."
  },
  {
   "property": "C51",
   "status": "proved",
   "theorems": [
    "C51_as_file",
    "C51_after_eof",
    "C51_lost_refuted",
    "C51_short_seek_refuted"
   ],
   "note": "Seeks need a buffered stream; after an EOFError bytes are lost and the position is wrong."
  },
  {
   "property": "C52",
   "status": "proved",
   "theorems": [
    "C52_open_exceptions",
    "C52_iteration_exceptions"
   ],
   "note": ""
  },
  {
   "property": "C53",
   "status": "proved",
   "theorems": [
    "C53_objects",
    "C53_streaming",
    "C53_dumps",
    "C53_deferred",
    "C53_deferred_events_refuted",
    "C53_unknown"
   ],
   "note": "All six classes, all at once and streaming, eager and deferred loading; the attributes that do not survive are spelled out in the specification"
  },
  {
   "property": "C54",
   "status": "proved",
   "theorems": [
    "C54_assignment",
    "C54_history",
    "C54_made",
    "C54_length_stays",
    "C54_payload",
    "C54_length",
    "C54_length_reads",
    "C54_readable_refuted",
    "C54_aspect_refuted",
    "C54_event_payload"
   ],
   "note": "Histories of assignments over any grain a constructor makes; setters that accept unreadable values and aspect ratios that cannot be unset are stated as refuted expectations."
  },
  {
   "property": "C55",
   "status": "proved",
   "theorems": [
    "C55_made",
    "C55_assigned",
    "C55_copy",
    "C55_event",
    "C55_family",
    "C55_deep",
    "C55_shallow",
    "C55_payload",
    "C55_lazy_refuted",
    "C55_event_refuted",
    "C55_type_refuted"
   ],
   "note": "Plain copies, events through their JSON, and a memory model with sharing refined by a family of grains; four refuted readings are findings."
  },
  {
   "property": "C56",
   "status": "proved",
   "theorems": [
    "C56_file",
    "C56_pipe",
    "C56_pipe_refuted",
    "C56_any",
    "C56_no_payload",
    "C56_probe",
    "C56_written",
    "C56_sync_refuted",
    "C56_video_size",
    "C56_audio_size",
    "C56_coded_video_size",
    "C56_coded_audio_size",
    "C56_unwritable",
    "C56_early",
    "C56_truncated_refuted"
   ],
   "note": ""
  },
  {
   "property": "C57",
   "status": "proved",
   "theorems": [
    "C57_plain",
    "C57_packed",
    "C57_low",
    "C57_low_refuted",
    "C57_apart",
    "C57_copies",
    "C57_refused",
    "C57_tone",
    "C57_short_refuted",
    "C57_compressed_refuted"
   ],
   "note": "Negative sample counts are not modelled. The refuted theorems are about formats and payloads outside the others' hypotheses."
  },
  {
   "property": "C58",
   "status": "proved",
   "theorems": [
    "C58_audio",
    "C58_stretch",
    "C58_video",
    "C58_counts",
    "C58_twice",
    "C58_none",
    "C58_shown",
    "C58_left",
    "C58_moved",
    "C58_file",
    "C58_version_refuted",
    "C58_joined",
    "C58_default_refuted",
    "C58_empty_refuted",
    "C58_still_refuted"
   ],
   "note": "Non-integer sample rates, counts and offsets are not modelled. The refuted theorems are about grains and files outside the others' hypotheses."
  },
  {
   "property": "C59",
   "status": "proved",
   "theorems": [
    "C59_wanted",
    "C59_verdict",
    "C59_order",
    "C59_chain_refuted",
    "C59_and_refuted",
    "C59_bits_refuted",
    "C59_useless_refuted",
    "C59_conditional",
    "C59_equal_refuted",
    "C59_same_option"
   ],
   "note": "Operands other than numbers and NaN are not modelled. The refuted theorems say what other notations do."
  },
  {
   "property": "C60",
   "status": "proved",
   "theorems": [
    "C60_survived",
    "C60_file",
    "C60_any_refuted",
    "C60_copies",
    "C60_copy",
    "C60_waiting_refuted"
   ],
   "note": "Witnesses for five of the provisos in C60_any_refuted and C60_waiting_refuted; copies of events are C55_event."
  },
  {
   "property": "C61",
   "status": "proved",
   "theorems": [
    "C61_video",
    "C61_video_same",
    "C61_video_order",
    "C61_video_swapped",
    "C61_audio",
    "C61_audio_same",
    "C61_float",
    "C61_special",
    "C61_made_video",
    "C61_made_audio",
    "C61_refused",
    "C61_video_refused",
    "C61_audio_refused",
    "C61_low_refused",
    "C61_twice_refuted",
    "C61_v210_refuted",
    "C61_limits_refuted",
    "C61_short_refuted"
   ],
   "note": "exact arithmetic; max_val None or whole; where the code does not do so it is refuted"
  },
  {
   "property": "C62",
   "status": "proved",
   "theorems": [
    "C62_report",
    "C62_once",
    "C62_verdict",
    "C62_strict",
    "C62_lookup",
    "C62_psnr_refuted",
    "C62_ignored_refuted"
   ],
   "note": "What failing_attributes reports is characterised by a separate list of the attributes of each type; the verdict is derived from the report. PSNR results have no attribute and are excepted, with a witness."
  },
  {
   "property": "C63",
   "status": "proved",
   "theorems": [
    "C63_honoured",
    "C63_format_refuted",
    "C63_creation_refuted",
    "C63_donotset_refuted",
    "C63_documented",
    "C63_coded_refuted",
    "C63_data",
    "C63_any_payload",
    "C63_coded_data_refuted",
    "C63_template",
    "C63_saved",
    "C63_distinct",
    "C63_distinct_refuted",
    "C63_events",
    "C63_rates"
   ],
   "note": "Every grain that can be drawn, with or without arguments and data, and lists of them in files; the exceptions are refuted with witnesses."
  },
  {
   "property": "C64",
   "status": "proved",
   "theorems": [
    "C64_convert",
    "C64_again",
    "C64_made",
    "C64_chain",
    "C64_same_kind",
    "C64_unpacked",
    "C64_refused",
    "C64_assigned",
    "C64_asformat",
    "C64_labels_refuted",
    "C64_awaited",
    "C64_not_assigned",
    "C64_pending_refuted"
   ],
   "note": "Any pair of the 29 formats, any chain of conversions; identity, times, rates, layout, flow and payload. Dropped time labels and the new creation time are refuted with a witness. C64_pending_refuted: a numpy grain made of a grain whose payload is awaited has an empty payload and arrays outside of it."
  },
  {
   "property": "C65",
   "status": "proved",
   "theorems": [
    "C65_yuv",
    "C65_greys",
    "C65_rgb",
    "C65_bright_refuted",
    "C65_round_trip",
    "C65_returned"
   ],
   "note": "For products accurate to a thousandth. C65_bright_refuted: products above the range wrap to 0 for 8 and 16 bits."
  },
  {
   "property": "C66",
   "status": "proved",
   "theorems": [
    "C66_equal",
    "C66_others",
    "C66_equivalence",
    "C66_attributes",
    "C66_class",
    "C66_compared",
    "C66_length_refuted",
    "C66_events_refuted",
    "C66_elements",
    "C66_copies",
    "C66_saved_refuted",
    "C66_reading_refuted",
    "C66_bytes",
    "C66_bytes_refuted",
    "C66_contains",
    "C66_index"
   ],
   "note": "Payloads of bytes or None; hashing and numpy payloads are not modelled."
  },
  {
   "property": "C67",
   "status": "proved",
   "theorems": [
    "C67_kept",
    "C67_payload",
    "C67_items",
    "C67_assigned",
    "C67_compared",
    "C67_equal",
    "C67_type_refuted"
   ],
   "note": "All histories of grains: constructors, files, assignments, list and event operations, awaits, copies. The class need not be that of the type (refuted)."
  },
  {
   "property": "C68",
   "status": "proved",
   "theorems": [
    "C68_script",
    "C68_rebuilt",
    "C68_unchanged",
    "C68_noted",
    "C68_said",
    "C68_extra",
    "C68_first_refuted",
    "C68_lines",
    "C68_values_refuted",
    "C68_identifier",
    "C68_identifier_error"
   ],
   "note": "For all sequences and every equality that is symmetric and transitive; linked to data_equality by C68_noted. Two refuted theorems show what the messages get wrong."
  },
  {
   "property": "C69",
   "status": "proved",
   "theorems": [
    "C69_changes",
    "C69_change",
    "C69_retyped",
    "C69_overlooked_refuted",
    "C69_unreadable_refuted"
   ],
   "note": "Composes the assignment laws (C54) with the report of a comparison (C62). The theorem on one assignment leaves out events, whose length changes with their topic; the theorem on histories covers them."
  },
  {
   "property": "C70",
   "status": "proved",
   "theorems": [
    "C70_blames",
    "C70_blameless",
    "C70_mentions",
    "C70_only",
    "C70_plain",
    "C70_page",
    "C70_back"
   ],
   "note": "The messages of single comparisons and the details below payloads are parameters; C68 says what the latter contain."
  },
  {
   "property": "C71",
   "status": "proved",
   "theorems": [
    "C71_finer",
    "C71_back",
    "C71_compared",
    "C71_coarser_refuted"
   ],
   "note": "Chains of conversions through formats that are fine enough carry every sample; back to the first format the payload is the same and the comparison is equal. Refuted for coarser formats on the way."
  },
  {
   "property": "C72",
   "status": "proved",
   "theorems": [
    "C72_loads",
    "C72_otherwise",
    "C72_one_meaning",
    "C72_dumps",
    "C72_payload",
    "C72_not_json"
   ],
   "note": "loads against an inductive grammar of JSON over code points; numbers are the integers"
  },
  {
   "property": "C73",
   "status": "proved",
   "theorems": [
    "C73_wrapped",
    "C73_indistinct",
    "C73_short_refuted",
    "C73_readall_refuted",
    "C73_negative_refuted",
    "C73_nothing_refuted"
   ],
   "note": "The wrapper over a model of io.BytesIO; refuted statements give the differences from the in-memory file"
  },
  {
   "property": "C74",
   "status": "proved",
   "theorems": [
    "C74_decode",
    "C74_in_turn",
    "C74_no_end_marker_refuted",
    "C74_portions",
    "C74_old_methods",
    "C74_needs_session",
    "C74_refused_read"
   ],
   "note": "The decoder object over a seekable binary file; the position after an exception (or after the end of the file) is not modelled, and calls made then are left open."
  },
  {
   "property": "C75",
   "status": "proved",
   "theorems": [
    "C75_with_bytes",
    "C75_each_other",
    "C75_equal_refuted",
    "C75_index",
    "C75_iterate",
    "C75_reversed",
    "C75_grains",
    "C75_copies",
    "C75_decoded_twice"
   ],
   "note": "The operators of IOBytes and of grains that hold them; the natural claim of equality by content is refuted where both sides are deferred."
  },
  {
   "property": "C76",
   "status": "proved",
   "theorems": [
    "C76_same",
    "C76_overflow",
    "C76_again",
    "C76_saved"
   ],
   "note": "For every date and time of the years 1 to 9999 and every offset, in microseconds; linked to dumps and loads by C76_saved."
  },
  {
   "property": "C77",
   "status": "proved",
   "theorems": [
    "C77_video",
    "C77_coded",
    "C77_parsed",
    "C77_size",
    "C77_rate",
    "C77_file",
    "C77_audio",
    "C77_audio_rate_refuted",
    "C77_aac",
    "C77_aac_refuted"
   ],
   "note": "Refuted: audio templates have rate 0 whatever the options (C77_audio_rate_refuted); AAC without a number of samples is a TypeError (C77_aac_refuted). argparse itself is not modelled; H.264 and ADTS templates are not followed into files here (C40, C43)."
  },
  {
   "property": "C78",
   "status": "proved",
   "theorems": [
    "C78_silence",
    "C78_formats",
    "C78_division",
    "C78_planes_24_refuted",
    "C78_tone",
    "C78_repeats"
   ],
   "note": "Refuted for planes of 24 bits (C78_planes_24_refuted). The sine of Tone1K is a parameter; the value of silence is computed. Rates too large for a float are not modelled."
  }
 ]
}
