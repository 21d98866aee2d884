{
 "claims": [
  {
   "property": "C01",
   "status": "proved",
   "theorems": [
    "C01_put_get_roundtrip"
   ],
   "note": ""
  },
  {
   "property": "C02",
   "status": "proved",
   "theorems": [
    "C02_getters_place_bytes",
    "C02_le_number_unique"
   ],
   "note": ""
  },
  {
   "property": "C03",
   "status": "proved",
   "theorems": [
    "C03_short_buffers_panic"
   ],
   "note": ""
  },
  {
   "property": "C04",
   "status": "proved",
   "theorems": [
    "C04_signed_getters_twos_complement"
   ],
   "note": ""
  },
  {
   "property": "C05",
   "status": "proved",
   "theorems": [
    "C05_bit_reads_exact"
   ],
   "note": ""
  },
  {
   "property": "C06",
   "status": "proved",
   "theorems": [
    "C06_peek_predicts_get"
   ],
   "note": ""
  },
  {
   "property": "C07",
   "status": "proved",
   "theorems": [
    "C07_consumed_plus_available"
   ],
   "note": ""
  },
  {
   "property": "C08",
   "status": "proved",
   "theorems": [
    "C08_skip_is_read_and_discard"
   ],
   "note": ""
  },
  {
   "property": "C09",
   "status": "proved",
   "theorems": [
    "C09_align_to_byte_boundary",
    "C09_align8_is_next_boundary"
   ],
   "note": ""
  },
  {
   "property": "C10",
   "status": "proved",
   "theorems": [
    "C10_overread_zero_fill"
   ],
   "note": ""
  },
  {
   "property": "C11",
   "status": "proved",
   "theorems": [
    "C11_split_read"
   ],
   "note": ""
  },
  {
   "property": "C12",
   "status": "proved",
   "theorems": [
    "C12_exact_to_the_end_64"
   ],
   "note": ""
  },
  {
   "property": "C13",
   "status": "partial",
   "theorems": [
    "C13_available_bits_readable_refuted",
    "C13_available_bits_readable_partial",
    "C13_readable_exact"
   ],
   "note": "false as stated (the last 7 bytes can be unreadable); C13_readable_exact says exactly which bits can be read and what is delivered instead of the others"
  },
  {
   "property": "C14",
   "status": "partial",
   "theorems": [
    "C14_skip_past_end_refuted",
    "C14_available_panics_refuted",
    "C14_skip_past_end_partial",
    "C14_skip_exact"
   ],
   "note": "false as stated (stale bits survive a skip past the end, available can underflow); C14_skip_exact gives position and availability after every skip in every state"
  },
  {
   "property": "C15",
   "status": "proved",
   "theorems": [
    "C15_codebook_decodes",
    "C15_huge_buffer_refuted"
   ],
   "note": "for buffers below 2^29 bytes; the refutation shows the bound is needed"
  },
  {
   "property": "C16",
   "status": "proved",
   "theorems": [
    "C16_unknown_codewords_rejected"
   ],
   "note": ""
  },
  {
   "property": "C17",
   "status": "proved",
   "theorems": [
    "C17_message_round_trip"
   ],
   "note": ""
  },
  {
   "property": "C18",
   "status": "proved",
   "theorems": [
    "C18_construction"
   ],
   "note": ""
  },
  {
   "property": "C19",
   "status": "proved",
   "theorems": [
    "C19_order_independent"
   ],
   "note": ""
  },
  {
   "property": "C20",
   "status": "proved",
   "theorems": [
    "C20_reverse_bits"
   ],
   "note": ""
  },
  {
   "property": "C21",
   "status": "partial",
   "theorems": [
    "C21_truncated_codeword_refuted",
    "C21_truncated_codeword_partial",
    "C21_symbol_exact"
   ],
   "note": "false with escapes (codewords longer than 10 bits); proved for codebooks without; for all codebooks the bits that must be available"
  },
  {
   "property": "C22",
   "status": "partial",
   "theorems": [
    "C22_failed_read_position_refuted",
    "C22_failed_read_position_partial",
    "C22_failed_read_exact"
   ],
   "note": "false with escapes (codewords longer than 10 bits); proved for codebooks without; for all codebooks the exact skips"
  },
  {
   "property": "C67",
   "status": "proved",
   "theorems": [
    "C67_read_never_panics"
   ],
   "note": ""
  },
  {
   "property": "C23",
   "status": "proved",
   "theorems": [
    "C23_source_bytes_in_order"
   ],
   "note": ""
  },
  {
   "property": "C24",
   "status": "proved",
   "theorems": [
    "C24_seek_lands"
   ],
   "note": ""
  },
  {
   "property": "C25",
   "status": "proved",
   "theorems": [
    "C25_position_reported"
   ],
   "note": ""
  },
  {
   "property": "C26",
   "status": "partial",
   "theorems": [
    "C26_backward_seek_refuted",
    "C26_backward_seek_partial",
    "C26_backward_seek_offset_partial"
   ],
   "note": "false when data is buffered (lands too far by the number of buffered bytes); proved when nothing is buffered"
  },
  {
   "property": "C27",
   "status": "proved",
   "theorems": [
    "C27_grow_reset_transparent"
   ],
   "note": ""
  },
  {
   "property": "C28",
   "status": "proved",
   "theorems": [
    "C28_read_exact"
   ],
   "note": ""
  },
  {
   "property": "C29",
   "status": "proved",
   "theorems": [
    "C29_window_bounds"
   ],
   "note": ""
  },
  {
   "property": "C30",
   "status": "proved",
   "theorems": [
    "C30_failures_lose_nothing"
   ],
   "note": ""
  },
  {
   "property": "C31",
   "status": "proved",
   "theorems": [
    "C31_events_of_the_source",
    "C31_chunking_independent",
    "C31_headers_then_events"
   ],
   "note": ""
  },
  {
   "property": "C32",
   "status": "proved",
   "theorems": [
    "C32_eof_only_at_the_end"
   ],
   "note": ""
  },
  {
   "property": "C33",
   "status": "proved",
   "theorems": [
    "C33_packet_timebase"
   ],
   "note": ""
  },
  {
   "property": "C34",
   "status": "proved",
   "theorems": [
    "C34_streams_registered"
   ],
   "note": ""
  },
  {
   "property": "C35",
   "status": "proved",
   "theorems": [
    "C35_demuxer_errors_returned",
    "C35_seek_errors_returned",
    "C35_fill_errors_returned",
    "C35_error_origin",
    "C35_header_errors_returned",
    "C35_header_fill_errors_returned",
    "C35_header_error_origin"
   ],
   "note": ""
  },
  {
   "property": "C36",
   "status": "partial",
   "theorems": [
    "C36_read_event_livelock_refuted",
    "C36_read_event_returns_partial",
    "C36_rounds_partial",
    "C36_rounds_reached",
    "C36_small_request_hangs",
    "C36_large_request_progress"
   ],
   "note": "false for demuxers that report the number of missing bytes; proved for incremental parsers that report the total, also with sources that fail; the last two theorems say when a round makes progress, for any demuxer"
  },
  {
   "property": "C37",
   "status": "partial",
   "theorems": [
    "C37_truncated_headers_refuted",
    "C37_truncated_headers_always_hang",
    "C37_complete_headers_partial",
    "C37_header_rounds_partial",
    "C37_rounds_reached",
    "C37_failing_source_partial"
   ],
   "note": "false (read_headers loops forever on truncated input); proved for complete headers, with the number of rounds, also with sources that fail"
  },
  {
   "property": "C38",
   "status": "partial",
   "theorems": [
    "C38_failed_seek_refuted",
    "C38_any_demuxer_partial",
    "C38_position_after_headers_partial",
    "C38_position_exact"
   ],
   "note": "false when the source refuses the seek (the error is dropped); proved for sources that do not fail; with others the position is the requested one or 0"
  },
  {
   "property": "C39",
   "status": "proved",
   "theorems": [
    "C39_probe_first_best",
    "C39_probe_none"
   ],
   "note": ""
  },
  {
   "property": "C40",
   "status": "partial",
   "theorems": [
    "C40_threshold_score_refuted",
    "C40_above_threshold_partial"
   ],
   "note": "false for a score of exactly 50; proved above"
  },
  {
   "property": "C41",
   "status": "proved",
   "theorems": [
    "C41_add_stream",
    "C41_consecutive"
   ],
   "note": ""
  },
  {
   "property": "C42",
   "status": "partial",
   "theorems": [
    "C42_automatic_ids_refuted",
    "C42_automatic_ids_partial"
   ],
   "note": "false: an automatic id is the index the stream had before, which is 0 for every stream made by from_params (C41_consecutive gives all ids exactly); the ids are unique exactly when the old indices are"
  },
  {
   "property": "C43",
   "status": "proved",
   "theorems": [
    "C43_by_name",
    "C43_by_name_none"
   ],
   "note": ""
  },
  {
   "property": "C44",
   "status": "proved",
   "theorems": [
    "C44_position",
    "C44_accepted_bytes",
    "C44_write_all",
    "C44_displaced"
   ],
   "note": ""
  },
  {
   "property": "C45",
   "status": "proved",
   "theorems": [
    "C45_calls_in_order",
    "C45_output",
    "C45_whole_output"
   ],
   "note": ""
  },
  {
   "property": "C46",
   "status": "proved",
   "theorems": [
    "C46_lookup",
    "C46_context_by_name"
   ],
   "note": ""
  },
  {
   "property": "C47",
   "status": "proved",
   "theorems": [
    "C47_append_keeps_lookups",
    "C47_append_commutes"
   ],
   "note": ""
  },
  {
   "property": "C62",
   "status": "proved",
   "theorems": [
    "C62_get_packet",
    "C62_round_trip"
   ],
   "note": ""
  },
  {
   "property": "C63",
   "status": "proved",
   "theorems": [
    "C63_stream_getters",
    "C63_readers"
   ],
   "note": ""
  },
  {
   "property": "C64",
   "status": "proved",
   "theorems": [
    "C64_stream_peekers",
    "C64_peek_then_get"
   ],
   "note": ""
  },
  {
   "property": "C68",
   "status": "partial",
   "theorems": [
    "C68_interrupted_getter_refuted",
    "C68_uninterrupted_partial",
    "C68_interrupted_exact"
   ],
   "note": "false: get_buffer has no retry; proved for readers that are not interrupted; the last theorem has what an interrupted getter loses"
  },
  {
   "property": "C69",
   "status": "partial",
   "theorems": [
    "C69_peek_eof_refuted",
    "C69_peek_retry_partial",
    "C69_small_buffer"
   ],
   "note": "false: a short buffer is reported as the end of the stream; at most k peeks are enough, unless the buffer is smaller than k bytes: then no number is"
  },
  {
   "property": "C48",
   "status": "proved",
   "theorems": [
    "C48_audio_size",
    "C48_audio_size_returned",
    "C48_audio_size_exact"
   ],
   "note": ""
  },
  {
   "property": "C49",
   "status": "proved",
   "theorems": [
    "C49_component_size",
    "C49_component_exact"
   ],
   "note": ""
  },
  {
   "property": "C50",
   "status": "partial",
   "theorems": [
    "C50_stride_refuted",
    "C50_stride_partial",
    "C50_data_size"
   ],
   "note": "false for depths below 8 (RGB565): up to 8 - depth bits are missing; proved from depth 8 on"
  },
  {
   "property": "C51",
   "status": "partial",
   "theorems": [
    "C51_ten_bit_refuted",
    "C51_ten_bit_partial"
   ],
   "note": "false: the arguments of the chroma components are swapped; the luma component is right"
  },
  {
   "property": "C52",
   "status": "proved",
   "theorems": [
    "C52_video_planes",
    "C52_video_created",
    "C52_usual_sizes"
   ],
   "note": ""
  },
  {
   "property": "C53",
   "status": "proved",
   "theorems": [
    "C53_audio_planes",
    "C53_audio_created"
   ],
   "note": ""
  },
  {
   "property": "C54",
   "status": "proved",
   "theorems": [
    "C54_round_trip",
    "C54_any_planes"
   ],
   "note": ""
  },
  {
   "property": "C55",
   "status": "proved",
   "theorems": [
    "C55_copy_plane",
    "C55_copy_plane_unsafe"
   ],
   "note": ""
  },
  {
   "property": "C56",
   "status": "partial",
   "theorems": [
    "C56_plane_to_buffer_refuted",
    "C56_plane_to_buffer_partial",
    "C56_plane_to_buffer_exact"
   ],
   "note": "false for subsampled planes: the picture width is read from them; proved for planes with a stride of at least the picture width; the last theorem has the outcome in all cases"
  },
  {
   "property": "C57",
   "status": "partial",
   "theorems": [
    "C57_find_channel_refuted",
    "C57_find_channel_partial",
    "C57_find_channel_exact",
    "C57_add_channels"
   ],
   "note": "false for maps of more than 256 channels (the position is truncated to u8)"
  },
  {
   "property": "C58",
   "status": "proved",
   "theorems": [
    "C58_channel_sides"
   ],
   "note": ""
  },
  {
   "property": "C59",
   "status": "proved",
   "theorems": [
    "C59_published",
    "C59_round_trip"
   ],
   "note": ""
  },
  {
   "property": "C60",
   "status": "partial",
   "theorems": [
    "C60_setters_refuted",
    "C60_setters_partial"
   ],
   "note": "false: the setters change a copy"
  },
  {
   "property": "C61",
   "status": "proved",
   "theorems": [
    "C61_info_equality",
    "C61_equivalence"
   ],
   "note": ""
  },
  {
   "property": "C65",
   "status": "partial",
   "theorems": [
    "C65_display_refuted",
    "C65_display_partial"
   ],
   "note": "false: the two flags are printed in the wrong order"
  },
  {
   "property": "C66",
   "status": "proved",
   "theorems": [
    "C66_formaton_new"
   ],
   "note": ""
  },
  {
   "property": "C70",
   "status": "partial",
   "theorems": [
    "C70_copy_safe_refuted",
    "C70_copy_safe_partial",
    "C70_copy_exact",
    "C70_predefined_exact"
   ],
   "note": "false for the 10-bit formats and RGB565; proved when every component fits its plane; the other theorems have the outcome in all cases and the widths that can be copied for each predefined format"
  },
  {
   "property": "C71",
   "status": "partial",
   "theorems": [
    "C71_deep_samples_refuted",
    "C71_round_trip_exact"
   ],
   "note": "false: width bytes are copied per row, whatever the depth; C70_copy_safe_partial gives what is copied"
  },
  {
   "property": "C72",
   "status": "partial",
   "theorems": [
    "C72_subsampling_refuted",
    "C72_subsampling_partial"
   ],
   "note": "false for 4:2:2; proved for the other 8-bit formats"
  },
  {
   "property": "C73",
   "status": "partial",
   "theorems": [
    "C73_packing_refuted",
    "C73_packing_partial"
   ],
   "note": "false for RGB48 and RGBA64; proved for the others"
  },
  {
   "property": "C74",
   "status": "partial",
   "theorems": [
    "C74_minimal_stride_refuted",
    "C74_minimal_stride_partial",
    "C74_stride_exact"
   ],
   "note": "false for depths above 8"
  },
  {
   "property": "C75",
   "status": "partial",
   "theorems": [
    "C75_display_refuted",
    "C75_display_partial"
   ],
   "note": "false for depths from 31 and shifts from 32 on"
  },
  {
   "property": "C76",
   "status": "proved",
   "theorems": [
    "C76_names"
   ],
   "note": ""
  },
  {
   "property": "C77",
   "status": "proved",
   "theorems": [
    "C77_typed_views",
    "C77_view_exact"
   ],
   "note": ""
  },
  {
   "property": "C78",
   "status": "proved",
   "theorems": [
    "C78_bit_queue_exact"
   ],
   "note": ""
  },
  {
   "property": "C79",
   "status": "proved",
   "theorems": [
    "C79_whole_blocks_exact"
   ],
   "note": ""
  },
  {
   "property": "C80",
   "status": "proved",
   "theorems": [
    "C80_any_description_reader",
    "C80_short_positions",
    "C80_empty_descriptions"
   ],
   "note": ""
  },
  {
   "property": "C81",
   "status": "partial",
   "theorems": [
    "C81_table_positions_partial",
    "C81_narrow_symbols_refuted",
    "C81_missing_codes"
   ],
   "note": "false when the symbol type cannot hold all positions (symbols repeat) or when there are fewer codewords than lengths (the construction panics); proved otherwise"
  },
  {
   "property": "C82",
   "status": "proved",
   "theorems": [
    "C82_decoder_context",
    "C82_encoder_context",
    "C82_unknown_codec"
   ],
   "note": ""
  },
  {
   "property": "C83",
   "status": "proved",
   "theorems": [
    "C83_option_values"
   ],
   "note": ""
  },
  {
   "property": "C84",
   "status": "proved",
   "theorems": [
    "C84_codec_error_texts",
    "C84_format_error_texts",
    "C84_io_error_source",
    "C84_other_error_texts",
    "C84_other_error_literals"
   ],
   "note": ""
  },
  {
   "property": "C85",
   "status": "proved",
   "theorems": [
    "C85_codeword_queue_exact"
   ],
   "note": ""
  },
  {
   "property": "C86",
   "status": "proved",
   "theorems": [
    "C86_exact_to_the_end",
    "C86_rejects_at_the_end",
    "C86_unpadded_messages"
   ],
   "note": ""
  },
  {
   "property": "C87",
   "status": "proved",
   "theorems": [
    "C87_mux_then_demux",
    "C87_length_prefixed"
   ],
   "note": "the second theorem is an instance whose muxer and parser use the byte functions of the bitstream crate"
  },
  {
   "property": "C88",
   "status": "partial",
   "theorems": [
    "C88_failed_seek_loses_event_refuted",
    "C88_retried_events_partial",
    "C88_retried_headers"
   ],
   "note": "false for events whose seek leaves the bytes the demuxer was given (the event is lost when that seek fails); proved for all other parsers, and for headers without restriction"
  },
  {
   "property": "C89",
   "status": "partial",
   "theorems": [
    "C89_bounded_buffer_refuted",
    "C89_slow_source_exact",
    "C89_buffer_bound_partial"
   ],
   "note": "false: every round adds the whole request, so the buffer can grow with the square of the request; proved instead: at most one request per source byte and call"
  },
  {
   "property": "C90",
   "status": "partial",
   "theorems": [
    "C90_empty_picture_refuted",
    "C90_empty_picture_partial"
   ],
   "note": "false for width 0 and depths up to 8: the stride is 0 and copying panics; proved otherwise"
  },
  {
   "property": "C91",
   "status": "partial",
   "theorems": [
    "C91_default_packet_refuted",
    "C91_default_packet_partial"
   ],
   "note": "false: stream_index is 0 in the derived default and -1 in a new packet; all other fields agree"
  },
  {
   "property": "C92",
   "status": "proved",
   "theorems": [
    "C92_component_access",
    "C92_format_access",
    "C92_sample_access",
    "C92_info_access",
    "C92_stream_extradata",
    "C92_stream_fields"
   ],
   "note": ""
  },
  {
   "property": "C93",
   "status": "proved",
   "theorems": [
    "C93_predefined_components",
    "C93_model_components"
   ],
   "note": ""
  },
  {
   "property": "C94",
   "status": "proved",
   "theorems": [
    "C94_default_maps",
    "C94_other_counts"
   ],
   "note": ""
  },
  {
   "property": "C95",
   "status": "proved",
   "theorems": [
    "C95_bit_reader_words",
    "C95_bit_count_overflow_refuted"
   ],
   "note": "the bound on the bits skipped is needed: the refutation gives a history outside of it"
  },
  {
   "property": "C96",
   "status": "proved",
   "theorems": [
    "C96_acc_reader_words",
    "C96_grow_limit"
   ],
   "note": ""
  },
  {
   "property": "C97",
   "status": "proved",
   "theorems": [
    "C97_release_agrees"
   ],
   "note": ""
  },
  {
   "property": "C98",
   "status": "partial",
   "theorems": [
    "C98_release_undersized_refuted",
    "C98_release_sizes_partial"
   ],
   "note": "false: 96 x 192153584101141163 gives planes of 32 bytes with stride 96, and copying into them is undefined behaviour; proved where the sizes fit"
  },
  {
   "property": "C99",
   "status": "proved",
   "theorems": [
    "C99_component_size_exact",
    "C99_audio_size_exact",
    "C99_video_created_exact",
    "C99_audio_created_exact"
   ],
   "note": ""
  },
  {
   "property": "C100",
   "status": "proved",
   "theorems": [
    "C100_any_history"
   ],
   "note": ""
  },
  {
   "property": "C101",
   "status": "partial",
   "theorems": [
    "C101_wrapped_late_refuted",
    "C101_seek_end_partial"
   ],
   "note": "false: the reader assumes it starts at 0, so seeks into the window are off by the starting position; a seek relative to the end is right and repairs the rest; from position 0 see C24"
  },
  {
   "property": "C102",
   "status": "proved",
   "theorems": [
    "C102_contents"
   ],
   "note": "any file-like output"
  },
  {
   "property": "C103",
   "status": "partial",
   "theorems": [
    "C103_repeat_refuted",
    "C103_seek_back_partial"
   ],
   "note": "false: the bytes written before the failure stay and are written again; seeking back to the position reported before the call first repairs it"
  },
  {
   "property": "C104",
   "status": "partial",
   "theorems": [
    "C104_buffered_unreadable_refuted",
    "C104_needs_source_partial"
   ],
   "note": "false: asking for exactly the buffered bytes calls the source, unless they fill the buffer; exact condition proved"
  },
  {
   "property": "C105",
   "status": "proved",
   "theorems": [
    "C105_read_to_end"
   ],
   "note": ""
  },
  {
   "property": "C106",
   "status": "partial",
   "theorems": [
    "C106_empty_buffer_refuted",
    "C106_read_until_partial"
   ],
   "note": "false for capacity 0; proved for any other"
  },
  {
   "property": "C107",
   "status": "proved",
   "theorems": [
    "C107_writer_words",
    "C107_writer_starts"
   ],
   "note": ""
  },
  {
   "property": "C108",
   "status": "proved",
   "theorems": [
    "C108_get_buffer_words"
   ],
   "note": ""
  },
  {
   "property": "C109",
   "status": "proved",
   "theorems": [
    "C109_release_bits_agree"
   ],
   "note": ""
  },
  {
   "property": "C110",
   "status": "proved",
   "theorems": [
    "C110_release_queue_exact"
   ],
   "note": ""
  },
  {
   "property": "C111",
   "status": "partial",
   "theorems": [
    "C111_release_available_refuted",
    "C111_release_available_partial"
   ],
   "note": "false: after a skip past the end available wraps around to almost 2^64; proved: consumed and available add up to the buffer exactly as long as consumed stays within it"
  },
  {
   "property": "C112",
   "status": "proved",
   "theorems": [
    "C112_release_acc_agrees"
   ],
   "note": ""
  },
  {
   "property": "C113",
   "status": "proved",
   "theorems": [
    "C113_release_acc_never_panics"
   ],
   "note": ""
  },
  {
   "property": "C114",
   "status": "partial",
   "theorems": [
    "C114_release_grow_refuted",
    "C114_release_grow_partial"
   ],
   "note": "false: a request near 2^64 wraps around and cuts the buffer; proved: exactly when it panics, keeps the bytes, or loses them"
  },
  {
   "property": "C115",
   "status": "proved",
   "theorems": [
    "C115_component_text",
    "C115_format_text",
    "C115_other_texts"
   ],
   "note": ""
  },
  {
   "property": "C116",
   "status": "proved",
   "theorems": [
    "C116_names",
    "C116_model_names"
   ],
   "note": ""
  },
  {
   "property": "C117",
   "status": "proved",
   "theorems": [
    "C117_planar_formats",
    "C117_packed_formats",
    "C117_sample_formats"
   ],
   "note": "with the mistakes in the 10-bit, 4:2:2 and 16-bit formats (C51, C72, C73)"
  },
  {
   "property": "C118",
   "status": "proved",
   "theorems": [
    "C118_too_few_sources",
    "C118_more_sources",
    "C118_destinations",
    "C118_no_such_plane",
    "C118_audio_copies"
   ],
   "note": ""
  },
  {
   "property": "C119",
   "status": "proved",
   "theorems": [
    "C119_context_words"
   ],
   "note": ""
  },
  {
   "property": "C120",
   "status": "partial",
   "theorems": [
    "C120_large_request_refuted",
    "C120_release_request_refuted",
    "C120_bounded_requests_partial"
   ],
   "note": "false: requests of 2^63 bytes or more crash the context; safe if the requests of all rounds together stay below 2^63 bytes"
  },
  {
   "property": "C121",
   "status": "proved",
   "theorems": [
    "C121_truncated_headers_panic"
   ],
   "note": ""
  },
  {
   "property": "C122",
   "status": "proved",
   "theorems": [
    "C122_release_context_agrees"
   ],
   "note": ""
  },
  {
   "property": "C123",
   "status": "proved",
   "theorems": [
    "C123_release_construction",
    "C123_release_histories"
   ],
   "note": ""
  },
  {
   "property": "C124",
   "status": "partial",
   "theorems": [
    "C124_long_code_panics",
    "C124_release_long_code_refuted",
    "C124_release_messages_partial"
   ],
   "note": "false for codewords of 42 bits and more in MSB mode, which panic with overflow checks and are decoded wrongly without; proved for all shorter ones"
  },
  {
   "property": "C125",
   "status": "partial",
   "theorems": [
    "C125_release_beyond_end_refuted",
    "C125_release_codewords_exact",
    "C125_release_at_the_end_partial"
   ],
   "note": "false: behind the end codewords of zeros are decoded for ever; proved: the exact behaviour everywhere, and that reads at the end fail"
  },
  {
   "property": "C126",
   "status": "partial",
   "theorems": [
    "C126_release_mask_refuted",
    "C126_release_mask_partial",
    "C126_release_format",
    "C126_release_texts_agree"
   ],
   "note": "false for packed components of 32 bits and more; proved for depths and shifts below 32, and which text is printed otherwise"
  },
  {
   "property": "C127",
   "status": "proved",
   "theorems": [
    "C127_release_total_depth"
   ],
   "note": ""
  },
  {
   "property": "C128",
   "status": "proved",
   "theorems": [
    "C128_release_writer",
    "C128_release_get_buffer"
   ],
   "note": ""
  },
  {
   "property": "C129",
   "status": "proved",
   "theorems": [
    "C129_acc_on_64_bits"
   ],
   "note": ""
  },
  {
   "property": "C130",
   "status": "proved",
   "theorems": [
    "C130_acc_any_width"
   ],
   "note": ""
  },
  {
   "property": "C131",
   "status": "proved",
   "theorems": [
    "C131_acc_reads_on"
   ],
   "note": ""
  },
  {
   "property": "C132",
   "status": "partial",
   "theorems": [
    "C132_acc_far_seek_refuted",
    "C132_acc_far_skip_refuted",
    "C132_acc_seek_start_partial",
    "C132_acc_seek_current_partial",
    "C132_acc_position_afterwards"
   ],
   "note": "false on 32 bits from position 2^32 on: the position is cut off before it is looked for in the buffer; proved: exactly what a seek does"
  },
  {
   "property": "C133",
   "status": "partial",
   "theorems": [
    "C133_writer_far_position_refuted",
    "C133_writer_any_width_partial",
    "C133_writer_on_64_bits"
   ],
   "note": "false on 32 bits beyond 4 GiB: the position is the low 32 bits; proved: exactly what happens over any output, for any width"
  },
  {
   "property": "C134",
   "status": "proved",
   "theorems": [
    "C134_get_buffer_any_width"
   ],
   "note": ""
  },
  {
   "property": "C135",
   "status": "proved",
   "theorems": [
    "C135_frames_wider",
    "C135_frames_on_64_bits"
   ],
   "note": ""
  },
  {
   "property": "C136",
   "status": "proved",
   "theorems": [
    "C136_frames_created_any_width"
   ],
   "note": ""
  },
  {
   "property": "C137",
   "status": "partial",
   "theorems": [
    "C137_wasm32_undersized_refuted",
    "C137_fitting_frames_partial"
   ],
   "note": "false without overflow checks: sizes wrap around, on 32 bits already for pictures of 4 GiB; proved where the sizes fit"
  },
  {
   "property": "C138",
   "status": "proved",
   "theorems": [
    "C138_checked_any_width",
    "C138_unchecked_any_width",
    "C138_unchecked_queue",
    "C138_on_64_bits"
   ],
   "note": ""
  },
  {
   "property": "C139",
   "status": "partial",
   "theorems": [
    "C139_available_refuted",
    "C139_checked_counts_partial"
   ],
   "note": "false: 2^29 bytes have 2^32 bits, more than a usize of 32 bits counts; proved when exactly they count"
  },
  {
   "property": "C140",
   "status": "partial",
   "theorems": [
    "C140_codeword_refuted",
    "C140_checked_histories_partial",
    "C140_unchecked_histories_partial"
   ],
   "note": "false with overflow checks: a codeword read counts the available bits, see C139; proved where they can be counted, and without overflow checks for all buffers"
  },
  {
   "property": "C141",
   "status": "proved",
   "theorems": [
    "C141_drain_whole_blocks",
    "C141_drain_endless"
   ],
   "note": ""
  },
  {
   "property": "C142",
   "status": "proved",
   "theorems": [
    "C142_tail_never_consumed",
    "C142_while_available_endless"
   ],
   "note": ""
  },
  {
   "property": "C143",
   "status": "proved",
   "theorems": [
    "C143_bench_never_panics",
    "C143_bench_reads_exact",
    "C143_bench_programs",
    "C143_bench_sizes",
    "C143_bench_accreader"
   ],
   "note": ""
  },
  {
   "property": "C144",
   "status": "proved",
   "theorems": [
    "C144_context_any_width"
   ],
   "note": "without overflow checks the panic is claimed for requests shorter than half the address space; longer ones see C145_release_request_refuted"
  },
  {
   "property": "C145",
   "status": "partial",
   "theorems": [
    "C145_large_request_refuted",
    "C145_release_request_refuted",
    "C145_bounded_requests_partial"
   ],
   "note": "false: a request for half the address space panics in the first round, with 32 bits any length field of 32 bits; proved for bounded requests"
  },
  {
   "property": "C146",
   "status": "proved",
   "theorems": [
    "C146_truncated_headers_panic"
   ],
   "note": ""
  },
  {
   "property": "C147",
   "status": "proved",
   "theorems": [
    "C147_context_on_64_bits"
   ],
   "note": ""
  },
  {
   "property": "C148",
   "status": "proved",
   "theorems": [
    "C148_unchecked_acc",
    "C148_unchecked_context",
    "C148_unchecked_writer",
    "C148_unchecked_get_buffer",
    "C148_unchecked_bits",
    "C148_unchecked_frames"
   ],
   "note": ""
  },
  {
   "property": "C149",
   "status": "proved",
   "theorems": [
    "C149_table_size",
    "C149_few_codes",
    "C149_large_table_refuted",
    "C149_first_symbols",
    "C149_many_symbols_refuted"
   ],
   "note": "the refutations show what happens beyond 2^24 entries or symbols"
  },
  {
   "property": "C150",
   "status": "proved",
   "theorems": [
    "C150_acc_never_panics_unchecked",
    "C150_acc_panics_exactly",
    "C150_acc_call_panics_exactly"
   ],
   "note": ""
  },
  {
   "property": "C151",
   "status": "proved",
   "theorems": [
    "C151_acc_grow_any_width"
   ],
   "note": ""
  },
  {
   "property": "C152",
   "status": "proved",
   "theorems": [
    "C152_malformed_construction"
   ],
   "note": ""
  },
  {
   "property": "C153",
   "status": "proved",
   "theorems": [
    "C153_malformed_reads"
   ],
   "note": ""
  },
  {
   "property": "C154",
   "status": "partial",
   "theorems": [
    "C154_last_match_wins_partial",
    "C154_last_match_stream_partial",
    "C154_unrelated_word_refuted",
    "C154_order_refuted"
   ],
   "note": "true for codewords of at most 10 bits, and for longer ones that clash only within the same ten bits (C171); C172 and C173 say what happens with all others; in general false of the code"
  },
  {
   "property": "C155",
   "status": "proved",
   "theorems": [
    "C155_misfits_panic",
    "C155_misfit_accepted_refuted"
   ],
   "note": "the refutation shows a value that does not fit its length but the table, by losing bits"
  },
  {
   "property": "C156",
   "status": "proved",
   "theorems": [
    "C156_inner_touched"
   ],
   "note": "with C100 and no touches the bytes to come are those of the source; what is done to the inner reader is any function that leaves a reader over the (possibly changed) bytes"
  },
  {
   "property": "C157",
   "status": "partial",
   "theorems": [
    "C157_moved_under_refuted",
    "C157_outside_seek_partial"
   ],
   "note": "false for positions the reader takes to be buffered: nothing is invalidated by get_mut; every other absolute seek and every seek relative to the end is right and repairs the rest"
  },
  {
   "property": "C158",
   "status": "proved",
   "theorems": [
    "C158_construction_any_width"
   ],
   "note": "an allocation grants or refuses a size, at most isize::MAX bytes; which sizes std asks for is left open"
  },
  {
   "property": "C159",
   "status": "proved",
   "theorems": [
    "C159_build_and_decode"
   ],
   "note": "without overflow checks for widths up to 64 bits"
  },
  {
   "property": "C160",
   "status": "partial",
   "theorems": [
    "C160_packets_allocated",
    "C160_short_source_refuted",
    "C160_get_packet_partial"
   ],
   "note": "false of get_packet: the memory is asked for first, and a request above isize::MAX panics whatever the source holds; with the memory the result is that of C62"
  },
  {
   "property": "C161",
   "status": "proved",
   "theorems": [
    "C161_readers_allocated",
    "C161_growth",
    "C161_new_reader"
   ],
   "note": "which sizes std asks for beyond the length needed is left open"
  },
  {
   "property": "C162",
   "status": "proved",
   "theorems": [
    "C162_frames_allocated",
    "C162_same_frame"
   ],
   "note": ""
  },
  {
   "property": "C163",
   "status": "proved",
   "theorems": [
    "C163_any_construction"
   ],
   "note": "a panic remains possible (C155); the length of a codeword is a u8"
  },
  {
   "property": "C164",
   "status": "proved",
   "theorems": [
    "C164_any_reads"
   ],
   "note": ""
  },
  {
   "property": "C165",
   "status": "partial",
   "theorems": [
    "C165_bits_used_partial",
    "C165_longer_than_codewords_refuted",
    "C165_any_description_partial"
   ],
   "note": "true for codewords that fit their lengths; false of the code otherwise, where the size of the table bounds the bits"
  },
  {
   "property": "C166",
   "status": "partial",
   "theorems": [
    "C166_any_size",
    "C166_rounds",
    "C166_ends_before_tail_partial",
    "C166_whole_words_partial",
    "C166_endless_read_refuted",
    "C166_misfit_endless_refuted",
    "C166_never_ends_exact"
   ],
   "note": "no panic whatever the size; reads end except where the last bytes cannot be loaded, where they need not"
  },
  {
   "property": "C167",
   "status": "partial",
   "theorems": [
    "C167_nested_reads",
    "C167_nested_seeks_partial",
    "C167_failing_seek_refuted"
   ],
   "note": "false for seeks over a source that fails: a seek whose refill fails reports an error although it has moved; holds without seeks, and with them (but see C26) if the source does not fail"
  },
  {
   "property": "C168",
   "status": "partial",
   "theorems": [
    "C168_panics_exactly",
    "C168_large_reads",
    "C168_getter_refuted",
    "C168_getters"
   ],
   "note": "false for getters, which take the rest of their zeroed buffer for the value, and for reads larger than the buffer, which pass the count on; AccReader panics exactly when its own buffer would be overrun"
  },
  {
   "property": "C169",
   "status": "partial",
   "theorems": [
    "C169_default_lawful",
    "C169_lawful_copies",
    "C169_safe_partial",
    "C169_trust_refuted",
    "C169_checked_refuted",
    "C169_destinations",
    "C169_plane_calls",
    "C169_views"
   ],
   "note": "false if the line size an implementation reports does not go with its slices; with implementations that keep to the documentation copies are those of the default buffer"
  },
  {
   "property": "C170",
   "status": "proved",
   "theorems": [
    "C170_read_vectored",
    "C170_bytes",
    "C170_take",
    "C170_skip_until",
    "C170_seeks",
    "C170_write_vectored",
    "C170_writer_stream_position"
   ],
   "note": "skip_until needs a buffer that is not empty (C106); Writer passes one buffer of a vectored write on"
  },
  {
   "property": "C171",
   "status": "proved",
   "theorems": [
    "C171_covers",
    "C171_last_match_queue_exact",
    "C171_last_match_histories",
    "C171_unmatched_rejected",
    "C171_order_independent"
   ],
   "note": "what C154 leaves of descriptions that are not prefix-free; the histories stay 9 bytes away from the end, the queue form does not"
  },
  {
   "property": "C172",
   "status": "proved",
   "theorems": [
    "C172_covers",
    "C172_constructed",
    "C172_any_queue_exact",
    "C172_order_independent"
   ],
   "note": "generalises C171 to all descriptions in which no bucket of longer codewords is left without its table"
  },
  {
   "property": "C173",
   "status": "proved",
   "theorems": [
    "C173_exact",
    "C173_every_order",
    "C173_one_blocked",
    "C173_unblocked",
    "C173_same_search"
   ],
   "note": "exact behaviour for every description of fitting codewords, prefix-free or not; generalises C19, C85, C171 and C172"
  },
  {
   "property": "C174",
   "status": "proved",
   "theorems": [
    "C174_exact",
    "C174_every_order",
    "C174_same_codewords"
   ],
   "note": "generalises C125_release_codewords_exact to every description of fitting codewords; histories that skip fewer than 2^64 bits in all"
  },
  {
   "property": "C175",
   "status": "proved",
   "theorems": [
    "C175_exact",
    "C175_every_order"
   ],
   "note": "generalises C159 to any fitting codewords and to reads at and behind the end; without overflow checks for widths up to 64 bits"
  },
  {
   "property": "C176",
   "status": "proved",
   "theorems": [
    "C176_lawful_copies",
    "C176_wider",
    "C176_on_64_bits",
    "C176_safe",
    "C176_destinations"
   ],
   "note": "C169 and C135 together; that line sizes go with the slices cannot be left out (C169_trust_refuted)"
  },
  {
   "property": "C177",
   "status": "proved",
   "theorems": [
    "C177_one_call",
    "C177_calls",
    "C177_bounds"
   ],
   "note": "exact calls of each call, then histories over any inner reader"
  },
  {
   "property": "C178",
   "status": "proved",
   "theorems": [
    "C178_byte_by_byte",
    "C178_whole",
    "C178_unbuffered"
   ],
   "note": "once per capacity less one byte, not once per capacity, because a read of exactly the last buffered byte asks the source first"
  },
  {
   "property": "C179",
   "status": "proved",
   "theorems": [
    "C179_output",
    "C179_ends",
    "C179_stable",
    "C179_same_output",
    "C179_contexts"
   ],
   "note": "C31, C45 and C82 together, in one program"
  },
  {
   "property": "C180",
   "status": "partial",
   "theorems": [
    "C180_fill_calls_source_refuted",
    "C180_fill_exact",
    "C180_fill_consume"
   ],
   "note": "false: the source is called unless the buffer is full, so its failures hide bytes that are there; exact condition proved, and that byte-wise use calls the source for every byte"
  },
  {
   "property": "C181",
   "status": "proved",
   "theorems": [
    "C181_requests",
    "C181_asked",
    "C181_whole",
    "C181_headers"
   ],
   "note": ""
  },
  {
   "property": "C182",
   "status": "partial",
   "theorems": [
    "C182_fast_source_refuted",
    "C182_growth_exact",
    "C182_root_bound_partial"
   ],
   "note": "false: the buffer grows by a request whenever it runs empty and never shrinks, so with the square root of the file; exact size for packets of one size, and the square-root bound in general"
  },
  {
   "property": "C183",
   "status": "proved",
   "theorems": [
    "C183_reader_views",
    "C183_new_reader",
    "C183_muxed_bytes"
   ],
   "note": ""
  },
  {
   "property": "C184",
   "status": "proved",
   "theorems": [
    "C184_transparent",
    "C184_calls"
   ],
   "note": ""
  },
  {
   "property": "C185",
   "status": "proved",
   "theorems": [
    "C185_bare_output"
   ],
   "note": ""
  },
  {
   "property": "C186",
   "status": "proved",
   "theorems": [
    "C186_self_reading"
   ],
   "note": ""
  },
  {
   "property": "C187",
   "status": "proved",
   "theorems": [
    "C187_messages"
   ],
   "note": "C17 and C87 together"
  },
  {
   "property": "C188",
   "status": "proved",
   "theorems": [
    "C188_complete_reads",
    "C188_complete_decodes",
    "C188_incomplete_rejects",
    "C188_kraft_inequality"
   ],
   "note": ""
  },
  {
   "property": "C189",
   "status": "proved",
   "theorems": [
    "C189_long_codes_exact",
    "C189_long_messages",
    "C189_short_codes",
    "C189_moved_zeros",
    "C189_too_large_panics"
   ],
   "note": ""
  },
  {
   "property": "C190",
   "status": "proved",
   "theorems": [
    "C190_read_exact_failing"
   ],
   "note": ""
  },
  {
   "property": "C191",
   "status": "proved",
   "theorems": [
    "C191_canonical_valid",
    "C191_canonical_messages",
    "C191_lengths_possible",
    "C191_canonical_complete"
   ],
   "note": ""
  },
  {
   "property": "C192",
   "status": "proved",
   "theorems": [
    "C192_reads_as_puff",
    "C192_puff_exact"
   ],
   "note": ""
  },
  {
   "property": "C193",
   "status": "proved",
   "theorems": [
    "C193_readers_mirrored",
    "C193_codebooks_mirrored"
   ],
   "note": ""
  },
  {
   "property": "C194",
   "status": "proved",
   "theorems": [
    "C194_only_the_words_matter"
   ],
   "note": ""
  },
  {
   "property": "C195",
   "status": "proved",
   "theorems": [
    "C195_bit_and_byte_reads",
    "C195_fields_read_back"
   ],
   "note": ""
  },
  {
   "property": "C196",
   "status": "proved",
   "theorems": [
    "C196_start_later",
    "C196_near_the_end_refuted"
   ],
   "note": ""
  },
  {
   "property": "C197",
   "status": "partial",
   "theorems": [
    "C197_loop_ends_refuted",
    "C197_loop_reads",
    "C197_loop_ends_partial",
    "C197_whole_blocks_partial",
    "C197_complete_endless",
    "C197_zeros_endless",
    "C197_release_endless",
    "C197_soon_or_never"
   ],
   "note": "false as stated if a codeword consists of zeros and the length is no multiple of 8; proved when either is excluded, and endless for every complete code otherwise"
  },
  {
   "property": "C198",
   "status": "partial",
   "theorems": [
    "C198_run_ends_refuted",
    "C198_zeros_endless",
    "C198_new_reader",
    "C198_ones_end_partial",
    "C198_soon_or_never",
    "C198_run_exact",
    "C198_guarded_same",
    "C198_guarded_blocks"
   ],
   "note": "false as stated: reads past the end give zeros, so that counting zeros need not end; ones always end, runs that end 8 bytes before the end are counted exactly, and for a new reader the result is given for every buffer"
  }
 ]
}