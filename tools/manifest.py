#!/usr/bin/env python3
"""Writes MANIFEST.json; checks that every theorem named here exists."""
import json, os, re, glob
HERE = os.path.dirname(os.path.abspath(__file__))
C = []
def c(pid, status, theorems, note=""):
    C.append({"property": pid, "status": status, "theorems": theorems.split(), "note": note})
c("C01", "proved", "C01_put_get_roundtrip")
c("C02", "proved", "C02_getters_place_bytes C02_le_number_unique")
c("C03", "proved", "C03_short_buffers_panic")
c("C04", "proved", "C04_signed_getters_twos_complement")
c("C05", "proved", "C05_bit_reads_exact")
c("C06", "proved", "C06_peek_predicts_get")
c("C07", "proved", "C07_consumed_plus_available")
c("C08", "proved", "C08_skip_is_read_and_discard")
c("C09", "proved", "C09_align_to_byte_boundary C09_align8_is_next_boundary")
c("C10", "proved", "C10_overread_zero_fill")
c("C11", "proved", "C11_split_read")
c("C12", "proved", "C12_exact_to_the_end_64")
c("C13", "partial", "C13_available_bits_readable_refuted C13_available_bits_readable_partial C13_readable_exact",
  "false as stated (the last 7 bytes can be unreadable); C13_readable_exact says exactly which bits can be read and what is delivered instead of the others")
c("C14", "partial", "C14_skip_past_end_refuted C14_available_panics_refuted C14_skip_past_end_partial C14_skip_exact",
  "false as stated (stale bits survive a skip past the end, available can underflow); C14_skip_exact gives position and availability after every skip in every state")
c("C15", "proved", "C15_codebook_decodes C15_huge_buffer_refuted",
  "for buffers below 2^29 bytes; the refutation shows the bound is needed")
c("C16", "proved", "C16_unknown_codewords_rejected")
c("C17", "proved", "C17_message_round_trip")
c("C18", "proved", "C18_construction")
c("C19", "proved", "C19_order_independent")
c("C20", "proved", "C20_reverse_bits")
c("C21", "partial", "C21_truncated_codeword_refuted C21_truncated_codeword_partial C21_symbol_exact",
  "false with escapes (codewords longer than 10 bits); proved for codebooks without; for all codebooks the bits that must be available")
c("C22", "partial", "C22_failed_read_position_refuted C22_failed_read_position_partial C22_failed_read_exact",
  "false with escapes (codewords longer than 10 bits); proved for codebooks without; for all codebooks the exact skips")
c("C67", "proved", "C67_read_never_panics")
c("C23", "proved", "C23_source_bytes_in_order")
c("C24", "proved", "C24_seek_lands")
c("C25", "proved", "C25_position_reported")
c("C26", "partial", "C26_backward_seek_refuted C26_backward_seek_partial C26_backward_seek_offset_partial",
  "false when data is buffered (lands too far by the number of buffered bytes); proved when nothing is buffered")
c("C27", "proved", "C27_grow_reset_transparent")
c("C28", "proved", "C28_read_exact")
c("C29", "proved", "C29_window_bounds")
c("C30", "proved", "C30_failures_lose_nothing")
c("C31", "proved", "C31_events_of_the_source C31_chunking_independent C31_headers_then_events")
c("C32", "proved", "C32_eof_only_at_the_end")
c("C33", "proved", "C33_packet_timebase")
c("C34", "proved", "C34_streams_registered")
c("C35", "proved", "C35_demuxer_errors_returned C35_seek_errors_returned C35_fill_errors_returned C35_error_origin C35_header_errors_returned C35_header_fill_errors_returned C35_header_error_origin")
c("C36", "partial", "C36_read_event_livelock_refuted C36_read_event_returns_partial C36_rounds_partial C36_rounds_reached C36_small_request_hangs C36_large_request_progress",
  "false for demuxers that report the number of missing bytes; proved for incremental parsers that report the total, also with sources that fail; the last two theorems say when a round makes progress, for any demuxer")
c("C37", "partial", "C37_truncated_headers_refuted C37_truncated_headers_always_hang C37_complete_headers_partial C37_header_rounds_partial C37_rounds_reached C37_failing_source_partial",
  "false (read_headers loops forever on truncated input); proved for complete headers, with the number of rounds, also with sources that fail")
c("C38", "partial", "C38_failed_seek_refuted C38_any_demuxer_partial C38_position_after_headers_partial C38_position_exact",
  "false when the source refuses the seek (the error is dropped); proved for sources that do not fail; with others the position is the requested one or 0")
c("C39", "proved", "C39_probe_first_best C39_probe_none")
c("C40", "partial", "C40_threshold_score_refuted C40_above_threshold_partial",
  "false for a score of exactly 50; proved above")
c("C41","proved","C41_add_stream C41_consecutive","")
c("C42","partial","C42_automatic_ids_refuted C42_automatic_ids_partial","false: an automatic id is the index the stream had before, which is 0 for every stream made by from_params (C41_consecutive gives all ids exactly); the ids are unique exactly when the old indices are")
c("C43","proved","C43_by_name C43_by_name_none","")
c("C44","proved","C44_position C44_accepted_bytes C44_write_all C44_displaced","")
c("C45","proved","C45_calls_in_order C45_output C45_whole_output","")
c("C46","proved","C46_lookup C46_context_by_name","")
c("C47","proved","C47_append_keeps_lookups C47_append_commutes","")
c("C62","proved","C62_get_packet C62_round_trip","")
c("C63","proved","C63_stream_getters C63_readers","")
c("C64","proved","C64_stream_peekers C64_peek_then_get","")
c("C68","partial","C68_interrupted_getter_refuted C68_uninterrupted_partial C68_interrupted_exact","false: get_buffer has no retry; proved for readers that are not interrupted; the last theorem has what an interrupted getter loses")
c("C69","partial","C69_peek_eof_refuted C69_peek_retry_partial C69_small_buffer","false: a short buffer is reported as the end of the stream; at most k peeks are enough, unless the buffer is smaller than k bytes: then no number is")
c("C48","proved","C48_audio_size C48_audio_size_returned C48_audio_size_exact","")
c("C49","proved","C49_component_size C49_component_exact","")
c("C50","partial","C50_stride_refuted C50_stride_partial C50_data_size","false for depths below 8 (RGB565): up to 8 - depth bits are missing; proved from depth 8 on")
c("C51","partial","C51_ten_bit_refuted C51_ten_bit_partial","false: the arguments of the chroma components are swapped; the luma component is right")
c("C52","proved","C52_video_planes C52_video_created C52_usual_sizes","")
c("C53","proved","C53_audio_planes C53_audio_created","")
c("C54","proved","C54_round_trip C54_any_planes","")
c("C55","proved","C55_copy_plane C55_copy_plane_unsafe","")
c("C56","partial","C56_plane_to_buffer_refuted C56_plane_to_buffer_partial C56_plane_to_buffer_exact","false for subsampled planes: the picture width is read from them; proved for planes with a stride of at least the picture width; the last theorem has the outcome in all cases")
c("C57","partial","C57_find_channel_refuted C57_find_channel_partial C57_find_channel_exact C57_add_channels","false for maps of more than 256 channels (the position is truncated to u8)")
c("C58","proved","C58_channel_sides","")
c("C59","proved","C59_published C59_round_trip","")
c("C60","partial","C60_setters_refuted C60_setters_partial","false: the setters change a copy")
c("C61","proved","C61_info_equality C61_equivalence","")
c("C65","partial","C65_display_refuted C65_display_partial","false: the two flags are printed in the wrong order")
c("C66","proved","C66_formaton_new","")
c("C70","partial","C70_copy_safe_refuted C70_copy_safe_partial C70_copy_exact C70_predefined_exact","false for the 10-bit formats and RGB565; proved when every component fits its plane; the other theorems have the outcome in all cases and the widths that can be copied for each predefined format")
c("C71","partial","C71_deep_samples_refuted C71_round_trip_exact","false: width bytes are copied per row, whatever the depth; C70_copy_safe_partial gives what is copied")
c("C72","partial","C72_subsampling_refuted C72_subsampling_partial","false for 4:2:2; proved for the other 8-bit formats")
c("C73","partial","C73_packing_refuted C73_packing_partial","false for RGB48 and RGBA64; proved for the others")
c("C74","partial","C74_minimal_stride_refuted C74_minimal_stride_partial C74_stride_exact","false for depths above 8")
c("C75","partial","C75_display_refuted C75_display_partial","false for depths from 31 and shifts from 32 on")
c("C76","proved","C76_names","")
c("C77","proved","C77_typed_views C77_view_exact","")
c("C78","proved","C78_bit_queue_exact","")
c("C79","proved","C79_whole_blocks_exact","")
c("C80","proved","C80_any_description_reader C80_short_positions C80_empty_descriptions","")
c("C81","partial","C81_table_positions_partial C81_narrow_symbols_refuted C81_missing_codes","false when the symbol type cannot hold all positions (symbols repeat) or when there are fewer codewords than lengths (the construction panics); proved otherwise")
c("C82","proved","C82_decoder_context C82_encoder_context C82_unknown_codec","")
c("C83","proved","C83_option_values","")
c("C84","proved","C84_codec_error_texts C84_format_error_texts C84_io_error_source C84_other_error_texts C84_other_error_literals","")
c("C85","proved","C85_codeword_queue_exact","")
c("C86","proved","C86_exact_to_the_end C86_rejects_at_the_end C86_unpadded_messages","")
c("C87","proved","C87_mux_then_demux C87_length_prefixed","the second theorem is an instance whose muxer and parser use the byte functions of the bitstream crate")
c("C88","partial","C88_failed_seek_loses_event_refuted C88_retried_events_partial C88_retried_headers","false for events whose seek leaves the bytes the demuxer was given (the event is lost when that seek fails); proved for all other parsers, and for headers without restriction")
c("C89","partial","C89_bounded_buffer_refuted C89_slow_source_exact C89_buffer_bound_partial","false: every round adds the whole request, so the buffer can grow with the square of the request; proved instead: at most one request per source byte and call")
c("C90","partial","C90_empty_picture_refuted C90_empty_picture_partial","false for width 0 and depths up to 8: the stride is 0 and copying panics; proved otherwise")
c("C91","partial","C91_default_packet_refuted C91_default_packet_partial","false: stream_index is 0 in the derived default and -1 in a new packet; all other fields agree")
c("C92","proved","C92_component_access C92_format_access C92_sample_access C92_info_access C92_stream_extradata C92_stream_fields","")
c("C93","proved","C93_predefined_components C93_model_components","")
c("C94","proved","C94_default_maps C94_other_counts","")
c("C95","proved","C95_bit_reader_words C95_bit_count_overflow_refuted","the bound on the bits skipped is needed: the refutation gives a history outside of it")
c("C96","proved","C96_acc_reader_words C96_grow_limit","")
c("C97","proved","C97_release_agrees","")
c("C98","partial","C98_release_undersized_refuted C98_release_sizes_partial","false: 96 x 192153584101141163 gives planes of 32 bytes with stride 96, and copying into them is undefined behaviour; proved where the sizes fit")
c("C99","proved","C99_component_size_exact C99_audio_size_exact C99_video_created_exact C99_audio_created_exact","")
c("C100","proved","C100_any_history","")
c("C101","partial","C101_wrapped_late_refuted C101_seek_end_partial","false: the reader assumes it starts at 0, so seeks into the window are off by the starting position; a seek relative to the end is right and repairs the rest; from position 0 see C24")
c("C102","proved","C102_contents","any file-like output")
c("C103","partial","C103_repeat_refuted C103_seek_back_partial","false: the bytes written before the failure stay and are written again; seeking back to the position reported before the call first repairs it")
c("C104","partial","C104_buffered_unreadable_refuted C104_needs_source_partial","false: asking for exactly the buffered bytes calls the source, unless they fill the buffer; exact condition proved")
c("C105","proved","C105_read_to_end","")
c("C106","partial","C106_empty_buffer_refuted C106_read_until_partial","false for capacity 0; proved for any other")
c("C107","proved","C107_writer_words C107_writer_starts","")
c("C108","proved","C108_get_buffer_words","")
c("C109","proved","C109_release_bits_agree","")
c("C110","proved","C110_release_queue_exact","")
c("C111","partial","C111_release_available_refuted C111_release_available_partial","false: after a skip past the end available wraps around to almost 2^64; proved: consumed and available add up to the buffer exactly as long as consumed stays within it")
c("C112","proved","C112_release_acc_agrees","")
c("C113","proved","C113_release_acc_never_panics","")
c("C114","partial","C114_release_grow_refuted C114_release_grow_partial","false: a request near 2^64 wraps around and cuts the buffer; proved: exactly when it panics, keeps the bytes, or loses them")
c("C115","proved","C115_component_text C115_format_text C115_other_texts","")
c("C116","proved","C116_names C116_model_names","")
c("C117","proved","C117_planar_formats C117_packed_formats C117_sample_formats","with the mistakes in the 10-bit, 4:2:2 and 16-bit formats (C51, C72, C73)")
c("C118","proved","C118_too_few_sources C118_more_sources C118_destinations C118_no_such_plane C118_audio_copies","")
c("C119","proved","C119_context_words","")
c("C120","partial","C120_large_request_refuted C120_release_request_refuted C120_bounded_requests_partial","false: requests of 2^63 bytes or more crash the context; safe if the requests of all rounds together stay below 2^63 bytes")
c("C121","proved","C121_truncated_headers_panic","")
c("C122","proved","C122_release_context_agrees","")
c("C123","proved","C123_release_construction C123_release_histories","")
c("C124","partial","C124_long_code_panics C124_release_long_code_refuted C124_release_messages_partial","false for codewords of 42 bits and more in MSB mode, which panic with overflow checks and are decoded wrongly without; proved for all shorter ones")
c("C125","partial","C125_release_beyond_end_refuted C125_release_codewords_exact C125_release_at_the_end_partial","false: behind the end codewords of zeros are decoded for ever; proved: the exact behaviour everywhere, and that reads at the end fail")
c("C126","partial","C126_release_mask_refuted C126_release_mask_partial C126_release_format C126_release_texts_agree","false for packed components of 32 bits and more; proved for depths and shifts below 32, and which text is printed otherwise")
c("C127","proved","C127_release_total_depth","")
c("C128","proved","C128_release_writer C128_release_get_buffer","")
c("C129","proved","C129_acc_on_64_bits","")
c("C130","proved","C130_acc_any_width","")
c("C131","proved","C131_acc_reads_on","")
c("C132","partial","C132_acc_far_seek_refuted C132_acc_far_skip_refuted C132_acc_seek_start_partial C132_acc_seek_current_partial C132_acc_position_afterwards","false on 32 bits from position 2^32 on: the position is cut off before it is looked for in the buffer; proved: exactly what a seek does")
c("C133","partial","C133_writer_far_position_refuted C133_writer_any_width_partial C133_writer_on_64_bits","false on 32 bits beyond 4 GiB: the position is the low 32 bits; proved: exactly what happens over any output, for any width")
c("C134","proved","C134_get_buffer_any_width","")
c("C135","proved","C135_frames_wider C135_frames_on_64_bits","")
c("C136","proved","C136_frames_created_any_width","")
c("C137","partial","C137_wasm32_undersized_refuted C137_fitting_frames_partial","false without overflow checks: sizes wrap around, on 32 bits already for pictures of 4 GiB; proved where the sizes fit")
c("C138","proved","C138_checked_any_width C138_unchecked_any_width C138_unchecked_queue C138_on_64_bits","")
c("C139","partial","C139_available_refuted C139_checked_counts_partial","false: 2^29 bytes have 2^32 bits, more than a usize of 32 bits counts; proved when exactly they count")
c("C140","partial","C140_codeword_refuted C140_checked_histories_partial C140_unchecked_histories_partial","false with overflow checks: a codeword read counts the available bits, see C139; proved where they can be counted, and without overflow checks for all buffers")
c("C141","proved","C141_drain_whole_blocks C141_drain_endless","")
c("C142","proved","C142_tail_never_consumed C142_while_available_endless","")
c("C143","proved","C143_bench_never_panics C143_bench_reads_exact C143_bench_programs C143_bench_sizes C143_bench_accreader","")
c("C144","proved","C144_context_any_width","without overflow checks the panic is claimed for requests shorter than half the address space; longer ones see C145_release_request_refuted")
c("C145","partial","C145_large_request_refuted C145_release_request_refuted C145_bounded_requests_partial","false: a request for half the address space panics in the first round, with 32 bits any length field of 32 bits; proved for bounded requests")
c("C146","proved","C146_truncated_headers_panic","")
c("C147","proved","C147_context_on_64_bits","")
c("C148","proved","C148_unchecked_acc C148_unchecked_context C148_unchecked_writer C148_unchecked_get_buffer C148_unchecked_bits C148_unchecked_frames","")
c("C149","proved","C149_table_size C149_few_codes C149_large_table_refuted C149_first_symbols C149_many_symbols_refuted","the refutations show what happens beyond 2^24 entries or symbols")
c("C150","proved","C150_acc_never_panics_unchecked C150_acc_panics_exactly C150_acc_call_panics_exactly","")
c("C151","proved","C151_acc_grow_any_width","")
c("C152","proved","C152_malformed_construction","")
c("C153","proved","C153_malformed_reads","")
c("C154","partial","C154_last_match_wins_partial C154_last_match_stream_partial C154_unrelated_word_refuted C154_order_refuted","true for codewords of at most 10 bits, and for longer ones that clash only within the same ten bits (C171); C172 and C173 say what happens with all others; in general false of the code")
c("C155","proved","C155_misfits_panic C155_misfit_accepted_refuted","the refutation shows a value that does not fit its length but the table, by losing bits")
c("C156","proved","C156_inner_touched","with C100 and no touches the bytes to come are those of the source; what is done to the inner reader is any function that leaves a reader over the (possibly changed) bytes")
c("C157","partial","C157_moved_under_refuted C157_outside_seek_partial","false for positions the reader takes to be buffered: nothing is invalidated by get_mut; every other absolute seek and every seek relative to the end is right and repairs the rest")
c("C158","proved","C158_construction_any_width","an allocation grants or refuses a size, at most isize::MAX bytes; which sizes std asks for is left open")
c("C159","proved","C159_build_and_decode","without overflow checks for widths up to 64 bits")
c("C160","partial","C160_packets_allocated C160_short_source_refuted C160_get_packet_partial","false of get_packet: the memory is asked for first, and a request above isize::MAX panics whatever the source holds; with the memory the result is that of C62")
c("C161","proved","C161_readers_allocated C161_growth C161_new_reader","which sizes std asks for beyond the length needed is left open")
c("C162","proved","C162_frames_allocated C162_same_frame","")
c("C163","proved","C163_any_construction","a panic remains possible (C155); the length of a codeword is a u8")
c("C164","proved","C164_any_reads","")
c("C165","partial","C165_bits_used_partial C165_longer_than_codewords_refuted C165_any_description_partial","true for codewords that fit their lengths; false of the code otherwise, where the size of the table bounds the bits")
c("C166","partial","C166_any_size C166_rounds C166_ends_before_tail_partial C166_whole_words_partial C166_endless_read_refuted C166_misfit_endless_refuted C166_never_ends_exact","no panic whatever the size; reads end except where the last bytes cannot be loaded, where they need not")
c("C167","partial","C167_nested_reads C167_nested_seeks_partial C167_failing_seek_refuted","false for seeks over a source that fails: a seek whose refill fails reports an error although it has moved; holds without seeks, and with them (but see C26) if the source does not fail")
c("C168","partial","C168_panics_exactly C168_large_reads C168_getter_refuted C168_getters","false for getters, which take the rest of their zeroed buffer for the value, and for reads larger than the buffer, which pass the count on; AccReader panics exactly when its own buffer would be overrun")
c("C169","partial","C169_default_lawful C169_lawful_copies C169_safe_partial C169_trust_refuted C169_checked_refuted C169_destinations C169_plane_calls C169_views","false if the line size an implementation reports does not go with its slices; with implementations that keep to the documentation copies are those of the default buffer")
c("C170","proved","C170_read_vectored C170_bytes C170_take C170_skip_until C170_seeks C170_write_vectored C170_writer_stream_position","skip_until needs a buffer that is not empty (C106); Writer passes one buffer of a vectored write on")
c("C171","proved","C171_covers C171_last_match_queue_exact C171_last_match_histories C171_unmatched_rejected C171_order_independent","what C154 leaves of descriptions that are not prefix-free; the histories stay 9 bytes away from the end, the queue form does not")
c("C172","proved","C172_covers C172_constructed C172_any_queue_exact C172_order_independent","generalises C171 to all descriptions in which no bucket of longer codewords is left without its table")
c("C173","proved","C173_exact C173_every_order C173_one_blocked C173_unblocked C173_same_search","exact behaviour for every description of fitting codewords, prefix-free or not; generalises C19, C85, C171 and C172")
c("C174","proved","C174_exact C174_every_order C174_same_codewords","generalises C125_release_codewords_exact to every description of fitting codewords; histories that skip fewer than 2^64 bits in all")
c("C175","proved","C175_exact C175_every_order","generalises C159 to any fitting codewords and to reads at and behind the end; without overflow checks for widths up to 64 bits")
c("C176","proved","C176_lawful_copies C176_wider C176_on_64_bits C176_safe C176_destinations","C169 and C135 together; that line sizes go with the slices cannot be left out (C169_trust_refuted)")
c("C177","proved","C177_one_call C177_calls C177_bounds","exact calls of each call, then histories over any inner reader")
c("C178","proved","C178_byte_by_byte C178_whole C178_unbuffered","once per capacity less one byte, not once per capacity, because a read of exactly the last buffered byte asks the source first")
c("C179","proved","C179_output C179_ends C179_stable C179_same_output C179_contexts","C31, C45 and C82 together, in one program")
c("C180","partial","C180_fill_calls_source_refuted C180_fill_exact C180_fill_consume","false: the source is called unless the buffer is full, so its failures hide bytes that are there; exact condition proved, and that byte-wise use calls the source for every byte")
c("C181","proved","C181_requests C181_asked C181_whole C181_headers","")
c("C182","partial","C182_fast_source_refuted C182_growth_exact C182_root_bound_partial","false: the buffer grows by a request whenever it runs empty and never shrinks, so with the square root of the file; exact size for packets of one size, and the square-root bound in general")
c("C183","proved","C183_reader_views C183_new_reader C183_muxed_bytes","")
c("C184","proved","C184_transparent C184_calls","")
c("C185","proved","C185_bare_output","")
c("C186","proved","C186_self_reading","")
c("C187","proved","C187_messages","C17 and C87 together")
c("C188","proved","C188_complete_reads C188_complete_decodes C188_incomplete_rejects C188_kraft_inequality","")
c("C189","proved","C189_long_codes_exact C189_long_messages C189_short_codes C189_moved_zeros C189_too_large_panics","")
c("C190","proved","C190_read_exact_failing","")
c("C191","proved","C191_canonical_valid C191_canonical_messages C191_lengths_possible C191_canonical_complete","")
c("C192","proved","C192_reads_as_puff C192_puff_exact","")
c("C193","proved","C193_readers_mirrored C193_codebooks_mirrored","")
c("C194","proved","C194_only_the_words_matter","")
c("C195","proved","C195_bit_and_byte_reads C195_fields_read_back","")
c("C196","proved","C196_start_later C196_near_the_end_refuted","")
c("C197","partial","C197_loop_ends_refuted C197_loop_reads C197_loop_ends_partial C197_whole_blocks_partial C197_complete_endless C197_zeros_endless C197_release_endless C197_soon_or_never","false as stated if a codeword consists of zeros and the length is no multiple of 8; proved when either is excluded, and endless for every complete code otherwise")
c("C198","partial","C198_run_ends_refuted C198_zeros_endless C198_new_reader C198_ones_end_partial C198_soon_or_never C198_run_exact C198_guarded_same C198_guarded_blocks","false as stated: reads past the end give zeros, so that counting zeros need not end; ones always end, runs that end 8 bytes before the end are counted exactly, and for a new reader the result is given for every buffer")
#END
names = set()
for f in glob.glob(os.path.join(HERE, "..", "rocq", "theories", "*.v")):
    names |= set(re.findall(r"^Theorem (\w+)", open(f).read(), re.M))
used = set()
for x in C:
    for t in x["theorems"]:
        assert t in names, t
        used.add(t)
    assert any(json.loads(l)["id"] == x["property"] for l in open(os.path.join(HERE, "..", "properties.jsonl"))), x
print("unclaimed theorems:", sorted(names - used))
json.dump({"claims": C}, open(os.path.join(HERE, "..", "MANIFEST.json"), "w"), indent=1)

titles = {}
for l in open(os.path.join(HERE, "..", "properties.jsonl")):
    o = json.loads(l); titles[o["id"]] = o["title"]
d = os.path.join(HERE, "..", "DESIGN.md")
t = open(d).read()
t = t[:t.index("## Properties and theorems")] + "## Properties and theorems\n\n| id | property | status | theorems | note |\n|---|---|---|---|---|\n"
for x in sorted(C, key=lambda x: int(x["property"][1:])):
    t += "| %s | %s | %s | %s | %s |\n" % (x["property"], titles[x["property"]], x["status"],
        ", ".join("`%s`" % n for n in x["theorems"]), x["note"])
open(d, "w").write(t)
