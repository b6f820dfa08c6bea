{"claims": [
{"property": "C01", "status": "proved", "theorems": ["C01_integral_roundtrip", "C01_integral_big_endian", "C01_bytes_roundtrip", "C01_bytes2integral_bounds"], "note": ""},
{"property": "C02", "status": "proved", "theorems": ["C02_flags_union", "C02_flag_query", "C02_flags_reported"], "note": ""},
{"property": "C03", "status": "proved", "theorems": ["C03_integer_roundtrip", "C03_integer_above_range", "C03_integer_decode_outcome"], "note": ""},
{"property": "C04", "status": "proved", "theorems": ["C04_integer_wire_format"], "note": ""},
{"property": "C05", "status": "partial", "theorems": ["C05_consumed_length_partial", "C05_consumed_length_refuted"], "note": "False of the code for non-minimal representations (C05_consumed_length_refuted); the partial theorem says exactly when the reported length is right."},
{"property": "C06", "status": "proved", "theorems": ["C06_huffman_roundtrip"], "note": ""},
{"property": "C07", "status": "proved", "theorems": ["C07_huffman_encoder_output"], "note": ""},
{"property": "C08", "status": "proved", "theorems": ["C08_huffman_decoder_outcome"], "note": ""},
{"property": "C09", "status": "partial", "theorems": ["C09_huffman_eos_refuted", "C09_huffman_errors_rejected_partial", "C09_huffman_errors_refuted", "C09_huffman_any_padding_refuted"], "note": "False of the code: every string with EOS symbols and every wrong padding of fewer than 8 bits is accepted (refuted theorems); the partial theorem covers the errors that are rejected (8 or more padding bits)."},
{"property": "C10", "status": "proved", "theorems": ["C10_encode_table_is_rfc", "C10_decode_table_inverse", "C10_decode_table_total", "C10_code_prefix_free", "C10_code_complete", "C10_code_values_fit", "C10_duplicate_row_harmless"], "note": ""},
{"property": "C11", "status": "proved", "theorems": ["C11_static_tables_inverse", "C11_static_indices", "C11_static_table_at"], "note": ""},
{"property": "C12", "status": "partial", "theorems": ["C12_static_table_is_rfc_partial", "C12_static_table_refuted"], "note": "False of the code for index 20 (the library has accept-control-allow-origin for access-control-allow-origin): C12_static_table_refuted. Proved for the other 60 indices."},
{"property": "C13", "status": "proved", "theorems": ["C13_accounting", "C13_history_outcome"], "note": ""},
{"property": "C14", "status": "proved", "theorems": ["C14_push_evicts_oldest"], "note": ""},
{"property": "C15", "status": "partial", "theorems": ["C15_oversize_push_refuted", "C15_push_is_rfc_partial"], "note": "False of the code: pushing an entry larger than the maximum pops from an empty vector (C15_oversize_push_refuted, on every reachable table). The partial theorem shows agreement with the RFC for every other entry."},
{"property": "C16", "status": "proved", "theorems": ["C16_size_update"], "note": ""},
{"property": "C17", "status": "proved", "theorems": ["C17_lookup_lifo"], "note": ""},
{"property": "C18", "status": "proved", "theorems": ["C18_header_roundtrip", "C18_encoder_total"], "note": "Under the strict reading of &v[v.size()] names and values are assumed non-empty; under the lenient reading there is no such restriction. Wire-representable: fewer than 2^31 octets and 2^30 table entries."},
{"property": "C19", "status": "partial", "theorems": ["C19_size_update_roundtrip_partial", "C19_size_update_refuted"], "note": "False of the code for sizes of 2^31 + 31 and more (C19_size_update_refuted); proved for all smaller ones."},
{"property": "C20", "status": "proved", "theorems": ["C20_indexed_denotes"], "note": ""},
{"property": "C21", "status": "partial", "theorems": ["C21_indexed_corrupts_refuted", "C21_indexed_in_tables_partial"], "note": "False of the code for every header in neither table (C21_indexed_corrupts_refuted); proved for headers in a table."},
{"property": "C22", "status": "proved", "theorems": ["C22_representation_kept"], "note": ""},
{"property": "C23", "status": "proved", "theorems": ["C23_classification", "C23_reported_prefix"], "note": ""},
{"property": "C24", "status": "proved", "theorems": ["C24_consumed_bounds", "C24_block_terminates", "C24_block_covers"], "note": ""},
{"property": "C25", "status": "partial", "theorems": ["C25_hostile_bytes_refuted", "C25_ub_kinds_partial", "C25_complete_field_partial"], "note": "False of the code (C25_hostile_bytes_refuted: truncated strings and integers). Proved: fields that are complete and whose integers are minimal and below 2^31 never cause undefined behaviour whatever their content, and only four kinds of undefined behaviour can occur."},
{"property": "C26", "status": "partial", "theorems": ["C26_decoding_agrees_partial", "C26_decoding_refuted"], "note": "False of the code for non-minimal integers, index 20 and references to an empty name (C26_decoding_refuted). Proved for all other RFC-valid representations with integers below 2^31, any peer's choice of index form, Huffman or plain."},
{"property": "C27", "status": "partial", "theorems": ["C27_invalid_index_rejected_partial", "C27_index_zero_refuted"], "note": "False of the code for index 0 (C27_index_zero_refuted); proved for every index beyond both tables, minimal or not, within the integer range the decoder supports."},
{"property": "C28", "status": "partial", "theorems": ["C28_rfc_example_refuted", "C28_block_decoding_partial", "C28_sequential_refuted", "C28_late_reference_refuted"], "note": "False of the code (C28_sequential_refuted on one block, C28_late_reference_refuted for every table and every new field): the table is not updated between fields. Proved for all blocks that do not reference a dynamic entry after a table change. The second response of RFC 7541, C.5, is such a block (C28_rfc_example_refuted)."},
{"property": "C29", "status": "proved", "theorems": ["C29_header_wire_form", "C29_header_roundtrip", "C29_octets_roundtrip"], "note": ""},
{"property": "C30", "status": "partial", "theorems": ["C30_stream_id_leak_refuted", "C30_out_of_range_fields_partial"], "note": "False of the code: bit 31 of the stream id sets the reserved bit (C30_stream_id_leak_refuted). The partial theorem gives what a receiver reads for every header the C++ types admit; this is the only leak."},
{"property": "C31", "status": "partial", "theorems": ["C31_declared_length_partial", "C31_declared_length_refuted", "C31_long_payload_refuted"], "note": "False of the code for every payload of 2^24 octets and more, which is accepted and described modulo 2^24 (C31_declared_length_refuted, C31_long_payload_refuted); proved for all smaller ones, for all ten constructors."},
{"property": "C32", "status": "proved", "theorems": ["C32_data_roundtrip"], "note": ""},
{"property": "C33", "status": "proved", "theorems": ["C33_ping_roundtrip", "C33_ping_too_long"], "note": ""},
{"property": "C34", "status": "proved", "theorems": ["C34_goaway_roundtrip", "C34_goaway_masks_stream_id", "C34_goaway_short"], "note": ""},
{"property": "C35", "status": "proved", "theorems": ["C35_rst_stream_roundtrip", "C35_rst_stream_short"], "note": ""},
{"property": "C36", "status": "proved", "theorems": ["C36_priority_roundtrip", "C36_priority_rejects", "C36_priority_short"], "note": ""},
{"property": "C37", "status": "proved", "theorems": ["C37_window_update_roundtrip", "C37_window_update_rejects", "C37_window_update_wrong_size"], "note": ""},
{"property": "C38", "status": "proved", "theorems": ["C38_settings_roundtrip", "C38_make_sf_payload"], "note": ""},
{"property": "C39", "status": "partial", "theorems": ["C39_received_last_wins_refuted", "C39_make_sf_payload_last_wins_refuted", "C39_received_partial", "C39_make_sf_payload_partial", "C39_first_wins_refuted"], "note": "False of the code on both paths: std::map::insert keeps the first value, for every list (C39_first_wins_refuted). Proved for parameters listed once."},
{"property": "C40", "status": "partial", "theorems": ["C40_settings_safe_refuted", "C40_settings_lengths_partial"], "note": "False of the code: every payload whose length is not a multiple of 6 is undefined behaviour (C40_settings_lengths_partial states exactly this); multiples of 6 parse."},
{"property": "C41", "status": "proved", "theorems": ["C41_headers_roundtrip", "C41_same_frame"], "note": "Headers found in a table come back with the INDEXED prefix (relation received); C41_same_frame gives full equality when headers of a table are asked for as INDEXED. Blocks: literals, INDEXED headers that are in a table, and size updates below 2^31+31 (C19); payload below 2^24 octets."},
{"property": "C42", "status": "proved", "theorems": ["C42_push_promise_roundtrip"], "note": "As C41."},
{"property": "C43", "status": "partial", "theorems": ["C43_continuation_roundtrip", "C43_split_refuted", "C43_split_between_fields_partial", "C43_split_own_blocks_partial", "C43_split_points_partial"], "note": "The round trip is proved. Fragment independence is false of the code (C43_split_refuted: CONTINUATION is decoded on its own); proved for splits between fields. For the library's own blocks the cut points that work are exactly the ends of entries (C43_split_points_partial)."},
{"property": "C44", "status": "partial", "theorems": ["C44_long_padding_refuted", "C44_received_padding_refuted", "C44_received_padding_push_refuted", "C44_received_padding_partial", "C44_received_padding_push_partial", "C44_padding_cases_partial", "C44_long_padding_always_refuted", "C44_long_padding_push_always_refuted"], "note": "False of the code: every padding of 256 or more octets is accepted and misdescribed (refuted theorems), received pad lengths that do not fit are undefined behaviour (for every such payload). The partial theorems show that every other received payload is divided correctly; emission up to 255 octets is C41 and C42."},
{"property": "C45", "status": "proved", "theorems": ["C45_byte_order_independent", "C45_push_promise_construction"], "note": ""},
{"property": "C46", "status": "proved", "theorems": ["C46_dispatch", "C46_unknown_type"], "note": "A HEADERS payload that makes the decoder throw yields a raw frame (see C53); the theorem states this case."},
{"property": "C47", "status": "proved", "theorems": ["C47_fixed_size_safe"], "note": ""},
{"property": "C48", "status": "partial", "theorems": ["C48_write_exact", "C48_write_completes_partial", "C48_read_exact", "C48_read_completes_partial", "C48_large_transfer_refuted", "C48_large_read_refuted"], "note": "Exactness holds for every schedule and failure point (C48_write_exact, C48_read_exact). Completion is false of the code for every transfer of 2^31 octets or more (int conversion, refuted theorems) and proved for every smaller one."},
{"property": "C49", "status": "proved", "theorems": ["C49_one_frame", "C49_chunking_irrelevant", "C49_frames_in_order", "C49_any_schedule", "C49_truncated"], "note": ""},
{"property": "C50", "status": "proved", "theorems": ["C50_rejected_frame", "C50_next_frame", "C50_unknown_type"], "note": ""},
{"property": "C51", "status": "partial", "theorems": ["C51_response_table_partial", "C51_new_connection_partial", "C51_settings_refuted", "C51_oversized_refuted", "C51_index_20_refuted", "C51_late_reference_refuted", "C51_settings_always_refuted", "C51_late_field_refuted", "C51_single_partial", "C51_block_partial", "C51_history_partial"], "note": "False of the code: every SETTINGS_HEADER_TABLE_SIZE other than the size in use, oversized fields, static index 20 and references to entries of the same block desynchronise (refuted theorems, for every table state but the index 20 one). Proved for every history without them. C51_single_partial, C51_block_partial and C51_history_partial are equivalences: for every table they say exactly which header blocks, and which histories, with integers in their shortest form below 2^31 and non-empty names, the client follows after every frame."},
{"property": "C52", "status": "partial", "theorems": ["C52_indexed_partial", "C52_block_partial", "C52_stale_refuted", "C52_history_partial", "C52_request_table_partial", "C52_requests_complete_partial", "C52_new_connection_partial", "C52_duplicate_refuted", "C52_late_reference_refuted", "C52_oversized_refuted", "C52_misspelt_refuted", "C52_indexed_absent_refuted", "C52_single_partial"], "note": "False of the code for five kinds of block, each refuted in general: a field already in the dynamic table submitted with indexing, an index after an insertion in the same block (C52_stale_refuted: wherever the two stand), an oversized field, the misspelt static name, an indexed field no table has. Proved for every history without them. For requests with one entry, C52_single_partial is an equivalence: it says exactly which of them the server reads as submitted with equal tables afterwards. For requests with any number of entries, C52_block_partial is an equivalence too: such a request works exactly when its insertions fit and a server that starts with the client's table, and reads each field at the position it has in the table before the block, follows it to the table the client ends with; only INDEXED entries for fields in no table are left out of it. C52_history_partial extends this to every sequence of requests and every pair of tables to start with. C52_indexed_partial includes INDEXED for fields in no table."},
{"property": "C53", "status": "partial", "theorems": ["C53_raw_frame_partial", "C53_null_dereference_refuted"], "note": "build_frame returns the raw frame (partial); receive_frame then dereferences a null pointer for every such frame (C53_null_dereference_refuted)."},
{"property": "C54", "status": "proved", "theorems": ["C54_send_exact", "C54_call_order", "C54_send_completes"], "note": ""},
{"property": "C55", "status": "partial", "theorems": ["C55_gate_partial", "C55_otherwise_throws", "C55_hostname_refuted"], "note": "Everything but the host name check is proved; the code never checks the host name (C55_hostname_refuted)."},
{"property": "C56", "status": "partial", "theorems": ["C56_data_text", "C56_dump_safe_partial", "C56_unprintable_refuted", "C56_goaway_refuted", "C56_padding_refuted", "C56_empty_data_refuted"], "note": "False of the code: GOAWAY debug data without a zero octet, a DATA pad length larger than the payload and (for checked element access) an empty DATA payload are read out of bounds, each refuted in general. Printing is proved safe for exactly the remaining frames."},
{"property": "C57", "status": "partial", "theorems": ["C57_unequal", "C57_equality_is_wire_equality_partial", "C57_equal_headers_differ_on_the_wire_refuted", "C57_different_headers_same_wire_refuted", "C57_coding_not_compared_refuted", "C57_unsent_priority_refuted", "C57_unsent_padding_refuted", "C57_block_frames_partial", "C57_unsent_representation_refuted"], "note": "False of the code for HEADERS in both directions (refuted theorems, each also in a general form: the coding mode is not compared; fields left out by the flags, and the representation asked for a header that is in a table, are). Proved for the seven classes without a header block when members are within wire ranges, and for the three classes with one when both frames are made with the same coding mode and table, padding and priority are given only with their flags, and headers of a table are asked for as INDEXED."},
{"property": "C58", "status": "partial", "theorems": ["C58_means_header_partial", "C58_misspelt_refuted"], "note": "False of the code for the misspelt static name (C58_misspelt_refuted); proved for all other headers."},
{"property": "C59", "status": "partial", "theorems": ["C59_numbers", "C59_class_and_header", "C59_whole_frame_partial", "C59_goaway_partial", "C59_goaway_refuted", "C59_block_partial", "C59_forged_refuted", "C59_goaway_tail_refuted"], "note": "Class and header always; the whole frame for seven classes. False for GOAWAY debug data after a zero octet and for header values with a line feed (refuted); proved otherwise."},
{"property": "C60", "status": "partial", "theorems": ["C60_independent_partial", "C60_after_ping_refuted"], "note": "False of the code: SETTINGS values are printed in hexadecimal after a PING, raw or padded frame (refuted for every value of ten or more). Proved for all other frames and histories."},
{"property": "C61", "status": "proved", "theorems": ["C61_table_text"], "note": ""},
{"property": "C62", "status": "proved", "theorems": ["C62_request_meaning", "C62_sends_nothing_else", "C62_normal_end", "C62_completes"], "note": ""},
{"property": "C63", "status": "partial", "theorems": ["C63_stops_at_final_partial", "C63_returns_only_at_final_partial", "C63_headers_only_response_refuted"], "note": "False of the code for a response that ends with END_STREAM on HEADERS (refuted for every such response and all later traffic without a final frame); the rest is proved for every stream and TLS behaviour."},
{"property": "C64", "status": "proved", "theorems": ["C64_encode", "C64_constructors", "C64_build_frame", "C64_table_updates", "C64_receive", "C64_send", "C64_print", "C64_receive_loop", "C64_sample"], "note": ""},
{"property": "C65", "status": "proved", "theorems": ["C65_one_header", "C65_one_entry_each", "C65_block_means_headers", "C65_size_update_rejected"], "note": ""},
{"property": "C66", "status": "proved", "theorems": ["C66_prefix_and_entry", "C66_equality", "C66_accessors"], "note": ""},
{"property": "C67", "status": "partial", "theorems": ["C67_prefix_applied_partial", "C67_not_atomic_refuted"], "note": "False of the code: a wrong entry after good ones leaves the good ones applied (refuted for every table and header). Proved: exactly the entries before the first inapplicable one are applied, for every block."},
{"property": "C68", "status": "proved", "theorems": ["C68_target", "C68_zero_octet", "C68_target_unambiguous", "C68_order", "C68_connects"], "note": ""},
{"property": "C69", "status": "proved", "theorems": ["C69_released", "C69_after_constructor"], "note": ""},
{"property": "C70", "status": "partial", "theorems": ["C70_rst_stream_partial", "C70_goaway_partial", "C70_settings_partial", "C70_internal_error_refuted", "C70_max_streams_refuted"], "note": "False of the code for error code 2 (printed INTERNAL_ERRPR) and parameter 3 (printed SETTINGS_MAX_CONCURRENT_STREAM), both refuted; proved for all other codes and parameters."},
{"property": "C71", "status": "partial", "theorems": ["C71_peers_agree_partial", "C71_interrupted_partial", "C71_duplicate_refuted", "C71_exact_partial", "C71_duplicate_partial", "C71_history_partial", "C71_misread_refuted"], "note": "False of the code for a header already in a table submitted with incremental indexing (C71_duplicate_refuted, every table with room for it); proved for every sequence of requests without one. C71_exact_partial says what happens for every request that can be sent: it is delivered, also with references after insertions, and gives both tables afterwards; C71_duplicate_partial is the exact condition under which inserting a field of a table again leaves the tables equal. C71_history_partial extends this to any number of requests between two instances whose tables may differ (same limit): the first n arrive as submitted exactly if each is understood, that is every field the sender finds in its own table stands at the same place in the receiver's, with both tables tracked; C71_misread_refuted: after a field has been inserted twice, another one is misread."},
{"property": "C72", "status": "proved", "theorems": ["C72_not_in_request_table", "C72_written_literally", "C72_not_in_server_table"], "note": ""},
{"property": "C73", "status": "proved", "theorems": ["C73_interleaving"], "note": ""},
{"property": "C74", "status": "partial", "theorems": ["C74_bounded_partial", "C74_limit_refuted"], "note": "False of the code for the last clause: every size update up to 2^31+30 in a received block is applied although RFC 7541 section 6.3 demands a decoding error (C74_limit_refuted). The rest is proved for every stream, schedule and number of calls that do not run into undefined behaviour."},
{"property": "C75", "status": "partial", "theorems": ["C75_bounded_read_partial", "C75_oversized_refuted"], "note": "False of the code for the last clause: every DATA frame of 2^14+1 to 2^24-1 octets is returned (C75_oversized_refuted). The rest is proved for every stream and schedule."},
{"property": "C76", "status": "partial", "theorems": ["C76_plain_partial", "C76_huffman_partial", "C76_value_longer_refuted", "C76_four_times_partial", "C76_longer_refuted"], "note": "False of the code for Huffman mode with values of octets with long codes (C76_longer_refuted and C76_value_longer_refuted, for every such header in neither table). Proved for plain mode, and for Huffman mode when names and values take at most 8 bits per octet on average, which is the exact condition for a value (C76_value_longer_refuted); for all octets Huffman mode stays within four times the header list size."},
{"property": "C77", "status": "partial", "theorems": ["C77_forwarded_partial", "C77_longer_refuted", "C77_settings_refuted", "C77_reserved_refuted", "C77_settings_reserved_refuted"], "note": "False of the code for four families, each refuted for every member: over-long PRIORITY and RST_STREAM lose their extra octets while the length still counts them (C77_longer_refuted), SETTINGS not in strictly increasing order are reordered and merged (C77_settings_refuted), DATA and SETTINGS frames lose the reserved bit (C77_reserved_refuted, C77_settings_reserved_refuted). Proved for every other frame, header blocks included."},
{"property": "C78", "status": "partial", "theorems": ["C78_session_partial", "C78_interrupted_partial", "C78_settings_alone_refuted"], "note": "Proved for every sequence of such actions. False of the code for the last sentence: SETTINGS with SETTINGS_HEADER_TABLE_SIZE and without update_request_dynamic_table(max_size) changes only the receiver's response table (C78_settings_alone_refuted, every table and every other size). Header blocks are limited as in C71."},
{"property": "C79", "status": "proved", "theorems": ["C79_block", "C79_received", "C79_session", "C79_reached"], "note": "Proved for every received frame and every table within its limit (C74), and for every session from a new connection with defined behaviour (C79_session); C79_reached shows that the factor cannot be improved."},
{"property": "C80", "status": "proved", "theorems": ["C80_mode_irrelevant", "C80_no_confusion"], "note": "Proved for every list the round trip C18 covers."},
{"property": "C81", "status": "proved", "theorems": ["C81_truncated", "C81_own_block"], "note": "Proved for every octet sequence and every cut point."},
{"property": "C82", "status": "partial", "theorems": ["C82_send_again_partial", "C82_send_again_octets", "C82_send_twice_refuted", "C82_receive_again_partial", "C82_receive_loses_refuted", "C82_smuggled_refuted"], "note": "The code does not have this property: it keeps no record of a partial transfer. Proved when nothing was transferred before the failure (the _partial theorems). Refuted for every failure point inside the data: the part already sent is sent again (C82_send_twice_refuted), the part already read is lost (C82_receive_loses_refuted), so a frame placed in the payload of a DATA frame is returned as a frame of the server (C82_smuggled_refuted)."},
{"property": "C83", "status": "proved", "theorems": ["C83_receive", "C83_print", "C83_calls", "C83_program", "C83_difference"], "note": "Proved for receive_frame, all call sequences, dump and the sample's main; the two builds are the two readings of &v[v.size()] described in section 1 of DESIGN.md."},
{"property": "C84", "status": "partial", "theorems": ["C84_ignored_refuted", "C84_table_size_refuted", "C84_explicit_update_partial", "C84_frame_size_refuted"], "note": "The code does not have this property: a received SETTINGS frame changes nothing about what is sent (C84_ignored_refuted), so requests become unreadable for every table size below some indexed field (C84_table_size_refuted) and DATA of any length is one frame (C84_frame_size_refuted). Proved when the caller puts the size update into the next block (C84_explicit_update_partial)."},
{"property": "C85", "status": "partial", "theorems": ["C85_received_partial", "C85_block_frames_partial", "C85_promise_partial", "C85_padded_data_refuted", "C85_window_refuted", "C85_constructed", "C85_one_parameter"], "note": "False of the code for every padded DATA frame (C85_padded_data_refuted: pad length and padding are returned with the data) and every WINDOW_UPDATE with the reserved bit set (C85_window_refuted: the bit is part of the value returned); repeated settings and late references are C39 and C28. Proved for everything else, and for all constructors. The header returned for DATA and SETTINGS frames has a zero reserved bit."},
{"property": "C86", "status": "partial", "theorems": ["C86_same_frames_partial", "C86_built_ahead_partial", "C86_stale_index_refuted", "C86_exact_partial", "C86_stale_refuted"], "note": "False of the code: the indices are fixed when a frame is built, and the frame keeps no record of the table they refer to. For every table and every new field, a frame built ahead that refers to the newest entry is read as the field inserted before it was sent (C86_stale_index_refuted). Proved when no frame refers to a dynamic entry after an earlier frame has changed the table: then the frames are those that would have been built in turn. C86_exact_partial is an equivalence: frames built ahead are read as submitted exactly when the server, reading each field at the position it had in the table when the frames were built, follows the blocks one after the other; C86_stale_refuted says that an entry of the table mentioned anywhere after an insertion is never read as submitted."},
{"property": "C87", "status": "partial", "theorems": ["C87_accepted_exactly", "C87_accepted_partial", "C87_block_partial", "C87_block_fields_partial", "C87_index_zero_refuted", "C87_misspelt_refuted", "C87_overlong_refuted", "C87_bad_huffman_refuted", "C87_regular_fields", "C87_nameless_refuted"], "note": "False of the code. C87_accepted_exactly says which octets are accepted and how they are read, in terms of the specification alone (an equivalence). An accepted field is valid unless it has an integer not in shortest form (the next field is then read too early), index zero, index 20 (misspelt name), a name index of an entry with an empty name, or a string that is not a Huffman encoding (EOS symbol or wrong padding): C87_accepted_partial, with a general refutation for each of the five. C87_regular_fields: every field RFC 7541 gives a meaning, with shortest integers, and using neither index 20 nor a nameless entry, is free of them. For blocks: C87_block_partial and C87_block_fields_partial. C28_rfc_example_refuted (under C28) shows that the appendix of RFC 7541 itself (C.5.2) is decoded wrongly."},
{"property": "C88", "status": "partial", "theorems": ["C88_well_formed_accepted", "C88_accepted_partial", "C88_size_refuted", "C88_data_padding_refuted", "C88_settings_twice_refuted", "C88_unchecked_refuted"], "note": "Proved: every payload with the format is accepted if its header block decodes (C88_well_formed_accepted), and an accepted payload has the format and is reported faithfully (C88_accepted_partial) unless it is misread. False of the code in the rest, each for all inputs: PING of any size and too long PRIORITY and RST_STREAM frames are accepted (C88_size_refuted), padding of DATA frames is reported as data (C88_data_padding_refuted), the first of two values of a setting is reported (C88_settings_twice_refuted), and none of the restrictions on streams and values is checked (C88_unchecked_refuted)."},
{"property": "C89", "status": "proved", "theorems": ["C89_field", "C89_block", "C89_frame", "C89_rejection_kind", "C89_receive", "C89_send", "C89_make_block", "C89_make_other"], "note": "Equivalences, all proved. A rejected HEADERS frame never throws: it becomes a raw frame (C53). Inputs on which the code has undefined behaviour do not count as throwing. C89_make_block assumes an exclusive flag below 2 where the PRIORITY flag is set, since the shift is undefined otherwise; exceptions of table updates are in C67."},
{"property": "C90", "status": "partial", "theorems": ["C90_once", "C90_initialised_partial", "C90_thread_alone", "C90_progress", "C90_terminates", "C90_used_before_refuted"], "note": "Proved for every interleaving: at most one initialisation (C90_once), complete before any call that configures, makes or uses a connection in any thread (C90_initialised_partial), no deadlock (C90_progress), no endless execution (C90_terminates), and the calls of each thread are those of the sequential model (C90_thread_alone), to which C55, C68 and C69 apply. False of the code: the members m_ssl_ctx and m_ssl_bio are constructed before std::call_once, so SSL_CTX_new and BIO_new_ssl_connect run before the initialisation, always (C90_used_before_refuted). OpenSSL 1.1.0 and later initialise themselves. One OpenSSL call is one step, and two threads do not share one connection."},
{"property": "C91", "status": "proved", "theorems": ["C91_session", "C91_first_danger", "C91_field", "C91_block", "C91_frame", "C91_receive", "C91_well_formed"], "note": "Equivalences, all proved; together with C89 they say which of the three outcomes every complete frame has. That the list is not empty is the subject of C15, C25, C40, C44 and C53. The consistency of the table holds initially and after every call that does not misbehave (last part of C91_receive). C91_session and C91_first_danger extend this to whole sequences of frames, the table being what the frames before have made of it."},
{"property": "C92", "status": "partial", "theorems": ["C92_format_partial", "C92_connection_partial", "C92_data_format_refuted", "C92_forbidden_refuted"], "note": "False for restrictions: of all the restrictions of section 6 only the stream of PING and GOAWAY is enforced (C92_connection_partial); frames on stream 0, self dependency, SETTINGS out of range, an odd promised stream or a zero window increment are all sent, for every caller's content (C92_forbidden_refuted). The format is right for everything that is asked for (C92_format_partial), except that a DATA frame with the PADDED flag goes out even when its payload cannot be a padded one (C92_data_format_refuted). Padding of more than 255 octets is the subject of C44."},
{"property": "C93", "status": "partial", "theorems": ["C93_received_as_sent_partial", "C93_servers_partial", "C93_received_as_sent_refuted"], "note": "False for servers that pad DATA frames, whose padding is reported as data (C93_received_as_sent_refuted, for every such frame), and for the header blocks and SETTINGS listed under C51 and C39; true for all others (C93_received_as_sent_partial; C93_servers_partial says these are RFC servers). Extends C51, which is about the header fields only, to the whole content of every frame and rules out exceptions."},
{"property": "C94", "status": "proved", "theorems": ["C94_coding_as_asked", "C94_codings_apart", "C94_plain_verbatim"], "note": "C94_coding_as_asked for whole blocks, C94_codings_apart (the specification's two codings exclude each other), C94_plain_verbatim (a value that is in no table is readable in the block). C80 says that the receiver cannot tell the codings apart by the result."},
{"property": "C95", "status": "partial", "theorems": ["C95_answers_partial", "C95_ping_refuted", "C95_settings_refuted", "C95_large_response_refuted"], "note": "False: in every run no PING is answered (C95_ping_refuted), only one of several SETTINGS frames is acknowledged (C95_settings_refuted), and the window is never enlarged, so that responses are limited to 65535 octets of DATA (C95_large_response_refuted, also for runs that fail). True for servers that begin with SETTINGS and send neither PING nor further SETTINGS (C95_answers_partial)."},
{"property": "C96", "status": "partial", "theorems": ["C96_alone", "C96_sender_and_receiver_partial", "C96_octets_kept", "C96_whole_frames_partial", "C96_two_senders_refuted", "C96_two_receivers_refuted"], "note": "True of one sending and one receiving thread, for every behaviour of OpenSSL (C96_sender_and_receiver_partial; C96_alone: a thread alone does what the sequential model says), and of any number of sending threads if OpenSSL takes every frame at once (C96_whole_frames_partial); otherwise only the octets of each thread stay in order (C96_octets_kept). False of two senders (C96_two_senders_refuted: frames are mixed and both calls return normally) and of two receivers (C96_two_receivers_refuted: data of a DATA frame is taken for a frame). The model makes BIO calls and table accesses atomic, which is the best case: the library takes no lock and OpenSSL does not allow concurrent use of one connection."},
{"property": "C97", "status": "proved", "theorems": ["C97_call", "C97_session", "C97_sample", "C97_sent_at_once", "C97_received_at_once"], "note": "Proved. The calls to OpenSSL are the elements of the schedule used up; a call made after the end of the schedule fails and is not counted, so at most one per call of the client."},
{"property": "C98", "status": "partial", "theorems": ["C98_header", "C98_payload", "C98_octets", "C98_eight_a_line", "C98_block_partial", "C98_line_feed_refuted", "C98_data", "C98_title_partial", "C98_ping_title_refuted", "C98_debug_partial"], "note": "Proved for all numbers, octets and data (C98_header, C98_payload, C98_octets, C98_data). Partial: the title of PING is PING_STREAM (C98_ping_title_refuted); a line feed in a header value forges a line of the block (C98_line_feed_refuted), so C98_block_partial assumes none; debug data is shown up to the first zero octet and its line feeds are not marked (C98_debug_partial). Error codes and settings are C70."},
{"property": "C99", "status": "partial", "theorems": ["C99_arithmetic", "C99_push_entry_partial", "C99_push_entry_refuted", "C99_write_partial", "C99_write_refuted"], "note": "False of the code: push removes the entry before copying it whenever the entry, the newer ones and the copy do not fit together (C99_push_entry_refuted, every such table), and an assignment that changes the size of an entry breaks the accounting (C99_write_refuted). The partial theorems cover exactly the other cases. C99_arithmetic also shows that the unbounded numbers of DynTable.v are no simplification. The library itself pushes only copies."},
{"property": "C100", "status": "partial", "theorems": ["C100_in_turn_partial", "C100_at_once_partial", "C100_at_once_refuted", "C100_in_turn_exact_partial", "C100_at_once_exact_partial", "C100_stale_refuted"], "note": "False of the code as in C52, and for frames built at once when a later frame refers to an entry of the table after an earlier one inserted a field (C100_at_once_refuted, every table). Proved for every list without these: C100_in_turn_partial (a later frame may then refer to what an earlier one inserted), C100_at_once_partial. C100_in_turn_exact_partial and C100_at_once_exact_partial are equivalences for every pair of starting tables: the server reads what was submitted, ending with a given table, exactly when it follows the blocks to that table; C100_stale_refuted says that a list built at once is never read as submitted when an entry of the table is mentioned anywhere after an insertion. What a second instance of the library makes of the frames is in C78."},
{"property": "C101", "status": "partial", "theorems": ["C101_whole_list_partial", "C101_cuts_partial", "C101_cut_inside_refuted"], "note": "False of the code: a HEADERS frame that ends inside a field is undefined behaviour, for every such list and cut (C101_cut_inside_refuted). For lists the library reads when they come in one frame, all frames are returned exactly when every cut is between two fields, and then the list is right (C101_cuts_partial). C101_whole_list_partial also allows references to entries that an earlier frame of the list inserted."},
{"property": "C102", "status": "partial", "theorems": ["C102_relayed_partial", "C102_indexed_partial", "C102_indexed_refuted", "C102_exact_partial"], "note": "False of the code: a field received as an index is kept as an index, and is read by the second server exactly when the field is in the second connection's tables (C102_indexed_partial, an equivalence). So an entry of the first connection's dynamic table that the second connection does not have is never sent on, nor is an entry of the static table without value (C102_indexed_refuted). Blocks that are plain for the second connection, as in C52, are sent on correctly (C102_relayed_partial). C102_exact_partial does the same for whole blocks: the second server reads what the first one sent exactly if every field received as an index is in the second connection's tables, and the rest is as in C52 (excluded: a field without value, of a static name, received as an index when the second frame is not Huffman-coded)."},
{"property": "C103", "status": "partial", "theorems": ["C103_streams_partial", "C103_padding_refuted"], "note": "False of the code with padded DATA frames: on every stream that has one, the body collected is longer than the body sent, and no call fails (C103_padding_refuted). Proved for all sessions as in C93 (C103_streams_partial)."},
{"property": "C104", "status": "partial", "theorems": ["C104_windows_partial", "C104_repeated_refuted", "C104_not_enforced_refuted", "C104_given_back"], "note": "False of the code in two ways: a SETTINGS frame that repeats SETTINGS_INITIAL_WINDOW_SIZE gives the user another window than the server, for every stream (C104_repeated_refuted, from C39), and a DATA frame longer than the window is sent, whatever the window is (C104_not_enforced_refuted). Proved for all other sessions, padded DATA included, since its whole payload counts and is what get_payload returns (C104_windows_partial), and for giving back (C104_given_back)."},
{"property": "C105", "status": "partial", "theorems": ["C105_same_reader", "C105_quadratic_partial", "C105_exact", "C105_linear_refuted", "C105_largest_frame", "C105_huffman_exact", "C105_huffman_refuted"], "note": "False of the code: every header decoded copies what is left of the block and moves it again when erased, so a block of n one-octet fields takes exactly n*(n+23) (C105_exact) and no factor bounds the work (C105_linear_refuted); the largest frame makes the client handle 281 million million octets (C105_largest_frame). One Huffman-coded string alone is quadratic too (C105_huffman_exact, C105_huffman_refuted). Proved: at most quadratic for every block, whether reading it succeeds or not (C105_quadratic_partial), about functions that are the model's reader with a counter (C105_same_reader)."},
{"property": "C106", "status": "proved", "theorems": ["C106_same_encoder", "C106_linear", "C106_huffman_exact", "C106_exact"], "note": "C106_linear, about functions that are the model's encoder with a counter (C106_same_encoder); C106_huffman_exact and C106_exact give exact counts. Unlike reading (C105), nothing here is quadratic."},
{"property": "C107", "status": "partial", "theorems": ["C107_history_partial", "C107_books_refuted", "C107_settings_refuted", "C107_update_partial", "C107_receive_partial", "C107_headers_refuted", "C107_smuggled_refuted", "C107_enough_memory", "C107_reported_partial", "C107_any_connection_partial", "C107_lost_connection_refuted"], "note": "False. C107_history_partial: exactly what a table does over any history with failed insertions, namely shrink for good by the size of each entry it could not insert (m_table_size is set before the entry is inserted); C107_books_refuted and C107_settings_refuted: the accounting is then wrong and a size update below the lost room, which a server can send, is undefined behaviour. C107_update_partial: exactly what update_request_dynamic_table does with any block and any failing allocation. C107_receive_partial: what every receive_frame that throws std::bad_alloc has done; C107_reported_partial: a call that throws no std::bad_alloc has done exactly what it does with memory enough, apart from one case; C107_headers_refuted: that case, a HEADERS frame decoded without memory is a null pointer dereference (bad_alloc is caught and a raw frame returned instead); C107_smuggled_refuted: without memory for the payload, the payload is read as frames. C107_enough_memory: with memory enough the functions are those of the rest of the model. C107_any_connection_partial: on any connection, std::bad_alloc takes away at most a prefix of what the server sends; C107_lost_connection_refuted: it can hide that the connection was lost."},
{"property": "C108", "status": "partial", "theorems": ["C108_huffman", "C108_receive_partial", "C108_printed", "C108_write", "C108_constructors", "C108_entries", "C108_connect", "C108_connect_step", "C108_printable_partial", "C108_alpn_refuted", "C108_type_refuted", "C108_progress_refuted", "C108_agrees"], "note": "C108_receive_partial: every exception of receive_frame, its type and its exact text, as a function of what was received (a size the type does not allow, a stuck Huffman string, a failed read); the texts of an unknown type and of an index in no table are the standard library's. C108_huffman: a Huffman coded string is refused exactly when whole octets remain that begin no code word, and the text counts them. C108_printed: what is printed for a HEADERS frame. C108_write, C108_constructors, C108_entries: sending, the frames an application makes, and table updates. C108_connect and C108_connect_step: the constructor of the connection reports the first step that failed, and no two steps have the same text. C108_printable_partial: all this is plain text, except C108_alpn_refuted: the protocol name the peer selects is copied into the text as it is. C108_type_refuted and C108_progress_refuted: a text tells neither the frame type nor how much was sent. C108_agrees: but for the texts the functions are those of the rest of the model."},
{"property": "C109", "status": "partial", "theorems": ["C109_sample", "C109_request_kept_partial", "C109_request_refuted", "C109_stale_refuted", "C109_response_partial", "C109_response_refuted"], "note": "The library checks none of this. C109_request_refuted: every malformed list is sent and read by the server as it is; C109_response_refuted: every malformed response, of the servers of C93, is returned as it is. True: the request of the sample is well formed (C109_sample), a well-formed list sent without indexing is read as submitted (C109_request_kept_partial; the misspelt static name excluded), and what is returned is well formed exactly if what was sent is (C109_response_partial). With indexing a well-formed request can become malformed on the way: C109_stale_refuted, for every table whose newest entry is a path and every new authority."},
{"property": "C110", "status": "partial", "theorems": ["C110_kept_partial", "C110_octets_refuted", "C110_later_refuted", "C110_table"], "note": "False of the code for every frame that shows octets in hexadecimal (unknown frames, PING, padding): the stream is left with std::hex and the fill character 0 (C110_octets_refuted), so that numbers of ten or more which the caller prints afterwards come out in hexadecimal (C110_later_refuted). True for all other frames (C110_kept_partial) and for tables (C110_table)."},
{"property": "C111", "status": "partial", "theorems": ["C111_octets_partial", "C111_settings_partial", "C111_value_refuted", "C111_grouping_refuted", "C111_groups", "C111_width", "C111_width_refuted", "C111_left_refuted", "C111_agrees", "C111_table"], "note": "Exact conditions: C111_octets_partial (all frames but SETTINGS: the usual text if and only if every octet shown is shown as two digits: no showbase but for zero, no upper-case letters, no std::left but for zero and octets of two digits, no grouping by single digits), C111_settings_partial and C111_value_refuted (values in decimal), C111_grouping_refuted and C111_groups (locales that group digits: the same digits in the groups of the locale), C111_width and C111_width_refuted (a pending width pads the first line, and nothing else). C111_left_refuted: with std::left a PING is printed as another PING. C111_agrees ties this model to the texts of Dump.v; C111_table: tables always have the same text."},
{"property": "C112", "status": "proved", "theorems": ["C112_prefix", "C112_failed", "C112_same_outcome"], "note": "C112_prefix, C112_failed, C112_same_outcome; for streams with exceptions() set see C118."},
{"property": "C113", "status": "proved", "theorems": ["C113_released", "C113_reported", "C113_interrupted", "C113_history", "C113_retry", "C113_places", "C113_preface", "C113_preface_enough"], "note": "C113_released, C113_reported, C113_interrupted for one attempt; C113_history and C113_retry for any sequence of attempts; C113_places: which allocations an attempt can fail at (static data is allocated once per process); C113_preface, C113_preface_enough for the preface. OpenSSL objects only: the storage of the client's own objects is not counted."},
{"property": "C114", "status": "partial", "theorems": ["C114_lawful_partial", "C114_unlawful_refuted", "C114_first_frame_refuted", "C114_header_list_refuted", "C114_after_end_refuted", "C114_unrequested_refuted", "C114_even_refuted", "C114_reuse_refuted", "C114_lower_refuted"], "note": "First half true (C114_lawful_partial); second half false: the library keeps no state of streams and every sequence of frames that are proper by themselves passes (C114_unlawful_refuted). In particular a server that does not begin with SETTINGS (C114_first_frame_refuted), frames in the middle of a header list (C114_header_list_refuted), DATA or HEADERS after the end of a stream or its reset (C114_after_end_refuted), responses nobody asked for (C114_unrequested_refuted), requests on even (C114_even_refuted), used (C114_reuse_refuted) or lower streams (C114_lower_refuted), each with anything before, between and after."},
{"property": "C115", "status": "partial", "theorems": ["C115_values_partial", "C115_copy_independent_partial", "C115_reuse_partial", "C115_moved_frame_refuted", "C115_moved_text_refuted", "C115_moved_table_refuted", "C115_moved_entry_refuted", "C115_classes"], "note": "True of every program that does not look at an object it moved from (C115_values_partial, C115_copy_independent_partial, C115_reuse_partial); only objects of one class can be assigned to each other (C115_classes). An object that was moved from is not valid: a frame announces the payload that is gone, so the receiver takes the next frame for it (C115_moved_frame_refuted) and a DATA frame cannot be printed (C115_moved_text_refuted); a table keeps the size of its lost entries, and lowering its limit or filling it is undefined behaviour (C115_moved_table_refuted); a header entry is sent as a field with an empty name (C115_moved_entry_refuted)."},
{"property": "C116", "status": "partial", "theorems": ["C116_loop_reports_partial", "C116_agrees", "C116_program_reports_partial", "C116_first_frame_refuted", "C116_headers_refuted"], "note": "True of every exception thrown in the loop after the request (C116_loop_reports_partial, C116_program_reports_partial); the lines change nothing else (C116_agrees). Not true before and after the loop: if the server closes within its first frame nothing is printed (C116_first_frame_refuted). A HEADERS frame that cannot be decoded never reaches the catch block: the library prints the message, and what follows is undefined behaviour (C116_headers_refuted)."},
{"property": "C117", "status": "partial", "theorems": ["C117_same_or_undefined", "C117_needs", "C117_needs_exactly", "C117_symmetric_partial", "C117_library_first_partial", "C117_constructor", "C117_main", "C117_order_refuted", "C117_preface_refuted", "C117_destructors_refuted"], "note": "True in main (C117_main); true everywhere if the library's units are initialised first and a destructor sends the preface or connects only where the same object's constructor did (C117_library_first_partial), or if the constructors' calls go well and the destructors repeat only such calls (C117_symmetric_partial). At any moment a call gives the same as in main or is undefined, never another value (C117_same_or_undefined); which tables it needs: C117_needs, C117_needs_exactly; a constructor finds those of the units initialised before its own: C117_constructor. Not true in general: an object initialised before the library's tables (C117_order_refuted), a destructor that sends the preface after main did (C117_preface_refuted), and two destructors that do (C117_destructors_refuted)."},
{"property": "C118", "status": "partial", "theorems": ["C118_prefix", "C118_failed", "C118_frames", "C118_format_partial", "C118_format_refuted", "C118_failbit_partial", "C118_failbit_refuted"], "note": "Octets and exception: C118_prefix, C118_failed, C118_frames. The formatting is kept if the frame shows no octets in hexadecimal (C118_format_partial); otherwise an exception can leave the stream in hexadecimal with fill character '0' (C118_format_refuted), as printing without an exception does (C110). With exceptions(failbit) alone the octets are the same, but the exception comes with the insertion after the one that failed (C118_failbit_partial: exactly if the text before the last insertion does not fit), so a frame can be cut without one (C118_failbit_refuted)."},
{"property": "C119", "status": "partial", "theorems": ["C119_send", "C119_enough_memory", "C119_masked_refuted", "C119_reported", "C119_request_partial", "C119_repeat_partial", "C119_twice_refuted", "C119_misread_refuted"], "note": "Sending: C119_send (nothing has happened, unless the TLS layer failed after a proper part of the data), C119_enough_memory. Requests: C119_reported, C119_request_partial (either nothing has happened, or the whole frame was sent and the table is cut short); requests that insert nothing can be repeated any number of times (C119_repeat_partial). Refuted otherwise: std::bad_alloc hides that a part was sent (C119_masked_refuted); repeating a request that inserts a field sends it twice (C119_twice_refuted); after a block reported in part the server reads another field than was sent (C119_misread_refuted)."},
{"property": "C120", "status": "partial", "theorems": ["C120_sizes_partial", "C120_room_exact", "C120_huffman_refuted", "C120_guess_refuted"], "note": "C120_sizes_partial: true of values that take the same room (their length without Huffman coding, the sum of the code lengths in whole octets with it) and are in no table, for whole sequences of requests whatever becomes of them; C120_room_exact: a header in no table tells the room of its value and nothing else. False otherwise: with Huffman coding values of the same length are told apart (C120_huffman_refuted, every client and name); and a never-indexed header that is in the table is written as an index, so that a guess submitted with incremental indexing before it is confirmed or refuted by the number of octets (C120_guess_refuted, an equivalence for every client, name, value and guess)."},
{"property": "C121", "status": "partial", "theorems": ["C121_shortest_partial", "C121_not_longer", "C121_empty_refuted", "C121_name_refuted"], "note": "C121_shortest_partial: true of headers that are in a table, of headers whose name has an entry with an empty value in the static table, and of headers whose name is in no table; C121_not_longer: of every header, never longer than name and value in full. False of the others: a header of the static table with an empty value takes two octets or more instead of one (C121_empty_refuted), and a name that is known with other values only (:method, :path, :status, accept-encoding, every name of the connection's table) is written in full (C121_name_refuted, every such header whose name has three octets or more)."},
{"property": "C122", "status": "partial", "theorems": ["C122_anew_partial", "C122_together_partial", "C122_kept_refuted"], "note": "C122_together_partial: true for every pair of tables when the request is made of entries without the deviations of C12, C21 and C52 (INDEXED for static fields only, no insertion of a static field, not the misspelt name). C122_anew_partial: the size updates in the block are enough when the client's table has none of the fields. False otherwise: without emptying the client's table first, a request with a field the table has is never read as submitted, whatever table the server has, because the field is looked up in the table before the block's own size updates (C122_kept_refuted)."},
{"property": "C123", "status": "partial", "theorems": ["C123_update_idle", "C123_any_table_partial", "C123_misspelt_refuted"], "note": "C123_any_table_partial: true of every sequence of requests when INDEXED is asked for static fields only (otherwise C21) and no field has the name the static table misspells; C123_update_idle: update_request_dynamic_table changes nothing after such a request. False of that one name: no representation, table or limit makes the server read it as submitted (C123_misspelt_refuted)."},
{"property": "C124", "status": "partial", "theorems": ["C124_understood_partial", "C124_index_20_refuted"], "note": "C124_understood_partial: true of every such sequence, with any SETTINGS in between, outside the deviations of C26 (static entry 20, integers that are not as short as possible or not below 2^31, under the strict reading empty strings), padded DATA frames (C44) and SETTINGS that name a parameter twice (C39). False of static entry 20, for every client (C124_index_20_refuted)."},
{"property": "C125", "status": "partial", "theorems": ["C125_emptied_partial", "C125_filled_partial", "C125_size_refuted"], "note": "C125_emptied_partial: size updates to zero and then to any size bring any two tables together; C125_filled_partial: without size updates any two tables of the same size agree as soon as one of the new fields has left the server's. Outside the deviations of C124 and fields larger than the table (C15). False of tables of different sizes, which a server's SETTINGS_HEADER_TABLE_SIZE causes (C51): whatever is inserted they never agree (C125_size_refuted)."},
{"property": "C126", "status": "proved", "theorems": ["C126_ignored", "C126_reserved", "C126_padding"], "note": "C126_ignored (flags and the reserved bit of the header, sequences of frames), C126_reserved (reserved bits in payloads), C126_padding (the octets of the padding, which RFC 7540 says must be zero; the code accepts any). The padding of DATA frames is part of what the caller gets (C32). That a frame that was received is sent on with its reserved bit cleared is C77; frames of unknown types are C50."},
{"property": "C127", "status": "proved", "theorems": ["C127_undisturbed", "C127_anywhere"], "note": "C127_undisturbed (any number of such frames between any others), C127_anywhere (the outcome of such a frame depends on no table). The header frames themselves may be such that their outcome is undefined (C91); it is then so with and without the others."},
{"property": "C128", "status": "proved", "theorems": ["C128_streams_alike"], "note": "C128_streams_alike. That a frame on a stream RFC 7540 forbids for its type is returned all the same is part of it (C88 and C114 state this against RFC 7540)."},
{"property": "C129", "status": "proved", "theorems": ["C129_cut", "C129_sent"], "note": "C129_cut (compares with a client on the whole connection), C129_sent (for every behaviour of OpenSSL). OpenSSL fails only at the end of the data here; failures before it are C82, where octets already read are lost."},
{"property": "C130", "status": "proved", "theorems": ["C130_left_out", "C130_nothing_else"], "note": "C130_left_out (two clients, one that gets all frames and one that gets a selection), C130_nothing_else. C127 says for some frames from their octets alone that they leave no trace; here it is read off what the calls return."},
{"property": "C131", "status": "proved", "theorems": ["C131_received", "C131_sent", "C131_any_order", "C131_exact"], "note": "C131_received, C131_sent, C131_any_order, C131_exact. That the first value of a repeated parameter wins, where RFC 7540 wants the last, is C39."},
{"property": "C132", "status": "proved", "theorems": ["C132_framing"], "note": "C132_framing. Blocks that cannot be decoded are left out: a HEADERS frame then dereferences a null pointer where the other frames throw (C53)."}
]}
