# Print Assumptions

Generated by `tools/assumptions.py`.

| theorem | file | Print Assumptions |
|---|---|---|
| `C01_integral_roundtrip` | `PropUtil.v` | Closed under the global context |
| `C01_integral_big_endian` | `PropUtil.v` | Closed under the global context |
| `C01_bytes_roundtrip` | `PropUtil.v` | Closed under the global context |
| `C01_bytes2integral_bounds` | `PropUtil.v` | Closed under the global context |
| `C02_flags_union` | `PropUtil.v` | Closed under the global context |
| `C02_flag_query` | `PropUtil.v` | Closed under the global context |
| `C02_flags_reported` | `PropUtil.v` | Closed under the global context |
| `C03_integer_roundtrip` | `PropInt.v` | Closed under the global context |
| `C03_integer_above_range` | `PropInt.v` | Closed under the global context |
| `C03_integer_decode_outcome` | `PropInt.v` | Closed under the global context |
| `C04_integer_wire_format` | `PropInt.v` | Closed under the global context |
| `C05_consumed_length_partial` | `PropInt.v` | Closed under the global context |
| `C05_consumed_length_refuted` | `PropInt.v` | Closed under the global context |
| `C06_huffman_roundtrip` | `PropHuffman.v` | Closed under the global context |
| `C07_huffman_encoder_output` | `PropHuffman.v` | Closed under the global context |
| `C08_huffman_decoder_outcome` | `PropHuffman.v` | Closed under the global context |
| `C09_huffman_eos_refuted` | `PropGeneral.v` | Closed under the global context |
| `C09_huffman_errors_rejected_partial` | `PropHuffman.v` | Closed under the global context |
| `C09_huffman_errors_refuted` | `PropHuffman.v` | Closed under the global context |
| `C09_huffman_any_padding_refuted` | `PropHuffman.v` | Closed under the global context |
| `C105_same_reader` | `PropCost.v` | Closed under the global context |
| `C105_quadratic_partial` | `PropCost.v` | Closed under the global context |
| `C105_exact` | `PropCost.v` | Closed under the global context |
| `C105_linear_refuted` | `PropCost.v` | Closed under the global context |
| `C105_largest_frame` | `PropCost.v` | Closed under the global context |
| `C105_huffman_exact` | `PropCost.v` | Closed under the global context |
| `C105_huffman_refuted` | `PropCost.v` | Closed under the global context |
| `C106_same_encoder` | `PropCostSend.v` | Closed under the global context |
| `C106_linear` | `PropCostSend.v` | Closed under the global context |
| `C106_huffman_exact` | `PropCostSend.v` | Closed under the global context |
| `C106_exact` | `PropCostSend.v` | Closed under the global context |
| `C104_windows_partial` | `PropFlow.v` | Closed under the global context |
| `C104_repeated_refuted` | `PropFlow.v` | Closed under the global context |
| `C104_not_enforced_refuted` | `PropFlow.v` | Closed under the global context |
| `C104_given_back` | `PropFlow.v` | Closed under the global context |
| `C101_whole_list_partial` | `PropGather.v` | Closed under the global context |
| `C101_cuts_partial` | `PropGather.v` | Closed under the global context |
| `C101_cut_inside_refuted` | `PropGather.v` | Closed under the global context |
| `C109_sample` | `PropHttp.v` | Closed under the global context |
| `C109_request_kept_partial` | `PropHttp.v` | Closed under the global context |
| `C109_request_refuted` | `PropHttp.v` | Closed under the global context |
| `C109_stale_refuted` | `PropHttp.v` | Closed under the global context |
| `C109_response_partial` | `PropHttp.v` | Closed under the global context |
| `C109_response_refuted` | `PropHttp.v` | Closed under the global context |
| `C10_encode_table_is_rfc` | `PropHuffman.v` | Closed under the global context |
| `C10_decode_table_inverse` | `PropHuffman.v` | Closed under the global context |
| `C10_decode_table_total` | `PropHuffman.v` | Closed under the global context |
| `C10_code_prefix_free` | `PropHuffman.v` | Closed under the global context |
| `C10_code_complete` | `PropHuffman.v` | Closed under the global context |
| `C10_code_values_fit` | `PropHuffman.v` | Closed under the global context |
| `C10_duplicate_row_harmless` | `PropHuffman.v` | Closed under the global context |
| `C107_history_partial` | `PropMemory.v` | Closed under the global context |
| `C107_books_refuted` | `PropMemory.v` | Closed under the global context |
| `C107_settings_refuted` | `PropMemory.v` | Closed under the global context |
| `C107_update_partial` | `PropMemory.v` | Closed under the global context |
| `C107_receive_partial` | `PropMemory.v` | Closed under the global context |
| `C107_headers_refuted` | `PropMemory.v` | Closed under the global context |
| `C107_smuggled_refuted` | `PropMemory.v` | Closed under the global context |
| `C107_enough_memory` | `PropMemory.v` | Closed under the global context |
| `C107_reported_partial` | `PropMemory.v` | Closed under the global context |
| `C107_any_connection_partial` | `PropMemory.v` | Closed under the global context |
| `C107_lost_connection_refuted` | `PropMemory.v` | Closed under the global context |
| `C108_huffman` | `PropMessages.v` | Closed under the global context |
| `C108_receive_partial` | `PropMessages.v` | Closed under the global context |
| `C108_printed` | `PropMessages.v` | Closed under the global context |
| `C108_write` | `PropMessages.v` | Closed under the global context |
| `C108_constructors` | `PropMessages.v` | Closed under the global context |
| `C108_entries` | `PropMessages.v` | Closed under the global context |
| `C108_connect` | `PropMessages.v` | Closed under the global context |
| `C108_connect_step` | `PropMessages.v` | Closed under the global context |
| `C108_printable_partial` | `PropMessages.v` | Closed under the global context |
| `C108_alpn_refuted` | `PropMessages.v` | Closed under the global context |
| `C108_type_refuted` | `PropMessages.v` | Closed under the global context |
| `C108_progress_refuted` | `PropMessages.v` | Closed under the global context |
| `C108_agrees` | `PropMessages.v` | Closed under the global context |
| `C100_in_turn_partial` | `PropParts.v` | Closed under the global context |
| `C100_at_once_partial` | `PropParts.v` | Closed under the global context |
| `C100_at_once_refuted` | `PropParts.v` | Closed under the global context |
| `C100_in_turn_exact_partial` | `PropPartsExact.v` | Closed under the global context |
| `C100_at_once_exact_partial` | `PropPartsExact.v` | Closed under the global context |
| `C100_stale_refuted` | `PropPartsExact.v` | Closed under the global context |
| `C102_relayed_partial` | `PropRelay.v` | Closed under the global context |
| `C102_indexed_partial` | `PropRelay.v` | Closed under the global context |
| `C102_indexed_refuted` | `PropRelay.v` | Closed under the global context |
| `C102_exact_partial` | `PropRelayExact.v` | Closed under the global context |
| `C103_streams_partial` | `PropStreams.v` | Closed under the global context |
| `C103_padding_refuted` | `PropStreams.v` | Closed under the global context |
| `C113_released` | `PropConnectMemory.v` | Closed under the global context |
| `C113_reported` | `PropConnectMemory.v` | Closed under the global context |
| `C113_interrupted` | `PropConnectMemory.v` | Closed under the global context |
| `C113_history` | `PropConnectMemory.v` | Closed under the global context |
| `C113_retry` | `PropConnectMemory.v` | Closed under the global context |
| `C113_places` | `PropConnectMemory.v` | Closed under the global context |
| `C113_preface` | `PropConnectMemory.v` | Closed under the global context |
| `C113_preface_enough` | `PropConnectMemory.v` | Closed under the global context |
| `C119_send` | `PropMemoryRequest.v` | Closed under the global context |
| `C119_enough_memory` | `PropMemoryRequest.v` | Closed under the global context |
| `C119_masked_refuted` | `PropMemoryRequest.v` | Closed under the global context |
| `C119_reported` | `PropMemoryRequest.v` | Closed under the global context |
| `C119_request_partial` | `PropMemoryRequest.v` | Closed under the global context |
| `C119_repeat_partial` | `PropMemoryRequest.v` | Closed under the global context |
| `C119_twice_refuted` | `PropMemoryRequest.v` | Closed under the global context |
| `C119_misread_refuted` | `PropMemoryRequest.v` | Closed under the global context |
| `C114_lawful_partial` | `PropOrder.v` | Closed under the global context |
| `C114_unlawful_refuted` | `PropOrder.v` | Closed under the global context |
| `C114_first_frame_refuted` | `PropOrder.v` | Closed under the global context |
| `C114_header_list_refuted` | `PropOrder.v` | Closed under the global context |
| `C114_after_end_refuted` | `PropOrder.v` | Closed under the global context |
| `C114_unrequested_refuted` | `PropOrder.v` | Closed under the global context |
| `C114_even_refuted` | `PropOrder.v` | Closed under the global context |
| `C114_reuse_refuted` | `PropOrder.v` | Closed under the global context |
| `C114_lower_refuted` | `PropOrder.v` | Closed under the global context |
| `C110_kept_partial` | `PropOstream.v` | Closed under the global context |
| `C110_octets_refuted` | `PropOstream.v` | Closed under the global context |
| `C110_later_refuted` | `PropOstream.v` | Closed under the global context |
| `C110_table` | `PropOstream.v` | Closed under the global context |
| `C111_octets_partial` | `PropOstream.v` | Closed under the global context |
| `C111_settings_partial` | `PropOstream.v` | Closed under the global context |
| `C111_value_refuted` | `PropOstream.v` | Closed under the global context |
| `C111_grouping_refuted` | `PropOstream.v` | Closed under the global context |
| `C111_groups` | `PropOstream.v` | Closed under the global context |
| `C111_width` | `PropOstream.v` | Closed under the global context |
| `C111_width_refuted` | `PropOstream.v` | Closed under the global context |
| `C111_left_refuted` | `PropOstream.v` | Closed under the global context |
| `C111_agrees` | `PropOstream.v` | Closed under the global context |
| `C111_table` | `PropOstream.v` | Closed under the global context |
| `C112_prefix` | `PropOstream.v` | Closed under the global context |
| `C112_failed` | `PropOstream.v` | Closed under the global context |
| `C112_same_outcome` | `PropOstream.v` | Closed under the global context |
| `C116_loop_reports_partial` | `PropReport.v` | Closed under the global context |
| `C116_agrees` | `PropReport.v` | Closed under the global context |
| `C116_program_reports_partial` | `PropReport.v` | Closed under the global context |
| `C116_first_frame_refuted` | `PropReport.v` | Closed under the global context |
| `C116_headers_refuted` | `PropReport.v` | Closed under the global context |
| `C117_same_or_undefined` | `PropStartup.v` | Closed under the global context |
| `C117_needs` | `PropStartup.v` | Closed under the global context |
| `C117_needs_exactly` | `PropStartup.v` | Closed under the global context |
| `C117_symmetric_partial` | `PropStartup.v` | Closed under the global context |
| `C117_library_first_partial` | `PropStartup.v` | Closed under the global context |
| `C117_constructor` | `PropStartup.v` | Closed under the global context |
| `C117_main` | `PropStartup.v` | Closed under the global context |
| `C117_order_refuted` | `PropStartup.v` | Closed under the global context |
| `C117_preface_refuted` | `PropStartup.v` | Closed under the global context |
| `C117_destructors_refuted` | `PropStartup.v` | Closed under the global context |
| `C11_static_tables_inverse` | `PropTable.v` | Closed under the global context |
| `C11_static_indices` | `PropTable.v` | Closed under the global context |
| `C11_static_table_at` | `PropTable.v` | Closed under the global context |
| `C118_prefix` | `PropThrowing.v` | Closed under the global context |
| `C118_failed` | `PropThrowing.v` | Closed under the global context |
| `C118_frames` | `PropThrowing.v` | Closed under the global context |
| `C118_format_partial` | `PropThrowing.v` | Closed under the global context |
| `C118_format_refuted` | `PropThrowing.v` | Closed under the global context |
| `C118_failbit_partial` | `PropThrowing.v` | Closed under the global context |
| `C118_failbit_refuted` | `PropThrowing.v` | Closed under the global context |
| `C115_values_partial` | `PropValues.v` | Closed under the global context |
| `C115_copy_independent_partial` | `PropValues.v` | Closed under the global context |
| `C115_reuse_partial` | `PropValues.v` | Closed under the global context |
| `C115_moved_frame_refuted` | `PropValues.v` | Closed under the global context |
| `C115_moved_text_refuted` | `PropValues.v` | Closed under the global context |
| `C115_moved_table_refuted` | `PropValues.v` | Closed under the global context |
| `C115_moved_entry_refuted` | `PropValues.v` | Closed under the global context |
| `C115_classes` | `PropValues.v` | Closed under the global context |
| `C129_cut` | `PropCut.v` | Closed under the global context |
| `C129_sent` | `PropCut.v` | Closed under the global context |
| `C126_ignored` | `PropIgnored.v` | Closed under the global context |
| `C126_reserved` | `PropIgnored.v` | Closed under the global context |
| `C126_padding` | `PropIgnored.v` | Closed under the global context |
| `C120_sizes_partial` | `PropLength.v` | Closed under the global context |
| `C120_room_exact` | `PropLength.v` | Closed under the global context |
| `C120_huffman_refuted` | `PropLength.v` | Closed under the global context |
| `C120_guess_refuted` | `PropLength.v` | Closed under the global context |
| `C123_update_idle` | `PropNoTables.v` | Closed under the global context |
| `C123_any_table_partial` | `PropNoTables.v` | Closed under the global context |
| `C123_misspelt_refuted` | `PropNoTables.v` | Closed under the global context |
| `C127_undisturbed` | `PropPassive.v` | Closed under the global context |
| `C127_anywhere` | `PropPassive.v` | Closed under the global context |
| `C125_emptied_partial` | `PropRefilled.v` | Closed under the global context |
| `C125_filled_partial` | `PropRefilled.v` | Closed under the global context |
| `C125_size_refuted` | `PropRefilled.v` | Closed under the global context |
| `C128_streams_alike` | `PropRenamed.v` | Closed under the global context |
| `C121_shortest_partial` | `PropShortest.v` | Closed under the global context |
| `C121_not_longer` | `PropShortest.v` | Closed under the global context |
| `C121_empty_refuted` | `PropShortest.v` | Closed under the global context |
| `C121_name_refuted` | `PropShortest.v` | Closed under the global context |
| `C12_static_table_is_rfc_partial` | `PropTable.v` | Closed under the global context |
| `C12_static_table_refuted` | `PropTable.v` | Closed under the global context |
| `C122_anew_partial` | `PropTogether.v` | Closed under the global context |
| `C122_together_partial` | `PropTogether.v` | Closed under the global context |
| `C122_kept_refuted` | `PropTogether.v` | Closed under the global context |
| `C124_understood_partial` | `PropUnindexed.v` | Closed under the global context |
| `C124_index_20_refuted` | `PropUnindexed.v` | Closed under the global context |
| `C131_received` | `PropReordered.v` | Closed under the global context |
| `C131_sent` | `PropReordered.v` | Closed under the global context |
| `C131_any_order` | `PropReordered.v` | Closed under the global context |
| `C131_exact` | `PropReordered.v` | Closed under the global context |
| `C132_framing` | `PropFraming.v` | Closed under the global context |
| `C13_accounting` | `PropTable.v` | Closed under the global context |
| `C13_history_outcome` | `PropTable.v` | Closed under the global context |
| `C130_left_out` | `PropTrace.v` | Closed under the global context |
| `C130_nothing_else` | `PropTrace.v` | Closed under the global context |
| `C14_push_evicts_oldest` | `PropTable.v` | Closed under the global context |
| `C15_oversize_push_refuted` | `PropTable.v` | Closed under the global context |
| `C15_push_is_rfc_partial` | `PropTable.v` | Closed under the global context |
| `C16_size_update` | `PropTable.v` | Closed under the global context |
| `C17_lookup_lifo` | `PropTable.v` | Closed under the global context |
| `C18_header_roundtrip` | `PropHeader.v` | Closed under the global context |
| `C18_encoder_total` | `PropHeader.v` | Closed under the global context |
| `C19_size_update_roundtrip_partial` | `PropHeader.v` | Closed under the global context |
| `C19_size_update_refuted` | `PropHeader.v` | Closed under the global context |
| `C20_indexed_denotes` | `PropHeader.v` | Closed under the global context |
| `C21_indexed_corrupts_refuted` | `PropHeader.v` | Closed under the global context |
| `C21_indexed_in_tables_partial` | `PropHeader.v` | Closed under the global context |
| `C22_representation_kept` | `PropHeader.v` | Closed under the global context |
| `C23_classification` | `PropHeader.v` | Closed under the global context |
| `C23_reported_prefix` | `PropHeader.v` | Closed under the global context |
| `C24_consumed_bounds` | `PropHeader.v` | Closed under the global context |
| `C24_block_terminates` | `PropHeader.v` | Closed under the global context |
| `C24_block_covers` | `PropHeader.v` | Closed under the global context |
| `C25_hostile_bytes_refuted` | `PropHeader.v` | Closed under the global context |
| `C25_ub_kinds_partial` | `PropHeader.v` | Closed under the global context |
| `C25_complete_field_partial` | `PropHeader.v` | Closed under the global context |
| `C26_decoding_agrees_partial` | `PropHeader.v` | Closed under the global context |
| `C26_decoding_refuted` | `PropHeader.v` | Closed under the global context |
| `C27_invalid_index_rejected_partial` | `PropHeader.v` | Closed under the global context |
| `C27_index_zero_refuted` | `PropHeader.v` | Closed under the global context |
| `C28_rfc_example_refuted` | `PropAccept.v` | Closed under the global context |
| `C28_block_decoding_partial` | `PropHeader.v` | Closed under the global context |
| `C28_sequential_refuted` | `PropHeader.v` | Closed under the global context |
| `C28_late_reference_refuted` | `PropMore.v` | Closed under the global context |
| `C29_header_wire_form` | `PropFrame.v` | Closed under the global context |
| `C29_header_roundtrip` | `PropFrame.v` | Closed under the global context |
| `C29_octets_roundtrip` | `PropFrame.v` | Closed under the global context |
| `C30_stream_id_leak_refuted` | `PropFrame.v` | Closed under the global context |
| `C30_out_of_range_fields_partial` | `PropFrame.v` | Closed under the global context |
| `C31_declared_length_partial` | `PropFrame.v` | Closed under the global context |
| `C31_declared_length_refuted` | `PropFrame.v` | Closed under the global context |
| `C31_long_payload_refuted` | `PropMore.v` | Closed under the global context |
| `C32_data_roundtrip` | `PropFrame.v` | Closed under the global context |
| `C33_ping_roundtrip` | `PropFrame.v` | Closed under the global context |
| `C33_ping_too_long` | `PropFrame.v` | Closed under the global context |
| `C34_goaway_roundtrip` | `PropFrame.v` | Closed under the global context |
| `C34_goaway_masks_stream_id` | `PropFrame.v` | Closed under the global context |
| `C34_goaway_short` | `PropFrame.v` | Closed under the global context |
| `C35_rst_stream_roundtrip` | `PropFrame.v` | Closed under the global context |
| `C35_rst_stream_short` | `PropFrame.v` | Closed under the global context |
| `C36_priority_roundtrip` | `PropFrame.v` | Closed under the global context |
| `C36_priority_rejects` | `PropFrame.v` | Closed under the global context |
| `C36_priority_short` | `PropFrame.v` | Closed under the global context |
| `C37_window_update_roundtrip` | `PropFrame.v` | Closed under the global context |
| `C37_window_update_rejects` | `PropFrame.v` | Closed under the global context |
| `C37_window_update_wrong_size` | `PropFrame.v` | Closed under the global context |
| `C38_settings_roundtrip` | `PropFrame.v` | Closed under the global context |
| `C38_make_sf_payload` | `PropFrame.v` | Closed under the global context |
| `C39_received_last_wins_refuted` | `PropFrame.v` | Closed under the global context |
| `C39_make_sf_payload_last_wins_refuted` | `PropFrame.v` | Closed under the global context |
| `C39_received_partial` | `PropFrame.v` | Closed under the global context |
| `C39_make_sf_payload_partial` | `PropFrame.v` | Closed under the global context |
| `C39_first_wins_refuted` | `PropMore.v` | Closed under the global context |
| `C40_settings_safe_refuted` | `PropFrame.v` | Closed under the global context |
| `C40_settings_lengths_partial` | `PropFrame.v` | Closed under the global context |
| `C41_headers_roundtrip` | `PropBlock.v` | Closed under the global context |
| `C41_same_frame` | `PropBlock.v` | Closed under the global context |
| `C42_push_promise_roundtrip` | `PropBlock.v` | Closed under the global context |
| `C43_continuation_roundtrip` | `PropBlock.v` | Closed under the global context |
| `C43_split_refuted` | `PropBlock.v` | Closed under the global context |
| `C43_split_between_fields_partial` | `PropBlock.v` | Closed under the global context |
| `C43_split_own_blocks_partial` | `PropBlock.v` | Closed under the global context |
| `C43_split_points_partial` | `PropGeneral.v` | Closed under the global context |
| `C44_long_padding_refuted` | `PropBlock.v` | Closed under the global context |
| `C44_received_padding_refuted` | `PropBlock.v` | Closed under the global context |
| `C44_received_padding_push_refuted` | `PropBlock.v` | Closed under the global context |
| `C44_received_padding_partial` | `PropBlock.v` | Closed under the global context |
| `C44_received_padding_push_partial` | `PropBlock.v` | Closed under the global context |
| `C44_padding_cases_partial` | `PropBlock.v` | Closed under the global context |
| `C44_long_padding_always_refuted` | `PropMore.v` | Closed under the global context |
| `C44_long_padding_push_always_refuted` | `PropMore.v` | Closed under the global context |
| `C45_byte_order_independent` | `PropFrame.v` | Closed under the global context |
| `C45_push_promise_construction` | `PropFrame.v` | Closed under the global context |
| `C46_dispatch` | `PropFrame.v` | Closed under the global context |
| `C46_unknown_type` | `PropFrame.v` | Closed under the global context |
| `C47_fixed_size_safe` | `PropFrame.v` | Closed under the global context |
| `C48_write_exact` | `PropSsl.v` | Closed under the global context |
| `C48_write_completes_partial` | `PropSsl.v` | Closed under the global context |
| `C48_read_exact` | `PropSsl.v` | Closed under the global context |
| `C48_read_completes_partial` | `PropSsl.v` | Closed under the global context |
| `C48_large_transfer_refuted` | `PropSsl.v` | Closed under the global context |
| `C48_large_read_refuted` | `PropSsl.v` | Closed under the global context |
| `C49_one_frame` | `PropClient.v` | Closed under the global context |
| `C49_chunking_irrelevant` | `PropClient.v` | Closed under the global context |
| `C49_frames_in_order` | `PropClient.v` | Closed under the global context |
| `C49_any_schedule` | `PropClient.v` | Closed under the global context |
| `C49_truncated` | `PropClient.v` | Closed under the global context |
| `C50_rejected_frame` | `PropClient.v` | Closed under the global context |
| `C50_next_frame` | `PropClient.v` | Closed under the global context |
| `C50_unknown_type` | `PropClient.v` | Closed under the global context |
| `C51_response_table_partial` | `PropHistory.v` | Closed under the global context |
| `C51_new_connection_partial` | `PropHistory.v` | Closed under the global context |
| `C51_settings_refuted` | `PropHistory.v` | Closed under the global context |
| `C51_oversized_refuted` | `PropHistory.v` | Closed under the global context |
| `C51_index_20_refuted` | `PropHistory.v` | Closed under the global context |
| `C51_late_reference_refuted` | `PropHistory.v` | Closed under the global context |
| `C51_settings_always_refuted` | `PropMore.v` | Closed under the global context |
| `C51_late_field_refuted` | `PropMore.v` | Closed under the global context |
| `C51_single_partial` | `PropReadOne.v` | Closed under the global context |
| `C51_block_partial` | `PropReadOne.v` | Closed under the global context |
| `C51_history_partial` | `PropReadOne.v` | Closed under the global context |
| `C52_indexed_partial` | `PropRelayExact.v` | Closed under the global context |
| `C52_block_partial` | `PropReqBlock.v` | Closed under the global context |
| `C52_stale_refuted` | `PropReqBlock.v` | Closed under the global context |
| `C52_history_partial` | `PropReqHistory.v` | Closed under the global context |
| `C52_request_table_partial` | `PropRequest.v` | Closed under the global context |
| `C52_requests_complete_partial` | `PropRequest.v` | Closed under the global context |
| `C52_new_connection_partial` | `PropRequest.v` | Closed under the global context |
| `C52_duplicate_refuted` | `PropRequest.v` | Closed under the global context |
| `C52_late_reference_refuted` | `PropRequest.v` | Closed under the global context |
| `C52_oversized_refuted` | `PropRequest.v` | Closed under the global context |
| `C52_misspelt_refuted` | `PropRequest.v` | Closed under the global context |
| `C52_indexed_absent_refuted` | `PropRequest.v` | Closed under the global context |
| `C52_single_partial` | `PropSingle.v` | Closed under the global context |
| `C53_raw_frame_partial` | `PropClient.v` | Closed under the global context |
| `C53_null_dereference_refuted` | `PropClient.v` | Closed under the global context |
| `C54_send_exact` | `PropClient.v` | Closed under the global context |
| `C54_call_order` | `PropClient.v` | Closed under the global context |
| `C54_send_completes` | `PropClient.v` | Closed under the global context |
| `C55_gate_partial` | `PropConnect.v` | Closed under the global context |
| `C55_otherwise_throws` | `PropConnect.v` | Closed under the global context |
| `C55_hostname_refuted` | `PropConnect.v` | Closed under the global context |
| `C56_data_text` | `PropDump.v` | Closed under the global context |
| `C56_dump_safe_partial` | `PropDump.v` | Closed under the global context |
| `C56_unprintable_refuted` | `PropDump.v` | Closed under the global context |
| `C56_goaway_refuted` | `PropDump.v` | Closed under the global context |
| `C56_padding_refuted` | `PropDump.v` | Closed under the global context |
| `C56_empty_data_refuted` | `PropDump.v` | Closed under the global context |
| `C57_unequal` | `PropAccess.v` | Closed under the global context |
| `C57_equality_is_wire_equality_partial` | `PropFrame.v` | Closed under the global context |
| `C57_equal_headers_differ_on_the_wire_refuted` | `PropFrame.v` | Closed under the global context |
| `C57_different_headers_same_wire_refuted` | `PropFrame.v` | Closed under the global context |
| `C57_coding_not_compared_refuted` | `PropGeneral.v` | Closed under the global context |
| `C57_unsent_priority_refuted` | `PropGeneral.v` | Closed under the global context |
| `C57_unsent_padding_refuted` | `PropGeneral.v` | Closed under the global context |
| `C57_block_frames_partial` | `PropMore.v` | Closed under the global context |
| `C57_unsent_representation_refuted` | `PropMore.v` | Closed under the global context |
| `C58_means_header_partial` | `PropRequest.v` | Closed under the global context |
| `C58_misspelt_refuted` | `PropRequest.v` | Closed under the global context |
| `C59_numbers` | `PropDump.v` | Closed under the global context |
| `C59_class_and_header` | `PropDump.v` | Closed under the global context |
| `C59_whole_frame_partial` | `PropDump.v` | Closed under the global context |
| `C59_goaway_partial` | `PropDump.v` | Closed under the global context |
| `C59_goaway_refuted` | `PropDump.v` | Closed under the global context |
| `C59_block_partial` | `PropDump.v` | Closed under the global context |
| `C59_forged_refuted` | `PropDump.v` | Closed under the global context |
| `C59_goaway_tail_refuted` | `PropGeneral.v` | Closed under the global context |
| `C60_independent_partial` | `PropDump.v` | Closed under the global context |
| `C60_after_ping_refuted` | `PropDump.v` | Closed under the global context |
| `C61_table_text` | `PropDump.v` | Closed under the global context |
| `C62_request_meaning` | `PropSample.v` | Closed under the global context |
| `C62_sends_nothing_else` | `PropSample.v` | Closed under the global context |
| `C62_normal_end` | `PropSample.v` | Closed under the global context |
| `C62_completes` | `PropSample.v` | Closed under the global context |
| `C63_stops_at_final_partial` | `PropSample.v` | Closed under the global context |
| `C63_returns_only_at_final_partial` | `PropSample.v` | Closed under the global context |
| `C63_headers_only_response_refuted` | `PropSample.v` | Closed under the global context |
| `C64_encode` | `PropTerm.v` | Closed under the global context |
| `C64_constructors` | `PropTerm.v` | Closed under the global context |
| `C64_build_frame` | `PropTerm.v` | Closed under the global context |
| `C64_table_updates` | `PropTerm.v` | Closed under the global context |
| `C64_receive` | `PropTerm.v` | Closed under the global context |
| `C64_send` | `PropTerm.v` | Closed under the global context |
| `C64_print` | `PropTerm.v` | Closed under the global context |
| `C64_receive_loop` | `PropTerm.v` | Closed under the global context |
| `C64_sample` | `PropTerm.v` | Closed under the global context |
| `C65_one_header` | `PropAccess.v` | Closed under the global context |
| `C65_one_entry_each` | `PropEntry.v` | Closed under the global context |
| `C65_block_means_headers` | `PropEntry.v` | Closed under the global context |
| `C65_size_update_rejected` | `PropEntry.v` | Closed under the global context |
| `C66_prefix_and_entry` | `PropAccess.v` | Closed under the global context |
| `C66_equality` | `PropEntry.v` | Closed under the global context |
| `C66_accessors` | `PropEntry.v` | Closed under the global context |
| `C67_prefix_applied_partial` | `PropEntry.v` | Closed under the global context |
| `C67_not_atomic_refuted` | `PropEntry.v` | Closed under the global context |
| `C68_target` | `PropConnect.v` | Closed under the global context |
| `C68_zero_octet` | `PropConnect.v` | Closed under the global context |
| `C68_target_unambiguous` | `PropConnect.v` | Closed under the global context |
| `C68_order` | `PropConnect.v` | Closed under the global context |
| `C68_connects` | `PropConnect.v` | Closed under the global context |
| `C69_released` | `PropConnect.v` | Closed under the global context |
| `C69_after_constructor` | `PropConnect.v` | Closed under the global context |
| `C70_rst_stream_partial` | `PropName.v` | Closed under the global context |
| `C70_goaway_partial` | `PropName.v` | Closed under the global context |
| `C70_settings_partial` | `PropName.v` | Closed under the global context |
| `C70_internal_error_refuted` | `PropName.v` | Closed under the global context |
| `C70_max_streams_refuted` | `PropName.v` | Closed under the global context |
| `C71_peers_agree_partial` | `PropPeer.v` | Closed under the global context |
| `C71_interrupted_partial` | `PropPeer.v` | Closed under the global context |
| `C71_duplicate_refuted` | `PropPeer.v` | Closed under the global context |
| `C71_exact_partial` | `PropPeerExact.v` | Closed under the global context |
| `C71_duplicate_partial` | `PropPeerExact.v` | Closed under the global context |
| `C71_history_partial` | `PropPeerHistory.v` | Closed under the global context |
| `C71_misread_refuted` | `PropPeerHistory.v` | Closed under the global context |
| `C72_not_in_request_table` | `PropSecret.v` | Closed under the global context |
| `C72_written_literally` | `PropSecret.v` | Closed under the global context |
| `C72_not_in_server_table` | `PropSecret.v` | Closed under the global context |
| `C73_interleaving` | `PropDuplex.v` | Closed under the global context |
| `C74_bounded_partial` | `PropBound.v` | Closed under the global context |
| `C74_limit_refuted` | `PropBound.v` | Closed under the global context |
| `C75_bounded_read_partial` | `PropBound.v` | Closed under the global context |
| `C75_oversized_refuted` | `PropBound.v` | Closed under the global context |
| `C76_plain_partial` | `PropSize.v` | Closed under the global context |
| `C76_huffman_partial` | `PropSize.v` | Closed under the global context |
| `C76_value_longer_refuted` | `PropSize.v` | Closed under the global context |
| `C76_four_times_partial` | `PropSize.v` | Closed under the global context |
| `C76_longer_refuted` | `PropSize.v` | Closed under the global context |
| `C77_forwarded_partial` | `PropForward.v` | Closed under the global context |
| `C77_longer_refuted` | `PropForward.v` | Closed under the global context |
| `C77_settings_refuted` | `PropForward.v` | Closed under the global context |
| `C77_reserved_refuted` | `PropForward.v` | Closed under the global context |
| `C77_settings_reserved_refuted` | `PropGeneral.v` | Closed under the global context |
| `C78_session_partial` | `PropSession.v` | Closed under the global context |
| `C78_interrupted_partial` | `PropSession.v` | Closed under the global context |
| `C78_settings_alone_refuted` | `PropSession.v` | Closed under the global context |
| `C79_block` | `PropAmplify.v` | Closed under the global context |
| `C79_received` | `PropAmplify.v` | Closed under the global context |
| `C79_session` | `PropAmplify.v` | Closed under the global context |
| `C79_reached` | `PropAmplify.v` | Closed under the global context |
| `C80_mode_irrelevant` | `PropWire.v` | Closed under the global context |
| `C80_no_confusion` | `PropWire.v` | Closed under the global context |
| `C81_truncated` | `PropWire.v` | Closed under the global context |
| `C81_own_block` | `PropWire.v` | Closed under the global context |
| `C82_send_again_partial` | `PropRetry.v` | Closed under the global context |
| `C82_send_again_octets` | `PropRetry.v` | Closed under the global context |
| `C82_send_twice_refuted` | `PropRetry.v` | Closed under the global context |
| `C82_receive_again_partial` | `PropRetry.v` | Closed under the global context |
| `C82_receive_loses_refuted` | `PropRetry.v` | Closed under the global context |
| `C82_smuggled_refuted` | `PropRetry.v` | Closed under the global context |
| `C83_receive` | `PropModes.v` | Closed under the global context |
| `C83_print` | `PropModes.v` | Closed under the global context |
| `C83_calls` | `PropModes.v` | Closed under the global context |
| `C83_program` | `PropModes.v` | Closed under the global context |
| `C83_difference` | `PropModes.v` | Closed under the global context |
| `C84_ignored_refuted` | `PropSettings.v` | Closed under the global context |
| `C84_table_size_refuted` | `PropSettings.v` | Closed under the global context |
| `C84_explicit_update_partial` | `PropSettings.v` | Closed under the global context |
| `C84_frame_size_refuted` | `PropSettings.v` | Closed under the global context |
| `C85_received_partial` | `PropAccess.v` | Closed under the global context |
| `C85_block_frames_partial` | `PropAccess.v` | Closed under the global context |
| `C85_promise_partial` | `PropAccess.v` | Closed under the global context |
| `C85_padded_data_refuted` | `PropAccess.v` | Closed under the global context |
| `C85_window_refuted` | `PropAccess.v` | Closed under the global context |
| `C85_constructed` | `PropAccess.v` | Closed under the global context |
| `C85_one_parameter` | `PropAccess.v` | Closed under the global context |
| `C86_same_frames_partial` | `PropAhead.v` | Closed under the global context |
| `C86_built_ahead_partial` | `PropAhead.v` | Closed under the global context |
| `C86_stale_index_refuted` | `PropAhead.v` | Closed under the global context |
| `C86_exact_partial` | `PropReqHistory.v` | Closed under the global context |
| `C86_stale_refuted` | `PropReqHistory.v` | Closed under the global context |
| `C87_accepted_exactly` | `PropAccept.v` | Closed under the global context |
| `C87_accepted_partial` | `PropAccept.v` | Closed under the global context |
| `C87_block_partial` | `PropAccept.v` | Closed under the global context |
| `C87_block_fields_partial` | `PropAccept.v` | Closed under the global context |
| `C87_index_zero_refuted` | `PropAccept.v` | Closed under the global context |
| `C87_misspelt_refuted` | `PropAccept.v` | Closed under the global context |
| `C87_overlong_refuted` | `PropAccept.v` | Closed under the global context |
| `C87_bad_huffman_refuted` | `PropAccept.v` | Closed under the global context |
| `C87_regular_fields` | `PropAccept.v` | Closed under the global context |
| `C87_nameless_refuted` | `PropAccept.v` | Closed under the global context |
| `C88_well_formed_accepted` | `PropValid.v` | Closed under the global context |
| `C88_accepted_partial` | `PropValid.v` | Closed under the global context |
| `C88_size_refuted` | `PropValid.v` | Closed under the global context |
| `C88_data_padding_refuted` | `PropValid.v` | Closed under the global context |
| `C88_settings_twice_refuted` | `PropValid.v` | Closed under the global context |
| `C88_unchecked_refuted` | `PropValid.v` | Closed under the global context |
| `C89_field` | `PropThrow.v` | Closed under the global context |
| `C89_block` | `PropThrow.v` | Closed under the global context |
| `C89_frame` | `PropThrow.v` | Closed under the global context |
| `C89_rejection_kind` | `PropThrow.v` | Closed under the global context |
| `C89_receive` | `PropThrow.v` | Closed under the global context |
| `C89_send` | `PropThrow.v` | Closed under the global context |
| `C89_make_block` | `PropThrow.v` | Closed under the global context |
| `C89_make_other` | `PropThrow.v` | Closed under the global context |
| `C90_once` | `PropThreads.v` | Closed under the global context |
| `C90_initialised_partial` | `PropThreads.v` | Closed under the global context |
| `C90_thread_alone` | `PropThreads.v` | Closed under the global context |
| `C90_progress` | `PropThreads.v` | Closed under the global context |
| `C90_terminates` | `PropThreads.v` | Closed under the global context |
| `C90_used_before_refuted` | `PropThreads.v` | Closed under the global context |
| `C91_session` | `PropDanger.v` | Closed under the global context |
| `C91_first_danger` | `PropDanger.v` | Closed under the global context |
| `C91_field` | `PropDefined.v` | Closed under the global context |
| `C91_block` | `PropDefined.v` | Closed under the global context |
| `C91_frame` | `PropDefined.v` | Closed under the global context |
| `C91_receive` | `PropDefined.v` | Closed under the global context |
| `C91_well_formed` | `PropDefined.v` | Closed under the global context |
| `C92_format_partial` | `PropMade.v` | Closed under the global context |
| `C92_connection_partial` | `PropMade.v` | Closed under the global context |
| `C92_data_format_refuted` | `PropMade.v` | Closed under the global context |
| `C92_forbidden_refuted` | `PropMade.v` | Closed under the global context |
| `C93_received_as_sent_partial` | `PropReceived.v` | Closed under the global context |
| `C93_servers_partial` | `PropReceived.v` | Closed under the global context |
| `C93_received_as_sent_refuted` | `PropReceived.v` | Closed under the global context |
| `C94_coding_as_asked` | `PropCoding.v` | Closed under the global context |
| `C94_codings_apart` | `PropCoding.v` | Closed under the global context |
| `C94_plain_verbatim` | `PropCoding.v` | Closed under the global context |
| `C95_answers_partial` | `PropDuties.v` | Closed under the global context |
| `C95_ping_refuted` | `PropDuties.v` | Closed under the global context |
| `C95_settings_refuted` | `PropDuties.v` | Closed under the global context |
| `C95_large_response_refuted` | `PropDuties.v` | Closed under the global context |
| `C96_alone` | `PropShared.v` | Closed under the global context |
| `C96_sender_and_receiver_partial` | `PropShared.v` | Closed under the global context |
| `C96_octets_kept` | `PropShared.v` | Closed under the global context |
| `C96_whole_frames_partial` | `PropShared.v` | Closed under the global context |
| `C96_two_senders_refuted` | `PropShared.v` | Closed under the global context |
| `C96_two_receivers_refuted` | `PropShared.v` | Closed under the global context |
| `C97_call` | `PropWork.v` | Closed under the global context |
| `C97_session` | `PropWork.v` | Closed under the global context |
| `C97_sample` | `PropWork.v` | Closed under the global context |
| `C97_sent_at_once` | `PropWork.v` | Closed under the global context |
| `C97_received_at_once` | `PropWork.v` | Closed under the global context |
| `C98_header` | `PropText.v` | Closed under the global context |
| `C98_payload` | `PropText.v` | Closed under the global context |
| `C98_octets` | `PropText.v` | Closed under the global context |
| `C98_eight_a_line` | `PropText.v` | Closed under the global context |
| `C98_block_partial` | `PropText.v` | Closed under the global context |
| `C98_line_feed_refuted` | `PropText.v` | Closed under the global context |
| `C98_data` | `PropText.v` | Closed under the global context |
| `C98_title_partial` | `PropText.v` | Closed under the global context |
| `C98_ping_title_refuted` | `PropText.v` | Closed under the global context |
| `C98_debug_partial` | `PropText.v` | Closed under the global context |
| `C99_arithmetic` | `PropRefs.v` | Closed under the global context |
| `C99_push_entry_partial` | `PropRefs.v` | Closed under the global context |
| `C99_push_entry_refuted` | `PropRefs.v` | Closed under the global context |
| `C99_write_partial` | `PropRefs.v` | Closed under the global context |
| `C99_write_refuted` | `PropRefs.v` | Closed under the global context |
