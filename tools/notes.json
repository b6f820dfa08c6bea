{
 "C05": "False of the code for non-minimal representations (C05_consumed_length_refuted); the partial theorem says exactly when the reported length is right.",
 "C09": "False of the code: every string with EOS symbols and every wrong padding of fewer than 8 bits is accepted (refuted theorems); the partial theorem covers the errors that are rejected (8 or more padding bits).",
 "C12": "False of the code for index 20 (the library has accept-control-allow-origin for access-control-allow-origin): C12_static_table_refuted. Proved for the other 60 indices.",
 "C15": "False of the code: pushing an entry larger than the maximum pops from an empty vector (C15_oversize_push_refuted, on every reachable table). The partial theorem shows agreement with the RFC for every other entry.",
 "C18": "Under the strict reading of &v[v.size()] names and values are assumed non-empty; under the lenient reading there is no such restriction. Wire-representable: fewer than 2^31 octets and 2^30 table entries.",
 "C19": "False of the code for sizes of 2^31 + 31 and more (C19_size_update_refuted); proved for all smaller ones.",
 "C21": "False of the code for every header in neither table (C21_indexed_corrupts_refuted); proved for headers in a table.",
 "C25": "False of the code (C25_hostile_bytes_refuted: truncated strings and integers). Proved: fields that are complete and whose integers are minimal and below 2^31 never cause undefined behaviour whatever their content, and only four kinds of undefined behaviour can occur.",
 "C26": "False of the code for non-minimal integers, index 20 and references to an empty name (C26_decoding_refuted). Proved for all other RFC-valid representations with integers below 2^31, any peer's choice of index form, Huffman or plain.",
 "C27": "False of the code for index 0 (C27_index_zero_refuted); proved for every index beyond both tables, minimal or not, within the integer range the decoder supports.",
 "C28": "False of the code (C28_sequential_refuted on one block, C28_late_reference_refuted for every table and every new field): the table is not updated between fields. Proved for all blocks that do not reference a dynamic entry after a table change. The second response of RFC 7541, C.5, is such a block (C28_rfc_example_refuted).",
 "C30": "False of the code: bit 31 of the stream id sets the reserved bit (C30_stream_id_leak_refuted). The partial theorem gives what a receiver reads for every header the C++ types admit; this is the only leak.",
 "C31": "False of the code for every payload of 2^24 octets and more, which is accepted and described modulo 2^24 (C31_declared_length_refuted, C31_long_payload_refuted); proved for all smaller ones, for all ten constructors.",
 "C39": "False of the code on both paths: std::map::insert keeps the first value, for every list (C39_first_wins_refuted). Proved for parameters listed once.",
 "C40": "False of the code: every payload whose length is not a multiple of 6 is undefined behaviour (C40_settings_lengths_partial states exactly this); multiples of 6 parse.",
 "C46": "A HEADERS payload that makes the decoder throw yields a raw frame (see C53); the theorem states this case.",
 "C57": "False of the code for HEADERS in both directions (refuted theorems, each also in a general form: the coding mode is not compared; fields left out by the flags, and the representation asked for a header that is in a table, are). Proved for the seven classes without a header block when members are within wire ranges, and for the three classes with one when both frames are made with the same coding mode and table, padding and priority are given only with their flags, and headers of a table are asked for as INDEXED.",
 "C41": "Headers found in a table come back with the INDEXED prefix (relation received); C41_same_frame gives full equality when headers of a table are asked for as INDEXED. Blocks: literals, INDEXED headers that are in a table, and size updates below 2^31+31 (C19); payload below 2^24 octets.",
 "C42": "As C41.",
 "C43": "The round trip is proved. Fragment independence is false of the code (C43_split_refuted: CONTINUATION is decoded on its own); proved for splits between fields. For the library's own blocks the cut points that work are exactly the ends of entries (C43_split_points_partial).",
 "C44": "False of the code: every padding of 256 or more octets is accepted and misdescribed (refuted theorems), received pad lengths that do not fit are undefined behaviour (for every such payload). The partial theorems show that every other received payload is divided correctly; emission up to 255 octets is C41 and C42.",
 "C48": "Exactness holds for every schedule and failure point (C48_write_exact, C48_read_exact). Completion is false of the code for every transfer of 2^31 octets or more (int conversion, refuted theorems) and proved for every smaller one.",
 "C51": "False of the code: every SETTINGS_HEADER_TABLE_SIZE other than the size in use, oversized fields, static index 20 and references to entries of the same block desynchronise (refuted theorems, for every table state but the index 20 one). Proved for every history without them. C51_single_partial, C51_block_partial and C51_history_partial are equivalences: for every table they say exactly which header blocks, and which histories, with integers in their shortest form below 2^31 and non-empty names, the client follows after every frame.",
 "C53": "build_frame returns the raw frame (partial); receive_frame then dereferences a null pointer for every such frame (C53_null_dereference_refuted).",
 "C55": "Everything but the host name check is proved; the code never checks the host name (C55_hostname_refuted).",
 "C52": "False of the code for five kinds of block, each refuted in general: a field already in the dynamic table submitted with indexing, an index after an insertion in the same block (C52_stale_refuted: wherever the two stand), an oversized field, the misspelt static name, an indexed field no table has. Proved for every history without them. For requests with one entry, C52_single_partial is an equivalence: it says exactly which of them the server reads as submitted with equal tables afterwards. For requests with any number of entries, C52_block_partial is an equivalence too: such a request works exactly when its insertions fit and a server that starts with the client's table, and reads each field at the position it has in the table before the block, follows it to the table the client ends with; only INDEXED entries for fields in no table are left out of it. C52_history_partial extends this to every sequence of requests and every pair of tables to start with. C52_indexed_partial includes INDEXED for fields in no table.",
 "C58": "False of the code for the misspelt static name (C58_misspelt_refuted); proved for all other headers.",
 "C56": "False of the code: GOAWAY debug data without a zero octet, a DATA pad length larger than the payload and (for checked element access) an empty DATA payload are read out of bounds, each refuted in general. Printing is proved safe for exactly the remaining frames.",
 "C59": "Class and header always; the whole frame for seven classes. False for GOAWAY debug data after a zero octet and for header values with a line feed (refuted); proved otherwise.",
 "C60": "False of the code: SETTINGS values are printed in hexadecimal after a PING, raw or padded frame (refuted for every value of ten or more). Proved for all other frames and histories.",
 "C63": "False of the code for a response that ends with END_STREAM on HEADERS (refuted for every such response and all later traffic without a final frame); the rest is proved for every stream and TLS behaviour.",
 "C67": "False of the code: a wrong entry after good ones leaves the good ones applied (refuted for every table and header). Proved: exactly the entries before the first inapplicable one are applied, for every block.",
 "C70": "False of the code for error code 2 (printed INTERNAL_ERRPR) and parameter 3 (printed SETTINGS_MAX_CONCURRENT_STREAM), both refuted; proved for all other codes and parameters.",
 "C71": "False of the code for a header already in a table submitted with incremental indexing (C71_duplicate_refuted, every table with room for it); proved for every sequence of requests without one. C71_exact_partial says what happens for every request that can be sent: it is delivered, also with references after insertions, and gives both tables afterwards; C71_duplicate_partial is the exact condition under which inserting a field of a table again leaves the tables equal. C71_history_partial extends this to any number of requests between two instances whose tables may differ (same limit): the first n arrive as submitted exactly if each is understood, that is every field the sender finds in its own table stands at the same place in the receiver's, with both tables tracked; C71_misread_refuted: after a field has been inserted twice, another one is misread.",
 "C74": "False of the code for the last clause: every size update up to 2^31+30 in a received block is applied although RFC 7541 section 6.3 demands a decoding error (C74_limit_refuted). The rest is proved for every stream, schedule and number of calls that do not run into undefined behaviour.",
 "C75": "False of the code for the last clause: every DATA frame of 2^14+1 to 2^24-1 octets is returned (C75_oversized_refuted). The rest is proved for every stream and schedule.",
 "C76": "False of the code for Huffman mode with values of octets with long codes (C76_longer_refuted and C76_value_longer_refuted, for every such header in neither table). Proved for plain mode, and for Huffman mode when names and values take at most 8 bits per octet on average, which is the exact condition for a value (C76_value_longer_refuted); for all octets Huffman mode stays within four times the header list size.",
 "C77": "False of the code for four families, each refuted for every member: over-long PRIORITY and RST_STREAM lose their extra octets while the length still counts them (C77_longer_refuted), SETTINGS not in strictly increasing order are reordered and merged (C77_settings_refuted), DATA and SETTINGS frames lose the reserved bit (C77_reserved_refuted, C77_settings_reserved_refuted). Proved for every other frame, header blocks included.",
 "C78": "Proved for every sequence of such actions. False of the code for the last sentence: SETTINGS with SETTINGS_HEADER_TABLE_SIZE and without update_request_dynamic_table(max_size) changes only the receiver's response table (C78_settings_alone_refuted, every table and every other size). Header blocks are limited as in C71.",
 "C79": "Proved for every received frame and every table within its limit (C74), and for every session from a new connection with defined behaviour (C79_session); C79_reached shows that the factor cannot be improved.",
 "C80": "Proved for every list the round trip C18 covers.",
 "C81": "Proved for every octet sequence and every cut point.",
 "C82": "The code does not have this property: it keeps no record of a partial transfer. Proved when nothing was transferred before the failure (the _partial theorems). Refuted for every failure point inside the data: the part already sent is sent again (C82_send_twice_refuted), the part already read is lost (C82_receive_loses_refuted), so a frame placed in the payload of a DATA frame is returned as a frame of the server (C82_smuggled_refuted).",
 "C83": "Proved for receive_frame, all call sequences, dump and the sample's main; the two builds are the two readings of &v[v.size()] described in section 1 of DESIGN.md.",
 "C84": "The code does not have this property: a received SETTINGS frame changes nothing about what is sent (C84_ignored_refuted), so requests become unreadable for every table size below some indexed field (C84_table_size_refuted) and DATA of any length is one frame (C84_frame_size_refuted). Proved when the caller puts the size update into the next block (C84_explicit_update_partial).",
 "C85": "False of the code for every padded DATA frame (C85_padded_data_refuted: pad length and padding are returned with the data) and every WINDOW_UPDATE with the reserved bit set (C85_window_refuted: the bit is part of the value returned); repeated settings and late references are C39 and C28. Proved for everything else, and for all constructors. The header returned for DATA and SETTINGS frames has a zero reserved bit.",
 "C86": "False of the code: the indices are fixed when a frame is built, and the frame keeps no record of the table they refer to. For every table and every new field, a frame built ahead that refers to the newest entry is read as the field inserted before it was sent (C86_stale_index_refuted). Proved when no frame refers to a dynamic entry after an earlier frame has changed the table: then the frames are those that would have been built in turn. C86_exact_partial is an equivalence: frames built ahead are read as submitted exactly when the server, reading each field at the position it had in the table when the frames were built, follows the blocks one after the other; C86_stale_refuted says that an entry of the table mentioned anywhere after an insertion is never read as submitted.",
 "C87": "False of the code. C87_accepted_exactly says which octets are accepted and how they are read, in terms of the specification alone (an equivalence). An accepted field is valid unless it has an integer not in shortest form (the next field is then read too early), index zero, index 20 (misspelt name), a name index of an entry with an empty name, or a string that is not a Huffman encoding (EOS symbol or wrong padding): C87_accepted_partial, with a general refutation for each of the five. C87_regular_fields: every field RFC 7541 gives a meaning, with shortest integers, and using neither index 20 nor a nameless entry, is free of them. For blocks: C87_block_partial and C87_block_fields_partial. C28_rfc_example_refuted (under C28) shows that the appendix of RFC 7541 itself (C.5.2) is decoded wrongly.",
 "C88": "Proved: every payload with the format is accepted if its header block decodes (C88_well_formed_accepted), and an accepted payload has the format and is reported faithfully (C88_accepted_partial) unless it is misread. False of the code in the rest, each for all inputs: PING of any size and too long PRIORITY and RST_STREAM frames are accepted (C88_size_refuted), padding of DATA frames is reported as data (C88_data_padding_refuted), the first of two values of a setting is reported (C88_settings_twice_refuted), and none of the restrictions on streams and values is checked (C88_unchecked_refuted).",
 "C89": "Equivalences, all proved. A rejected HEADERS frame never throws: it becomes a raw frame (C53). Inputs on which the code has undefined behaviour do not count as throwing. C89_make_block assumes an exclusive flag below 2 where the PRIORITY flag is set, since the shift is undefined otherwise; exceptions of table updates are in C67.",
 "C90": "Proved for every interleaving: at most one initialisation (C90_once), complete before any call that configures, makes or uses a connection in any thread (C90_initialised_partial), no deadlock (C90_progress), no endless execution (C90_terminates), and the calls of each thread are those of the sequential model (C90_thread_alone), to which C55, C68 and C69 apply. False of the code: the members m_ssl_ctx and m_ssl_bio are constructed before std::call_once, so SSL_CTX_new and BIO_new_ssl_connect run before the initialisation, always (C90_used_before_refuted). OpenSSL 1.1.0 and later initialise themselves. One OpenSSL call is one step, and two threads do not share one connection.",
 "C91": "Equivalences, all proved; together with C89 they say which of the three outcomes every complete frame has. That the list is not empty is the subject of C15, C25, C40, C44 and C53. The consistency of the table holds initially and after every call that does not misbehave (last part of C91_receive). C91_session and C91_first_danger extend this to whole sequences of frames, the table being what the frames before have made of it.",
 "C92": "False for restrictions: of all the restrictions of section 6 only the stream of PING and GOAWAY is enforced (C92_connection_partial); frames on stream 0, self dependency, SETTINGS out of range, an odd promised stream or a zero window increment are all sent, for every caller's content (C92_forbidden_refuted). The format is right for everything that is asked for (C92_format_partial), except that a DATA frame with the PADDED flag goes out even when its payload cannot be a padded one (C92_data_format_refuted). Padding of more than 255 octets is the subject of C44.",
 "C93": "False for servers that pad DATA frames, whose padding is reported as data (C93_received_as_sent_refuted, for every such frame), and for the header blocks and SETTINGS listed under C51 and C39; true for all others (C93_received_as_sent_partial; C93_servers_partial says these are RFC servers). Extends C51, which is about the header fields only, to the whole content of every frame and rules out exceptions.",
 "C94": "C94_coding_as_asked for whole blocks, C94_codings_apart (the specification's two codings exclude each other), C94_plain_verbatim (a value that is in no table is readable in the block). C80 says that the receiver cannot tell the codings apart by the result.",
 "C95": "False: in every run no PING is answered (C95_ping_refuted), only one of several SETTINGS frames is acknowledged (C95_settings_refuted), and the window is never enlarged, so that responses are limited to 65535 octets of DATA (C95_large_response_refuted, also for runs that fail). True for servers that begin with SETTINGS and send neither PING nor further SETTINGS (C95_answers_partial).",
 "C96": "True of one sending and one receiving thread, for every behaviour of OpenSSL (C96_sender_and_receiver_partial; C96_alone: a thread alone does what the sequential model says), and of any number of sending threads if OpenSSL takes every frame at once (C96_whole_frames_partial); otherwise only the octets of each thread stay in order (C96_octets_kept). False of two senders (C96_two_senders_refuted: frames are mixed and both calls return normally) and of two receivers (C96_two_receivers_refuted: data of a DATA frame is taken for a frame). The model makes BIO calls and table accesses atomic, which is the best case: the library takes no lock and OpenSSL does not allow concurrent use of one connection.",
 "C97": "Proved. The calls to OpenSSL are the elements of the schedule used up; a call made after the end of the schedule fails and is not counted, so at most one per call of the client.",
 "C98": "Proved for all numbers, octets and data (C98_header, C98_payload, C98_octets, C98_data). Partial: the title of PING is PING_STREAM (C98_ping_title_refuted); a line feed in a header value forges a line of the block (C98_line_feed_refuted), so C98_block_partial assumes none; debug data is shown up to the first zero octet and its line feeds are not marked (C98_debug_partial). Error codes and settings are C70.",
 "C99": "False of the code: push removes the entry before copying it whenever the entry, the newer ones and the copy do not fit together (C99_push_entry_refuted, every such table), and an assignment that changes the size of an entry breaks the accounting (C99_write_refuted). The partial theorems cover exactly the other cases. C99_arithmetic also shows that the unbounded numbers of DynTable.v are no simplification. The library itself pushes only copies.",
 "C100": "False of the code as in C52, and for frames built at once when a later frame refers to an entry of the table after an earlier one inserted a field (C100_at_once_refuted, every table). Proved for every list without these: C100_in_turn_partial (a later frame may then refer to what an earlier one inserted), C100_at_once_partial. C100_in_turn_exact_partial and C100_at_once_exact_partial are equivalences for every pair of starting tables: the server reads what was submitted, ending with a given table, exactly when it follows the blocks to that table; C100_stale_refuted says that a list built at once is never read as submitted when an entry of the table is mentioned anywhere after an insertion. What a second instance of the library makes of the frames is in C78.",
 "C101": "False of the code: a HEADERS frame that ends inside a field is undefined behaviour, for every such list and cut (C101_cut_inside_refuted). For lists the library reads when they come in one frame, all frames are returned exactly when every cut is between two fields, and then the list is right (C101_cuts_partial). C101_whole_list_partial also allows references to entries that an earlier frame of the list inserted.",
 "C102": "False of the code: a field received as an index is kept as an index, and is read by the second server exactly when the field is in the second connection's tables (C102_indexed_partial, an equivalence). So an entry of the first connection's dynamic table that the second connection does not have is never sent on, nor is an entry of the static table without value (C102_indexed_refuted). Blocks that are plain for the second connection, as in C52, are sent on correctly (C102_relayed_partial). C102_exact_partial does the same for whole blocks: the second server reads what the first one sent exactly if every field received as an index is in the second connection's tables, and the rest is as in C52 (excluded: a field without value, of a static name, received as an index when the second frame is not Huffman-coded).",
 "C103": "False of the code with padded DATA frames: on every stream that has one, the body collected is longer than the body sent, and no call fails (C103_padding_refuted). Proved for all sessions as in C93 (C103_streams_partial).",
 "C104": "False of the code in two ways: a SETTINGS frame that repeats SETTINGS_INITIAL_WINDOW_SIZE gives the user another window than the server, for every stream (C104_repeated_refuted, from C39), and a DATA frame longer than the window is sent, whatever the window is (C104_not_enforced_refuted). Proved for all other sessions, padded DATA included, since its whole payload counts and is what get_payload returns (C104_windows_partial), and for giving back (C104_given_back).",
 "C105": "False of the code: every header decoded copies what is left of the block and moves it again when erased, so a block of n one-octet fields takes exactly n*(n+23) (C105_exact) and no factor bounds the work (C105_linear_refuted); the largest frame makes the client handle 281 million million octets (C105_largest_frame). One Huffman-coded string alone is quadratic too (C105_huffman_exact, C105_huffman_refuted). Proved: at most quadratic for every block, whether reading it succeeds or not (C105_quadratic_partial), about functions that are the model's reader with a counter (C105_same_reader).",
 "C106": "C106_linear, about functions that are the model's encoder with a counter (C106_same_encoder); C106_huffman_exact and C106_exact give exact counts. Unlike reading (C105), nothing here is quadratic.",
 "C107": "False. C107_history_partial: exactly what a table does over any history with failed insertions, namely shrink for good by the size of each entry it could not insert (m_table_size is set before the entry is inserted); C107_books_refuted and C107_settings_refuted: the accounting is then wrong and a size update below the lost room, which a server can send, is undefined behaviour. C107_update_partial: exactly what update_request_dynamic_table does with any block and any failing allocation. C107_receive_partial: what every receive_frame that throws std::bad_alloc has done; C107_reported_partial: a call that throws no std::bad_alloc has done exactly what it does with memory enough, apart from one case; C107_headers_refuted: that case, a HEADERS frame decoded without memory is a null pointer dereference (bad_alloc is caught and a raw frame returned instead); C107_smuggled_refuted: without memory for the payload, the payload is read as frames. C107_enough_memory: with memory enough the functions are those of the rest of the model. C107_any_connection_partial: on any connection, std::bad_alloc takes away at most a prefix of what the server sends; C107_lost_connection_refuted: it can hide that the connection was lost.",
 "C108": "C108_receive_partial: every exception of receive_frame, its type and its exact text, as a function of what was received (a size the type does not allow, a stuck Huffman string, a failed read); the texts of an unknown type and of an index in no table are the standard library's. C108_huffman: a Huffman coded string is refused exactly when whole octets remain that begin no code word, and the text counts them. C108_printed: what is printed for a HEADERS frame. C108_write, C108_constructors, C108_entries: sending, the frames an application makes, and table updates. C108_connect and C108_connect_step: the constructor of the connection reports the first step that failed, and no two steps have the same text. C108_printable_partial: all this is plain text, except C108_alpn_refuted: the protocol name the peer selects is copied into the text as it is. C108_type_refuted and C108_progress_refuted: a text tells neither the frame type nor how much was sent. C108_agrees: but for the texts the functions are those of the rest of the model.",
 "C109": "The library checks none of this. C109_request_refuted: every malformed list is sent and read by the server as it is; C109_response_refuted: every malformed response, of the servers of C93, is returned as it is. True: the request of the sample is well formed (C109_sample), a well-formed list sent without indexing is read as submitted (C109_request_kept_partial; the misspelt static name excluded), and what is returned is well formed exactly if what was sent is (C109_response_partial). With indexing a well-formed request can become malformed on the way: C109_stale_refuted, for every table whose newest entry is a path and every new authority.",
 "C110": "False of the code for every frame that shows octets in hexadecimal (unknown frames, PING, padding): the stream is left with std::hex and the fill character 0 (C110_octets_refuted), so that numbers of ten or more which the caller prints afterwards come out in hexadecimal (C110_later_refuted). True for all other frames (C110_kept_partial) and for tables (C110_table).",
 "C111": "Exact conditions: C111_octets_partial (all frames but SETTINGS: the usual text if and only if every octet shown is shown as two digits: no showbase but for zero, no upper-case letters, no std::left but for zero and octets of two digits, no grouping by single digits), C111_settings_partial and C111_value_refuted (values in decimal), C111_grouping_refuted and C111_groups (locales that group digits: the same digits in the groups of the locale), C111_width and C111_width_refuted (a pending width pads the first line, and nothing else). C111_left_refuted: with std::left a PING is printed as another PING. C111_agrees ties this model to the texts of Dump.v; C111_table: tables always have the same text.",
 "C112": "C112_prefix, C112_failed, C112_same_outcome; for streams with exceptions() set see C118.",
 "C113": "C113_released, C113_reported, C113_interrupted for one attempt; C113_history and C113_retry for any sequence of attempts; C113_places: which allocations an attempt can fail at (static data is allocated once per process); C113_preface, C113_preface_enough for the preface. OpenSSL objects only: the storage of the client's own objects is not counted.",
 "C114": "First half true (C114_lawful_partial); second half false: the library keeps no state of streams and every sequence of frames that are proper by themselves passes (C114_unlawful_refuted). In particular a server that does not begin with SETTINGS (C114_first_frame_refuted), frames in the middle of a header list (C114_header_list_refuted), DATA or HEADERS after the end of a stream or its reset (C114_after_end_refuted), responses nobody asked for (C114_unrequested_refuted), requests on even (C114_even_refuted), used (C114_reuse_refuted) or lower streams (C114_lower_refuted), each with anything before, between and after.",
 "C115": "True of every program that does not look at an object it moved from (C115_values_partial, C115_copy_independent_partial, C115_reuse_partial); only objects of one class can be assigned to each other (C115_classes). An object that was moved from is not valid: a frame announces the payload that is gone, so the receiver takes the next frame for it (C115_moved_frame_refuted) and a DATA frame cannot be printed (C115_moved_text_refuted); a table keeps the size of its lost entries, and lowering its limit or filling it is undefined behaviour (C115_moved_table_refuted); a header entry is sent as a field with an empty name (C115_moved_entry_refuted).",
 "C116": "True of every exception thrown in the loop after the request (C116_loop_reports_partial, C116_program_reports_partial); the lines change nothing else (C116_agrees). Not true before and after the loop: if the server closes within its first frame nothing is printed (C116_first_frame_refuted). A HEADERS frame that cannot be decoded never reaches the catch block: the library prints the message, and what follows is undefined behaviour (C116_headers_refuted).",
 "C117": "True in main (C117_main); true everywhere if the library's units are initialised first and a destructor sends the preface or connects only where the same object's constructor did (C117_library_first_partial), or if the constructors' calls go well and the destructors repeat only such calls (C117_symmetric_partial). At any moment a call gives the same as in main or is undefined, never another value (C117_same_or_undefined); which tables it needs: C117_needs, C117_needs_exactly; a constructor finds those of the units initialised before its own: C117_constructor. Not true in general: an object initialised before the library's tables (C117_order_refuted), a destructor that sends the preface after main did (C117_preface_refuted), and two destructors that do (C117_destructors_refuted).",
 "C118": "Octets and exception: C118_prefix, C118_failed, C118_frames. The formatting is kept if the frame shows no octets in hexadecimal (C118_format_partial); otherwise an exception can leave the stream in hexadecimal with fill character '0' (C118_format_refuted), as printing without an exception does (C110). With exceptions(failbit) alone the octets are the same, but the exception comes with the insertion after the one that failed (C118_failbit_partial: exactly if the text before the last insertion does not fit), so a frame can be cut without one (C118_failbit_refuted).",
 "C119": "Sending: C119_send (nothing has happened, unless the TLS layer failed after a proper part of the data), C119_enough_memory. Requests: C119_reported, C119_request_partial (either nothing has happened, or the whole frame was sent and the table is cut short); requests that insert nothing can be repeated any number of times (C119_repeat_partial). Refuted otherwise: std::bad_alloc hides that a part was sent (C119_masked_refuted); repeating a request that inserts a field sends it twice (C119_twice_refuted); after a block reported in part the server reads another field than was sent (C119_misread_refuted).",
 "C120": "C120_sizes_partial: true of values that take the same room (their length without Huffman coding, the sum of the code lengths in whole octets with it) and are in no table, for whole sequences of requests whatever becomes of them; C120_room_exact: a header in no table tells the room of its value and nothing else. False otherwise: with Huffman coding values of the same length are told apart (C120_huffman_refuted, every client and name); and a never-indexed header that is in the table is written as an index, so that a guess submitted with incremental indexing before it is confirmed or refuted by the number of octets (C120_guess_refuted, an equivalence for every client, name, value and guess).",
 "C121": "C121_shortest_partial: true of headers that are in a table, of headers whose name has an entry with an empty value in the static table, and of headers whose name is in no table; C121_not_longer: of every header, never longer than name and value in full. False of the others: a header of the static table with an empty value takes two octets or more instead of one (C121_empty_refuted), and a name that is known with other values only (:method, :path, :status, accept-encoding, every name of the connection's table) is written in full (C121_name_refuted, every such header whose name has three octets or more).",
 "C122": "C122_together_partial: true for every pair of tables when the request is made of entries without the deviations of C12, C21 and C52 (INDEXED for static fields only, no insertion of a static field, not the misspelt name). C122_anew_partial: the size updates in the block are enough when the client's table has none of the fields. False otherwise: without emptying the client's table first, a request with a field the table has is never read as submitted, whatever table the server has, because the field is looked up in the table before the block's own size updates (C122_kept_refuted).",
 "C123": "C123_any_table_partial: true of every sequence of requests when INDEXED is asked for static fields only (otherwise C21) and no field has the name the static table misspells; C123_update_idle: update_request_dynamic_table changes nothing after such a request. False of that one name: no representation, table or limit makes the server read it as submitted (C123_misspelt_refuted).",
 "C124": "C124_understood_partial: true of every such sequence, with any SETTINGS in between, outside the deviations of C26 (static entry 20, integers that are not as short as possible or not below 2^31, under the strict reading empty strings), padded DATA frames (C44) and SETTINGS that name a parameter twice (C39). False of static entry 20, for every client (C124_index_20_refuted).",
 "C125": "C125_emptied_partial: size updates to zero and then to any size bring any two tables together; C125_filled_partial: without size updates any two tables of the same size agree as soon as one of the new fields has left the server's. Outside the deviations of C124 and fields larger than the table (C15). False of tables of different sizes, which a server's SETTINGS_HEADER_TABLE_SIZE causes (C51): whatever is inserted they never agree (C125_size_refuted).",
 "C126": "C126_ignored (flags and the reserved bit of the header, sequences of frames), C126_reserved (reserved bits in payloads), C126_padding (the octets of the padding, which RFC 7540 says must be zero; the code accepts any). The padding of DATA frames is part of what the caller gets (C32). That a frame that was received is sent on with its reserved bit cleared is C77; frames of unknown types are C50.",
 "C127": "C127_undisturbed (any number of such frames between any others), C127_anywhere (the outcome of such a frame depends on no table). The header frames themselves may be such that their outcome is undefined (C91); it is then so with and without the others.",
 "C128": "C128_streams_alike. That a frame on a stream RFC 7540 forbids for its type is returned all the same is part of it (C88 and C114 state this against RFC 7540).",
 "C129": "C129_cut (compares with a client on the whole connection), C129_sent (for every behaviour of OpenSSL). OpenSSL fails only at the end of the data here; failures before it are C82, where octets already read are lost.",
 "C130": "C130_left_out (two clients, one that gets all frames and one that gets a selection), C130_nothing_else. C127 says for some frames from their octets alone that they leave no trace; here it is read off what the calls return.",
 "C131": "C131_received, C131_sent, C131_any_order, C131_exact. That the first value of a repeated parameter wins, where RFC 7540 wants the last, is C39.",
 "C132": "C132_framing. Blocks that cannot be decoded are left out: a HEADERS frame then dereferences a null pointer where the other frames throw (C53)."
}
