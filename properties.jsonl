{"id": "C01", "title": "Big-endian integer conversion round-trips", "statement": "Converting any 16- or 32-bit unsigned integer to bytes and back returns the same integer; converting any 2 or 4 bytes to an integer and back returns the same bytes; the byte sequence is most-significant-octet first.", "quantifier": "every 16/32-bit value and every byte sequence of that width", "why_tests_cant": "2^32 values times widths; tests sample a handful", "anchors": ["mh2c/util/byte_order.ipp: bytes2integral, integral2bytes"]}
{"id": "C02", "title": "Flag construction and flag queries agree", "statement": "make_frame_header_flags(f1..fn) has exactly the union of the flags' bits; is_flag_set(flags, f) for f != 0 is true iff every bit of f is in flags, and for f == 0 iff flags == 0; so every flag passed to the constructor is reported set and a single-bit flag not passed is reported unset.", "quantifier": "every list of 8-bit flags and every queried flag", "why_tests_cant": "subset-of-bits reasoning over all flag combinations and arities", "anchors": ["mh2c/util/bit_operation.ipp: is_flag_set", "mh2c/frame/frame_header.ipp: make_frame_header_flags"]}
{"id": "C03", "title": "HPACK integer encode/decode round-trip and its exact range", "statement": "For every prefix width N in 1..8 and every value v, whatever bits the caller ORs above the N-bit prefix and whatever bytes follow, decoding the encoding of v gives v when v < 2^31 + 2^N - 1; for every larger v (all of which the encoder accepts) decoding has undefined behaviour.", "quantifier": "all prefix widths 1..8, all 64-bit values, all prefix bits, all trailing bytes", "why_tests_cant": "the boundary comes from signed overflow and shift width; tests use small values", "anchors": ["mh2c/hpack/integer_representation.ipp: encode_integer_value, decode_integer_value"]}
{"id": "C04", "title": "HPACK integer wire format", "statement": "The encoder emits the RFC 7541 5.1 representation: its RFC value is v, it is the shortest representation of v, its first octet stays below 2^N (so prefix bits can be ORed in without loss), all but the last continuation octets carry the continuation bit, every octet is < 256, and for 64-bit values it is at most 11 octets long.", "quantifier": "all prefix widths 1..8, all values", "why_tests_cant": "minimality quantifies over every alternative representation", "anchors": ["mh2c/hpack/integer_representation.ipp: encode_integer_value"]}
{"id": "C05", "title": "Decoded integer length reported to the caller equals the octets read", "statement": "The byte count that header decoding advances by after an HPACK integer equals the number of octets the integer actually occupies.", "quantifier": "all byte sequences holding an RFC 7541 integer representation", "why_tests_cant": "the count is recomputed by re-encoding the value, so agreement depends on every possible representation, including non-minimal ones", "anchors": ["mh2c/hpack/header_decoder.cpp: decode_index, decode_max_size, decode_header_name, decode_header_value"]}
{"id": "C06", "title": "Huffman round-trip", "statement": "For every byte string s, huffman::decode(huffman::encode(s)) returns s (no exception, no undefined behaviour).", "quantifier": "all byte strings of any length", "why_tests_cant": "unbounded strings, all bit alignments", "anchors": ["mh2c/hpack/huffman_encoder.cpp: encode, fill_record", "mh2c/hpack/huffman_decoder.cpp: decode, construct_integer", "mh2c/hpack/huffman_code.cpp"]}
{"id": "C07", "title": "Huffman encoder output is the RFC bit string", "statement": "The bits of huffman::encode(s) are the concatenation of the code words of the bytes of s followed by fewer than 8 one-bits; hence its length in octets is ceil(total code bits / 8).", "quantifier": "all byte strings", "why_tests_cant": "carry-over state across byte boundaries for every alignment", "anchors": ["mh2c/hpack/huffman_encoder.cpp: encode, fill_record"]}
{"id": "C08", "title": "Huffman decoder outcome on arbitrary input", "statement": "On every byte string the decoder terminates and either returns, when the bits split into code words followed by fewer than 8 bits that contain no further code word, exactly the symbols of those code words (EOS truncated to octet 0), or throws std::invalid_argument when they do not split that way; the 'decode failed' branch, with its unchecked element accesses, is never reached.", "quantifier": "all byte strings", "why_tests_cant": "arbitrary attacker-controlled bytes; the branch is unreachable only because the code is complete", "anchors": ["mh2c/hpack/huffman_decoder.cpp: decode, construct_integer"]}
{"id": "C09", "title": "Huffman decoder rejects strings RFC 7541 5.2 calls errors", "statement": "A string containing the EOS symbol, or padded with bits that are not the most significant bits of EOS, is rejected with an exception.", "quantifier": "all byte strings", "why_tests_cant": "must hold for every malformed string", "anchors": ["mh2c/hpack/huffman_decoder.cpp: decode"]}
{"id": "C10", "title": "Huffman tables are consistent", "statement": "The encoding and the decoding table describe the same code; the code covers every octet and EOS, is prefix-free, complete, and is the canonical code of its length assignment (consecutive values within each length, ordered by symbol); the duplicate rows for symbol 31 change nothing.", "quantifier": "all 257 symbols, all pairs of symbols, all bit strings of 30 bits", "why_tests_cant": "prefix-freeness and completeness quantify over all pairs and all bit strings", "anchors": ["mh2c/hpack/huffman_code.cpp: encode_table, decode_table"]}
{"id": "C11", "title": "Static tables are mutually inverse", "statement": "Looking up a header in the reverse static table gives index i iff the static table holds that header at i; indices are exactly 1..61.", "quantifier": "all headers and all indices", "why_tests_cant": "quantifies over all headers, including those not in the table", "anchors": ["mh2c/hpack/static_table_definition.cpp: static_table_entries, reverse_static_table_entries"]}
{"id": "C12", "title": "Static table is RFC 7541 Appendix A", "statement": "Every index 1..61 denotes the header field RFC 7541 Appendix A assigns to it, so an index emitted by either peer means the same header to both.", "quantifier": "all indices 1..61", "why_tests_cant": "interoperability statement: the library's own round-trip tests cannot see a shared typo", "anchors": ["mh2c/hpack/static_table_definition.cpp: static_table_entries"]}
{"id": "C13", "title": "Dynamic table accounting invariant", "statement": "After any history of pushes and size updates that does not run into undefined behaviour, get_table_size() equals the sum over entries of name length + value length + 32, and never exceeds get_max_table_size().", "quantifier": "every initial size and every finite history of push/update_table_size", "why_tests_cant": "unbounded histories", "anchors": ["mh2c/hpack/dynamic_table.cpp: push, update_table_size, resize_table"]}
{"id": "C14", "title": "Pushing evicts exactly the oldest entries that do not fit", "statement": "Pushing an entry no larger than the maximum table size puts it at position 0, keeps the longest run of previously newest entries that still fits, in order, drops all older ones, and leaves the maximum unchanged.", "quantifier": "every reachable table and every entry that fits", "why_tests_cant": "the set of evicted entries depends on all sizes in the table", "anchors": ["mh2c/hpack/dynamic_table.cpp: push, resize_table"]}
{"id": "C15", "title": "Pushing an entry larger than the table empties it", "statement": "Pushing an entry larger than the maximum table size is not an error: it leaves the table empty (RFC 7541 4.4).", "quantifier": "every reachable table and every oversized entry", "why_tests_cant": "must hold for every size combination, including maximum 0", "anchors": ["mh2c/hpack/dynamic_table.cpp: push, resize_table"]}
{"id": "C16", "title": "Table size update semantics", "statement": "update_table_size(n) never fails on a reachable table; it keeps the longest run of newest entries whose total size is at most n, reports n as the new maximum, and applying it again is a no-op.", "quantifier": "every reachable table and every n", "why_tests_cant": "unbounded tables and sizes", "anchors": ["mh2c/hpack/dynamic_table.cpp: update_table_size, resize_table"]}
{"id": "C17", "title": "Dynamic table lookup is last-in-first-indexed", "statement": "at(i) returns the (i+1)-th most recently pushed entry as long as it has not been evicted, and throws std::out_of_range otherwise; entries are always a prefix of the reversed push history.", "quantifier": "every history and every index", "why_tests_cant": "unbounded histories", "anchors": ["mh2c/hpack/dynamic_table.cpp: at, push"]}
{"id": "C18", "title": "Header encode/decode round-trip", "statement": "Encoding any header with a literal representation (incremental, without indexing, never indexed), in plain or Huffman mode, against any dynamic table, followed by arbitrary bytes, and decoding with an equal table yields the same name and value, consumes exactly the bytes the encoder produced, and reports the requested representation, or 'indexed' when the header was in a table.", "quantifier": "all names, values, modes, literal representations, tables of wire-representable size, and trailing bytes", "why_tests_cant": "unbounded strings and tables; alignment with following bytes", "anchors": ["mh2c/hpack/header_encoder.cpp: encode_header", "mh2c/hpack/header_decoder.cpp: decode_header"]}
{"id": "C19", "title": "Dynamic table size update round-trip", "statement": "Encoding a size-update entry and decoding it yields the same size and consumes exactly the bytes produced.", "quantifier": "all sizes a caller can pass (size_t)", "why_tests_cant": "the whole 64-bit range", "anchors": ["mh2c/hpack/header_encoder.cpp: encode_max_size", "mh2c/hpack/header_decoder.cpp: decode_max_size"]}
{"id": "C20", "title": "Indexed representations denote the header asked for", "statement": "Whenever encode_header emits an indexed field (first octet >= 0x80) for an entry with a literal representation, that index resolves, through static table then dynamic table, to exactly the requested name and value, and it is emitted iff the header (with the static match restricted to non-empty values) is in one of the tables.", "quantifier": "all headers, modes and dynamic tables", "why_tests_cant": "all table contents", "anchors": ["mh2c/hpack/header_encoder.cpp: encode_header, encode_index"]}
{"id": "C21", "title": "Requesting the 'indexed' representation never corrupts a header", "statement": "Encoding a header with prefix INDEXED either yields bytes that decode back to that header or fails; it never yields bytes that mean a different header.", "quantifier": "all headers and tables", "why_tests_cant": "tests only use INDEXED with headers that are in the static table", "anchors": ["mh2c/hpack/header_encoder.cpp: encode_header", "mh2c/hpack/header_type.cpp: make_header_block"]}
{"id": "C22", "title": "Never-indexed headers stay never-indexed on the wire", "statement": "A header submitted as NEVER_INDEXED that is in neither table is emitted with the 0001 bit pattern (and likewise 01 for incremental, 0000 for without-indexing), in both encoding modes and whatever the name index.", "quantifier": "all headers, modes and tables", "why_tests_cant": "privacy property: must hold for every header", "anchors": ["mh2c/hpack/header_encoder.cpp: encode_header, encode_index"]}
{"id": "C23", "title": "First-octet classification", "statement": "The representation reported for a header field is determined by the leading bits of its first octet exactly as in RFC 7541 section 6: 1 indexed, 01 incremental, 001 size update, 0001 never indexed, 0000 without indexing; classification never throws.", "quantifier": "all 256 octets", "why_tests_cant": "total over the octet range", "anchors": ["mh2c/hpack/header_decoder.cpp: check_prefix"]}
{"id": "C24", "title": "Header block decoding terminates and stays within the block", "statement": "Every successfully decoded header field consumes at least one octet and no more than were available, so decoding a header block always terminates.", "quantifier": "all byte sequences, all tables", "why_tests_cant": "termination and bounds over arbitrary input", "anchors": ["mh2c/hpack/header_decoder.cpp: decode_header", "mh2c/frame/headers_frame.cpp: decode_payload", "mh2c/frame/continuation_frame.cpp: decode_payload", "mh2c/frame/push_promise_frame.cpp: decode_payload"]}
{"id": "C25", "title": "Header decoding of hostile bytes has no undefined behaviour", "statement": "decode_header on any byte sequence either returns a header or throws; it never reads out of bounds, overflows or shifts out of range.", "quantifier": "all byte sequences, all tables", "why_tests_cant": "attacker-controlled input", "anchors": ["mh2c/hpack/header_decoder.cpp: decode_header, decode_header_name, decode_header_value", "mh2c/hpack/integer_representation.ipp: decode_integer_value"]}
{"id": "C26", "title": "Header decoding agrees with RFC 7541 on valid input", "statement": "Every header field representation that is valid under RFC 7541 relative to a dynamic table (any index form, literal or Huffman strings, any peer encoder's choices) decodes to the header, representation and length that RFC 7541 assigns to it.", "quantifier": "all RFC-valid representations and all dynamic tables", "why_tests_cant": "inputs come from arbitrary peers, not from the library's encoder", "anchors": ["mh2c/hpack/header_decoder.cpp: decode_header"]}
{"id": "C27", "title": "Invalid header indices are rejected", "statement": "An indexed field with index 0 or with an index beyond both tables is rejected with an exception.", "quantifier": "all indices and tables", "why_tests_cant": "all index values", "anchors": ["mh2c/hpack/header_decoder.cpp: decode_header, make_indexed_header"]}
{"id": "C28", "title": "Header blocks are decoded sequentially", "statement": "Decoding a header block gives the same header list as RFC 7541 sequential decoding, in which each incremental literal and size update takes effect before the next field is read.", "quantifier": "all valid header blocks and tables", "why_tests_cant": "interaction between fields of one block", "anchors": ["mh2c/frame/headers_frame.cpp: decode_payload", "mh2c/http2_client.cpp: update_dynamic_table"]}
{"id": "C29", "title": "Frame header round-trip", "statement": "Serialising a frame header gives 9 octets and parsing them (with anything following) gives back the header, for every header within field widths; conversely parsing any 9 octets and serialising gives those octets back.", "quantifier": "all frame headers with 24-bit length, 1-bit reserved, 31-bit stream id; all 9-octet sequences", "why_tests_cant": "2^72 headers", "anchors": ["mh2c/frame/frame_header.cpp: serialize, build_frame_header"]}
{"id": "C30", "title": "Out-of-range frame header fields do not leak into neighbouring fields", "statement": "A frame header whose length, reserved or stream id exceeds its field width is either rejected or serialised so that the other fields are unaffected.", "quantifier": "all values of the C++ field types", "why_tests_cant": "values beyond the wire width", "anchors": ["mh2c/frame/frame_header.cpp: serialize"]}
{"id": "C31", "title": "Declared frame length equals the serialised payload", "statement": "For every frame built through a public constructor the serialisation is 9 octets of header followed by a payload whose length is what the header declares.", "quantifier": "all frame types, all constructor arguments", "why_tests_cant": "all payload sizes", "anchors": ["mh2c/frame/*_frame.cpp: construct_frame_header, serialize"]}
{"id": "C32", "title": "DATA frame round-trip", "statement": "Serialising a DATA frame and building a frame from the bytes gives an equal frame; payload bytes are preserved verbatim, padding included.", "quantifier": "all flags, 31-bit stream ids, payloads below 2^24", "why_tests_cant": "unbounded payloads", "anchors": ["mh2c/frame/data_frame.cpp", "mh2c/frame/frame_builder.cpp: build_data_frame"]}
{"id": "C33", "title": "PING frame round-trip", "statement": "A PING built from at most 8 octets carries exactly 8 octets (the data zero-padded) and round-trips; more than 8 octets are rejected.", "quantifier": "all flags and opaque data", "why_tests_cant": "all lengths", "anchors": ["mh2c/frame/ping_frame.cpp", "mh2c/frame/frame_builder.cpp: build_ping_frame"]}
{"id": "C34", "title": "GOAWAY frame round-trip", "statement": "A GOAWAY with reserved bit 0/1, a 31-bit last stream id, any error code and any debug data round-trips; a payload below 8 octets is rejected; a last stream id wider than 31 bits is masked.", "quantifier": "all payload values", "why_tests_cant": "all debug data, all error codes", "anchors": ["mh2c/frame/goaway_frame.cpp", "mh2c/frame/frame_builder.cpp: build_goaway_frame"]}
{"id": "C35", "title": "RST_STREAM frame round-trip", "statement": "RST_STREAM round-trips for every 32-bit error code including unknown ones; payloads shorter than 4 octets are rejected.", "quantifier": "all error codes, stream ids, payload lengths", "why_tests_cant": "2^32 codes", "anchors": ["mh2c/frame/rst_stream_frame.cpp", "mh2c/frame/frame_builder.cpp: build_rst_stream_frame"]}
{"id": "C36", "title": "PRIORITY frame round-trip and validation", "statement": "PRIORITY round-trips for exclusive 0/1, 31-bit dependency, any weight; construction with a larger exclusive or dependency is rejected, as are payloads under 5 octets.", "quantifier": "all payload values and lengths", "why_tests_cant": "all values", "anchors": ["mh2c/frame/priority_frame.cpp", "mh2c/frame/frame_builder.cpp: build_priority_frame"]}
{"id": "C37", "title": "WINDOW_UPDATE frame round-trip and validation", "statement": "WINDOW_UPDATE round-trips for increments below 2^31 and reserved 0/1; larger increments and payloads not exactly 4 octets are rejected.", "quantifier": "all increments, reserved values, payload lengths", "why_tests_cant": "2^32 values", "anchors": ["mh2c/frame/window_update_frame.cpp", "mh2c/frame/frame_builder.cpp: build_window_update_frame"]}
{"id": "C38", "title": "SETTINGS frame round-trip", "statement": "Serialising a SETTINGS frame built from any parameter map and building a frame from the bytes gives an equal frame; parameters are emitted once each in increasing id order, 6 octets each.", "quantifier": "all parameter maps", "why_tests_cant": "all subsets of 2^16 ids with 32-bit values", "anchors": ["mh2c/frame/settings_frame.cpp", "mh2c/frame/frame_builder.cpp: build_settings_frame"]}
{"id": "C39", "title": "Later SETTINGS values win", "statement": "When a SETTINGS payload (received, or passed to make_sf_payload) lists the same parameter twice, the value seen by the user is the last one (RFC 7540 6.5.3: values are processed in order).", "quantifier": "all payloads / parameter lists", "why_tests_cant": "all repetition patterns", "anchors": ["mh2c/frame/frame_builder.cpp: build_settings_frame", "mh2c/frame/settings_frame.cpp: make_sf_payload"]}
{"id": "C40", "title": "SETTINGS payloads of any length are handled safely", "statement": "A SETTINGS payload whose length is a multiple of 6 is parsed; any other length is rejected without undefined behaviour.", "quantifier": "all payload byte sequences", "why_tests_cant": "attacker-controlled lengths", "anchors": ["mh2c/frame/frame_builder.cpp: build_settings_frame"]}
{"id": "C41", "title": "HEADERS frame round-trip", "statement": "A HEADERS frame with any combination of PADDED and PRIORITY flags, any padding up to 255 octets, exclusive 0/1, 31-bit dependency, any weight and any block of literal or size-update entries round-trips: building a frame from its serialisation with the same dynamic table gives the same header, padding, priority option and header list.", "quantifier": "all flags, paddings, priorities, header blocks, modes, tables", "why_tests_cant": "unbounded blocks and strings", "anchors": ["mh2c/frame/headers_frame.cpp: construct_encoded_payload, decode_payload", "mh2c/frame/frame_builder.cpp: build_headers_frame"]}
{"id": "C42", "title": "PUSH_PROMISE frame round-trip", "statement": "A PUSH_PROMISE frame with or without padding (up to 255 octets), reserved 0/1, 31-bit promised stream id and any block of literal or size-update entries round-trips through serialisation and building.", "quantifier": "all flags, paddings, ids, header blocks, modes, tables", "why_tests_cant": "unbounded blocks and strings", "anchors": ["mh2c/frame/push_promise_frame.cpp", "mh2c/frame/frame_builder.cpp: build_push_promise_frame"]}
{"id": "C43", "title": "CONTINUATION frame round-trip and fragment independence", "statement": "A CONTINUATION frame round-trips; and splitting an encoded header block at any octet between a HEADERS and a CONTINUATION frame yields the same overall header list as sending it in one frame.", "quantifier": "all header blocks and all split points", "why_tests_cant": "every split point of every block", "anchors": ["mh2c/frame/continuation_frame.cpp: decode_payload", "mh2c/frame/headers_frame.cpp: decode_payload"]}
{"id": "C44", "title": "Padding is delimited correctly for every length", "statement": "Padding of any length given to HEADERS or PUSH_PROMISE is either rejected or emitted so that a receiver recovers header block and padding exactly; received pad lengths that do not fit the payload are rejected without undefined behaviour.", "quantifier": "all paddings and all received pad-length octets and payload lengths", "why_tests_cant": "boundary at 255/256 and at payload size", "anchors": ["mh2c/frame/headers_frame.cpp: construct_encoded_payload, decode_payload", "mh2c/frame/push_promise_frame.cpp: construct_encoded_payload, decode_payload"]}
{"id": "C45", "title": "Serialisation does not depend on host byte order", "statement": "Every frame serialises to the same octets on little-endian and big-endian hosts.", "quantifier": "all frames, both byte orders", "why_tests_cant": "tests run on one host", "anchors": ["mh2c/util/byte_order.cpp: cvt_host2net", "mh2c/frame/*_frame.cpp: serialize"]}
{"id": "C46", "title": "Frame builder dispatch", "statement": "build_frame yields, for each of the ten known types, a frame of that type's class whose header is the received header (for DATA and SETTINGS: the header reconstructed from flags, stream id and content), and throws std::out_of_range for every other type.", "quantifier": "all frame headers and payloads on which building succeeds", "why_tests_cant": "all 256 types, all payloads", "anchors": ["mh2c/frame/frame_builder.cpp: build_frame, builder_func_map"]}
{"id": "C47", "title": "Undersized fixed-size payloads are rejected, never read past", "statement": "For PRIORITY, RST_STREAM, GOAWAY, WINDOW_UPDATE, PING and DATA frames, building from any payload never has undefined behaviour: it returns a frame or throws std::invalid_argument, and throws exactly when the payload is too short (for WINDOW_UPDATE: not 4 octets).", "quantifier": "all payloads of those types", "why_tests_cant": "attacker-controlled lengths", "anchors": ["mh2c/frame/priority_frame.cpp: construct_payload", "mh2c/frame/rst_stream_frame.cpp: construct_error_code", "mh2c/frame/goaway_frame.cpp: construct_payload", "mh2c/frame/window_update_frame.cpp: construct_reserved, construct_window_size"]}
{"id": "C48", "title": "TLS read/write loops deliver exact byte sequences under every chunking", "statement": "Whatever positive chunk sizes the TLS layer reports, write hands over all bytes, in order, exactly once, and read returns exactly the next requested bytes of the stream; if the TLS layer reports failure, write has handed over a prefix and an exception is thrown.", "quantifier": "all data, all chunk schedules, all failure points", "why_tests_cant": "all schedules and failure points", "anchors": ["mh2c/ssl/ssl_connection.cpp: write, read"]}
{"id": "C49", "title": "Frame reception keeps frame boundaries", "statement": "From any stream that is a concatenation of wire frames, successive receive_frame calls consume exactly one wire frame each, for every TLS chunking, and n calls return the n frames in order, each built from its own header and payload.", "quantifier": "all sequences of wire frames, all chunk schedules", "why_tests_cant": "unbounded histories and schedules", "anchors": ["mh2c/http2_client.cpp: impl::receive_frame"]}
{"id": "C50", "title": "A rejected frame leaves the connection usable", "statement": "When receive_frame throws because a complete frame was unknown or malformed, the stream is positioned at the next frame and both dynamic tables are unchanged, so the caller can keep receiving.", "quantifier": "all frames on which building throws, all table states", "why_tests_cant": "all malformed frames, all states", "anchors": ["mh2c/http2_client.cpp: impl::receive_frame"]}
{"id": "C51", "title": "Response decoding state follows the server's encoder", "statement": "Over any history of frames sent by an RFC 7541 server encoder, the client's response dynamic table equals the server's encoder table after every frame.", "quantifier": "all histories of server frames", "why_tests_cant": "unbounded histories; state synchronisation", "anchors": ["mh2c/http2_client.cpp: update_dynamic_table, impl::receive_frame"]}
{"id": "C52", "title": "Request encoding state follows the server's decoder", "statement": "Over any history in which the client sends header blocks and then calls update_request_dynamic_table with each block, an RFC 7541 decoder at the server recovers exactly the submitted headers and its dynamic table equals the client's request table after every block.", "quantifier": "all histories of header blocks, all modes", "why_tests_cant": "unbounded histories; state synchronisation with an independent peer", "anchors": ["mh2c/http2_client.cpp: update_request_dynamic_table", "mh2c/hpack/header_encoder.cpp: encode_header", "mh2c/hpack/dynamic_table.cpp: push"]}
{"id": "C53", "title": "A HEADERS frame that fails to decode is delivered, not fatal", "statement": "When the header block of a received HEADERS frame cannot be decoded, build_frame returns a raw frame with the received header and payload, and receive_frame returns that frame to the caller.", "quantifier": "all HEADERS payloads whose decoding throws", "why_tests_cant": "all undecodable blocks", "anchors": ["mh2c/frame/frame_builder.cpp: build_headers_frame", "mh2c/http2_client.cpp: update_dynamic_table"]}
{"id": "C54", "title": "Sending writes exactly the serialised frame", "statement": "send_frame, send_raw_data and send_connection_preface put exactly the frame's serialisation, the given bytes, or the 24-octet RFC 7540 preface on the TLS stream, in call order, and never modify the dynamic tables or consume input.", "quantifier": "all call sequences, frames and chunk schedules", "why_tests_cant": "unbounded call sequences and schedules", "anchors": ["mh2c/http2_client.cpp: send_raw_data, send_connection_preface", "mh2c/http2_client.ipp: send_frame"]}
{"id": "C55", "title": "Connection is only established when verified and h2", "statement": "If the client constructor returns, TCP connect and TLS handshake succeeded, ALPN selected exactly 'h2', and, when certificate verification was requested, the presented certificate was verified for the requested host.", "quantifier": "all outcomes of the TLS library calls and both verification modes", "why_tests_cant": "all combinations of library outcomes", "anchors": ["mh2c/ssl/ssl_connection.cpp: ssl_connection"]}
{"id": "C56", "title": "Printing a received frame is safe", "statement": "Dumping any frame that was successfully built prints only that frame's own data and has no undefined behaviour.", "quantifier": "all successfully built frames", "why_tests_cant": "attacker-controlled content", "anchors": ["mh2c/frame/goaway_frame.cpp: dump", "mh2c/frame/data_frame.cpp: dump"]}
{"id": "C57", "title": "Frame equality coincides with wire equality", "statement": "Two frames of the same class compare equal iff their serialisations are equal.", "quantifier": "all pairs of frames of the same class", "why_tests_cant": "all pairs", "anchors": ["mh2c/frame/*_frame.cpp: operator=="]}
{"id": "C58", "title": "An encoded header means the submitted header to any RFC 7541 decoder", "statement": "For every header, representation, Huffman mode and dynamic table, the octets produced by encode_header are read by an RFC 7541 decoder holding the same table as exactly that header (and no other), and the decoder's table changes only by insertion of the header when it was submitted with incremental indexing and was in neither table.", "quantifier": "all headers, representations, modes, tables and decoder limits", "why_tests_cant": "interoperability with an independent decoder for every header and table", "anchors": ["mh2c/hpack/header_encoder.cpp: encode_header", "mh2c/hpack/static_table_definition.h"]}
{"id": "C59", "title": "A printed frame can be read back from its text", "statement": "Two frames that print the same text (operator<< / dump on streams in the same number format) are of the same class and have equal frame headers; for RAW, DATA, PRIORITY, RST_STREAM, SETTINGS, PING and WINDOW_UPDATE frames they are the same frame, and for the others every field of the payload is the same.", "quantifier": "all pairs of frames, all payload contents including line feeds, zero octets and long values", "why_tests_cant": "injectivity over all payloads; a collision needs an unusual payload (a line feed in a header value, a zero octet in debug data) that sample dumps do not contain", "anchors": ["mh2c/frame/*_frame.cpp: dump", "mh2c/frame/frame_header.cpp: operator<<", "mh2c/frame/error_codes.h: error_codes_str_map"]}
{"id": "C60", "title": "The text of a frame does not depend on what was printed before", "statement": "Printing a frame on a stream writes the same text whatever frames were printed on that stream earlier.", "quantifier": "all frames and all sequences of frames printed before on the same stream", "why_tests_cant": "depends on the whole output history of the stream (sticky format flags)", "anchors": ["mh2c/frame/ping_frame.cpp: dump", "mh2c/frame/settings_frame.cpp: dump", "mh2c/frame/raw_frame.cpp: dump"]}
{"id": "C61", "title": "The printed dynamic table shows the wire indices", "statement": "Printing a dynamic table writes one line per entry, and an entry that an index greater than 61 refers to on the wire (RFC 7541 section 2.3.3) is on the line that shows this index.", "quantifier": "all dynamic tables of any size and contents", "why_tests_cant": "for every table length and entry position", "anchors": ["mh2c/hpack/dynamic_table.cpp: operator<<"]}
{"id": "C62", "title": "The sample sends exactly one GET request", "statement": "From a new connection, for every server and every behaviour of the TLS layer, what the sample program has sent when it ends (normally or by an exception) is a prefix of: connection preface, SETTINGS (header table size 8192, no push, window 65535), SETTINGS ACK, one HEADERS frame on stream 1 that an RFC 7541 decoder reads as GET https://nghttp2.org/httpbin/headers, GOAWAY(1, NO_ERROR). If it ends normally everything was sent, the GOAWAY frame unless the server had sent one; it ends normally whenever the server answers with printable frames up to a final one and the TLS layer does not fail.", "quantifier": "all server streams, all chunkings and failures of the TLS layer, both host byte orders", "why_tests_cant": "every server behaviour and every point of failure of the connection", "anchors": ["sample/h2_get/sample_h2_get.cpp: main", "mh2c/http2_client.cpp: send_connection_preface", "mh2c/http2_client.ipp: send_frame"]}
{"id": "C63", "title": "The sample's receive loop stops exactly at the end of the response", "statement": "receive_frames returns after the first DATA frame with END_STREAM or GOAWAY frame, having received and printed exactly the frames up to it, and it does not return before; it also returns when the response ends with END_STREAM on a HEADERS frame.", "quantifier": "all streams of octets, all chunkings and failures of the TLS layer, all states of the client and of std::cout", "why_tests_cant": "every sequence of frames and every cut of the stream", "anchors": ["sample/h2_get/sample_h2_get.cpp: is_more_data, receive_frames"]}
{"id": "C64", "title": "Every call comes to an end", "statement": "Encoding, decoding, building, sending, receiving, printing and the sample's loops end after a number of steps bounded by the length of their data, for every input; no input from the server makes the client loop for ever.", "quantifier": "all octet strings received, all header blocks, tables, frames and TLS behaviours", "why_tests_cant": "absence of an endless loop for every input", "anchors": ["mh2c/hpack/huffman_decoder.cpp: decode", "mh2c/hpack/huffman_encoder.cpp: encode", "mh2c/frame/*_frame.cpp: decode_payload", "mh2c/frame/frame_builder.cpp: build_settings_frame", "mh2c/ssl/ssl_connection.cpp: read, write", "sample/h2_get/sample_h2_get.cpp: receive_frames"]}
{"id": "C65", "title": "make_header_block keeps every header", "statement": "make_header_block turns a list of headers into one entry per header, in order and unchanged, with the requested representation, except that a header with a value listed in the RFC 7541 static table becomes an indexed entry. With 'without indexing' or 'never indexed' requested, encoding the block with any dynamic table gives octets that every RFC 7541 decoder reads as exactly the given headers (none of them named accept-control-allow-origin, see C58) and that leave the table as it was. A header block made with the size-update representation is refused by the encoder.", "quantifier": "all lists of headers of octets, all requested representations, all dynamic tables, both string encodings", "why_tests_cant": "must hold for every header, including near misses of the 61 static entries", "anchors": ["mh2c/hpack/header_type.cpp: make_header_block, correct_prefix", "mh2c/hpack/header_encoder.cpp: encode"]}
{"id": "C66", "title": "Header block entries compare and return what they hold", "statement": "Two header block entries compare equal exactly when their representation and their content (header, or table size) are the same. The header accessor returns the stored header and throws on a size entry, the size accessor the other way round; replacing the header keeps the representation; an entry made from a header alone is never-indexed.", "quantifier": "all entries, headers and sizes", "why_tests_cant": "equality over all pairs of strings and numbers", "anchors": ["mh2c/hpack/header_type.h: header_block_entry", "mh2c/hpack/header_type.cpp: operator=="]}
{"id": "C67", "title": "Updating the request table with a block is all or nothing", "statement": "update_request_dynamic_table with any block either applies the RFC 7541 effect of every entry in order, or throws and leaves the table as it was; it never changes the connection or the response table.", "quantifier": "all header blocks, including entries whose content does not fit their representation, all tables", "why_tests_cant": "every block and every position of a wrong entry in it", "anchors": ["mh2c/http2_client.cpp: update_request_dynamic_table", "mh2c/hpack/dynamic_table.cpp: push, update_table_size"]}
{"id": "C68", "title": "The client connects to the requested host and port and offers only h2", "statement": "When the constructor connects, the target given to the TLS library is the host name, a colon and the port in decimal, so that different hosts or ports are never confused (host names contain no zero octet); the certificate store is loaded and exactly 'h2' is offered before the handshake, which happens once, after a successful connect, and is followed by the ALPN check and, if requested, the verification check. If every library call succeeds and the server selects h2, the constructor succeeds.", "quantifier": "all host names without a zero octet, ports, verification modes and outcomes of the TLS library calls", "why_tests_cant": "all combinations of library outcomes and every host and port", "anchors": ["mh2c/ssl/ssl_connection.cpp: ssl_connection", "mh2c/http2_client.cpp: http2_client"]}
{"id": "C69", "title": "TLS objects are released exactly once", "statement": "Whatever library call fails in the constructor and whatever is read and written afterwards, every TLS context and connection object that was created is released exactly once, none is used before it is created or after it is released, and none is left when the client object is gone.", "quantifier": "all outcomes of the TLS library calls, both verification modes, all sequences of reads and writes after construction", "why_tests_cant": "every failure point of the constructor", "anchors": ["mh2c/ssl/ssl_connection.cpp: ssl_connection, ~ssl_connection", "mh2c/ssl/ssl_connection.h"]}
{"id": "C70", "title": "Error codes and settings are printed under their RFC names", "statement": "The text of RST_STREAM and GOAWAY has a line with the RFC 7540 name of the error code, or UNKNOWN_ERROR and the decimal code if the RFC defines none. On a stream that writes decimal numbers, the text of SETTINGS has one line per parameter, in order, with its RFC 7540 name (or UNKNOWN and the decimal identifier) and its decimal value.", "quantifier": "all error codes, all lists of parameters and values, all frame headers", "why_tests_cant": "all 2^32 codes, 2^16 identifiers and all values", "anchors": ["mh2c/frame/error_codes.h: error_codes_str_map", "mh2c/frame/settings_frame.cpp: dump", "mh2c/frame/rst_stream_frame.cpp: dump", "mh2c/frame/goaway_frame.cpp: dump"]}
{"id": "C71", "title": "Two instances of the library understand each other", "statement": "If one client sends any sequence of HEADERS frames, updating its request table after each, and a second client receives the octets, whatever the chunking on either side, the second returns a HEADERS frame for each of them with the same stream, flags, priority, padding and fields, and afterwards its response table equals the first one's request table. If the first is interrupted by a failing TLS layer, the second has received the frames completely sent.", "quantifier": "all sequences of requests with encodable entries (see C41, C43, C58), all starting tables, all chunkings and failure points", "why_tests_cant": "every history of the shared compression state", "anchors": ["mh2c/http2_client.cpp: receive_frame, update_request_dynamic_table", "mh2c/http2_client.ipp: send_frame", "mh2c/frame/headers_frame.cpp"]}
{"id": "C72", "title": "Headers kept out of indexing stay out of the compression state", "statement": "If a header is never submitted with incremental indexing, then after any sequence of requests, whatever their outcome, it is not in the request table; every later block that submits it without indexing or never indexed carries it as a literal of exactly that kind; and a server with an RFC 7541 decoder does not have it in its table either (for requests that avoid the deviations of C52).", "quantifier": "all sequences of requests, all headers, tables, outcomes of the TLS layer", "why_tests_cant": "a secrecy guarantee over every request history", "anchors": ["mh2c/http2_client.cpp: update_dynamic_table", "mh2c/http2_client.ipp: send_frame", "mh2c/hpack/header_encoder.cpp: encode_header"]}
{"id": "C73", "title": "Sending and receiving do not interfere", "statement": "If the TLS layer does not fail, any interleaving of receiving calls and other calls on one client gives the received frames and response table of the receiving calls alone, and the sent octets, results and request table of the other calls alone.", "quantifier": "all sequences of calls, frame streams, chunkings and starting tables", "why_tests_cant": "every interleaving of calls and every chunking", "anchors": ["mh2c/http2_client.cpp: impl, receive_frame, update_request_dynamic_table", "mh2c/http2_client.ipp: send_frame"]}
{"id": "C74", "title": "A server cannot make the response table exceed its size limit", "statement": "After any number of received frames the entries of the response table, counted as RFC 7541 section 4.1 does, take at most its maximum size, so there are at most maximum/32 entries; the maximum is the initial one or a size asked for by a frame that was returned to the caller, and never exceeds the limit the client allows.", "quantifier": "all octet streams, TLS schedules, starting tables and numbers of calls", "why_tests_cant": "every stream a hostile server can send", "anchors": ["mh2c/http2_client.cpp: receive_frame, update_dynamic_table", "mh2c/hpack/dynamic_table.cpp: push, update_table_size"]}
{"id": "C75", "title": "A server cannot make the client read an unbounded frame", "statement": "One call to receive_frame consumes fewer than 9 + 2^24 octets, for a returned frame exactly the header and the number of octets its length field says, and writes nothing. Frames larger than SETTINGS_MAX_FRAME_SIZE are rejected (RFC 7540 section 4.2).", "quantifier": "all octet streams and TLS schedules", "why_tests_cant": "every stream and chunking", "anchors": ["mh2c/http2_client.cpp: receive_frame", "mh2c/frame/frame_header.cpp: build_frame_header"]}
{"id": "C76", "title": "An encoded block is not longer than its header list is large", "statement": "The octets of an encoded header block are at most the size of the header list as RFC 7540 section 6.5.2 counts it (name, value and 32 per field; 11 for a size update), and asking for Huffman coding never makes a block longer than plain coding.", "quantifier": "all blocks, tables and both modes", "why_tests_cant": "all strings and all table contents", "anchors": ["mh2c/hpack/header_encoder.cpp: encode_header", "mh2c/hpack/huffman_encoder.cpp: huffman_encode", "mh2c/hpack/integer_representation.ipp: encode_integer_value"]}
{"id": "C77", "title": "A received frame that is sent on is unchanged", "statement": "Whatever frame is received on one connection and passed to send_frame of any connection, the octets written are the octets that were received (or a proper prefix of them, with runtime_error, when the connection fails).", "quantifier": "all frames, octets, chunkings of both connections and failure points", "why_tests_cant": "all payloads, all types and every chunking and failure point", "anchors": ["mh2c/frame/frame_builder.cpp: build_frame", "mh2c/frame/rst_stream_frame.cpp", "mh2c/frame/settings_frame.cpp", "mh2c/http2_client.cpp: receive_frame", "mh2c/http2_client.ipp: send_frame"]}
{"id": "C78", "title": "A whole session between two instances of the library", "statement": "If one client sends any sequence of frames without a header block (arguments within their field widths), requests, CONTINUATION and PUSH_PROMISE frames (each followed by update_request_dynamic_table) and table size changes (SETTINGS followed by update_request_table_size, as the sample does), a second client that receives the octets, whatever the chunking on either side, returns the same frames in the same order, and its response table equals the first one's request table. If the sender is interrupted by a failure, it is told, and the second client returns exactly the frames completely sent and then throws. SETTINGS by itself keeps the tables equal.", "quantifier": "all sequences of actions, frames, tables, chunkings and failure points", "why_tests_cant": "unbounded histories times chunkings times failure points on both sides", "anchors": ["mh2c/http2_client.cpp: receive_frame, update_request_dynamic_table", "mh2c/http2_client.ipp: send_frame", "mh2c/frame/frame_builder.cpp: build_frame", "sample/h2_get/sample_h2_get.cpp"]}
{"id": "C79", "title": "A few octets cannot become an arbitrarily large header list", "statement": "Whatever a server sends, the header list of a received frame, counted as RFC 7540 section 6.5.2 does (name, value and 32 per field), is at most max(60, maximum size of the response table) times the octets of the frame's payload, and it has at most one field per octet. The bound is reached.", "quantifier": "all streams, tables and chunkings", "why_tests_cant": "all octet sequences and all table contents", "anchors": ["mh2c/hpack/header_decoder.cpp: decode_header", "mh2c/hpack/huffman_decoder.cpp: decode", "mh2c/hpack/dynamic_table.cpp", "mh2c/http2_client.cpp: receive_frame"]}
{"id": "C80", "title": "Huffman coding changes only the octets; no two header lists share an encoding", "statement": "Encoding the same header list with and without Huffman coding gives blocks that decode to the same list against the same table. Two header lists whose encodings are the same octets, whatever the coding of each, have the same fields in the same order; if none of the fields is in a table they are the same list with the same representations.", "quantifier": "all sendable header lists, tables and both codings", "why_tests_cant": "all pairs of header lists", "anchors": ["mh2c/hpack/header_encoder.cpp", "mh2c/hpack/header_decoder.cpp: decode_header"]}
{"id": "C81", "title": "A truncated header block never decodes to other fields", "statement": "If a header block decodes, and a prefix of its octets also decodes, then the fields of the prefix are the first fields of the block and the remaining octets decode to the others. For blocks the library encoded the prefix is exactly the encoding of the first entries.", "quantifier": "all octet sequences, cut points, tables and both modes", "why_tests_cant": "all blocks and all cut points", "anchors": ["mh2c/hpack/header_decoder.cpp: decode_header", "mh2c/hpack/header_encoder.cpp: encode_header"]}
{"id": "C82", "title": "A call that failed on the connection can be repeated", "statement": "When send_frame, send_raw_data or send_connection_preface throws because the connection failed, calling it again puts the data on the wire once. When receive_frame throws for that reason, calling it again returns the frame that was being received.", "quantifier": "all calls, frames and failure points", "why_tests_cant": "all failure points inside a transfer", "anchors": ["mh2c/ssl/ssl_connection.cpp: write, read", "mh2c/http2_client.cpp: receive_frame", "mh2c/http2_client.ipp: send_frame"]}
{"id": "C83", "title": "A build with checked vector accesses behaves like one without, or stops", "statement": "Compiled so that forming the address of an element that does not exist stops the program (for example with the standard library's assertions), every sequence of calls, printing a frame, and the sample program either stop there or do exactly what the unchecked build does. A header block that only the unchecked build decodes contains a literal with an empty name or an empty value.", "quantifier": "all clients, call sequences, frames and octets", "why_tests_cant": "two builds over all histories", "anchors": ["mh2c/hpack/header_decoder.cpp: decode_header_name, decode_header_value", "mh2c/frame/data_frame.cpp: dump", "sample/h2_get/sample_h2_get.cpp"]}
{"id": "C84", "title": "What the client sends respects the settings the server announced", "statement": "Once a SETTINGS frame has been received, the following requests can be read by a server that enforces the announced header table size, and no frame longer than the announced maximum frame size is sent.", "quantifier": "all settings values, header fields, payloads and call sequences", "why_tests_cant": "all settings and all later calls", "anchors": ["mh2c/http2_client.cpp: update_dynamic_table, receive_frame", "mh2c/http2_client.ipp: send_frame", "mh2c/frame/data_frame.cpp"]}
{"id": "C85", "title": "The accessors report what a frame carries", "statement": "For every frame received, get_header() gives the type, flags and stream identifier that were received and get_payload() gives the contents RFC 7540 assigns to the payload: the data without padding, the priority, the error code, the settings with their last values, the ping data, last stream, error code and debug data, the window increment, the header list, the promised stream. For a frame that was built, get_payload() gives the constructor's arguments.", "quantifier": "all well-formed payloads of all frame types, all flags, reserved bits and stream identifiers; all constructor arguments", "why_tests_cant": "all payload octets", "anchors": ["mh2c/frame/data_frame.cpp: get_payload", "mh2c/frame/window_update_frame.cpp: get_payload", "mh2c/frame/settings_frame.cpp: get_payload", "mh2c/frame/goaway_frame.cpp: get_payload", "mh2c/frame/headers_frame.cpp: get_payload", "mh2c/frame/push_promise_frame.cpp: get_payload"]}
{"id": "C86", "title": "Request frames may be built before earlier ones are sent", "statement": "When several HEADERS frames are built with the client's request table and then each is sent and its block reported with update_request_dynamic_table, an RFC 7541 server recovers exactly the submitted headers of every frame.", "quantifier": "all sequences of requests, tables and coding modes", "why_tests_cant": "all orders of building and sending, all tables", "anchors": ["mh2c/http2_client.cpp: get_request_dynamic_table, update_request_dynamic_table", "mh2c/frame/headers_frame.cpp: headers_frame", "mh2c/hpack/header_encoder.cpp: encode"]}
{"id": "C87", "title": "Only valid header fields are accepted", "statement": "When decoding octets as a header field succeeds, RFC 7541 assigns to them exactly the field returned and exactly the number of octets consumed; a header block that is accepted decodes to the list of fields RFC 7541 assigns to it.", "quantifier": "all octet sequences, all dynamic tables", "why_tests_cant": "octet sequences are unbounded, and the claim is about everything the decoder accepts, including hostile input", "anchors": ["mh2c/hpack/header_decoder.cpp: decode_header, decode_header_name, decode_header_value", "mh2c/hpack/integer_representation.ipp: decode_integer_value", "mh2c/hpack/huffman_decoder.cpp: decode", "mh2c/hpack/static_table_definition.cpp"]}
{"id": "C88", "title": "Only valid frames are accepted", "statement": "When a received frame is accepted as a frame of its type, its payload has the format RFC 7540, section 6, gives that type, the accessors report the fields of that format, and the stream and the values are ones RFC 7540 permits; every frame with that format is accepted.", "quantifier": "all frame headers, payloads and dynamic tables", "why_tests_cant": "payloads are unbounded, and the claim is about everything that is accepted, including frames no correct server sends", "anchors": ["mh2c/frame/frame_builder.cpp: build_frame", "mh2c/frame/headers_frame.cpp: decode_payload", "mh2c/frame/push_promise_frame.cpp: decode_payload", "mh2c/frame/priority_frame.cpp: construct_payload", "mh2c/frame/window_update_frame.cpp", "mh2c/frame/goaway_frame.cpp: construct_payload", "mh2c/frame/rst_stream_frame.cpp", "mh2c/frame/ping_frame.cpp", "mh2c/frame/data_frame.cpp"]}
{"id": "C89", "title": "What an exception means", "statement": "The class of an exception tells the caller what happened: receive_frame throws std::runtime_error exactly when the connection failed before a complete frame was read, and std::invalid_argument or std::out_of_range exactly when a complete frame was read and its contents cannot be used, which is then a fixed list of cases; sending throws exactly when the connection took only a part of the octets; making a frame throws exactly when an argument is out of its range or a field entry does not suit its representation.", "quantifier": "all connections and schedules, all received octets, all tables, all frames sent and all arguments of constructors", "why_tests_cant": "the claim is an equivalence: every other input must not throw, and there are infinitely many of those", "anchors": ["mh2c/http2_client.cpp: receive_frame", "mh2c/http2_client.ipp: send_frame", "mh2c/ssl/ssl_connection.cpp: read, write", "mh2c/frame/frame_builder.cpp: build_frame", "mh2c/hpack/header_decoder.cpp: decode_header", "mh2c/hpack/header_encoder.cpp: encode_header", "mh2c/frame/*_frame.cpp: constructors"]}
{"id": "C90", "title": "Connections in several threads", "statement": "Several threads of a process may make and use connections at the same time: in every interleaving OpenSSL is initialised exactly once, by one of them, before any thread uses it; no thread waits for ever; and each thread makes the OpenSSL calls it would make alone.", "quantifier": "any number of threads, any number of connections in each, every interleaving of their calls and every result of OpenSSL", "why_tests_cant": "the number of interleavings is unbounded, and a test sees the few the scheduler happens to choose", "anchors": ["mh2c/ssl/ssl_connection.cpp: load_once, load_ssl_lib, ssl_connection::ssl_connection", "mh2c/ssl/ssl_ctx.cpp", "mh2c/ssl/ssl_bio.cpp"]}
{"id": "C91", "title": "Which received frames are dangerous", "statement": "Whether a call of receive_frame has undefined behaviour depends only on the frame taken from the connection and the response table, and happens exactly in these cases: a HEADERS, SETTINGS or PUSH_PROMISE payload that does not have the format of its type; a header block whose first unusable field has an integer or string that runs past the end, or an integer of more than six octets or 2^31 above its prefix (and, in a build with checked accesses, an empty string at the end of the data or an empty coded string); a HEADERS frame whose block is rejected; or a block with an entry to be added that is larger than the table at that point. Every other complete frame is either rejected by an exception or delivered, and a well formed frame whose block is readable and fits the table is never dangerous.", "quantifier": "all connections and schedules, all received octets, all tables in a consistent state, builds with and without checked accesses", "why_tests_cant": "an equivalence over all octet sequences and tables; a test that does not crash shows nothing about undefined behaviour, and a fuzzer cannot show that no other input is dangerous", "anchors": ["mh2c/http2_client.cpp: receive_frame, update_dynamic_table", "mh2c/frame/frame_builder.cpp: build_frame", "mh2c/frame/headers_frame.cpp: decode_payload", "mh2c/frame/push_promise_frame.cpp: decode_payload", "mh2c/hpack/header_decoder.cpp: decode_header", "mh2c/hpack/integer_representation.ipp: decode_integer_value", "mh2c/hpack/dynamic_table.cpp: push"]}
{"id": "C92", "title": "Only valid frames are sent", "statement": "A frame made by a constructor of the library and sent has the format RFC 7540 gives for its type, with the flags, stream and content the caller asked for, and a frame RFC 7540 forbids cannot be made.", "quantifier": "all constructor calls with arguments in the range of their types, any header blocks, tables and padding, frames below 2^24 octets, both byte orders", "why_tests_cant": "the format must hold for every combination of flags, block and padding, and that nothing forbidden can be sent ranges over all argument values", "anchors": ["mh2c/frame/*_frame.cpp: constructors, serialize", "mh2c/frame/frame_header.cpp: serialize"]}
{"id": "C93", "title": "What a server sends is what the client receives", "statement": "From a server that keeps to RFC 7540 and RFC 7541, successive calls of receive_frame return the frames it sent, in order, each with its type, flags, stream and every field of its content, header fields included, and no call fails.", "quantifier": "all sequences of frames of all ten types, all header blocks of any RFC 7541 encoder and their dynamic tables, all chunkings of the connection", "why_tests_cant": "sessions of any length whose later frames depend on the header table left by all the earlier ones", "anchors": ["mh2c/http2_client.cpp: receive_frame, update_dynamic_table", "mh2c/frame/frame_builder.cpp: build_frame", "mh2c/frame/*_frame.cpp: constructors from received frames"]}
{"id": "C94", "title": "The string coding asked for is the coding used", "statement": "A header list encoded with Huffman coding has every one of its strings Huffman coded, and encoded without it has none: each string is then sent as the caller's own octets after their number. The block is one representation per entry, in order, and the strings in it are the names and values of the entries.", "quantifier": "all header lists whose INDEXED entries are in a table, all tables, both codings", "why_tests_cant": "both codings decode to the same list, so no round trip can tell them apart, for every list and table", "anchors": ["mh2c/hpack/header_encoder.cpp: encode_header, encode_header_name, encode_header_value", "mh2c/frame/headers_frame.cpp: constructor"]}
{"id": "C95", "title": "The sample gives the answers RFC 7540 asks for and can take a response of any length", "statement": "When the sample program ends, every SETTINGS frame it received without ACK has been acknowledged and every PING without ACK has been answered with the same payload; and a server that respects the flow-control window can send it a response of any length.", "quantifier": "all frame sequences of the server, all chunkings of the connection and all ways a run can end", "why_tests_cant": "frames that call for an answer may arrive at any point of a run, and the window counts over all of it", "anchors": ["sample/h2_get/sample_h2_get.cpp: main, receive_frames", "mh2c/http2_client.cpp: receive_frame"]}
{"id": "C96", "title": "Threads may share a client", "statement": "Threads may call functions of one client at the same time: in every interleaving each call returns what it would return, and leaves the state it would leave, if the calls were made one at a time; in particular frames sent by different threads arrive whole, and a thread receives only frames that the server sent.", "quantifier": "all numbers of threads, all calls they make, all interleavings of their calls to OpenSSL and of their accesses to the tables, all behaviours of OpenSSL", "why_tests_cant": "the number of interleavings grows exponentially with the calls, and the wrong ones are rare", "anchors": ["mh2c/http2_client.cpp: send_raw_data, receive_raw_data, receive_frame, update_request_dynamic_table", "mh2c/http2_client.ipp: send_frame", "mh2c/ssl/ssl_connection.cpp: write, read"]}
{"id": "C97", "title": "No call is made to OpenSSL in vain", "statement": "A call of the client makes at most as many calls to OpenSSL as it transfers octets, plus one if it fails on the connection: it does not poll or retry. When OpenSSL takes or gives all that it is asked for, a frame is sent by one call and received by at most two. The same holds of a whole session and of the sample program.", "quantifier": "all sequences of calls, all frames and requests, all data of the server, all chunkings and failures of OpenSSL, both byte orders", "why_tests_cant": "the number of calls depends on the chunking, of which a test tries only a few", "anchors": ["mh2c/ssl/ssl_connection.cpp: write, read", "mh2c/http2_client.cpp: send_raw_data, receive_raw_data, receive_frame", "mh2c/http2_client.ipp: send_frame", "sample/h2_get/sample_h2_get.cpp: main"]}
{"id": "C98", "title": "The text of a frame shows every value behind its name", "statement": "The text printed for a frame (operator<< / dump) begins with a line that names its type; a reader that looks for a name and reads the decimal number behind it finds the length, type, flags, reserved bit and stream identifier of the frame under these names, and the numbers of the payload (pad length, exclusive flag, stream dependency, weight, reserved bit, promised and last stream, window increment) under theirs. The octets of PING, of the padding and of frames that are not interpreted are shown in hexadecimal, eight to a line for PING and frames that are not interpreted, the data of DATA line by line with an indentation, the fields of a header block one per line and in order, the debug data of GOAWAY behind its name.", "quantifier": "all frames that can be printed, all payload contents, both number formats of the stream", "why_tests_cant": "all payloads; a swapped label or a forged line shows only for particular values", "anchors": ["mh2c/frame/*_frame.cpp: dump", "mh2c/frame/frame_header.cpp: operator<<", "mh2c/http2_client.cpp: operator<<"]}
{"id": "C99", "title": "The references and iterators of a dynamic table are safe to use", "statement": "An entry obtained from a dynamic table (at, get_entries, begin) can be pushed to the same table with the effect of pushing a copy of it. Assigning to an entry through begin() keeps get_table_size() equal to the sum of name length + value length + 32 over the entries, so that later updates behave as documented. The size arithmetic never wraps around.", "quantifier": "every table reachable by pushes and size updates with less than 2^63 octets pushed, every entry, every new entry", "why_tests_cant": "every combination of table contents, maximum and entry; the failures are reads of destroyed objects, which a test may not notice", "anchors": ["mh2c/hpack/dynamic_table.cpp: push, resize_table, at, update_table_size", "mh2c/hpack/dynamic_table.h: begin, at"]}
{"id": "C100", "title": "A header list may be sent in several frames", "statement": "A header list is cut between fields into a HEADERS frame and any number of CONTINUATION frames, with END_HEADERS on the last. Whether each frame is built, sent and reported (update_request_dynamic_table) in turn, or all frames are built and sent first and the whole list is reported at the end, a server that follows RFC 7540 and RFC 7541 recovers, for each stream, exactly the submitted list, and its dynamic table equals the client's request table afterwards.", "quantifier": "all sequences of header lists, all ways to cut them, all coding modes per frame, all starting tables, all TLS behaviours", "why_tests_cant": "all cuts, lists and table states; the effect of an insertion in one frame on an index in another shows only in the server's reading", "anchors": ["mh2c/frame/continuation_frame.cpp: continuation_frame", "mh2c/frame/headers_frame.cpp: headers_frame", "mh2c/http2_client.cpp: update_request_dynamic_table"]}
{"id": "C101", "title": "A header list may be received in several frames", "statement": "A server that follows RFC 7540 and RFC 7541 sends a header list in a HEADERS or PUSH_PROMISE frame and any number of CONTINUATION frames, the header block cut at any octets. Then receive_frame returns every one of these frames, the header fields of the returned frames, joined in order, are exactly the list sent, and the client's response table equals the server's encoder table.", "quantifier": "all header lists and encodings, all ways to cut the header block, all starting tables, all chunkings of the octets", "why_tests_cant": "all cuts of all encodings; whether a cut is harmless depends on where the fields of the encoding end", "anchors": ["mh2c/http2_client.cpp: receive_frame", "mh2c/frame/frame_builder.cpp: build_frame, build_headers_frame, build_continuation_frame, build_push_promise_frame", "mh2c/frame/continuation_frame.cpp: continuation_frame"]}
{"id": "C102", "title": "A received header list can be sent on another connection", "statement": "A client receives a frame with a header list and passes the header block that get_payload returns to the constructor of a HEADERS frame, which it sends with send_frame on another connection. Then the server of the other connection reads exactly the header list the first server sent, and the tables of the second connection agree afterwards.", "quantifier": "all received header lists, encodings and kinds of frame that carry them, all pairs of connections and histories of their tables, both string encodings, all chunkings", "why_tests_cant": "the result depends on the tables of two connections with unrelated histories", "anchors": ["mh2c/http2_client.cpp: receive_frame", "mh2c/http2_client.ipp: send_frame", "mh2c/frame/headers_frame.h: get_payload", "mh2c/hpack/header_decoder.cpp: decode_header", "mh2c/hpack/header_encoder.cpp: encode_header"]}
{"id": "C103", "title": "Responses of several streams can be told apart", "statement": "A server sends any number of responses on different streams, each a header list in HEADERS and CONTINUATION frames, a body in DATA frames and possibly trailers, their frames interleaved in any order RFC 7540 allows and mixed with other frames. A user who sorts the frames returned by receive_frame by get_header().stream_id and takes header fields, data and END_STREAM flags from them has, for each stream, exactly the header list, body and trailers sent on it, and knows whether it has ended.", "quantifier": "all numbers of streams and responses, all interleavings, all header encodings with their shared tables, all cuts of a body into DATA frames, all chunkings", "why_tests_cant": "all interleavings of arbitrarily many streams whose header blocks share one table", "anchors": ["mh2c/http2_client.cpp: receive_frame", "mh2c/frame/frame_builder.cpp: build_frame", "mh2c/frame/data_frame.cpp: get_payload", "mh2c/frame/headers_frame.cpp: decode_payload, get_payload", "mh2c/frame/continuation_frame.cpp: decode_payload, get_payload"]}
{"id": "C104", "title": "Flow-control windows can be kept from the frame objects", "statement": "A user who adds up the sizes of the payloads of the data frames sent and received, the increments of the window_update frames sent and received (the low 31 bits of what get_payload returns), and the values of SETTINGS_INITIAL_WINDOW_SIZE has at every moment, for every stream and for the connection, the flow-control windows of RFC 7540 section 6.9 as the server has them, for both directions. Giving back the size of every received data frame by two window_update frames restores the server's windows, with no increment of zero. The library sends no DATA frame longer than the window.", "quantifier": "all interleavings of sending and receiving, all frames the constructors make, all frames of the server, all streams, all chunkings", "why_tests_cant": "unbounded histories in both directions, and the windows of the other side", "anchors": ["mh2c/frame/data_frame.cpp: get_payload", "mh2c/frame/window_update_frame.cpp: get_payload", "mh2c/frame/settings_frame.cpp: get_payload", "mh2c/frame/frame_builder.cpp: build_frame", "mh2c/http2_client.cpp: receive_frame", "mh2c/http2_client.ipp: send_frame"]}
{"id": "C105", "title": "The work for a header block is in proportion to its length", "statement": "Reading a received header block takes work in proportion to its length, so that a server cannot occupy the client out of proportion to what it sends. Work is the number of octets the library reads, copies or moves, and the rows of the Huffman table it looks at, until the call returns or throws.", "quantifier": "all header blocks, well formed or not, all dynamic tables within their limit, both readings of the standard's undefined corners", "why_tests_cant": "block length is unbounded, and a test measures time on a few blocks", "anchors": ["mh2c/frame/headers_frame.cpp: decode_payload", "mh2c/frame/push_promise_frame.cpp: decode_payload", "mh2c/frame/continuation_frame.cpp: decode_payload", "mh2c/hpack/header_decoder.cpp: decode_header", "mh2c/hpack/huffman_decoder.cpp: decode"]}
{"id": "C106", "title": "The work for encoding a header block", "statement": "Encoding a header block takes work in proportion to the octets of its fields, plus once through the dynamic table for every field. Work is the number of octets the library reads, copies or compares until the call returns or throws.", "quantifier": "all header blocks, both string codings, all dynamic tables within their limit", "why_tests_cant": "field lengths, number of fields and table contents are unbounded, and a test measures time on a few blocks", "anchors": ["mh2c/hpack/header_encoder.cpp: encode_header", "mh2c/hpack/huffman_encoder.cpp: encode", "mh2c/hpack/integer_representation.ipp: encode_integer_value", "mh2c/frame/headers_frame.cpp: headers_frame"]}
{"id": "C107", "title": "Running out of memory leaves the client usable", "statement": "If an allocation fails during a call, the call throws std::bad_alloc, and the client can be used on: its dynamic tables stay consistent, no frame is lost or misread, and no later call has undefined behaviour because of it.", "quantifier": "every allocation that may fail, in every history of table insertions and size updates, every header block, every received frame and every response table", "why_tests_cant": "which allocation fails is not under a test's control, and the damage shows only in later calls", "anchors": ["mh2c/hpack/dynamic_table.cpp: push, resize_table, update_table_size", "mh2c/http2_client.cpp: update_dynamic_table, receive_frame, update_request_dynamic_table", "mh2c/frame/frame_builder.cpp: build_headers_frame, build_frame"]}
{"id": "C108", "title": "An exception says what was wrong", "statement": "The text of an exception, and the text printed when a HEADERS frame is not decoded, describe the fault: they name the value that was refused or the call that failed, they are plain text whatever the peer sends, and they tell one fault from another.", "quantifier": "every frame received, every state of the tables and of the connection, every result of the failing calls, every frame an application constructs, every header block and every sequence of steps of the constructor of the connection", "why_tests_cant": "the numbers and octets in a message come from the peer and from the operating system", "anchors": ["mh2c/hpack/huffman_decoder.cpp: construct_integer, decode", "mh2c/frame/ping_frame.cpp: construct_opaque_data", "mh2c/frame/priority_frame.cpp: validate_payload, construct_payload", "mh2c/frame/window_update_frame.cpp: construct_reserved, construct_window_size, validate_window_size", "mh2c/frame/goaway_frame.cpp: goaway_frame", "mh2c/frame/rst_stream_frame.cpp: rst_stream_frame", "mh2c/hpack/header_type.cpp: get_header, get_max_size", "mh2c/ssl/ssl_connection.cpp: ssl_connection, write, read", "mh2c/frame/frame_builder.cpp: build_headers_frame"]}
{"id": "C109", "title": "Only well-formed requests are sent and only well-formed responses returned", "statement": "A header list that RFC 7540 section 8.1.2 calls malformed (upper-case names, pseudo-header fields missing, repeated, unknown or out of place, connection-specific fields, line ends in values) is neither sent as a request nor returned as a response; a well-formed request reaches the server well formed.", "quantifier": "every header list, every client and table state, coding mode, stream, flags and priority; every response of every server", "why_tests_cant": "the faults are properties of whole lists of arbitrary octets, and what the server reads depends on the table after earlier requests", "anchors": ["mh2c/frame/headers_frame.cpp: headers_frame, construct_payload, decode_payload", "mh2c/hpack/header_type.cpp: make_header_block", "mh2c/hpack/header_encoder.cpp: encode_header", "mh2c/http2_client.cpp: receive_frame", "sample/h2_get/sample_h2_get.cpp: main"]}
{"id": "C110", "title": "Printing leaves the formatting of the stream as it was", "statement": "After a frame or a dynamic table has been printed, the flags, the fill character and the locale of the stream are what they were before.", "quantifier": "every frame, every dynamic table, every formatting state of the stream", "why_tests_cant": "it is about every combination of flags, widths, fill characters and locales and every frame", "anchors": ["mh2c/frame/raw_frame.cpp: dump", "mh2c/frame/ping_frame.cpp: dump", "mh2c/frame/data_frame.cpp: dump", "mh2c/frame/headers_frame.cpp: dump", "mh2c/frame/push_promise_frame.cpp: dump", "mh2c/frame/settings_frame.cpp: dump", "mh2c/frame/frame_header.cpp: operator<<", "mh2c/hpack/dynamic_table.cpp: operator<<", "mh2c/http2_client.cpp: operator<<"]}
{"id": "C111", "title": "The text of a frame does not depend on the formatting of the stream", "statement": "A frame has the same text whatever flags, width, fill character and locale the stream has when it is printed.", "quantifier": "every frame, every formatting state of the stream", "why_tests_cant": "it is about every combination of flags, widths, fill characters and locales and every frame", "anchors": ["mh2c/frame/raw_frame.cpp: dump", "mh2c/frame/ping_frame.cpp: dump", "mh2c/frame/data_frame.cpp: dump", "mh2c/frame/headers_frame.cpp: dump", "mh2c/frame/push_promise_frame.cpp: dump", "mh2c/frame/settings_frame.cpp: dump", "mh2c/frame/frame_header.cpp: operator<<", "mh2c/hpack/dynamic_table.cpp: operator<<", "mh2c/http2_client.cpp: operator<<"]}
{"id": "C112", "title": "A device that fails gets a prefix of the text", "statement": "If the device behind the stream takes only some of the octets, what it gets is a prefix of the text of the frame, the stream reports the failure, and printing ends as it would otherwise; nothing is written to a stream that has already failed.", "quantifier": "every frame, every formatting state, every number of octets the device takes", "why_tests_cant": "the failure can come at any octet of any text", "anchors": ["mh2c/frame/raw_frame.cpp: dump", "mh2c/frame/ping_frame.cpp: dump", "mh2c/frame/data_frame.cpp: dump", "mh2c/frame/headers_frame.cpp: dump", "mh2c/frame/push_promise_frame.cpp: dump", "mh2c/frame/settings_frame.cpp: dump", "mh2c/frame/frame_header.cpp: operator<<", "mh2c/hpack/dynamic_table.cpp: operator<<", "mh2c/http2_client.cpp: operator<<"]}
{"id": "C113", "title": "Running out of memory while a client is made", "statement": "If an allocation fails while a client is made, std::bad_alloc is thrown, every OpenSSL object made so far is released exactly once, and a later attempt with memory enough works as in a new process, the library being initialised at most once and static data allocated once. An attempt that does not throw std::bad_alloc is not affected. If the text of the connection preface cannot be allocated, nothing is sent and the call can be repeated.", "quantifier": "every host, port, verification mode, every result of the OpenSSL calls, every pattern of failing allocations, every sequence of attempts in a process", "why_tests_cant": "it is about every failing allocation and every history of attempts", "anchors": ["mh2c/http2_client.cpp: http2_client, impl, send_connection_preface", "mh2c/ssl/ssl_connection.cpp: ssl_connection, load_once, alpn_protos", "mh2c/ssl/ssl_ctx.cpp: ssl_ctx", "mh2c/ssl/ssl_bio.cpp: ssl_bio"]}
{"id": "C114", "title": "Frames are sent and returned only in an order RFC 7540 allows", "statement": "A program that sends and receives frames in an order RFC 7540 allows (section 3.5: SETTINGS first; 5.1: states of streams; 6.2 and 6.10: header lists in one piece) has all its calls succeed; a call that would break the order fails.", "quantifier": "every sequence of frames sent and received, every TLS schedule", "why_tests_cant": "it is about every interleaving of frames of any number of streams", "anchors": ["mh2c/http2_client.cpp: send_frame, receive_frame", "mh2c/frame/frame_builder.cpp: build_frame"]}
{"id": "C115", "title": "Frames, entries and tables can be copied, moved and swapped like values", "statement": "A frame, header block entry or dynamic table that is copied, moved, assigned or swapped keeps its value in the new place; a copy and its original do not influence each other; an object that was moved from is valid: it can be given a new value, sent, printed or added to.", "quantifier": "every program of constructions, copies, moves, swaps, table updates and destructions over any number of variables, also with a variable and itself", "why_tests_cant": "the programs are unbounded, and the operations are written by the compiler, not in the source", "anchors": ["mh2c/frame/data_frame.h: data_frame", "mh2c/frame/headers_frame.h: headers_frame", "mh2c/hpack/header_type.h: header_block_entry", "mh2c/hpack/dynamic_table.h: dynamic_table"]}
{"id": "C116", "title": "The sample program tells why it gives up", "statement": "When sample_h2_get ends with an exception, the last line it printed tells what was wrong: the frame that could not be taken, or the failed read with its result and the number of octets asked for; before it are exactly the frames received until then, and nothing more is sent.", "quantifier": "every server, every stream of octets it sends, every place where the connection fails and every result of the failing read", "why_tests_cant": "the place of the failure, the stream before it and the text of the standard library's exceptions are arbitrary", "anchors": ["sample/h2_get/sample_h2_get.cpp: receive_frames", "sample/h2_get/sample_h2_get.cpp: main", "mh2c/frame/frame_builder.cpp: build_headers_frame"]}
{"id": "C117", "title": "The library can be used before main and after it", "statement": "The functions of the library give the same results in the constructors and destructors of a program's objects with static storage duration as in main.", "quantifier": "every program linked with the library, every order of initialisation of the translation units, every sequence of calls with all arguments in constructors, main and destructors", "why_tests_cant": "the order of initialisation is chosen by the linker and the failure is undefined behaviour; a test runs in main", "anchors": ["mh2c/hpack/static_table_definition.cpp: static_table_entries", "mh2c/hpack/static_table_definition.cpp: reverse_static_table_entries", "mh2c/hpack/huffman_code.cpp: encode_table", "mh2c/hpack/huffman_code.cpp: decode_table", "mh2c/frame/frame_builder.cpp: builder_func_map", "mh2c/frame/settings_frame.cpp: sf_parameter_str_map", "mh2c/frame/error_codes.h: error_codes_str_map", "mh2c/http2_client.cpp: send_connection_preface", "mh2c/ssl/ssl_connection.cpp: ssl_connection"]}
{"id": "C118", "title": "A stream may throw while a frame is printed", "statement": "If the stream reports failures by exceptions, printing a frame throws exactly when the device cannot take the whole text; the device has the same octets as with a stream that does not throw, frames printed before are complete, and the formatting of the stream is as it was before the call.", "quantifier": "every frame, every formatting state of the stream, every number of octets the device takes, every sequence of frames", "why_tests_cant": "the place of the failure is arbitrary", "anchors": ["mh2c/http2_client.cpp: operator<<", "mh2c/frame/data_frame.cpp: dump", "mh2c/frame/headers_frame.cpp: dump", "mh2c/frame/ping_frame.cpp: dump", "mh2c/frame/raw_frame.cpp: dump", "mh2c/frame/push_promise_frame.cpp: dump", "mh2c/frame/settings_frame.cpp: dump"]}
{"id": "C119", "title": "What failed for want of memory can be repeated", "statement": "If sending something or making a request (build the frame, send it, report the block) ends with std::bad_alloc, nothing has been sent and the client is as before, so that the caller may repeat the call: the peer receives what was sent exactly once and the tables of both sides stay equal.", "quantifier": "every frame, octet string and request, every point at which an allocation fails, every number of failed attempts, every behaviour of the TLS layer", "why_tests_cant": "which allocation fails depends on the machine; every one of them must be considered", "anchors": ["mh2c/http2_client.ipp: http2_client::send_frame", "mh2c/http2_client.cpp: send_raw_data, send_connection_preface, update_request_dynamic_table", "mh2c/ssl/ssl_connection.cpp: write", "mh2c/frame/headers_frame.cpp: headers_frame"]}
{"id": "C120", "title": "The number of octets sent does not tell header values that are kept out of indexing", "statement": "If header values submitted as never indexed or without indexing are replaced by other values of the same length, every request takes the same number of octets on the connection and everything that is sent later is the same, so that somebody who only sees how much is sent learns nothing about them but their length.", "quantifier": "every client, request table, sequence of requests, header, pair of values, coding and behaviour of the TLS layer", "why_tests_cant": "a statement about two executions for every pair of secret values and every state of the table; tests only compare chosen pairs", "anchors": ["mh2c/hpack/header_encoder.cpp: encode_header, encode_header_value", "mh2c/hpack/huffman_encoder.cpp: encode", "mh2c/frame/headers_frame.cpp: headers_frame", "mh2c/http2_client.cpp: send_raw_data, update_request_dynamic_table"]}
{"id": "C121", "title": "A header is written in the shortest way its tables allow", "statement": "For every header, representation (with, without, never indexed) and coding of strings, the octets the encoder writes are no more than those of any other way RFC 7541 has to write it: the index of the header, an index of its name and the value, or name and value, with indices in the static table and the table of the connection.", "quantifier": "every header of octets, representation, coding and table of up to the default size, against every other encoding RFC 7541 allows", "why_tests_cant": "a minimum over infinitely many encodings for every header and every content of the table; tests only see the octets of chosen headers", "anchors": ["mh2c/hpack/header_encoder.cpp: encode_header, encode_index, encode_header_name, encode_header_value", "mh2c/hpack/static_table_definition.cpp: static_table_entries, reverse_static_table_entries"]}
{"id": "C122", "title": "A caller can bring the tables of client and server together again", "statement": "Whatever has become of the client's request table and the server's, a caller who empties the client's table (update_request_dynamic_table(0), then the size n) and begins the next header block with the size updates 0 and n is understood from then on: the server reads this request and the following ones as submitted, and the two tables are equal.", "quantifier": "every client, every table of the server, every header list, size and sequence of requests after it", "why_tests_cant": "a statement about every pair of diverged tables; tests only reach chosen histories", "anchors": ["mh2c/http2_client.cpp: update_request_dynamic_table, update_dynamic_table", "mh2c/hpack/dynamic_table.cpp: update_table_size, resize_table", "mh2c/hpack/header_encoder.cpp: encode_header, encode_max_size"]}
{"id": "C123", "title": "A caller who asks for no indexing needs no tables", "statement": "When no entry of the requests on a new connection asks for incremental indexing, update_request_dynamic_table need not be called, the client's table stays empty, and the server reads every request as submitted, whatever table it has and whatever table size it announced.", "quantifier": "every client with an empty table, every sequence of requests, every table and limit of the server", "why_tests_cant": "a statement about every sequence of header lists and every state of the server; tests only send chosen lists", "anchors": ["mh2c/http2_client.cpp: update_request_dynamic_table, update_dynamic_table", "mh2c/hpack/header_encoder.cpp: encode_header", "mh2c/frame/headers_frame.cpp: headers_frame", "mh2c/hpack/static_table_definition.cpp: static_table_entries"]}
{"id": "C124", "title": "A server that does not use the dynamic table is understood in every state of the client", "statement": "Frames whose header fields are written as static indices, or as literals without indexing or never indexed, are returned by receive_frame with the fields the server meant, whatever happened on the connection before and whatever table the client has; they leave the table as it is.", "quantifier": "every client whose table meets the invariant of C13, every sequence of frames, every chunking of the connection", "why_tests_cant": "a statement about every state of the table and every sequence of frames; tests decode chosen blocks with a new table", "anchors": ["mh2c/http2_client.cpp: receive_frame, update_dynamic_table", "mh2c/frame/frame_builder.cpp: build_frame", "mh2c/hpack/header_decoder.cpp: decode_header", "mh2c/hpack/static_table_definition.cpp: static_table_entries"]}
{"id": "C125", "title": "The table for responses comes to agree with the server's again", "statement": "When the client's table for responses is not the one of the server's encoder, and the server goes on without referring to its table, every frame is returned as it was sent, and the tables agree again after a size update to zero, or as soon as one of the fields sent since then has left the server's table.", "quantifier": "every pair of tables of client and server, every sequence of frames that do not refer to the table, every chunking of the connection", "why_tests_cant": "a statement about every pair of differing tables and every sequence of fields; tests start with equal, empty tables", "anchors": ["mh2c/http2_client.cpp: receive_frame, update_dynamic_table", "mh2c/hpack/dynamic_table.cpp: push, update_table_size, resize_table", "mh2c/hpack/header_decoder.cpp: decode_header"]}
{"id": "C126", "title": "Undefined flags, reserved bits and the octets of the padding of a received frame change nothing", "statement": "Two sequences of frames that differ only in the reserved bit of the frame header and in flags that RFC 7540 does not define for the type have the same outcome: the calls of receive_frame throw the same exceptions or return frames with the same contents, and the table for responses stays the same. The same is true of the reserved bits in the payloads of GOAWAY, WINDOW_UPDATE and PUSH_PROMISE frames, apart from the accessors that return them, and of the octets of the padding of HEADERS and PUSH_PROMISE frames, apart from get_padding.", "quantifier": "every pair of sequences of frames, well-formed or not, that differ only in these bits or octets; every table, every chunking of the connection", "why_tests_cant": "a statement about pairs of executions for every frame; tests use the defined flags and zero bits", "anchors": ["mh2c/http2_client.cpp: receive_frame", "mh2c/frame/frame_builder.cpp: build_frame", "mh2c/frame/headers_frame.cpp: decode_payload", "mh2c/frame/push_promise_frame.cpp: decode_payload", "mh2c/frame/goaway_frame.cpp: construct_payload", "mh2c/frame/window_update_frame.cpp: window_update_frame"]}
{"id": "C127", "title": "Frames that carry no header block do not change how other frames are read", "statement": "Frames of types other than HEADERS, PUSH_PROMISE, CONTINUATION and SETTINGS, well-formed or not and also of unknown types, and SETTINGS frames without SETTINGS_HEADER_TABLE_SIZE, may stand anywhere between the other frames of a connection: the calls of receive_frame for the others return or throw what they would without them, and the table for responses becomes the same. The calls that receive such a frame return or throw, in the same way whatever came before.", "quantifier": "every sequence of frames, every choice of such frames in it, every table, every chunking of the connection", "why_tests_cant": "a statement about pairs of executions for every sequence and every interleaving; tests fix one sequence", "anchors": ["mh2c/http2_client.cpp: receive_frame, update_dynamic_table", "mh2c/frame/frame_builder.cpp: build_frame", "mh2c/frame/settings_frame.cpp: settings_frame", "mh2c/frame/goaway_frame.cpp: construct_payload", "mh2c/frame/priority_frame.cpp: construct_payload"]}
{"id": "C128", "title": "All streams are treated alike", "statement": "If the frames of a connection come on other streams than before, in any assignment of streams, stream 0 included, the calls of receive_frame have the same outcomes, except that the frames returned have the other stream in their headers, and the table for responses becomes the same.", "quantifier": "every sequence of frames, well-formed or not, every map from streams to streams, every table, every chunking of the connection", "why_tests_cant": "a statement about pairs of executions for every map of streams; tests use streams 0 and 1", "anchors": ["mh2c/http2_client.cpp: receive_frame", "mh2c/frame/frame_builder.cpp: build_frame", "mh2c/frame/frame_header.cpp: build_frame_header"]}
{"id": "C129", "title": "A connection that is cut short", "statement": "When the connection ends anywhere within the octets of a sequence of frames, the calls of receive_frame for the frames that came completely return or throw what they would on the whole connection, and every later call, however many, throws std::runtime_error. What came of the frame that was cut changes no table. When a call that sends fails, the server has been sent what the calls before it sent, a proper part of what this call was to send, and nothing else.", "quantifier": "every sequence of frames, every place of the cut, every number of calls, every sequence of calls that send, every table, every chunking of the data that came", "why_tests_cant": "a statement about every cut and any number of calls; tests cannot cut a connection everywhere", "anchors": ["mh2c/http2_client.cpp: receive_frame, receive_raw_data", "mh2c/ssl/ssl_connection.cpp: read, write"]}
{"id": "C130", "title": "What a received frame leaves behind", "statement": "A call of receive_frame that throws, or returns a frame in which the caller finds no field that was to be indexed, no size update and no SETTINGS_HEADER_TABLE_SIZE, leaves no trace: had the server not sent such frames, the calls for the other frames would have ended in the same way with the same frames, and the table for responses would be the same. Of a header block nothing else counts: calls that return blocks with the same fields to be indexed and the same size updates leave the same table, whatever else the blocks hold and whatever kind of frame carries them.", "quantifier": "every sequence of frames, every selection of those that leave no trace, every table, every chunking", "why_tests_cant": "a statement about all connections and every way to leave frames out", "anchors": ["mh2c/http2_client.cpp: update_dynamic_table, receive_frame", "mh2c/frame/frame_builder.cpp: build_frame"]}
{"id": "C131", "title": "The order of the parameters of a SETTINGS frame does not matter", "statement": "If the parameters of SETTINGS frames are listed in another order, the values of one and the same parameter keeping theirs, then the calls of receive_frame return equal frames, all other frames are received as before, and the table for responses becomes the same; a frame made with make_sf_payload is equal and sends the same octets. If each parameter is listed once, every order will do. Two lists give equal frames exactly if they have the same first value of every parameter.", "quantifier": "every connection, every list of parameters, every reordering, every table, every chunking", "why_tests_cant": "a statement about all permutations of all lists", "anchors": ["mh2c/frame/settings_frame.cpp: make_sf_payload, settings_frame, serialize", "mh2c/frame/frame_builder.cpp: build_settings_frame", "mh2c/http2_client.cpp: receive_frame, send_frame"]}
{"id": "C132", "title": "The frame that carries a header block does not matter to the block", "statement": "If a server carries its header blocks in other frames (HEADERS with or without priority, PUSH_PROMISE or CONTINUATION, with or without padding, on any stream), then every block that is returned in a frame is also returned in the other frame, with the same entries, all other frames are received as before, and the table for responses becomes the same.", "quantifier": "every connection, every history of frames, every fragment, padding, priority and stream, every table, every chunking", "why_tests_cant": "two connections of any length are compared", "anchors": ["mh2c/frame/frame_builder.cpp: build_headers_frame, build_frame", "mh2c/frame/headers_frame.cpp: decode_payload", "mh2c/frame/push_promise_frame.cpp: push_promise_frame", "mh2c/frame/continuation_frame.cpp: continuation_frame", "mh2c/http2_client.cpp: receive_frame"]}
