(* The repository's own unit tests, run on the model.  Generated by
   tools/conformance.py from /repo/test; every Example is one TEST.  These are
   tests: they show that the model computes what the authors expect of the code
   on these inputs, they are not proofs of the properties. *)
From Coq Require Import String NArith List Bool.
From Verif Require Import Base Util IntRep Huffman StaticTable HeaderType DynTable HeaderEnc HeaderDec
  FrameHeader Frames FrameBuilder SpecHpack.
Import ListNotations.
Local Open Scope string_scope.
Local Open Scope list_scope.
Local Open Scope N_scope.

(* EXPECT_EQ(expected, frame.serialize()), on both kinds of host;
   for instance test/frame/data_frame_test.cpp:22 *)
Definition serializes (f : res frame) (expected : list N) : Prop :=
  forall host, (let* g := f in serialize host g) = Ok expected.

(* EXPECT_ANY_THROW, for instance test/frame/ping_frame_test.cpp:49 *)
Definition throws {A} (r : res A) : Prop := exists x, r = Throw x.

(* extract_payload, build_frame with a new table, EXPECT_EQ with the frame;
   for instance test/frame/frame_builder_test.cpp:57-59 *)
Definition builds_back (f : res frame) : Prop :=
  forall m host, exists g raw h, f = Ok g /\ serialize host g = Ok raw /\
    build_frame m (frame_fh g) (skipn 9 raw) default_table = Ok h /\ frame_eqb g h = true.

(* the same with raw_payload.pop_back(), EXPECT_ANY_THROW;
   test/frame/frame_builder_test.cpp:643 *)
Definition rejected_shortened (f : res frame) : Prop :=
  throws (let* g := f in let* raw := serialize LittleEndian g in
          build_frame Strict (frame_fh g) (removelast (skipn 9 raw)) default_table).

(* encode_header, decode_header and EXPECT_EQ with the entry and the length, for
   instance test/hpack/header_decoder_test.cpp:15-28 *)
Definition decodes_back (e : hentry) (mode : encode_mode) : Prop :=
  forall m, (let* raw := encode_header e mode default_table in
             let* (d, n) := decode_header m raw default_table in Ok (hentry_eqb e d, n =? size raw)) = Ok (true, true).

Ltac serialized := intros []; vm_compute; reflexivity.
Ltac throwing := eexists; vm_compute; reflexivity.
Ltac building := intros [] []; eexists _, _, _; (split; [vm_compute; reflexivity|]); (split; [vm_compute; reflexivity|]);
  (split; [vm_compute; reflexivity|]); vm_compute; reflexivity.

Example test_headers_frame_serialize_indexed_header : serializes (let* b := (make_header_block Indexed [((octets ":method"), (octets "GET"))]) in let* t := (Ok default_table) in mk_headers 0 1 b ModeNone t [] (Prio 0 0 0)) [0; 0; 1; 1; 0; 0; 0; 0; 1; 130].
Proof. serialized. Qed.

Example test_headers_frame_serialize_indexed_header_name : serializes (let* b := (make_header_block NeverIndexed [((octets ":authority"), (octets "example.com"))]) in let* t := (Ok default_table) in mk_headers 0 1 b ModeNone t [] (Prio 0 0 0)) [0; 0; 13; 1; 0; 0; 0; 0; 1; 17; 11; 101; 120; 97; 109; 112; 108; 101; 46; 99; 111; 109].
Proof. serialized. Qed.

Example test_headers_frame_serialize_indexed_header_name_empty_value : serializes (let* b := (make_header_block NeverIndexed [((octets "age"), (octets ""))]) in let* t := (Ok default_table) in mk_headers 0 1 b ModeNone t [] (Prio 0 0 0)) [0; 0; 3; 1; 0; 0; 0; 0; 1; 31; 6; 0].
Proof. serialized. Qed.

Example test_headers_frame_serialize_literal_header : serializes (let* b := (make_header_block NeverIndexed [((octets "hoge"), (octets "fuga"))]) in let* t := (Ok default_table) in mk_headers 0 1 b ModeNone t [] (Prio 0 0 0)) [0; 0; 11; 1; 0; 0; 0; 0; 1; 16; 4; 104; 111; 103; 101; 4; 102; 117; 103; 97].
Proof. serialized. Qed.

Example test_headers_frame_serialize_literal_header_same_value : serializes (let* b := (make_header_block NeverIndexed [((octets ":status-dummy"), (octets "200"))]) in let* t := (Ok default_table) in mk_headers 0 1 b ModeNone t [] (Prio 0 0 0)) [0; 0; 19; 1; 0; 0; 0; 0; 1; 16; 13; 58; 115; 116; 97; 116; 117; 115; 45; 100; 117; 109; 109; 121; 3; 50; 48; 48].
Proof. serialized. Qed.

Example test_headers_frame_serialize_literal_header_incremental_indexing : serializes (let* b := (make_header_block IncrementalIndexing [((octets "hoge"), (octets "fuga"))]) in let* t := (Ok default_table) in mk_headers 0 1 b ModeNone t [] (Prio 0 0 0)) [0; 0; 11; 1; 0; 0; 0; 0; 1; 64; 4; 104; 111; 103; 101; 4; 102; 117; 103; 97].
Proof. serialized. Qed.

Example test_headers_frame_serialize_literal_header_without_indexing : serializes (let* b := (make_header_block WithoutIndexing [((octets "hoge"), (octets "fuga"))]) in let* t := (Ok default_table) in mk_headers 0 1 b ModeNone t [] (Prio 0 0 0)) [0; 0; 11; 1; 0; 0; 0; 0; 1; 0; 4; 104; 111; 103; 101; 4; 102; 117; 103; 97].
Proof. serialized. Qed.

Example test_headers_frame_serialize_size_update : serializes (let* b := (Ok [HEntry SizeUpdate (ESize 1024)]) in let* t := (Ok default_table) in mk_headers 0 1 b ModeNone t [] (Prio 0 0 0)) [0; 0; 3; 1; 0; 0; 0; 0; 1; 63; 225; 7].
Proof. serialized. Qed.

Example test_headers_frame_serialize_literal_header_with_padding : serializes (let* b := (make_header_block WithoutIndexing [((octets "hoge"), (octets "fuga"))]) in let* t := (Ok default_table) in mk_headers (make_frame_header_flags 8 []) 1 b ModeNone t [190; 239] (Prio 0 0 0)) [0; 0; 14; 1; 8; 0; 0; 0; 1; 2; 0; 4; 104; 111; 103; 101; 4; 102; 117; 103; 97; 190; 239].
Proof. serialized. Qed.

Example test_headers_frame_serialize_literal_header_with_priority : serializes (let* b := (make_header_block WithoutIndexing [((octets "hoge"), (octets "fuga"))]) in let* t := (Ok default_table) in mk_headers (make_frame_header_flags 32 []) 3 b ModeNone t [] (Prio 1 1 32)) [0; 0; 16; 1; 32; 0; 0; 0; 3; 128; 0; 0; 1; 32; 0; 4; 104; 111; 103; 101; 4; 102; 117; 103; 97].
Proof. serialized. Qed.

Example test_headers_frame_serialize_literal_header_with_huffman_code : serializes (let* b := (make_header_block IncrementalIndexing [((octets "hoge"), (octets "fuga"))]) in let* t := (Ok default_table) in mk_headers 0 1 b ModeHuffman t [] (Prio 0 0 0)) [0; 0; 9; 1; 0; 0; 0; 0; 1; 64; 131; 156; 243; 23; 131; 150; 217; 135].
Proof. serialized. Qed.

Example test_headers_frame_multi_headers : serializes (let* b := (make_header_block NeverIndexed [((octets ":method"), (octets "GET")); ((octets ":path"), (octets "/httpbin/headers")); ((octets ":scheme"), (octets "https")); ((octets ":authority"), (octets "nghttp2.org"))]) in let* t := (Ok default_table) in mk_headers (make_frame_header_flags 1 [4]) 1 b ModeNone t [] (Prio 0 0 0)) [0; 0; 39; 1; 5; 0; 0; 0; 1; 130; 16; 5; 58; 112; 97; 116; 104; 16; 47; 104; 116; 116; 112; 98; 105; 110; 47; 104; 101; 97; 100; 101; 114; 115; 135; 17; 11; 110; 103; 104; 116; 116; 112; 50; 46; 111; 114; 103].
Proof. serialized. Qed.

Example test_headers_frame_serialize_indexed_header_in_dynamic_table : serializes (let* b := (make_header_block WithoutIndexing [((octets "hoge"), (octets "fuga"))]) in let* t := (dt_push default_table ((octets "hoge"), (octets "fuga"))) in mk_headers 0 1 b ModeNone t [] (Prio 0 0 0)) [0; 0; 1; 1; 0; 0; 0; 0; 1; 190].
Proof. serialized. Qed.

Example test_push_promise_frame_serialize_indexed_header : serializes (let* b := (make_header_block Indexed [((octets ":status"), (octets "200"))]) in let* t := (Ok default_table) in mk_push_promise LittleEndian 0 1 (PushPromise 0 3 b []) ModeNone t) [0; 0; 5; 5; 0; 0; 0; 0; 1; 0; 0; 0; 3; 136].
Proof. serialized. Qed.

Example test_push_promise_frame_serialize_indexed_header_name : serializes (let* b := (make_header_block NeverIndexed [((octets "content-length"), (octets "28"))]) in let* t := (Ok default_table) in mk_push_promise LittleEndian 0 1 (PushPromise 0 3 b []) ModeNone t) [0; 0; 9; 5; 0; 0; 0; 0; 1; 0; 0; 0; 3; 31; 13; 2; 50; 56].
Proof. serialized. Qed.

Example test_push_promise_frame_serialize_indexed_header_name_empty_value : serializes (let* b := (make_header_block NeverIndexed [((octets "age"), (octets ""))]) in let* t := (Ok default_table) in mk_push_promise LittleEndian 0 1 (PushPromise 0 3 b []) ModeNone t) [0; 0; 7; 5; 0; 0; 0; 0; 1; 0; 0; 0; 3; 31; 6; 0].
Proof. serialized. Qed.

Example test_push_promise_frame_serialize_literal_header : serializes (let* b := (make_header_block NeverIndexed [((octets "hoge"), (octets "fuga"))]) in let* t := (Ok default_table) in mk_push_promise LittleEndian 0 1 (PushPromise 0 3 b []) ModeNone t) [0; 0; 15; 5; 0; 0; 0; 0; 1; 0; 0; 0; 3; 16; 4; 104; 111; 103; 101; 4; 102; 117; 103; 97].
Proof. serialized. Qed.

Example test_push_promise_frame_serialize_literal_header_same_value : serializes (let* b := (make_header_block NeverIndexed [((octets ":status-dummy"), (octets "200"))]) in let* t := (Ok default_table) in mk_push_promise LittleEndian 0 1 (PushPromise 0 3 b []) ModeNone t) [0; 0; 23; 5; 0; 0; 0; 0; 1; 0; 0; 0; 3; 16; 13; 58; 115; 116; 97; 116; 117; 115; 45; 100; 117; 109; 109; 121; 3; 50; 48; 48].
Proof. serialized. Qed.

Example test_push_promise_frame_serialize_literal_header_incremental_indexing : serializes (let* b := (make_header_block IncrementalIndexing [((octets "hoge"), (octets "fuga"))]) in let* t := (Ok default_table) in mk_push_promise LittleEndian 0 1 (PushPromise 0 3 b []) ModeNone t) [0; 0; 15; 5; 0; 0; 0; 0; 1; 0; 0; 0; 3; 64; 4; 104; 111; 103; 101; 4; 102; 117; 103; 97].
Proof. serialized. Qed.

Example test_push_promise_frame_serialize_literal_header_without_indexing : serializes (let* b := (make_header_block WithoutIndexing [((octets "hoge"), (octets "fuga"))]) in let* t := (Ok default_table) in mk_push_promise LittleEndian 0 1 (PushPromise 0 3 b []) ModeNone t) [0; 0; 15; 5; 0; 0; 0; 0; 1; 0; 0; 0; 3; 0; 4; 104; 111; 103; 101; 4; 102; 117; 103; 97].
Proof. serialized. Qed.

Example test_push_promise_frame_serialize_size_update : serializes (let* b := (Ok [HEntry SizeUpdate (ESize 1024)]) in let* t := (Ok default_table) in mk_push_promise LittleEndian 0 1 (PushPromise 0 3 b []) ModeNone t) [0; 0; 7; 5; 0; 0; 0; 0; 1; 0; 0; 0; 3; 63; 225; 7].
Proof. serialized. Qed.

Example test_push_promise_frame_serialize_literal_header_with_padding : serializes (let* b := (make_header_block WithoutIndexing [((octets "hoge"), (octets "fuga"))]) in let* t := (Ok default_table) in mk_push_promise LittleEndian (make_frame_header_flags 8 []) 1 (PushPromise 0 3 b [190; 239]) ModeNone t) [0; 0; 18; 5; 8; 0; 0; 0; 1; 2; 0; 0; 0; 3; 0; 4; 104; 111; 103; 101; 4; 102; 117; 103; 97; 190; 239].
Proof. serialized. Qed.

Example test_push_promise_frame_serialize_literal_header_with_huffman_code : serializes (let* b := (make_header_block IncrementalIndexing [((octets "hoge"), (octets "fuga"))]) in let* t := (Ok default_table) in mk_push_promise LittleEndian 0 1 (PushPromise 0 3 b []) ModeHuffman t) [0; 0; 13; 5; 0; 0; 0; 0; 1; 0; 0; 0; 3; 64; 131; 156; 243; 23; 131; 150; 217; 135].
Proof. serialized. Qed.

Example test_push_promise_frame_serialize_multi_headers : serializes (let* b := (make_header_block NeverIndexed [((octets ":status"), (octets "200")); ((octets "content-length"), (octets "28"))]) in let* t := (Ok default_table) in mk_push_promise LittleEndian (make_frame_header_flags 4 []) 1 (PushPromise 0 3 b []) ModeNone t) [0; 0; 10; 5; 4; 0; 0; 0; 1; 0; 0; 0; 3; 136; 31; 13; 2; 50; 56].
Proof. serialized. Qed.

Example test_push_promise_frame_serialize_indexed_header_in_dynamic_table : serializes (let* b := (make_header_block WithoutIndexing [((octets "hoge"), (octets "fuga"))]) in let* t := (dt_push default_table ((octets "hoge"), (octets "fuga"))) in mk_push_promise LittleEndian 0 1 (PushPromise 0 3 b []) ModeNone t) [0; 0; 5; 5; 0; 0; 0; 0; 1; 0; 0; 0; 3; 190].
Proof. serialized. Qed.

Example test_continuation_frame_serialize_indexed_header : serializes (let* b := (make_header_block Indexed [((octets "accept-encoding"), (octets "gzip, deflate"))]) in let* t := (Ok default_table) in mk_continuation 0 1 b ModeNone t) [0; 0; 1; 9; 0; 0; 0; 0; 1; 144].
Proof. serialized. Qed.

Example test_continuation_frame_serialize_indexed_header_with_end_headers : serializes (let* b := (make_header_block NeverIndexed [((octets "accept-encoding"), (octets "gzip, deflate"))]) in let* t := (Ok default_table) in mk_continuation (make_frame_header_flags 4 []) 1 b ModeNone t) [0; 0; 1; 9; 4; 0; 0; 0; 1; 144].
Proof. serialized. Qed.

Example test_continuation_frame_serialize_indexed_header_name : serializes (let* b := (make_header_block NeverIndexed [((octets "if-modified-since"), (octets "Fri, 28 Aug 2020 10:00:00 GMT"))]) in let* t := (Ok default_table) in mk_continuation 0 1 b ModeNone t) [0; 0; 32; 9; 0; 0; 0; 0; 1; 31; 25; 29; 70; 114; 105; 44; 32; 50; 56; 32; 65; 117; 103; 32; 50; 48; 50; 48; 32; 49; 48; 58; 48; 48; 58; 48; 48; 32; 71; 77; 84].
Proof. serialized. Qed.

Example test_continuation_frame_serialize_indexed_header_name_empty_value : serializes (let* b := (make_header_block NeverIndexed [((octets "age"), (octets ""))]) in let* t := (Ok default_table) in mk_continuation 0 1 b ModeNone t) [0; 0; 3; 9; 0; 0; 0; 0; 1; 31; 6; 0].
Proof. serialized. Qed.

Example test_continuation_frame_serialize_literal_header : serializes (let* b := (make_header_block NeverIndexed [((octets "hoge"), (octets "fuga"))]) in let* t := (Ok default_table) in mk_continuation 0 1 b ModeNone t) [0; 0; 11; 9; 0; 0; 0; 0; 1; 16; 4; 104; 111; 103; 101; 4; 102; 117; 103; 97].
Proof. serialized. Qed.

Example test_continuation_frame_serialize_literal_header_same_value : serializes (let* b := (make_header_block NeverIndexed [((octets ":status-dummy"), (octets "200"))]) in let* t := (Ok default_table) in mk_continuation 0 1 b ModeNone t) [0; 0; 19; 9; 0; 0; 0; 0; 1; 16; 13; 58; 115; 116; 97; 116; 117; 115; 45; 100; 117; 109; 109; 121; 3; 50; 48; 48].
Proof. serialized. Qed.

Example test_continuation_frame_serialize_literal_header_incremental_indexing : serializes (let* b := (make_header_block IncrementalIndexing [((octets "hoge"), (octets "fuga"))]) in let* t := (Ok default_table) in mk_continuation 0 1 b ModeNone t) [0; 0; 11; 9; 0; 0; 0; 0; 1; 64; 4; 104; 111; 103; 101; 4; 102; 117; 103; 97].
Proof. serialized. Qed.

Example test_continuation_frame_serialize_literal_header_without_indexing : serializes (let* b := (make_header_block WithoutIndexing [((octets "hoge"), (octets "fuga"))]) in let* t := (Ok default_table) in mk_continuation 0 1 b ModeNone t) [0; 0; 11; 9; 0; 0; 0; 0; 1; 0; 4; 104; 111; 103; 101; 4; 102; 117; 103; 97].
Proof. serialized. Qed.

Example test_continuation_frame_serialize_size_update : serializes (let* b := (Ok [HEntry SizeUpdate (ESize 1024)]) in let* t := (Ok default_table) in mk_continuation 0 1 b ModeNone t) [0; 0; 3; 9; 0; 0; 0; 0; 1; 63; 225; 7].
Proof. serialized. Qed.

Example test_continuation_frame_serialize_literal_header_with_huffman_code : serializes (let* b := (make_header_block IncrementalIndexing [((octets "hoge"), (octets "fuga"))]) in let* t := (Ok default_table) in mk_continuation 0 1 b ModeHuffman t) [0; 0; 9; 9; 0; 0; 0; 0; 1; 64; 131; 156; 243; 23; 131; 150; 217; 135].
Proof. serialized. Qed.

Example test_continuation_frame_multi_headers : serializes (let* b := (make_header_block NeverIndexed [((octets "accept-encoding"), (octets "gzip, deflate")); ((octets "if-modified-since"), (octets "Fri, 28 Aug 2020 10:00:00 GMT"))]) in let* t := (Ok default_table) in mk_continuation (make_frame_header_flags 4 []) 1 b ModeNone t) [0; 0; 33; 9; 4; 0; 0; 0; 1; 144; 31; 25; 29; 70; 114; 105; 44; 32; 50; 56; 32; 65; 117; 103; 32; 50; 48; 50; 48; 32; 49; 48; 58; 48; 48; 58; 48; 48; 32; 71; 77; 84].
Proof. serialized. Qed.

Example test_continuation_frame_serialize_indexed_header_in_dynamic_table : serializes (let* b := (make_header_block WithoutIndexing [((octets "hoge"), (octets "fuga"))]) in let* t := (dt_push default_table ((octets "hoge"), (octets "fuga"))) in mk_continuation 0 1 b ModeNone t) [0; 0; 1; 9; 0; 0; 0; 0; 1; 190].
Proof. serialized. Qed.

Example test_goaway_frame_serialize : serializes (Ok (mk_goaway (Goaway 0 0 0 []))) [0; 0; 8; 7; 0; 0; 0; 0; 0; 0; 0; 0; 0; 0; 0; 0; 0].
Proof. serialized. Qed.

Example test_goaway_frame_serialize_with_additional_debug_data : serializes (Ok (mk_goaway (Goaway 0 128 8 [116; 101; 115; 116]))) [0; 0; 12; 7; 0; 0; 0; 0; 0; 0; 0; 0; 128; 0; 0; 0; 8; 116; 101; 115; 116].
Proof. serialized. Qed.

Example test_rst_stream_frame_serialize : serializes (Ok (mk_rst_stream 1 0)) [0; 0; 4; 3; 0; 0; 0; 0; 1; 0; 0; 0; 0].
Proof. serialized. Qed.

Example test_rst_stream_frame_serialize_unknown_error_code : serializes (Ok (mk_rst_stream 1 14)) [0; 0; 4; 3; 0; 0; 0; 0; 1; 0; 0; 0; 14].
Proof. serialized. Qed.

Example test_ping_frame_serialize : serializes (mk_ping 0 [112; 105; 110; 103]) [0; 0; 8; 6; 0; 0; 0; 0; 0; 112; 105; 110; 103; 0; 0; 0; 0].
Proof. serialized. Qed.

Example test_ping_frame_serialize_with_ack : serializes (mk_ping (make_frame_header_flags 1 []) [112; 105; 110; 103]) [0; 0; 8; 6; 1; 0; 0; 0; 0; 112; 105; 110; 103; 0; 0; 0; 0].
Proof. serialized. Qed.

Example test_ping_frame_throw_if_opaque_data_size_is_over : throws (mk_ping 0 [116; 104; 105; 115; 32; 105; 115; 32; 116; 111; 111; 32; 108; 111; 110; 103]).
Proof. throwing. Qed.

Example test_settings_frame_serialize : serializes (Ok (mk_settings 0 0 (make_sf_payload [(1, 512); (2, 0); (3, 16); (4, 65535); (5, 65535); (6, 256)]))) [0; 0; 36; 4; 0; 0; 0; 0; 0; 0; 1; 0; 0; 2; 0; 0; 2; 0; 0; 0; 0; 0; 3; 0; 0; 0; 16; 0; 4; 0; 0; 255; 255; 0; 5; 0; 0; 255; 255; 0; 6; 0; 0; 1; 0].
Proof. serialized. Qed.

Example test_settings_frame_serialize_ack : serializes (Ok (mk_settings 1 0 (make_sf_payload []))) [0; 0; 0; 4; 1; 0; 0; 0; 0].
Proof. serialized. Qed.

Example test_data_frame_serialize : serializes (Ok (mk_data 0 1 (octets "test"))) [0; 0; 4; 0; 0; 0; 0; 0; 1; 116; 101; 115; 116].
Proof. serialized. Qed.

Example test_data_frame_serialize_with_padding : serializes (Ok (mk_data (make_frame_header_flags 8 []) 1 [2; 116; 101; 115; 116; 255; 255])) [0; 0; 7; 0; 8; 0; 0; 0; 1; 2; 116; 101; 115; 116; 255; 255].
Proof. serialized. Qed.

Example test_priority_frame_serialize : serializes (mk_priority 3 (Prio 0 1 0)) [0; 0; 5; 2; 0; 0; 0; 0; 3; 0; 0; 0; 1; 0].
Proof. serialized. Qed.

Example test_priority_frame_serialize_with_exclusive : serializes (mk_priority 3 (Prio 1 1 0)) [0; 0; 5; 2; 0; 0; 0; 0; 3; 128; 0; 0; 1; 0].
Proof. serialized. Qed.

Example test_priority_frame_serialize_with_weight : serializes (mk_priority 3 (Prio 0 1 255)) [0; 0; 5; 2; 0; 0; 0; 0; 3; 0; 0; 0; 1; 255].
Proof. serialized. Qed.

Example test_priority_frame_throw_if_exclusive_is_invalid : throws (mk_priority 3 (Prio 2 1 0)).
Proof. throwing. Qed.

Example test_priority_frame_throw_if_stream_dependency_is_invalid : throws (mk_priority 3 (Prio 0 2147483648 0)).
Proof. throwing. Qed.

Example test_window_update_frame_serialize : serializes (mk_window_update 0 0 19088743) [0; 0; 4; 8; 0; 0; 0; 0; 0; 1; 35; 69; 103].
Proof. serialized. Qed.

Example test_window_update_frame_serialize_with_specific_stream : serializes (mk_window_update 1 0 19088743) [0; 0; 4; 8; 0; 0; 0; 0; 1; 1; 35; 69; 103].
Proof. serialized. Qed.

Example test_window_update_frame_serialize_with_reserved : serializes (mk_window_update 0 1 19088743) [0; 0; 4; 8; 0; 0; 0; 0; 0; 129; 35; 69; 103].
Proof. serialized. Qed.

Example test_window_update_frame_throw_if_window_size_is_over : throws (mk_window_update 0 0 2147483648).
Proof. throwing. Qed.

Example test_frame_header_serialize : forall host, serialize_fh host (FH 64 4 2 0 128) = [0; 0; 64; 4; 2; 0; 0; 0; 128].
Proof. intros []; vm_compute; reflexivity. Qed.

Example test_frame_header_serialize_set_reserved : forall host, serialize_fh host (FH 4660 5 8 1 65535) = [0; 18; 52; 5; 8; 128; 0; 255; 255].
Proof. intros []; vm_compute; reflexivity. Qed.

Example test_frame_header_serialize_max : forall host, serialize_fh host (FH 16777215 255 255 1 2147483647) = [255; 255; 255; 255; 255; 255; 255; 255; 255].
Proof. intros []; vm_compute; reflexivity. Qed.

Example test_frame_header_build_frame_header : build_frame_header [0; 0; 64; 4; 2; 0; 0; 0; 128] = Ok (FH 64 4 2 0 128).
Proof. vm_compute; reflexivity. Qed.

Example test_frame_header_build_frame_header_set_reserved : build_frame_header [0; 18; 52; 5; 8; 128; 0; 255; 255] = Ok (FH 4660 5 8 1 65535).
Proof. vm_compute; reflexivity. Qed.

Example test_frame_header_build_frame_header_max : build_frame_header [255; 255; 255; 255; 255; 255; 255; 255; 255] = Ok (FH 16777215 255 255 1 2147483647).
Proof. vm_compute; reflexivity. Qed.

Example test_frame_builder_continuation_frame_no_flags : builds_back (let* b := (make_header_block WithoutIndexing [((octets "accept-encoding"), (octets "gzip, deflate")); ((octets "if-modified-since"), (octets "Fri, 28 Aug 2020 10:00:00 GMT"))]) in let* t := (Ok default_table) in mk_continuation 0 1 b ModeNone t).
Proof. building. Qed.

Example test_frame_builder_continuation_frame_with_end_headers : builds_back (let* b := (make_header_block WithoutIndexing [((octets "accept-encoding"), (octets "gzip, deflate")); ((octets "if-modified-since"), (octets "Fri, 28 Aug 2020 10:00:00 GMT"))]) in let* t := (Ok default_table) in mk_continuation (make_frame_header_flags 4 []) 1 b ModeNone t).
Proof. building. Qed.

Example test_frame_builder_continuation_frame_never_indexed : builds_back (let* b := (make_header_block NeverIndexed [((octets "accept-encoding"), (octets "gzip, deflate")); ((octets "if-modified-since"), (octets "Fri, 28 Aug 2020 10:00:00 GMT"))]) in let* t := (Ok default_table) in mk_continuation (make_frame_header_flags 4 []) 1 b ModeNone t).
Proof. building. Qed.

Example test_frame_builder_continuation_frame_incremental_indexing : builds_back (let* b := (make_header_block IncrementalIndexing [((octets "accept-encoding"), (octets "gzip, deflate")); ((octets "if-modified-since"), (octets "Fri, 28 Aug 2020 10:00:00 GMT"))]) in let* t := (Ok default_table) in mk_continuation (make_frame_header_flags 4 []) 1 b ModeNone t).
Proof. building. Qed.

Example test_frame_builder_data_frame_no_flags : builds_back (Ok (mk_data 0 1 (octets "test"))).
Proof. building. Qed.

Example test_frame_builder_data_frame_with_end_stream : builds_back (Ok (mk_data (make_frame_header_flags 1 []) 1 (octets "test"))).
Proof. building. Qed.

Example test_frame_builder_data_frame_with_padded : builds_back (Ok (mk_data (make_frame_header_flags 8 []) 1 [6; 116; 101; 115; 116; 112; 97; 100; 100; 101; 100])).
Proof. building. Qed.

Example test_frame_builder_goaway_frame_no_additional_debug_data : builds_back (Ok (mk_goaway (Goaway 0 0 0 []))).
Proof. building. Qed.

Example test_frame_builder_goaway_frame_with_additional_debug_data : builds_back (Ok (mk_goaway (Goaway 0 0 1 [116; 101; 115; 116]))).
Proof. building. Qed.

Example test_frame_builder_headers_frame_no_flags : builds_back (let* b := (make_header_block WithoutIndexing [((octets ":method"), (octets "GET")); ((octets ":path"), (octets "/")); ((octets ":scheme"), (octets "https")); ((octets ":authority"), (octets "example.com")); ((octets "accept"), (octets "application/json"))]) in let* t := (Ok default_table) in mk_headers 0 1 b ModeNone t [] (Prio 0 0 0)).
Proof. building. Qed.

Example test_frame_builder_headers_frame_with_end_stream : builds_back (let* b := (make_header_block WithoutIndexing [((octets ":method"), (octets "GET")); ((octets ":path"), (octets "/")); ((octets ":scheme"), (octets "https")); ((octets ":authority"), (octets "example.com")); ((octets "accept"), (octets "application/json"))]) in let* t := (Ok default_table) in mk_headers (make_frame_header_flags 1 []) 1 b ModeNone t [] (Prio 0 0 0)).
Proof. building. Qed.

Example test_frame_builder_headers_frame_with_end_headers : builds_back (let* b := (make_header_block WithoutIndexing [((octets ":method"), (octets "GET")); ((octets ":path"), (octets "/")); ((octets ":scheme"), (octets "https")); ((octets ":authority"), (octets "example.com")); ((octets "accept"), (octets "application/json"))]) in let* t := (Ok default_table) in mk_headers (make_frame_header_flags 4 []) 1 b ModeNone t [] (Prio 0 0 0)).
Proof. building. Qed.

Example test_frame_builder_headers_frame_never_indexed : builds_back (let* b := (make_header_block NeverIndexed [((octets ":method"), (octets "GET")); ((octets ":path"), (octets "/")); ((octets ":scheme"), (octets "https")); ((octets ":authority"), (octets "example.com")); ((octets "accept"), (octets "application/json"))]) in let* t := (Ok default_table) in mk_headers (make_frame_header_flags 4 []) 1 b ModeNone t [] (Prio 0 0 0)).
Proof. building. Qed.

Example test_frame_builder_headers_frame_incremental_indexing : builds_back (let* b := (make_header_block IncrementalIndexing [((octets ":method"), (octets "GET")); ((octets ":path"), (octets "/")); ((octets ":scheme"), (octets "https")); ((octets ":authority"), (octets "example.com")); ((octets "accept"), (octets "application/json"))]) in let* t := (Ok default_table) in mk_headers (make_frame_header_flags 4 []) 1 b ModeNone t [] (Prio 0 0 0)).
Proof. building. Qed.

Example test_frame_builder_headers_frame_with_padding : builds_back (let* b := (make_header_block WithoutIndexing [((octets ":method"), (octets "GET")); ((octets ":path"), (octets "/")); ((octets ":scheme"), (octets "https")); ((octets ":authority"), (octets "example.com")); ((octets "accept"), (octets "application/json"))]) in let* t := (Ok default_table) in mk_headers (make_frame_header_flags 8 []) 1 b ModeNone t [] (Prio 0 0 0)).
Proof. building. Qed.

Example test_frame_builder_headers_frame_with_priority : builds_back (let* b := (make_header_block WithoutIndexing [((octets ":method"), (octets "GET")); ((octets ":path"), (octets "/")); ((octets ":scheme"), (octets "https")); ((octets ":authority"), (octets "example.com")); ((octets "accept"), (octets "application/json"))]) in let* t := (Ok default_table) in mk_headers (make_frame_header_flags 32 []) 1 b ModeNone t [] (Prio 1 12345 127)).
Proof. building. Qed.

Example test_frame_builder_headers_frame_with_padding_and_priority : builds_back (let* b := (make_header_block WithoutIndexing [((octets ":method"), (octets "GET")); ((octets ":path"), (octets "/")); ((octets ":scheme"), (octets "https")); ((octets ":authority"), (octets "example.com")); ((octets "accept"), (octets "application/json"))]) in let* t := (Ok default_table) in mk_headers (make_frame_header_flags 8 [32]) 1 b ModeNone t [66; 69; 69; 70] (Prio 1 12345 128)).
Proof. building. Qed.

Example test_frame_builder_ping_frame : builds_back (mk_ping 0 [112; 105; 110; 103]).
Proof. building. Qed.

Example test_frame_builder_ping_frame_with_ack : builds_back (mk_ping (make_frame_header_flags 1 []) [112; 105; 110; 103]).
Proof. building. Qed.

Example test_frame_builder_priority_frame : builds_back (mk_priority 3 (Prio 0 1 0)).
Proof. building. Qed.

Example test_frame_builder_priority_frame_with_exclusive : builds_back (mk_priority 3 (Prio 1 1 0)).
Proof. building. Qed.

Example test_frame_builder_priority_frame_with_weight : builds_back (mk_priority 3 (Prio 1 1 255)).
Proof. building. Qed.

Example test_frame_builder_push_promise_frame_no_flags : builds_back (let* b := (make_header_block WithoutIndexing [((octets ":status"), (octets "200")); ((octets ":content-length"), (octets "128")); ((octets ":content-type"), (octets "application/json"))]) in let* t := (Ok default_table) in mk_push_promise LittleEndian 0 1 (PushPromise 0 3 b []) ModeNone t).
Proof. building. Qed.

Example test_frame_builder_push_promise_frame_with_end_headers : builds_back (let* b := (make_header_block WithoutIndexing [((octets ":status"), (octets "200")); ((octets ":content-length"), (octets "128")); ((octets ":content-type"), (octets "application/json"))]) in let* t := (Ok default_table) in mk_push_promise LittleEndian (make_frame_header_flags 4 []) 1 (PushPromise 0 3 b []) ModeNone t).
Proof. building. Qed.

Example test_frame_builder_push_promise_frame_never_indexed : builds_back (let* b := (make_header_block NeverIndexed [((octets ":status"), (octets "200")); ((octets ":content-length"), (octets "128")); ((octets ":content-type"), (octets "application/json"))]) in let* t := (Ok default_table) in mk_push_promise LittleEndian (make_frame_header_flags 4 []) 1 (PushPromise 0 3 b []) ModeNone t).
Proof. building. Qed.

Example test_frame_builder_push_promise_frame_incremental_indexing : builds_back (let* b := (make_header_block IncrementalIndexing [((octets ":status"), (octets "200")); ((octets ":content-length"), (octets "128")); ((octets ":content-type"), (octets "application/json"))]) in let* t := (Ok default_table) in mk_push_promise LittleEndian (make_frame_header_flags 4 []) 1 (PushPromise 0 3 b []) ModeNone t).
Proof. building. Qed.

Example test_frame_builder_push_promise_frame_with_padding : builds_back (let* b := (make_header_block WithoutIndexing [((octets ":status"), (octets "200")); ((octets ":content-length"), (octets "128")); ((octets ":content-type"), (octets "application/json"))]) in let* t := (Ok default_table) in mk_push_promise LittleEndian (make_frame_header_flags 8 []) 1 (PushPromise 0 3 b [66; 69; 69; 70]) ModeNone t).
Proof. building. Qed.

Example test_frame_builder_rst_stream_frame : builds_back (Ok (mk_rst_stream 1 0)).
Proof. building. Qed.

Example test_frame_builder_rst_stream_frame_unknown_error_code : builds_back (Ok (mk_rst_stream 1 14)).
Proof. building. Qed.

Example test_frame_builder_rst_stream_frame_invalid_length : rejected_shortened (Ok (mk_rst_stream 1 14)).
Proof. throwing. Qed.

Example test_frame_builder_settings_frame_full_settings : builds_back (Ok (mk_settings 0 0 (make_sf_payload [(1, 512); (2, 0); (3, 16); (4, 65535); (5, 65535); (6, 256)]))).
Proof. building. Qed.

Example test_frame_builder_settings_frame_ack : builds_back (Ok (mk_settings (make_frame_header_flags 1 []) 0 (make_sf_payload []))).
Proof. building. Qed.

Example test_frame_builder_window_update_frame : builds_back (mk_window_update 0 0 2147483647).
Proof. building. Qed.

Example test_frame_builder_window_update_with_reserved : builds_back (mk_window_update 0 1 19088743).
Proof. building. Qed.

Example test_header_encoder_indexed_header : encode_header (HEntry Indexed (EHeader ((octets ":method"), (octets "GET")))) ModeNone default_table = Ok [130].
Proof. vm_compute; reflexivity. Qed.

Example test_header_encoder_indexed_name_INCREMENTAL_INDEXING : encode_header (HEntry IncrementalIndexing (EHeader ((octets ":authority"), (octets "example.com")))) ModeNone default_table = Ok [65; 11; 101; 120; 97; 109; 112; 108; 101; 46; 99; 111; 109].
Proof. vm_compute; reflexivity. Qed.

Example test_header_encoder_new_name_INCREMENTAL_INDEXING : encode_header (HEntry IncrementalIndexing (EHeader ((octets "hoge"), (octets "fuga")))) ModeNone default_table = Ok [64; 4; 104; 111; 103; 101; 4; 102; 117; 103; 97].
Proof. vm_compute; reflexivity. Qed.

Example test_header_encoder_indexed_name_WITHOUT_INDEXING : encode_header (HEntry WithoutIndexing (EHeader ((octets ":authority"), (octets "example.com")))) ModeNone default_table = Ok [1; 11; 101; 120; 97; 109; 112; 108; 101; 46; 99; 111; 109].
Proof. vm_compute; reflexivity. Qed.

Example test_header_encoder_new_name_WITHOUT_INDEXING : encode_header (HEntry WithoutIndexing (EHeader ((octets "hoge"), (octets "fuga")))) ModeNone default_table = Ok [0; 4; 104; 111; 103; 101; 4; 102; 117; 103; 97].
Proof. vm_compute; reflexivity. Qed.

Example test_header_encoder_indexed_name_NEVER_INDEXED : encode_header (HEntry NeverIndexed (EHeader ((octets ":authority"), (octets "example.com")))) ModeNone default_table = Ok [17; 11; 101; 120; 97; 109; 112; 108; 101; 46; 99; 111; 109].
Proof. vm_compute; reflexivity. Qed.

Example test_header_encoder_new_name_NEVER_INDEXED : encode_header (HEntry NeverIndexed (EHeader ((octets "hoge"), (octets "fuga")))) ModeNone default_table = Ok [16; 4; 104; 111; 103; 101; 4; 102; 117; 103; 97].
Proof. vm_compute; reflexivity. Qed.

Example test_header_encoder_SIZE_UPDATE : encode_header (HEntry SizeUpdate (ESize 8192)) ModeNone default_table = Ok [63; 225; 63].
Proof. vm_compute; reflexivity. Qed.

Example test_header_encoder_encode_with_huffman_encode : encode_header (HEntry NeverIndexed (EHeader ((octets "hoge"), (octets "fuga")))) ModeHuffman default_table = Ok [16; 131; 156; 243; 23; 131; 150; 217; 135].
Proof. vm_compute; reflexivity. Qed.

Example test_header_decoder_indexed_header : decodes_back (HEntry Indexed (EHeader ((octets ":method"), (octets "GET")))) ModeNone.
Proof. intros []; vm_compute; reflexivity. Qed.

Example test_header_decoder_indexed_name_INCREMENTAL_INDEXING : decodes_back (HEntry IncrementalIndexing (EHeader ((octets ":authority"), (octets "example.com")))) ModeNone.
Proof. intros []; vm_compute; reflexivity. Qed.

Example test_header_decoder_new_name_INCREMENTAL_INDEXING : decodes_back (HEntry IncrementalIndexing (EHeader ((octets "hoge"), (octets "fuga")))) ModeNone.
Proof. intros []; vm_compute; reflexivity. Qed.

Example test_header_decoder_indexed_name_WITHOUT_INDEXING : decodes_back (HEntry WithoutIndexing (EHeader ((octets ":authority"), (octets "example.com")))) ModeNone.
Proof. intros []; vm_compute; reflexivity. Qed.

Example test_header_decoder_new_name_WITHOUT_INDEXING : decodes_back (HEntry WithoutIndexing (EHeader ((octets "hoge"), (octets "fuga")))) ModeNone.
Proof. intros []; vm_compute; reflexivity. Qed.

Example test_header_decoder_indexed_name_NEVER_INDEXED : decodes_back (HEntry NeverIndexed (EHeader ((octets ":authority"), (octets "example.com")))) ModeNone.
Proof. intros []; vm_compute; reflexivity. Qed.

Example test_header_decoder_new_name_NEVER_INDEXED : decodes_back (HEntry NeverIndexed (EHeader ((octets "hoge"), (octets "fuga")))) ModeNone.
Proof. intros []; vm_compute; reflexivity. Qed.

Example test_header_decoder_SIZE_UPDATED : decodes_back (HEntry SizeUpdate (ESize 8192)) ModeNone.
Proof. intros []; vm_compute; reflexivity. Qed.

Example test_header_decoder_decode_huffman_encoded_header : decodes_back (HEntry NeverIndexed (EHeader ((octets "hoge"), (octets "fuga")))) ModeHuffman.
Proof. intros []; vm_compute; reflexivity. Qed.

Example test_encode_integer_value_7bit_1byte_low_limit : encode_integer_value 7 0 = [0].
Proof. vm_compute; reflexivity. Qed.

Example test_encode_integer_value_7bit_1byte_high_limit : encode_integer_value 7 126 = [126].
Proof. vm_compute; reflexivity. Qed.

Example test_encode_integer_value_7bit_2byte : encode_integer_value 7 127 = [127; 0].
Proof. vm_compute; reflexivity. Qed.

Example test_encode_integer_value_7bit_3byte : encode_integer_value 7 255 = [127; 128; 1].
Proof. vm_compute; reflexivity. Qed.

Example test_encode_integer_value_6bit_1byte_low_limit : encode_integer_value 6 0 = [0].
Proof. vm_compute; reflexivity. Qed.

Example test_encode_integer_value_6bit_1byte_high_limit : encode_integer_value 6 62 = [62].
Proof. vm_compute; reflexivity. Qed.

Example test_encode_integer_value_6bit_2byte : encode_integer_value 6 63 = [63; 0].
Proof. vm_compute; reflexivity. Qed.

Example test_encode_integer_value_6bit_3byte : encode_integer_value 6 191 = [63; 128; 1].
Proof. vm_compute; reflexivity. Qed.

Example test_encode_integer_value_4bit_1byte_low_limit : encode_integer_value 4 0 = [0].
Proof. vm_compute; reflexivity. Qed.

Example test_encode_integer_value_4bit_1byte_high_limit : encode_integer_value 4 14 = [14].
Proof. vm_compute; reflexivity. Qed.

Example test_encode_integer_value_4bit_2byte : encode_integer_value 4 15 = [15; 0].
Proof. vm_compute; reflexivity. Qed.

Example test_encode_integer_value_4bit_3byte : encode_integer_value 4 143 = [15; 128; 1].
Proof. vm_compute; reflexivity. Qed.

Example test_decode_integer_value_7bit_1byte_low_limit : decode_integer_value 7 (encode_integer_value 7 0) = Ok 0.
Proof. vm_compute; reflexivity. Qed.

Example test_decode_integer_value_7bit_1byte_high_limit : decode_integer_value 7 (encode_integer_value 7 126) = Ok 126.
Proof. vm_compute; reflexivity. Qed.

Example test_decode_integer_value_7bit_2byte : decode_integer_value 7 (encode_integer_value 7 127) = Ok 127.
Proof. vm_compute; reflexivity. Qed.

Example test_decode_integer_value_7bit_3byte : decode_integer_value 7 (encode_integer_value 7 255) = Ok 255.
Proof. vm_compute; reflexivity. Qed.

Example test_decode_integer_value_6bit_1byte_low_limit : decode_integer_value 6 (encode_integer_value 6 0) = Ok 0.
Proof. vm_compute; reflexivity. Qed.

Example test_decode_integer_value_6bit_1byte_high_limit : decode_integer_value 6 (encode_integer_value 6 62) = Ok 62.
Proof. vm_compute; reflexivity. Qed.

Example test_decode_integer_value_6bit_2byte : decode_integer_value 6 (encode_integer_value 6 63) = Ok 63.
Proof. vm_compute; reflexivity. Qed.

Example test_decode_integer_value_6bit_3byte : decode_integer_value 6 (encode_integer_value 6 191) = Ok 191.
Proof. vm_compute; reflexivity. Qed.

Example test_decode_integer_value_4bit_1byte_low_limit : decode_integer_value 4 (encode_integer_value 4 0) = Ok 0.
Proof. vm_compute; reflexivity. Qed.

Example test_decode_integer_value_4bit_1byte_high_limit : decode_integer_value 4 (encode_integer_value 4 14) = Ok 14.
Proof. vm_compute; reflexivity. Qed.

Example test_decode_integer_value_4bit_2byte : decode_integer_value 4 (encode_integer_value 4 15) = Ok 15.
Proof. vm_compute; reflexivity. Qed.

Example test_decode_integer_value_4bit_3byte : decode_integer_value 4 (encode_integer_value 4 143) = Ok 143.
Proof. vm_compute; reflexivity. Qed.

Example test_huffman_encoder_simple_data_302 : huffman_encode [51; 48; 50] = Ok [100; 2].
Proof. vm_compute; reflexivity. Qed.

Example test_huffman_encoder_simple_data_private : huffman_encode [112; 114; 105; 118; 97; 116; 101] = Ok [174; 195; 119; 26; 75].
Proof. vm_compute; reflexivity. Qed.

Example test_huffman_encoder_simple_data_date : huffman_encode [77; 111; 110; 44; 32; 50; 49; 32; 79; 99; 116; 32; 50; 48; 49; 51; 32; 50; 48; 58; 49; 51; 58; 50; 49; 32; 71; 77; 84] = Ok [208; 122; 190; 148; 16; 84; 212; 68; 168; 32; 5; 149; 4; 11; 129; 102; 224; 130; 166; 45; 27; 255].
Proof. vm_compute; reflexivity. Qed.

Example test_huffman_encoder_simple_data_url : huffman_encode [104; 116; 116; 112; 115; 58; 47; 47; 119; 119; 119; 46; 101; 120; 97; 109; 112; 108; 101; 46; 99; 111; 109] = Ok [157; 41; 173; 23; 24; 99; 199; 143; 11; 151; 200; 233; 174; 130; 174; 67; 211].
Proof. vm_compute; reflexivity. Qed.

Example test_huffman_decoder_simple_data_302 : huffman_decode [100; 2] = Ok [51; 48; 50].
Proof. vm_compute; reflexivity. Qed.

Example test_huffman_decoder_simple_data_private : huffman_decode [174; 195; 119; 26; 75] = Ok [112; 114; 105; 118; 97; 116; 101].
Proof. vm_compute; reflexivity. Qed.

Example test_huffman_decoder_simple_data_date : huffman_decode [208; 122; 190; 148; 16; 84; 212; 68; 168; 32; 5; 149; 4; 11; 129; 102; 224; 130; 166; 45; 27; 255] = Ok [77; 111; 110; 44; 32; 50; 49; 32; 79; 99; 116; 32; 50; 48; 49; 51; 32; 50; 48; 58; 49; 51; 58; 50; 49; 32; 71; 77; 84].
Proof. vm_compute; reflexivity. Qed.

Example test_huffman_decoder_simple_data_url : huffman_decode [157; 41; 173; 23; 24; 99; 199; 143; 11; 151; 200; 233; 174; 130; 174; 67; 211] = Ok [104; 116; 116; 112; 115; 58; 47; 47; 119; 119; 119; 46; 101; 120; 97; 109; 112; 108; 101; 46; 99; 111; 109].
Proof. vm_compute; reflexivity. Qed.

(* ---- hpack/dynamic_table_test.cpp ---- *)

(* test/hpack/dynamic_table_test.cpp:38 *)
Definition authority : list N * list N := (octets ":authority", octets "example.com").
(* test/hpack/dynamic_table_test.cpp:39 *)
Definition content_type : list N * list N := (octets "content-type", octets "application/json").

Example test_dynamic_table_push_single_header : dt_push default_table authority = Ok (DynTable [authority] 53 4096).
Proof. vm_compute. reflexivity. Qed.
Example test_dynamic_table_push_multiple_header :
  (let* t := dt_push default_table authority in dt_push t content_type) = Ok (DynTable [content_type; authority] 113 4096).
Proof. vm_compute. reflexivity. Qed.
Example test_dynamic_table_resize_table :
  (let* t := dt_push (new_table 60) authority in dt_push t content_type) = Ok (DynTable [content_type] 60 60).
Proof. vm_compute. reflexivity. Qed.
Example test_dynamic_table_update_table_size :
  (let* t := dt_push default_table authority in let* t := dt_push t content_type in dt_update_size t 60) =
  Ok (DynTable [content_type] 60 60).
Proof. vm_compute. reflexivity. Qed.

(* ---- hpack/static_table_definition_test.cpp ---- *)

Example test_reverse_static_table_entries_reverse_check :
  forallb (fun row => match reverse_static_find (snd row) with Some i => i =? fst row | None => false end)
    static_table_entries = true /\ length reverse_static_table_entries = length static_table_entries.
Proof. vm_compute. auto. Qed.

(* ---- util/byte_order_test.cpp, util/bit_operation_test.cpp ---- *)

Example test_byte_order_bytes2integral : bytes2integral 1 [0x12] 0 = Ok 0x12 /\ bytes2integral 2 [0x12; 0x34] 0 = Ok 0x1234 /\
  bytes2integral 4 [0x12; 0x34; 0x56; 0x78] 0 = Ok 0x12345678.
Proof. vm_compute. auto. Qed.
Example test_byte_order_integral2bytes : integral2bytes 1 0x12 = [0x12] /\ integral2bytes 2 0x1234 = [0x12; 0x34] /\
  integral2bytes 4 0x12345678 = [0x12; 0x34; 0x56; 0x78].
Proof. vm_compute. auto. Qed.
Example test_bit_operation_extract : extract_low_bit 1 254 = 0 /\ extract_low_bit 7 170 = 42 /\ extract_high_bit 1 8 128 = 1 /\
  extract_high_bit 7 8 170 = 85.
Proof. vm_compute. auto. Qed.
Example test_bit_operation_is_flag_set : is_flag_set 143 128 = true /\ is_flag_set 15 128 = false /\
  is_flag_set 65344 64 = true /\ is_flag_set 65280 64 = false /\ is_flag_set 143 64 = false.
Proof. vm_compute. auto. Qed.
