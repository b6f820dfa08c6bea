(* What the accessors of the frame classes and the remaining convenience
   constructors return. *)
From Coq Require Import ZArith NArith List Bool.
From Verif Require Import Base Util HeaderType DynTable FrameHeader Frames.
Import ListNotations.
Local Open Scope N_scope.

(* The result types of get_payload(), one per class: byte_array_t,
   header_block_t, priority_payload, error_codes, sf_payload_t,
   push_promise_payload, goaway_payload and window_size_t
   (mh2c/frame/raw_frame.h:21, data_frame.h:30, headers_frame.h:47,
   priority_frame.h:33, rst_stream_frame.h:24, settings_frame.h:46,
   push_promise_frame.h:46, ping_frame.h:26, goaway_frame.h:34,
   window_update_frame.h:28, continuation_frame.h:32) *)
Inductive payload_view :=
| VBytes (b : bytes)
| VBlock (b : header_block)
| VPriority (p : priority_option)
| VCode (error_code : N)
| VSettings (m : settings_map)
| VPromise (p : push_promise_payload)
| VGoaway (p : goaway_payload)
| VWindow (w : N).

(* mh2c/frame/raw_frame.cpp:31, data_frame.cpp:47, headers_frame.cpp:172,
   priority_frame.cpp:90, rst_stream_frame.cpp:53, settings_frame.cpp:61,
   push_promise_frame.cpp:145-147, ping_frame.cpp:55, goaway_frame.cpp:86,
   window_update_frame.cpp:86-89, continuation_frame.cpp:90-92 *)
Definition get_payload (f : frame) : payload_view :=
  match f with
  | RawFrame _ p => VBytes p
  | DataFrame _ p => VBytes p
  | HeadersFrame _ _ _ _ b => VBlock b
  | PriorityFrame _ p => VPriority p
  | RstStreamFrame _ e => VCode e
  | SettingsFrame _ m => VSettings m
  | PushPromiseFrame _ _ p => VPromise p
  | PingFrame _ o => VBytes o
  | GoawayFrame _ p => VGoaway p
  | WindowUpdateFrame _ r w => VWindow (window_update_get_payload r w)
  | ContinuationFrame _ _ b => VBlock b
  end.

(* mh2c/frame/raw_frame.cpp:29, data_frame.cpp:45, headers_frame.cpp:170,
   priority_frame.cpp:88, rst_stream_frame.cpp:51, settings_frame.cpp:59,
   push_promise_frame.cpp:143, ping_frame.cpp:53, goaway_frame.cpp:84,
   window_update_frame.cpp:84, continuation_frame.cpp:88 *)
Definition get_header (f : frame) : frame_header := frame_fh f.

(* mh2c/frame/data_frame.cpp:39-43, the constructor from a std::string: each
   char, signed on the usual platforms, is converted to uint8_t *)
Definition mk_data_string (flags stream_id : N) (s : list Z) : frame :=
  DataFrame (FH (cast_to_fh_length (N.of_nat (length s))) T_DATA flags 0 stream_id)
    (map (fun c => Z.to_N (c mod 256)) s).

(* mh2c/frame/window_update_frame.cpp:63-65, the two-argument constructor *)
Definition mk_window_update2 (stream_id increment : N) : res frame :=
  mk_window_update stream_id 0 increment.

(* mh2c/hpack/header_type.cpp:75-78, make_header_block of one header *)
Definition make_header_block1 (p : hprefix) (h : header) : res header_block :=
  make_header_block p [h].

(* mh2c/hpack/header_type.cpp:39-41 and 58-60, get_prefix and get_entry *)
Definition get_prefix (e : hentry) : hprefix := e_prefix e.
(* mh2c/hpack/header_type.cpp:58-60, get_entry *)
Definition get_entry (e : hentry) : entry_content := e_content e.

(* mh2c/frame/settings_frame.ipp:14-17, make_sf_parameter; sf_id_t is uint16_t *)
Definition make_sf_parameter (id value : N) : N * N := (u16 id, value).

(* mh2c/frame/data_frame.cpp:111-113, headers_frame.cpp:254-256 and the others,
   operator!= *)
Definition frame_neqb (a b : frame) : bool := negb (frame_eqb a b).
