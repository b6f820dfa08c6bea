(* Model of mh2c/frame/frame_builder.cpp. *)
From Coq Require Import NArith List Bool.
From Verif Require Import Base Util HeaderType DynTable FrameHeader Frames.
Import ListNotations.
Open Scope N_scope.

(* frame_builder.cpp:50-54; the received header is replaced by a new one *)
Definition build_data_frame (h : frame_header) (raw : bytes) : res frame :=
  Ok (mk_data (fh_flags h) (fh_stream_id h) raw).

(* frame_builder.cpp:38-42 and 56-66: any std::exception thrown while decoding
   gives a raw_frame (the message printed to std::cout is in Messages.v) *)
Definition build_headers_frame (m : ub_mode) (h : frame_header) (raw : bytes)
    (t : dyn_table) : res frame :=
  match parse_headers m h raw t with
  | Throw _ => Ok (RawFrame h raw)
  | r => r
  end.

(* frame_builder.cpp:102-108, the for loop; reading or advancing past end() is
   undefined.  One entry per iteration; the list shrinks by 6. *)
Fixpoint settings_loop (fuel : nat) (raw : bytes) (m : settings_map) : res settings_map :=
  match raw with
  | [] => Ok m
  | _ =>
      match fuel with
      | O => NoFuel
      | S f =>
          let* id := bytes2integral 2 raw 0 in
          let* value := bytes2integral 4 raw 2 in
          let* raw' := verase_front raw 6 in
          settings_loop f raw' (sm_insert m id value)
      end
  end.

(* frame_builder.cpp:98-111 *)
Definition build_settings_frame (h : frame_header) (raw : bytes) : res frame :=
  let* m := settings_loop (length raw) raw [] in
  Ok (mk_settings (fh_flags h) (fh_stream_id h) m).

(* frame_builder.cpp:123-143, builder_func_map and build_frame *)
Definition build_frame (m : ub_mode) (h : frame_header) (raw : bytes) (t : dyn_table)
  : res frame :=
  let ty := fh_type h in
  if ty =? T_DATA then build_data_frame h raw
  else if ty =? T_HEADERS then build_headers_frame m h raw t
  else if ty =? T_PRIORITY then parse_priority h raw
  else if ty =? T_RST_STREAM then parse_rst_stream h raw
  else if ty =? T_SETTINGS then build_settings_frame h raw
  else if ty =? T_PUSH_PROMISE then parse_push_promise m h raw t
  else if ty =? T_PING then parse_ping h raw
  else if ty =? T_GOAWAY then parse_goaway h raw
  else if ty =? T_WINDOW_UPDATE then parse_window_update h raw
  else if ty =? T_CONTINUATION then parse_continuation m h raw t
  else Throw OutOfRange.
