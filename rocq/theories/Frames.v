(* Model of the frame classes in mh2c/frame. *)
From Coq Require Import NArith List Bool.
From Verif Require Import Base Util HeaderType DynTable HeaderEnc HeaderDec FrameHeader.
Import ListNotations.
Open Scope N_scope.

(* mh2c/frame/data_frame.h:17-20, headers_frame.h:19-24,
   push_promise_frame.h:19-22, continuation_frame.h:18-20,
   settings_frame.h:19-21, ping_frame.h:16-18 *)
Definition F_END_STREAM : N := 0x01.
(* mh2c/frame/settings_frame.h:20 and ping_frame.h:17 *)
Definition F_ACK : N := 0x01.
(* mh2c/frame/headers_frame.h:21, push_promise_frame.h:20 and
   continuation_frame.h:19 *)
Definition F_END_HEADERS : N := 0x04.
(* mh2c/frame/data_frame.h:19, headers_frame.h:22 and push_promise_frame.h:21
   *)
Definition F_PADDED : N := 0x08.
(* mh2c/frame/headers_frame.h:23 *)
Definition F_PRIORITY : N := 0x20.

(* mh2c/frame/priority_frame.h:17-21 (priority_payload) and
   headers_frame.h:29-33 (hf_priority_option): same fields *)
Record priority_option := Prio {
  p_exclusive : N;          (* uint8 *)
  p_dependency : N;         (* uint32 *)
  p_weight : N              (* uint8 *)
}.

(* mh2c/frame/goaway_frame.h:18-23 *)
Record goaway_payload := Goaway {
  g_reserved : N;           (* uint8 *)
  g_last_stream_id : N;     (* uint32 *)
  g_error_code : N;         (* error_codes, underlying uint32 *)
  g_debug : bytes
}.

(* mh2c/frame/push_promise_frame.h:24-29 *)
Record push_promise_payload := PushPromise {
  pp_reserved : N;          (* uint8 *)
  pp_promised : N;          (* uint32 *)
  pp_block : header_block;
  pp_padding : bytes
}.

(* mh2c/frame/settings_frame.h:27, std::map<uint16_t, uint32_t>: pairs in
   increasing key order *)
Definition settings_map := list (N * N).

(* std::map::insert / emplace: an existing key keeps its value *)
Fixpoint sm_insert (m : settings_map) (k v : N) : settings_map :=
  match m with
  | [] => [(k, v)]
  | (k', v') :: m' =>
      if k <? k' then (k, v) :: m
      else if k =? k' then m
      else (k', v') :: sm_insert m' k v
  end.

(* std::map::find *)
Fixpoint sm_find (m : settings_map) (k : N) : option N :=
  match m with
  | [] => None
  | (k', v') :: m' => if k =? k' then Some v' else sm_find m' k
  end.

(* The frame objects of the library; the private members of each class. (the
   private part of each class in mh2c/frame/*_frame.h, for instance
   data_frame.h:35-37) *)
Inductive frame :=
| RawFrame (h : frame_header) (payload : bytes)
| DataFrame (h : frame_header) (payload : bytes)
| HeadersFrame (encoded : bytes) (h : frame_header) (padding : bytes)
    (prio : priority_option) (block : header_block)
| PriorityFrame (h : frame_header) (p : priority_option)
| RstStreamFrame (h : frame_header) (error_code : N)
| SettingsFrame (h : frame_header) (m : settings_map)
| PushPromiseFrame (encoded : bytes) (h : frame_header) (p : push_promise_payload)
| PingFrame (h : frame_header) (opaque : bytes)
| GoawayFrame (h : frame_header) (p : goaway_payload)
| WindowUpdateFrame (h : frame_header) (reserved increment : N)
| ContinuationFrame (encoded : bytes) (h : frame_header) (block : header_block).

(* get_header() of every class (data_frame.cpp:45, headers_frame.cpp:170,
   goaway_frame.cpp:84, ping_frame.cpp:53, priority_frame.cpp:88,
   push_promise_frame.cpp:143, raw_frame.cpp:29, rst_stream_frame.cpp:51,
   settings_frame.cpp:59, window_update_frame.cpp:84,
   continuation_frame.cpp:88) *)
Definition frame_fh (f : frame) : frame_header :=
  match f with
  | RawFrame h _ | DataFrame h _ | HeadersFrame _ h _ _ _ | PriorityFrame h _
  | RstStreamFrame h _ | SettingsFrame h _ | PushPromiseFrame _ h _
  | PingFrame h _ | GoawayFrame h _ | WindowUpdateFrame h _ _
  | ContinuationFrame _ h _ => h
  end.

(* x << 31 for x of type uint8_t: an int shift, defined (C++17, CWG 1457) only
   when x * 2^31 fits unsigned int *)
Definition shl31 (x : N) : res N :=
  if 2 <=? x then UB BadShift else Ok (N.shiftl x STREAM_ID_BITS).

(* ---- header blocks ---- *)

(* mh2c/frame/headers_frame.cpp:59-66, push_promise_frame.cpp:51-57,
   continuation_frame.cpp:32-39: encode every entry against the same table *)
Fixpoint encode_block (b : header_block) (mode : encode_mode) (t : dyn_table)
  : res bytes :=
  match b with
  | [] => Ok []
  | e :: b' =>
      let* x := encode_header e mode t in
      let* y := encode_block b' mode t in
      Ok (x ++ y)
  end.

(* mh2c/frame/headers_frame.cpp:132-136, push_promise_frame.cpp:101-105,
   continuation_frame.cpp:57-61: decode until the data is used up, every entry
   against the same table.  Fuel: the number of octets. *)
Fixpoint decode_block_loop (m : ub_mode) (fuel : nat) (raw : bytes) (t : dyn_table)
  : res header_block :=
  if 0 <? size raw then
    match fuel with
    | O => NoFuel
    | S f =>
        let* (e, n) := decode_header m raw t in
        let* raw' := verase_front raw n in
        let* b := decode_block_loop m f raw' t in
        Ok (e :: b)
    end
  else Ok [].

(* the same loop from its start, mh2c/frame/headers_frame.cpp:132-136 *)
Definition decode_block (m : ub_mode) (raw : bytes) (t : dyn_table) : res header_block :=
  decode_block_loop m (length raw) raw t.

(* mh2c/frame/headers_frame.cpp:97-106 and push_promise_frame.cpp:82-91:
   front() (undefined on an empty vector), end() - pad_length (undefined before
   begin()), two erases (the second undefined on an empty vector).  Returns
   padding and remaining data. *)
Definition split_padding (raw : bytes) : res (bytes * bytes) :=
  match raw with
  | [] => UB EmptyBack
  | pad_length :: _ =>
      if size raw <? pad_length then UB BadRange
      else
        let k := N.to_nat (size raw - pad_length) in
        let padding := skipn k raw in
        match firstn k raw with
        | [] => UB BadRange
        | _ :: data => Ok (padding, data)
        end
  end.

(* ---- DATA: mh2c/frame/data_frame.cpp ---- *)

(* data_frame.cpp:24-29 and 35-43, constructor *)
Definition mk_data (flags stream_id : N) (payload : bytes) : frame :=
  DataFrame (FH (cast_to_fh_length (size payload)) T_DATA flags 0 stream_id) payload.

(* ---- PING: mh2c/frame/ping_frame.cpp ---- *)

(* ping_frame.cpp:29-42, construct_opaque_data *)
Definition construct_opaque_data (d : bytes) : res bytes :=
  if 8 <? size d then Throw InvalidArgument
  else Ok (d ++ repeat 0 (8 - length d)).

(* ping_frame.cpp:24-27 and 46-48, constructor *)
Definition mk_ping (flags : N) (d : bytes) : res frame :=
  let* o := construct_opaque_data d in
  Ok (PingFrame (FH 8 T_PING flags 0 0) o).

(* ping_frame.cpp:50-51, constructor from a received frame *)
Definition parse_ping (h : frame_header) (raw : bytes) : res frame :=
  Ok (PingFrame h raw).

(* ---- GOAWAY: mh2c/frame/goaway_frame.cpp ---- *)

(* goaway_frame.cpp:24-30 and 77-78, constructor *)
Definition mk_goaway (p : goaway_payload) : frame :=
  GoawayFrame (FH (u32 (4 + 4 + size (g_debug p))) T_GOAWAY 0 0 0) p.

(* goaway_frame.cpp:32-62, construct_payload *)
Definition goaway_construct_payload (raw : bytes) : res goaway_payload :=
  if size raw <? 8 then Throw InvalidArgument
  else
    let* x := bytes2integral 4 raw 0 in
    let* ec := bytes2integral 4 raw 4 in
    let debug := if 8 <? size raw then skipn 8 raw else [] in
    Ok (Goaway (u8 (extract_high_bit RESERVED_BITS 32 x))
               (extract_low_bit STREAM_ID_BITS x) ec debug).

(* goaway_frame.cpp:80-82, constructor from a received frame *)
Definition parse_goaway (h : frame_header) (raw : bytes) : res frame :=
  let* p := goaway_construct_payload raw in Ok (GoawayFrame h p).

(* ---- RST_STREAM: mh2c/frame/rst_stream_frame.cpp ---- *)

(* rst_stream_frame.cpp:23-26 and 43-45, constructor *)
Definition mk_rst_stream (stream_id error_code : N) : frame :=
  RstStreamFrame (FH 4 T_RST_STREAM 0 0 stream_id) error_code.

(* rst_stream_frame.cpp:28-39 and 47-49, constructor from a received frame *)
Definition parse_rst_stream (h : frame_header) (raw : bytes) : res frame :=
  if size raw <? 4 then Throw InvalidArgument
  else let* ec := bytes2integral 4 raw 0 in Ok (RstStreamFrame h ec).

(* ---- PRIORITY: mh2c/frame/priority_frame.cpp ---- *)

(* priority_frame.cpp:48-62, validate_payload *)
Definition validate_priority (p : priority_option) : res unit :=
  if 1 <? p_exclusive p then Throw InvalidArgument
  else if MAX_STREAM_ID <? p_dependency p then Throw InvalidArgument
  else Ok tt.

(* priority_frame.cpp:27-30 and 76-80, constructor *)
Definition mk_priority (stream_id : N) (p : priority_option) : res frame :=
  let* _ := validate_priority p in
  Ok (PriorityFrame (FH 5 T_PRIORITY 0 0 stream_id) p).

(* priority_frame.cpp:32-46, construct_payload *)
Definition priority_construct_payload (raw : bytes) : res priority_option :=
  if size raw <? 5 then Throw InvalidArgument
  else
    let* b0 := vget raw 0 in
    let* x := bytes2integral 4 raw 0 in
    let* w := vget raw 4 in
    Ok (Prio (extract_high_bit 1 8 b0) (extract_low_bit STREAM_ID_BITS x) w).

(* priority_frame.cpp:82-86, constructor from a received frame *)
Definition parse_priority (h : frame_header) (raw : bytes) : res frame :=
  let* p := priority_construct_payload raw in
  let* _ := validate_priority p in
  Ok (PriorityFrame h p).

(* ---- WINDOW_UPDATE: mh2c/frame/window_update_frame.cpp ---- *)

(* window_update_frame.cpp:54-59, validate_window_size *)
Definition validate_window_size (w : N) : res unit :=
  if 0x7fffffff <? w then Throw InvalidArgument else Ok tt.

(* window_update_frame.cpp:28-31 and 67-74, constructor (the two-argument
   constructor of lines 63-65 is reserved = 0) *)
Definition mk_window_update (stream_id reserved increment : N) : res frame :=
  let* _ := validate_window_size increment in
  Ok (WindowUpdateFrame (FH 4 T_WINDOW_UPDATE 0 0 stream_id) reserved increment).

(* window_update_frame.cpp:33-52 and 76-82, constructor from a received frame *)
Definition parse_window_update (h : frame_header) (raw : bytes) : res frame :=
  let* r :=
    match raw with
    | [] => Throw InvalidArgument
    | b0 :: _ => Ok (extract_high_bit RESERVED_BITS 8 b0)
    end in
  let* w :=
    if negb (size raw =? 4) then Throw InvalidArgument
    else let* x := bytes2integral 4 raw 0 in Ok (extract_low_bit 31 x) in
  let* _ := validate_window_size w in
  Ok (WindowUpdateFrame h r w).

(* window_update_frame.cpp:86-89, get_payload *)
Definition window_update_get_payload (reserved increment : N) : N :=
  N.lor (N.shiftl (extract_low_bit RESERVED_BITS reserved) 31)
        (extract_low_bit 31 increment).

(* ---- SETTINGS: mh2c/frame/settings_frame.cpp ---- *)

(* settings_frame.cpp:39-46 and 53-57, constructor *)
Definition mk_settings (flags stream_id : N) (m : settings_map) : frame :=
  SettingsFrame (FH (u32 ((2 + 4) * size m)) T_SETTINGS flags 0 stream_id) m.

(* settings_frame.cpp:120-128, make_sf_payload (ids are uint16 enumerators) *)
Definition make_sf_payload (params : list (N * N)) : settings_map :=
  fold_left (fun m kv => sm_insert m (fst kv) (snd kv)) params [].

(* settings_frame.cpp:66-79, the octets of the payload *)
Definition settings_payload_bytes (host : endian) (m : settings_map) : bytes :=
  flat_map (fun kv => net_bytes host 2 (fst kv) ++ net_bytes host 4 (snd kv)) m.

(* ---- HEADERS: mh2c/frame/headers_frame.cpp ---- *)

(* headers_frame.cpp:34-75, construct_encoded_payload *)
Definition headers_construct_payload (flags : N) (b : header_block) (mode : encode_mode)
    (t : dyn_table) (padding : bytes) (prio : priority_option) : res bytes :=
  let padded := is_flag_set flags F_PADDED in
  let pad_len := if padded then [u8 (size padding)] else [] in
  let* pr :=
    if is_flag_set flags F_PRIORITY then
      let* e := shl31 (p_exclusive prio) in
      Ok (integral2bytes 4 (N.lor e (extract_low_bit STREAM_ID_BITS (p_dependency prio)))
          ++ [p_weight prio])
    else Ok [] in
  let* blk := encode_block b mode t in
  Ok (pad_len ++ pr ++ blk ++ (if padded then padding else [])).

(* headers_frame.cpp:77-82 and 146-158, constructor *)
Definition mk_headers (flags stream_id : N) (b : header_block) (mode : encode_mode)
    (t : dyn_table) (padding : bytes) (prio : priority_option) : res frame :=
  let* enc := headers_construct_payload flags b mode t padding prio in
  Ok (HeadersFrame enc (FH (cast_to_fh_length (size enc)) T_HEADERS flags 0 stream_id)
        padding prio b).

(* headers_frame.cpp:109-129, priority fields: copies begin()..begin()+4
   (undefined with fewer octets), front() (undefined on an empty vector) *)
Definition headers_split_priority (raw : bytes) : res (priority_option * bytes) :=
  let* dep := vrange raw 0 4 in
  let* b0 := vget dep 0 in
  let* x := bytes2integral 4 dep 0 in
  let* raw' := verase_front raw 4 in
  match raw' with
  | [] => UB EmptyBack
  | w :: data =>
      Ok (Prio (extract_high_bit 1 8 b0) (extract_low_bit STREAM_ID_BITS x) w, data)
  end.

(* headers_frame.cpp:90-139, decode_payload *)
Definition headers_decode_payload (m : ub_mode) (h : frame_header) (raw : bytes) (t : dyn_table)
  : res (bytes * priority_option * header_block) :=
  let* (padding, data) :=
    if is_flag_set (fh_flags h) F_PADDED then split_padding raw else Ok ([], raw) in
  let* (prio, data) :=
    if is_flag_set (fh_flags h) F_PRIORITY then headers_split_priority data
    else Ok (Prio 0 0 0, data) in
  let* b := decode_block m data t in
  Ok (padding, prio, b).

(* headers_frame.cpp:160-168, constructor from a received frame *)
Definition parse_headers (m : ub_mode) (h : frame_header) (raw : bytes) (t : dyn_table)
  : res frame :=
  let* (padding, prio, b) := headers_decode_payload m h raw t in
  Ok (HeadersFrame raw h padding prio b).

(* ---- PUSH_PROMISE: mh2c/frame/push_promise_frame.cpp ---- *)

(* push_promise_frame.cpp:28-66, construct_encoded_payload *)
Definition push_promise_construct_payload (host : endian) (flags : N)
    (p : push_promise_payload) (mode : encode_mode) (t : dyn_table) : res bytes :=
  let padded := is_flag_set flags F_PADDED in
  let pad_len := if padded then [u8 (size (pp_padding p))] else [] in
  let id :=
    net_bytes host 4
      (N.lor (N.shiftl (extract_low_bit RESERVED_BITS (pp_reserved p)) STREAM_ID_BITS)
             (extract_low_bit STREAM_ID_BITS (pp_promised p))) in
  let* blk := encode_block (pp_block p) mode t in
  Ok (pad_len ++ id ++ blk ++ (if padded then pp_padding p else [])).

(* push_promise_frame.cpp:68-74 and 125-134, constructor *)
Definition mk_push_promise (host : endian) (flags stream_id : N)
    (p : push_promise_payload) (mode : encode_mode) (t : dyn_table) : res frame :=
  let* enc := push_promise_construct_payload host flags p mode t in
  Ok (PushPromiseFrame enc
        (FH (cast_to_fh_length (size enc)) T_PUSH_PROMISE flags 0 stream_id) p).

(* push_promise_frame.cpp:76-108, decode_payload *)
Definition push_promise_decode_payload (m : ub_mode) (h : frame_header) (raw : bytes)
    (t : dyn_table) : res push_promise_payload :=
  let* (padding, data) :=
    if is_flag_set (fh_flags h) F_PADDED then split_padding raw else Ok ([], raw) in
  let* b0 := vget data 0 in
  let* x := bytes2integral 4 data 0 in
  let* data' := verase_front data 4 in
  let* b := decode_block m data' t in
  Ok (PushPromise (extract_high_bit RESERVED_BITS 8 b0)
        (extract_low_bit STREAM_ID_BITS x) b padding).

(* push_promise_frame.cpp:136-141, constructor from a received frame *)
Definition parse_push_promise (m : ub_mode) (h : frame_header) (raw : bytes) (t : dyn_table)
  : res frame :=
  let* p := push_promise_decode_payload m h raw t in
  Ok (PushPromiseFrame raw h p).

(* ---- CONTINUATION: mh2c/frame/continuation_frame.cpp ---- *)

(* continuation_frame.cpp:26-49 and 71-79, constructor *)
Definition mk_continuation (flags stream_id : N) (b : header_block) (mode : encode_mode)
    (t : dyn_table) : res frame :=
  let* enc := encode_block b mode t in
  Ok (ContinuationFrame enc
        (FH (cast_to_fh_length (size enc)) T_CONTINUATION flags 0 stream_id) b).

(* continuation_frame.cpp:51-64 and 81-86, constructor from a received frame *)
Definition parse_continuation (m : ub_mode) (h : frame_header) (raw : bytes) (t : dyn_table)
  : res frame :=
  let* b := decode_block m raw t in
  Ok (ContinuationFrame raw h b).

(* ---- serialize() of every class ---- *)

(* goaway_frame.cpp:91-111, the octets of the payload *)
Definition goaway_payload_bytes (host : endian) (p : goaway_payload) : res bytes :=
  let* r := shl31 (g_reserved p) in
  let x := N.lor (extract_low_bit STREAM_ID_BITS (g_last_stream_id p)) r in
  Ok (net_bytes host 4 x ++ net_bytes host 4 (g_error_code p) ++
      (if 0 <? size (g_debug p) then g_debug p else [])).

(* raw_frame.cpp:22-27, data_frame.cpp:49-55, headers_frame.cpp:174-179,
   priority_frame.cpp:92-110, rst_stream_frame.cpp:55-64,
   settings_frame.cpp:63-82, push_promise_frame.cpp:149-154,
   ping_frame.cpp:57-64, goaway_frame.cpp:88-114,
   window_update_frame.cpp:91-103, continuation_frame.cpp:94-99: the octets
   that serialize() appends after the serialised header *)
Definition payload_bytes (host : endian) (f : frame) : res bytes :=
  match f with
  | RawFrame _ p => Ok p
  | DataFrame _ p => Ok p
  | HeadersFrame enc _ _ _ _ => Ok enc
  | PriorityFrame _ p =>
      Ok (net_bytes host 4
            (N.lor (N.shiftl (extract_low_bit 1 (p_exclusive p)) STREAM_ID_BITS)
                   (p_dependency p)) ++ [p_weight p])
  | RstStreamFrame _ ec => Ok (net_bytes host 4 ec)
  | SettingsFrame _ m => Ok (settings_payload_bytes host m)
  | PushPromiseFrame enc _ _ => Ok enc
  | PingFrame _ o => Ok o
  | GoawayFrame _ p => goaway_payload_bytes host p
  | WindowUpdateFrame _ r w => Ok (net_bytes host 4 (window_update_get_payload r w))
  | ContinuationFrame enc _ _ => Ok enc
  end.

(* serialize() of every class: header, then payload (same lines as above)
   (raw_frame.cpp, data_frame.cpp and so on: the lines cited at payload_bytes)
   *)
Definition serialize (host : endian) (f : frame) : res bytes :=
  let* p := payload_bytes host f in
  Ok (serialize_fh host (frame_fh f) ++ p).

(* ---- operator== of every class ---- *)

(* mh2c/frame/headers_frame.cpp:237-241, priority_frame.cpp, == of the
   priority fields *)
Definition prio_eqb (a b : priority_option) : bool :=
  (p_exclusive a =? p_exclusive b) && (p_dependency a =? p_dependency b) &&
  (p_weight a =? p_weight b).

(* std::vector operator==, as in headers_frame.cpp:247-252 *)
Fixpoint list_eqb {A} (eqb : A -> A -> bool) (a b : list A) : bool :=
  match a, b with
  | [], [] => true
  | x :: a', y :: b' => eqb x y && list_eqb eqb a' b'
  | _, _ => false
  end.

(* data_frame.cpp:107-109, headers_frame.cpp:237-252, priority_frame.cpp:66-70
   and 128-130, rst_stream_frame.cpp:87-89, settings_frame.cpp:112-114,
   push_promise_frame.cpp:112-118 and 203-205, ping_frame.cpp:90-92,
   goaway_frame.cpp:66-71 and 145-147, window_update_frame.cpp:121-125,
   continuation_frame.cpp:126-129.  raw_frame has no operator==.  Frames of
   different classes cannot be compared in C++: false here. *)
Definition frame_eqb (a b : frame) : bool :=
  match a, b with
  | DataFrame h p, DataFrame h' p' => fh_eqb h h' && bytes_eqb p p'
  | HeadersFrame _ h pad pr b, HeadersFrame _ h' pad' pr' b' =>
      fh_eqb h h' && prio_eqb pr pr' && list_eqb hentry_eqb b b' && bytes_eqb pad pad'
  | PriorityFrame h p, PriorityFrame h' p' => fh_eqb h h' && prio_eqb p p'
  | RstStreamFrame h e, RstStreamFrame h' e' => fh_eqb h h' && (e =? e')
  | SettingsFrame h m, SettingsFrame h' m' =>
      fh_eqb h h' &&
      list_eqb (fun x y => (fst x =? fst y) && (snd x =? snd y)) m m'
  | PushPromiseFrame _ h p, PushPromiseFrame _ h' p' =>
      fh_eqb h h' && (pp_reserved p =? pp_reserved p') &&
      (pp_promised p =? pp_promised p') &&
      list_eqb hentry_eqb (pp_block p) (pp_block p') &&
      bytes_eqb (pp_padding p) (pp_padding p')
  | PingFrame h o, PingFrame h' o' => fh_eqb h h' && bytes_eqb o o'
  | GoawayFrame h p, GoawayFrame h' p' =>
      fh_eqb h h' && (g_reserved p =? g_reserved p') &&
      (g_last_stream_id p =? g_last_stream_id p') &&
      (g_error_code p =? g_error_code p') && bytes_eqb (g_debug p) (g_debug p')
  | WindowUpdateFrame h r w, WindowUpdateFrame h' r' w' =>
      fh_eqb h h' && (r =? r') && (w =? w')
  | ContinuationFrame _ h b, ContinuationFrame _ h' b' =>
      fh_eqb h h' && list_eqb hentry_eqb b b'
  | _, _ => false
  end.
