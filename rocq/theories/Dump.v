(* Model of the text output: dump() of every frame class, operator<< of
   frame_header and dynamic_table.

   An output stream is modelled by the octets written to it and by whether
   std::hex is set; the width is 0 between insertions (setw is consumed by the
   next insertion), the fill character is used only together with a width, and
   every dump sets it before using one.  The stream does not fail.  The C locale
   is assumed (no digit grouping). *)
From Coq Require Import String NArith List Bool.
From Verif Require Import Base Util HeaderType DynTable HeaderDec FrameHeader Frames.
Import ListNotations.
Open Scope N_scope.

(* the character '\n' of the dump functions, for instance
   mh2c/frame/frame_header.cpp:66 *)
Definition nl : bytes := [10].
(* a string literal of the dump functions, for instance
   mh2c/frame/frame_header.cpp:65 *)
Definition str (s : string) : bytes := bytes_of_string s.

(* A digit character, lower case. (of a number in hexadecimal,
   data_frame.cpp:86) *)
Definition digit (d : N) : N := if d <? 10 then 48 + d else 87 + d.

(* Digits of n, most significant first; fuel: the number of bits.
   (std::to_string, frame_header.cpp:66) *)
Fixpoint digits_loop (base : N) (fuel : nat) (n : N) (acc : bytes) : bytes :=
  match fuel with
  | O => acc
  | S f =>
      let acc' := digit (n mod base) :: acc in
      if n / base =? 0 then acc' else digits_loop base f (n / base) acc'
  end.
(* all the digits of n, as std::to_string and the insertion of an integer
   write them *)
Definition digits (base n : N) : bytes := digits_loop base (S (N.size_nat n)) n [].

(* std::to_string of an unsigned value *)
Definition to_string (n : N) : bytes := digits 10 n.

(* out_stream << n for an unsigned n (settings_frame.cpp:94 and 100) *)
Definition put_unsigned (hex : bool) (n : N) : bytes := digits (if hex then 16 else 10) n.

(* out_stream << std::hex << std::setw(2) << std::setfill('0') << n *)
Definition put_hex2 (n : N) : bytes :=
  let d := digits 16 n in repeat 48 (2 - length d) ++ d.

(* frame_header.cpp:64-73, operator<< *)
Definition dump_fh (h : frame_header) : bytes :=
  str "[Frame Header]" ++ nl ++
  str "  length    : " ++ to_string (fh_length h) ++ nl ++
  str "  type      : " ++ to_string (fh_type h) ++ nl ++
  str "  flags     : " ++ to_string (fh_flags h) ++ nl ++
  str "  reserved  : " ++ to_string (fh_reserved h) ++ nl ++
  str "  stream id : " ++ to_string (fh_stream_id h) ++ nl.

(* The common lambda of the hexadecimal dumps (raw_frame.cpp:37-47,
   ping_frame.cpp:70-80, data_frame.cpp:84-96, headers_frame.cpp:213-225,
   push_promise_frame.cpp:178-190): after the octet number counter a space, after
   every eighth a line break; counter is a uint32_t, its wrap-around does not
   change the remainder modulo 8 *)
Fixpoint dump_hex (line_break : bytes) (counter : N) (l : bytes) : bytes :=
  match l with
  | [] => []
  | b :: l' =>
      put_hex2 b ++ (if (counter + 1) mod 8 =? 0 then line_break else str " ") ++
      dump_hex line_break (counter + 1) l'
  end.

(* std::hex stays set on the stream once an octet has been written *)
Definition hex_after (hex : bool) (l : bytes) : bool :=
  match l with [] => hex | _ => true end.

(* error_codes.h:32-48, error_codes_str_map *)
Definition error_code_names : list (N * string) :=
  [(0, "NO_ERROR"); (1, "PROTOCOL_ERROR"); (2, "INTERNAL_ERRPR"); (3, "FLOW_CONTROL_ERROR");
   (4, "SETTINGS_TIMEOUT"); (5, "STREAM_CLOSED"); (6, "FRAME_SIZE_ERROR"); (7, "REFUSED_STREAM");
   (8, "CANCEL"); (9, "COMPRESSION_ERROR"); (10, "CONNECT_ERROR"); (11, "ENHANCE_YOUR_CALM");
   (12, "INADEQUATE_SECURITY"); (13, "HTTP_1_1_REQUIRED"); (14, "UNKNOWN_ERROR")]%string.
(* mh2c/frame/error_codes.h:29 *)
Definition UNKNOWN_ERROR : N := 14.

(* settings_frame.cpp:26-37, sf_parameter_str_map *)
Definition parameter_names : list (N * string) :=
  [(1, "SETTINGS_HEADER_TABLE_SIZE"); (2, "SETTINGS_ENABLE_PUSH"); (3, "SETTINGS_MAX_CONCURRENT_STREAM");
   (4, "SETTINGS_INITIAL_WINDOW_SIZE"); (5, "SETTINGS_MAX_FRAME_SIZE"); (6, "SETTINGS_MAX_HEADER_LIST_SIZE");
   (7, "UNKNOWN")]%string.
(* mh2c/frame/settings_frame.h:37 *)
Definition SETTINGS_UNKNOWN : N := 7.

(* unordered_map::at (settings_frame.cpp:92 and 99, goaway_frame.cpp:125 and
   129) *)
Fixpoint name_at (m : list (N * string)) (k : N) : res bytes :=
  match m with
  | [] => Throw OutOfRange
  | (k', s) :: m' => if k =? k' then Ok (str s) else name_at m' k
  end.

(* rst_stream_frame.cpp:70-77, goaway_frame.cpp:123-131 *)
Definition dump_error_code (code : N) : res bytes :=
  if code <? UNKNOWN_ERROR then
    let* s := name_at error_code_names code in
    Ok (str "  Error Code: " ++ s ++ nl)
  else
    let* s := name_at error_code_names UNKNOWN_ERROR in
    Ok (str "  Error Code: " ++ s ++ str "(" ++ to_string code ++ str ")" ++ nl).

(* out_stream << p for a const uint8_t* p: the octets up to the first 0; with
   no 0 in the vector the reading goes on past its end
   (goaway_frame.cpp:133-135) *)
Fixpoint put_c_string (l : bytes) : res bytes :=
  match l with
  | [] => UB OobRead
  | b :: l' => if b =? 0 then Ok [] else let* r := put_c_string l' in Ok (b :: r)
  end.

(* headers_frame.cpp:197-208, push_promise_frame.cpp:162-173,
   continuation_frame.cpp:104-115 *)
Definition dump_entry (e : hentry) : res bytes :=
  if hprefix_eqb (e_prefix e) SizeUpdate then
    let* n := get_max_size e in
    Ok (str "    " ++ to_string n ++ str " (dynamic table size update)" ++ nl)
  else
    let* h := get_header e in
    Ok (str "    " ++ fst h ++ str ": " ++ snd h ++ nl).
(* headers_frame.cpp:198-208, push_promise_frame.cpp:163-173,
   continuation_frame.cpp:105-115, for_each *)
Fixpoint dump_entries (b : header_block) : res bytes :=
  match b with
  | [] => Ok []
  | e :: b' =>
      let* x := dump_entry e in
      let* y := dump_entries b' in
      Ok (x ++ y)
  end.
(* headers_frame.cpp:197-208, push_promise_frame.cpp:162-173,
   continuation_frame.cpp:104-115 *)
Definition dump_block (b : header_block) : res bytes :=
  let* x := dump_entries b in Ok (str "  Header Block:" ++ nl ++ x).

(* headers_frame.cpp:210-227, push_promise_frame.cpp:175-192 *)
Definition dump_padding (flags : N) (padding : bytes) : bytes :=
  str "  Padding:" ++ nl ++
  (if is_flag_set flags F_PADDED then str "    " ++ dump_hex (nl ++ str "    ") 0 padding ++ nl else []).
(* headers_frame.cpp:212-227, push_promise_frame.cpp:177-192: whether std::hex
   is set afterwards *)
Definition hex_padding (hex : bool) (flags : N) (padding : bytes) : bool :=
  if is_flag_set flags F_PADDED then hex_after hex padding else hex.

(* data_frame.cpp:75-80, the data with an indentation after every line feed *)
Fixpoint indent (l : bytes) : bytes :=
  match l with
  | [] => []
  | b :: l' => b :: (if b =? 10 then str "    " else []) ++ indent l'
  end.

(* data_frame.cpp:66-68: m_length - pad_length is a uint32_t, the subtraction of
   sizeof(pad_length_t) a size_t *)
Definition data_length (padded : bool) (length pad : N) : N :=
  if padded then (u32 (length + 2 ^ 32 - pad) + 2 ^ 64 - 1) mod 2 ^ 64 else length.

(* data_frame.cpp:57-100.  A string_view over octets outside the vector is
   reported as a read outside it. *)
Definition dump_data (m : ub_mode) (hex : bool) (h : frame_header) (payload : bytes) : res (bytes * bool) :=
  let padded := is_flag_set (fh_flags h) F_PADDED in
  let* pad := if padded then vget payload 0 else Ok 0 in
  let start := if padded then 1 else 0 in
  let* _ := address_of m payload start in
  let* data :=
    match vrange payload start (data_length padded (fh_length h) pad) with
    | UB _ => UB OobRead
    | r => r
    end in
  let* padding :=
    if padded then
      if pad <=? size payload then Ok (skipn (N.to_nat (size payload - pad)) payload) else UB BadRange
    else Ok [] in
  Ok (str "=== DATA FRAME ===" ++ nl ++ dump_fh h ++ str "[PAYLOAD]" ++ nl ++
      str "  Pad Length: " ++ to_string pad ++ nl ++
      str "  Data      : " ++ nl ++ str "    " ++ indent data ++ nl ++
      str "  Padding   : " ++ nl ++ dump_hex (nl ++ str "              ") 0 padding ++ nl,
      hex_after hex padding).

(* settings_frame.cpp:87-101; the value is inserted as a number, the others are
   strings *)
Fixpoint dump_settings (hex : bool) (ps : settings_map) : res bytes :=
  match ps with
  | [] => Ok []
  | (k, v) :: ps' =>
      let* x :=
        if (k <? 1) || (SETTINGS_UNKNOWN <=? k) then
          let* s := name_at parameter_names SETTINGS_UNKNOWN in
          Ok (str "  " ++ s ++ str "(" ++ to_string k ++ str "): " ++ put_unsigned hex v ++ nl)
        else
          let* s := name_at parameter_names k in
          Ok (str "  " ++ s ++ str ": " ++ put_unsigned hex v ++ nl) in
      let* y := dump_settings hex ps' in
      Ok (x ++ y)
  end.

(* headers_frame.cpp:184-195 *)
Definition dump_priority_option (flags : N) (p : priority_option) : bytes :=
  let show n := if is_flag_set flags F_PRIORITY then to_string n else [] in
  str "  Exclusive: " ++ show (p_exclusive p) ++ nl ++
  str "  Stream Dependency: " ++ show (p_dependency p) ++ nl ++
  str "  Weight: " ++ show (p_weight p) ++ nl.

(* dump() of every class, and http2_client.cpp:201-204, operator<<(h2_frame_ptr).
   raw_frame.cpp:33-49, data_frame.cpp:57-100, headers_frame.cpp:181-230,
   priority_frame.cpp:112-121, rst_stream_frame.cpp:66-79,
   settings_frame.cpp:84-102, push_promise_frame.cpp:156-195,
   ping_frame.cpp:66-83, goaway_frame.cpp:116-138,
   window_update_frame.cpp:105-113, continuation_frame.cpp:101-118 *)
Definition dump (m : ub_mode) (hex : bool) (f : frame) : res (bytes * bool) :=
  let head title h := str title ++ nl ++ dump_fh h ++ str "[PAYLOAD]" ++ nl in
  match f with
  | RawFrame h p =>
      Ok (head "=== GENERIC FRAME (unimplemented) ==="%string h ++ dump_hex nl 0 p ++ nl, hex_after hex p)
  | DataFrame h p => dump_data m hex h p
  | HeadersFrame _ h padding prio b =>
      let* blk := dump_block b in
      Ok (head "=== HEADERS FRAME ==="%string h ++ dump_priority_option (fh_flags h) prio ++ blk ++
          dump_padding (fh_flags h) padding,
          hex_padding hex (fh_flags h) padding)
  | PriorityFrame h p =>
      Ok (head "=== PRIORITY FRAME ==="%string h ++
          str "  E: " ++ to_string (p_exclusive p) ++ nl ++
          str "  Stream Dependency: " ++ to_string (p_dependency p) ++ nl ++
          str "  Weight: " ++ to_string (p_weight p) ++ nl, hex)
  | RstStreamFrame h code =>
      let* e := dump_error_code code in
      Ok (head "=== RST_STREAM FRAME ==="%string h ++ e, hex)
  | SettingsFrame h ps =>
      let* x := dump_settings hex ps in
      Ok (head "=== SETTINGS FRAME ==="%string h ++ x, hex)
  | PushPromiseFrame _ h p =>
      let* blk := dump_block (pp_block p) in
      Ok (head "=== PUSH_PROMISE FRAME ==="%string h ++
          str "  R: " ++ to_string (pp_reserved p) ++ nl ++
          str "  Promised Stream ID: " ++ to_string (pp_promised p) ++ nl ++
          blk ++ dump_padding (fh_flags h) (pp_padding p),
          hex_padding hex (fh_flags h) (pp_padding p))
  | PingFrame h d =>
      Ok (head "=== PING_STREAM FRAME ==="%string h ++ dump_hex nl 0 d ++ nl, hex_after hex d)
  | GoawayFrame h p =>
      let* e := dump_error_code (g_error_code p) in
      let* d := if size (g_debug p) =? 0 then Ok [] else put_c_string (g_debug p) in
      Ok (head "=== GOAWAY FRAME ==="%string h ++
          str "  R: " ++ to_string (g_reserved p) ++ nl ++
          str "  Last-Stream-ID: " ++ to_string (g_last_stream_id p) ++ nl ++
          e ++ str "  Additional Debug Data: " ++ d ++ nl, hex)
  | WindowUpdateFrame h r incr =>
      Ok (head "=== WINDOW_UPDATE FRAME ==="%string h ++
          str "  R: " ++ to_string r ++ nl ++
          str "  Window size Increment: " ++ to_string incr ++ nl, hex)
  | ContinuationFrame _ h b =>
      let* blk := dump_block b in
      Ok (head "=== CONTINUATION FRAME ==="%string h ++ blk, hex)
  end.

(* dynamic_table.cpp:79-89, operator<<; the index starts at FIRST_INDEX *)
Fixpoint dump_table_entries (i : N) (es : list header) : bytes :=
  match es with
  | [] => []
  | e :: es' =>
      str "[" ++ to_string i ++ str "] -> " ++ fst e ++ str ": " ++ snd e ++ nl ++ dump_table_entries (i + 1) es'
  end.
(* dynamic_table.cpp:79-89, operator<< *)
Definition dump_table (t : dyn_table) : bytes :=
  str "=== DYNAMIC_TABLE ===" ++ nl ++ dump_table_entries FIRST_INDEX (dt_entries t).
