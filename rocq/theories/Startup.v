(* The tables of the library before main and after it.  Each table is an object
   with static storage duration that is built when the program starts (dynamic
   initialisation) and destroyed when it ends; initialisers and destructors of the
   program's own objects may call the library in between.  Below, the functions
   that read such a table do so only while it is alive; reading it at any other
   time is undefined.  The functions are those of the rest of the model otherwise
   (PropStartup.v proves it for the time when all tables are alive).

   Simplifications: one thread; no dynamic loading; the tables of one translation
   unit are built and destroyed together, since nothing of the program runs in
   between. *)
From Coq Require Import NArith List Bool.
From Verif Require Import Base Util IntRep HuffmanTable Huffman StaticTable HeaderType DynTable HeaderEnc HeaderDec
  FrameHeader Frames FrameBuilder Dump.
Import ListNotations.
Open Scope N_scope.

(* The translation units that define such tables:
   mh2c/hpack/static_table_definition.cpp:11 and 76 (both tables),
   mh2c/hpack/huffman_code.cpp:10 and 142 (both tables),
   mh2c/frame/frame_builder.cpp:123, mh2c/frame/settings_frame.cpp:26, and the
   copies of error_codes.h:32 (const at namespace scope: one per unit) in
   mh2c/frame/rst_stream_frame.cpp and goaway_frame.cpp *)
Inductive lib_unit := StaticTables | HuffmanTables | BuilderTable | SettingsNames | RstNames | GoawayNames.

(* The objects with static storage duration inside functions, built by the first
   call: http2_client.cpp:124 and ssl/ssl_connection.cpp:49 *)
Inductive local := Preface | Alpn.

(* equality of such names (not in /repo; used on any of the tables cited above) *)
Definition unit_eqb (a b : lib_unit) : bool :=
  match a, b with
  | StaticTables, StaticTables | HuffmanTables, HuffmanTables | BuilderTable, BuilderTable
  | SettingsNames, SettingsNames | RstNames, RstNames | GoawayNames, GoawayNames => true
  | _, _ => false
  end.
(* the same for http2_client.cpp:124 and ssl_connection.cpp:49 *)
Definition local_eqb (a b : local) : bool :=
  match a, b with Preface, Preface | Alpn, Alpn => true | _, _ => false end.

(* any member function of a table, for instance header_encoder.cpp:123; NullDeref
   stands for the use of an object outside its lifetime *)
Definition while_alive {A} (alive : bool) (r : res A) : res A := if alive then r else UB NullDeref.

Section WithTables.
Variable alive : lib_unit -> bool.

(* header_type.cpp:15-24, correct_prefix *)
Definition correct_prefix_at (e : hentry) : res hentry :=
  let* h := get_header e in
  while_alive (alive StaticTables)
    match reverse_static_find h with
    | Some _ => if 0 <? size (snd h) then Ok (HEntry Indexed (EHeader h)) else Ok e
    | None => Ok e
    end.

(* header_type.cpp:80-91, make_header_block *)
Fixpoint make_header_block_at (p : hprefix) (hs : list header) : res header_block :=
  match hs with
  | [] => Ok []
  | h :: hs' =>
      let* e := correct_prefix_at (HEntry p (EHeader h)) in
      let* b := make_header_block_at p hs' in
      Ok (e :: b)
  end.

(* huffman_encoder.cpp:42-84: the table is read for the first octet, before
   anything else that can be observed *)
Definition huffman_encode_at (raw : bytes) : res bytes :=
  match raw with
  | [] => huffman_encode raw
  | _ => while_alive (alive HuffmanTables) (huffman_encode raw)
  end.

(* header_encoder.cpp:56-107 *)
Definition encode_string_at (s : bytes) (mode : encode_mode) : res bytes :=
  let* encoded :=
    match mode with ModeHuffman => huffman_encode_at s | ModeNone => Ok s end in
  let* len := or_first (encode_integer_value 7 (size encoded)) (mode_val mode) in
  Ok (len ++ encoded).

(* header_encoder.cpp:109-165, encode_header; the first read of a table of
   static_table_definition.cpp is in line 123, the others follow *)
Definition encode_header_at (e : hentry) (mode : encode_mode) (t : dyn_table) : res bytes :=
  let p := e_prefix e in
  if hprefix_eqb p SizeUpdate then
    let* n := get_max_size e in encode_max_size n p
  else
    let* h := get_header e in
    while_alive (alive StaticTables)
      match
        (match reverse_static_find h with
         | Some i => if 0 <? size (snd h) then Some i else None
         | None => None
         end)
      with
      | Some i => encode_index i Indexed
      | None =>
          match find_index (dt_entries t) h with
          | Some i => encode_index (static_table_size + 1 + i) Indexed
          | None =>
              match reverse_static_find (fst h, []) with
              | Some i =>
                  let* ix := encode_index i p in
                  let* v := encode_string_at (snd h) mode in
                  Ok (ix ++ v)
              | None =>
                  let* ix := encode_index 0 p in
                  let* n := encode_string_at (fst h) mode in
                  let* v := encode_string_at (snd h) mode in
                  Ok (ix ++ n ++ v)
              end
          end
      end.

(* headers_frame.cpp:59-66, push_promise_frame.cpp:51-57,
   continuation_frame.cpp:32-39: the block of a frame that is made *)
Fixpoint encode_block_at (b : header_block) (mode : encode_mode) (t : dyn_table) : res bytes :=
  match b with
  | [] => Ok []
  | e :: b' =>
      let* x := encode_header_at e mode t in
      let* y := encode_block_at b' mode t in
      Ok (x ++ y)
  end.

(* huffman_decoder.cpp:35-107: the table is read in the first iteration *)
Definition huffman_decode_at (encoded : bytes) : res bytes :=
  match encoded with
  | [] => huffman_decode encoded
  | _ => while_alive (alive HuffmanTables) (huffman_decode encoded)
  end.

(* header_decoder.cpp:103-155 *)
Definition decode_string_at (m : ub_mode) (v : bytes) : res (bytes * N) :=
  let* (len, consumed) := decode_int_and_length 7 v in
  let* b0 := vget v 0 in
  let* s :=
    if negb (extract_high_bit 1 8 b0 =? 0) then
      let* enc := vrange v consumed len in
      let* dec := huffman_decode_at enc in
      let* _ := address_of m dec 0 in
      Ok dec
    else
      let* _ := address_of m v consumed in
      match vrange v consumed len with
      | UB _ => UB OobRead
      | r => r
      end
  in
  Ok (s, consumed + len).

(* header_decoder.cpp:167-216, decode_header; make_indexed_header (157-165) asks
   the static table for its size first *)
Definition decode_header_at (m : ub_mode) (encoded : bytes) (t : dyn_table) : res (hentry * N) :=
  let* b0 := vget encoded 0 in
  let* p := check_prefix b0 in
  if hprefix_eqb p SizeUpdate then
    let* (max_size, n) := decode_max_size encoded in
    Ok (HEntry p (ESize max_size), n)
  else
    let* (index, index_len) := decode_index encoded p in
    let* h :=
      if 0 <? index then while_alive (alive StaticTables) (make_indexed_header index t) else Ok ([], []) in
    if hprefix_eqb p Indexed then Ok (HEntry p (EHeader h), index_len)
    else
      let* data := verase_front encoded index_len in
      let* (name, data, consumed) :=
        if size (fst h) <=? 0 then
          let* (name, n) := decode_string_at m data in
          let* data' := verase_front data n in
          Ok (name, data', index_len + n)
        else Ok (fst h, data, index_len)
      in
      let* (value, n) := decode_string_at m data in
      let* _ := verase_front data n in
      Ok (HEntry p (EHeader (name, value)), consumed + n).

(* headers_frame.cpp:132-136, push_promise_frame.cpp:101-105,
   continuation_frame.cpp:57-61 *)
Fixpoint decode_block_loop_at (m : ub_mode) (fuel : nat) (raw : bytes) (t : dyn_table) : res header_block :=
  if 0 <? size raw then
    match fuel with
    | O => NoFuel
    | S f =>
        let* (e, n) := decode_header_at m raw t in
        let* raw' := verase_front raw n in
        let* b := decode_block_loop_at m f raw' t in
        Ok (e :: b)
    end
  else Ok [].

(* headers_frame.cpp:90-139 and 160-168 *)
Definition parse_headers_at (m : ub_mode) (h : frame_header) (raw : bytes) (t : dyn_table) : res frame :=
  let* (padding, data) :=
    if is_flag_set (fh_flags h) F_PADDED then split_padding raw else Ok ([], raw) in
  let* (prio, data) :=
    if is_flag_set (fh_flags h) F_PRIORITY then headers_split_priority data
    else Ok (Prio 0 0 0, data) in
  let* b := decode_block_loop_at m (length data) data t in
  Ok (HeadersFrame raw h padding prio b).

(* push_promise_frame.cpp:76-108 and 136-141 *)
Definition parse_push_promise_at (m : ub_mode) (h : frame_header) (raw : bytes) (t : dyn_table) : res frame :=
  let* (padding, data) :=
    if is_flag_set (fh_flags h) F_PADDED then split_padding raw else Ok ([], raw) in
  let* b0 := vget data 0 in
  let* x := bytes2integral 4 data 0 in
  let* data' := verase_front data 4 in
  let* b := decode_block_loop_at m (length data') data' t in
  Ok (PushPromiseFrame raw h (PushPromise (extract_high_bit RESERVED_BITS 8 b0)
        (extract_low_bit STREAM_ID_BITS x) b padding)).

(* continuation_frame.cpp:51-64 and 81-86 *)
Definition parse_continuation_at (m : ub_mode) (h : frame_header) (raw : bytes) (t : dyn_table) : res frame :=
  let* b := decode_block_loop_at m (length raw) raw t in
  Ok (ContinuationFrame raw h b).

(* frame_builder.cpp:56-66; the catch block does not catch undefined behaviour *)
Definition build_headers_frame_at (m : ub_mode) (h : frame_header) (raw : bytes) (t : dyn_table) : res frame :=
  match parse_headers_at m h raw t with
  | Throw _ => Ok (RawFrame h raw)
  | r => r
  end.

(* frame_builder.cpp:123-143, build_frame: what receive_frame does with the
   octets it has read *)
Definition build_frame_at (m : ub_mode) (h : frame_header) (raw : bytes) (t : dyn_table) : res frame :=
  while_alive (alive BuilderTable)
    (let ty := fh_type h in
     if ty =? T_DATA then build_data_frame h raw
     else if ty =? T_HEADERS then build_headers_frame_at m h raw t
     else if ty =? T_PRIORITY then parse_priority h raw
     else if ty =? T_RST_STREAM then parse_rst_stream h raw
     else if ty =? T_SETTINGS then build_settings_frame h raw
     else if ty =? T_PUSH_PROMISE then parse_push_promise_at m h raw t
     else if ty =? T_PING then parse_ping h raw
     else if ty =? T_GOAWAY then parse_goaway h raw
     else if ty =? T_WINDOW_UPDATE then parse_window_update h raw
     else if ty =? T_CONTINUATION then parse_continuation_at m h raw t
     else Throw OutOfRange).

(* dump() of every class, the lines of Dump.dump: rst_stream_frame.cpp:71 and 75,
   settings_frame.cpp:92 and 99 (once per parameter), goaway_frame.cpp:125 and
   129 read a table *)
Definition dump_at (m : ub_mode) (hex : bool) (f : frame) : res (bytes * bool) :=
  match f with
  | RstStreamFrame _ _ => while_alive (alive RstNames) (dump m hex f)
  | SettingsFrame _ ps => match ps with [] => dump m hex f | _ => while_alive (alive SettingsNames) (dump m hex f) end
  | GoawayFrame _ _ => while_alive (alive GoawayNames) (dump m hex f)
  | _ => dump m hex f
  end.
End WithTables.

(* ---- programs ---- *)

(* What a program calls, with all arguments: make_header_block; the constructors
   of HEADERS, PUSH_PROMISE and CONTINUATION frames (their header block); the
   handling of a received frame; printing a frame; the connection preface; the
   constructor of the client (its ALPN list); and a function that reads none of
   these objects: all others, such as the other frames' constructors, serialize,
   send_frame, the dynamic table (mh2c/http2_client.h, mh2c/frame/*.h) *)
Inductive call :=
| CallBlock (p : hprefix) (hs : list header)
| CallEncode (b : header_block) (mode : encode_mode) (t : dyn_table)
| CallReceived (m : ub_mode) (h : frame_header) (raw : bytes) (t : dyn_table)
| CallPrint (m : ub_mode) (hex : bool) (f : frame)
| CallPreface
| CallConnect
| CallOther.

(* The value a call returns (the return types of the functions of call) *)
Inductive value := VBlock (b : header_block) | VOctets (x : bytes) | VFrame (f : frame) | VText (x : bytes) | VNothing.

(* Objects with static storage duration: of the library, inside functions of
   the library, of the program (numbered). The stack has those that are alive,
   the last one built first; spent are the ones inside functions that have
   been destroyed (the definitions cited at lib_unit and local) *)
Inductive thing := Unit (u : lib_unit) | Local (l : local) | Own (i : nat).
(* the state of the program's static objects (no line of /repo: C++ run time)
   *)
Record statics := Statics { stack : list thing; spent : list local }.

(* whether the tables of a unit are alive (any table cited above) *)
Definition has_unit (s : statics) (u : lib_unit) : bool :=
  existsb (fun x => match x with Unit v => unit_eqb u v | _ => false end) (stack s).
(* whether an object inside a function is alive (http2_client.cpp:124,
   ssl_connection.cpp:49) *)
Definition has_local (s : statics) (l : local) : bool :=
  existsb (fun x => match x with Local k => local_eqb l k | _ => false end) (stack s).

(* http2_client.cpp:124-125 and ssl_connection.cpp:49: the first execution builds
   the object *)
Definition use_local (s : statics) (l : local) : res value * statics :=
  if has_local s l then (Ok VNothing, s)
  else if existsb (local_eqb l) (spent s) then (UB NullDeref, s)
  else (Ok VNothing, Statics (Local l :: stack s) (spent s)).

(* a call at some moment; the functions cited above *)
Definition run_call (s : statics) (c : call) : res value * statics :=
  match c with
  | CallBlock p hs => (let* b := make_header_block_at (has_unit s) p hs in Ok (VBlock b), s)
  | CallEncode b mode t => (let* x := encode_block_at (has_unit s) b mode t in Ok (VOctets x), s)
  | CallReceived m h raw t => (let* f := build_frame_at (has_unit s) m h raw t in Ok (VFrame f), s)
  | CallPrint m hex f => (let* x := dump_at (has_unit s) m hex f in Ok (VText (fst x)), s)
  | CallPreface => use_local s Preface
  | CallConnect => use_local s Alpn
  | CallOther => (Ok VNothing, s)
  end.
(* calls one after the other (no line of /repo: the program that uses the
   library) *)
Fixpoint run_calls (s : statics) (cs : list call) : list (call * res value) * statics :=
  match cs with
  | [] => ([], s)
  | c :: cs' =>
      let (r, s1) := run_call s c in
      let (l, s2) := run_calls s1 cs' in
      ((c, r) :: l, s2)
  end.

(* A program linked with the library: the order in which the translation units
   are initialised, the program's own ones with one object each; what the object's
   constructor and destructor call; what main calls (sample_h2_get.cpp:48 is such
   a main). *)
Inductive part := Library (u : lib_unit) | Program (i : nat).
(* the program (no line of /repo: the program that uses the library) *)
Record program := Prog {
  order : list part; constructor : nat -> list call; main_calls : list call; destructor : nat -> list call }.

(* before main: the initialisers of all units, among them those of
   static_table_definition.cpp:11-142 and the others cited above *)
Fixpoint initialise (ctor : nat -> list call) (s : statics) (o : list part) : list (call * res value) * statics :=
  match o with
  | [] => ([], s)
  | Library u :: o' => initialise ctor (Statics (Unit u :: stack s) (spent s)) o'
  | Program i :: o' =>
      let (l, s1) := run_calls s (ctor i) in
      let (l', s2) := initialise ctor (Statics (Own i :: stack s1) (spent s1)) o' in
      (l ++ l', s2)
  end.

(* the objects inside functions that a destructor built are destroyed next:
   the ones above the rest of the stack (no line of /repo: C++ run time) *)
Definition locals_of (l : list thing) : list local :=
  flat_map (fun x => match x with Local k => [k] | _ => [] end) l.

(* after main: in the reverse order (no line of /repo: C++ run time) *)
Fixpoint finish (dtor : nat -> list call) (alive : list thing) (gone : list local) : list (call * res value) :=
  match alive with
  | [] => []
  | Unit _ :: rest => finish dtor rest gone
  | Local l :: rest => finish dtor rest (l :: gone)
  | Own i :: rest =>
      let (l, s1) := run_calls (Statics rest gone) (dtor i) in
      let new := firstn (length (stack s1) - length rest) (stack s1) in
      l ++ finish dtor rest (locals_of new ++ gone)
  end.

(* the whole program: every call of the library with its result (no line of
   /repo: C++ run time) *)
Definition run (p : program) : list (call * res value) :=
  let (l1, s1) := initialise (constructor p) (Statics [] []) (order p) in
  let (l2, s2) := run_calls s1 (main_calls p) in
  l1 ++ l2 ++ finish (destructor p) (stack s2) (spent s2).
