(* Printing to an output stream in any formatting state: the insertions of every
   dump() and operator<< one after the other, and what std::ostream makes of them.
   Dump.v has the text for a stream in its initial state (or with std::hex set);
   here the stream may have any flags, width, fill character and digit grouping,
   and the device behind it may fail.

   Simplifications: the flags that only concern signed decimal, floating-point or
   bool values have no effect on what is inserted here and are left out; exceptions() of the stream is goodbit, so a
   failure is not reported by an exception (Throwing.v has the other case). *)
From Coq Require Import String NArith List Bool.
From Verif Require Import Base Util HeaderType DynTable HeaderDec FrameHeader Frames Dump.
Import ListNotations.
Open Scope N_scope.

(* std::ios_base: basefield, showbase, uppercase, adjustfield, width, fill, and
   numpunct::thousands_sep and grouping of the locale: the separator, the size of
   the last group of digits and those of the groups before it, of which the last one
   is repeated; 0 stands for the values (<= 0, CHAR_MAX) that end the grouping *)
Inductive basefield := Dec | Hex | Oct.
(* std::ios_base::adjustfield *)
Inductive adjustfield := AdjLeft | AdjRight | AdjInternal.
(* the formatting state of a std::ostream, the argument of every dump,
   mh2c/frame/i_frame.h:23 *)
Record ios := Ios {
  base : basefield; showbase : bool; uppercase : bool; adjust : adjustfield;
  width : N; fill : N; grouping : option (N * N * list N) }.

(* std::hex, data_frame.cpp:86 *)
Definition set_base (b : basefield) (s : ios) : ios :=
  Ios b (showbase s) (uppercase s) (adjust s) (width s) (fill s) (grouping s).
(* std::setw, data_frame.cpp:86 *)
Definition set_width (w : N) (s : ios) : ios :=
  Ios (base s) (showbase s) (uppercase s) (adjust s) w (fill s) (grouping s).
(* std::setfill, data_frame.cpp:86 *)
Definition set_fill (c : N) (s : ios) : ios :=
  Ios (base s) (showbase s) (uppercase s) (adjust s) (width s) c (grouping s).

(* A stream as it is constructed, in the "C" locale (no line of /repo:
   std::basic_ios::init) *)
Definition fresh : ios := Ios Dec false false AdjRight 0 32 None.

(* num_put, stage 1: the digits, and the prefix of showbase (no line of /repo:
   the standard library) *)
Definition radix (b : basefield) : N := match b with Dec => 10 | Hex => 16 | Oct => 8 end.
(* std::uppercase *)
Definition upper (c : N) : N := if (97 <=? c) && (c <=? 122) then c - 32 else c.
(* the digits of an inserted integer (no line of /repo: std::num_put, called
   for instance by data_frame.cpp:86) *)
Definition digits_of (s : ios) (n : N) : bytes :=
  let d := digits (radix (base s)) n in if uppercase s then map upper d else d.
(* std::showbase *)
Definition prefix_of (s : ios) (n : N) : bytes :=
  if showbase s && negb (n =? 0) then
    match base s with Dec => [] | Oct => [48] | Hex => [48; if uppercase s then 88 else 120] end
  else [].

(* num_put, stage 2: a separator between groups of digits, from the right; k
   is the size of the present group, i counts the digits since the last
   separator (no line of /repo: the standard library) *)
Fixpoint group_rev (sep k : N) (ks : list N) (i : N) (l : bytes) : bytes :=
  match l with
  | [] => []
  | d :: l' =>
      if k =? 0 then l
      else if i =? k then
        sep :: d :: match ks with
                    | [] => group_rev sep k [] 1 l'
                    | k' :: ks' => group_rev sep k' ks' 1 l'
                    end
      else d :: group_rev sep k ks (i + 1) l'
  end.
(* numpunct::grouping (no line of /repo: the standard library) *)
Definition group (g : option (N * N * list N)) (l : bytes) : bytes :=
  match g with
  | None => l
  | Some (sep, k, ks) => rev (group_rev sep k ks 0 (rev l))
  end.

(* num_put, stage 3, and the insertion of strings: padding to the width (no
   line of /repo: the standard library, for data_frame.cpp:86) *)
Definition pad_of (s : ios) (n : N) : bytes := repeat (fill s) (N.to_nat (width s - n)).
(* insertion of a string (no line of /repo: the standard library, for instance
   for frame_header.cpp:65) *)
Definition pad_string (s : ios) (t : bytes) : bytes :=
  match adjust s with
  | AdjLeft => t ++ pad_of s (size t)
  | _ => pad_of s (size t) ++ t
  end.
(* insertion of an integer (no line of /repo: the standard library, for
   data_frame.cpp:86) *)
Definition pad_number (s : ios) (n : N) : bytes :=
  let p := prefix_of s n in
  let d := group (grouping s) (digits_of s n) in
  let pad := pad_of s (size (p ++ d)) in
  match adjust s with
  | AdjLeft => p ++ d ++ pad
  | AdjRight => pad ++ p ++ d
  | AdjInternal => match base s with Hex => p ++ pad ++ d | _ => pad ++ p ++ d end
  end.

(* What is done to a stream: the insertion of a string or a character, of an
   unsigned number (an int that is not negative and shown in hexadecimal is
   formatted in the same way), std::hex, std::setw, std::setfill. *)
Inductive op := Insert (t : bytes) | Number (n : N) | SetHex | SetWidth (w : N) | SetFill (c : N).

(* The width is 0 again after an insertion (std::ostream, as in
   data_frame.cpp:57-100) *)
Definition exec (s : ios) (o : op) : bytes * ios :=
  match o with
  | Insert t => (pad_string s t, set_width 0 s)
  | Number n => (pad_number s n, set_width 0 s)
  | SetHex => ([], set_base Hex s)
  | SetWidth w => ([], set_width w s)
  | SetFill c => ([], set_fill c s)
  end.
(* a sequence of insertions and manipulators, as in data_frame.cpp:57-100 *)
Fixpoint run (s : ios) (ops : list op) : bytes * ios :=
  match ops with
  | [] => ([], s)
  | o :: ops' => let (x, s1) := exec s o in let (y, s2) := run s1 ops' in (x ++ y, s2)
  end.

(* The same on a stream whose device takes room more octets: the insertion
   that does not fit is cut and sets badbit, after which insertions do nothing
   (and leave the width alone); manipulators still act (no line of /repo: the
   stream that data_frame.cpp:57 and the others are given) *)
Record ostream := Ostream { o_fmt : ios; o_good : bool; o_room : N }.
(* one insertion or manipulator on such a stream (as in data_frame.cpp:57-100)
   *)
Definition exec_on (d : ostream) (o : op) : bytes * ostream :=
  match o with
  | Insert _ | Number _ =>
      if o_good d then
        let (x, s) := exec (o_fmt d) o in
        if size x <=? o_room d then (x, Ostream s true (o_room d - size x))
        else (firstn (N.to_nat (o_room d)) x, Ostream s false 0)
      else ([], d)
  | _ => ([], Ostream (snd (exec (o_fmt d) o)) (o_good d) (o_room d))
  end.
(* a sequence of them (as in data_frame.cpp:57-100) *)
Fixpoint run_on (d : ostream) (ops : list op) : bytes * ostream :=
  match ops with
  | [] => ([], d)
  | o :: ops' => let (x, d1) := exec_on d o in let (y, d2) := run_on d1 ops' in (x ++ y, d2)
  end.

(* out_stream << a string literal, for instance frame_header.cpp:65 *)
Definition ins (s : string) : op := Insert (str s).
(* out_stream << a string literal that ends in a line feed, for instance
   data_frame.cpp:58 *)
Definition line (s : string) : op := Insert (str s ++ nl).
(* out_stream << std::to_string(n), for instance frame_header.cpp:66 *)
Definition decimal (n : N) : op := Insert (to_string n).
(* out_stream << a line feed, for instance frame_header.cpp:66 *)
Definition newline : op := Insert nl.

(* frame_header.cpp:64-73, operator<< *)
Definition fh_ops (h : frame_header) : list op :=
  [line "[Frame Header]";
   ins "  length    : "; decimal (fh_length h); newline;
   ins "  type      : "; decimal (fh_type h); newline;
   ins "  flags     : "; decimal (fh_flags h); newline;
   ins "  reserved  : "; decimal (fh_reserved h); newline;
   ins "  stream id : "; decimal (fh_stream_id h); newline].

(* The lambda of raw_frame.cpp:37-47, ping_frame.cpp:70-80, data_frame.cpp:84-96,
   headers_frame.cpp:213-225, push_promise_frame.cpp:178-190; brk is what is
   inserted after every eighth octet *)
Fixpoint octet_ops (brk : list op) (counter : N) (l : bytes) : list op :=
  match l with
  | [] => []
  | b :: l' =>
      [SetHex; SetWidth 2; SetFill 48; Number b] ++
      (if (counter + 1) mod 8 =? 0 then brk else [ins " "]) ++ octet_ops brk (counter + 1) l'
  end.

(* rst_stream_frame.cpp:70-77, goaway_frame.cpp:123-131 *)
Definition error_code_ops (code : N) : res (list op) :=
  if code <? UNKNOWN_ERROR then
    let* s := name_at error_code_names code in
    Ok [ins "  Error Code: "; Insert s; newline]
  else
    let* s := name_at error_code_names UNKNOWN_ERROR in
    Ok [ins "  Error Code: "; Insert s; ins "("; decimal code; line ")"].

(* headers_frame.cpp:197-208, push_promise_frame.cpp:162-173,
   continuation_frame.cpp:104-115 *)
Definition entry_ops (e : hentry) : res (list op) :=
  if hprefix_eqb (e_prefix e) SizeUpdate then
    let* n := get_max_size e in
    Ok [ins "    "; decimal n; line " (dynamic table size update)"]
  else
    let* h := get_header e in
    Ok [ins "    "; Insert (fst h); ins ": "; Insert (snd h); newline].
(* headers_frame.cpp:198-208, push_promise_frame.cpp:163-173,
   continuation_frame.cpp:105-115, for_each *)
Fixpoint entries_ops (b : header_block) : res (list op) :=
  match b with
  | [] => Ok []
  | e :: b' =>
      let* x := entry_ops e in
      let* y := entries_ops b' in
      Ok (x ++ y)
  end.
(* headers_frame.cpp:197-208, push_promise_frame.cpp:162-173,
   continuation_frame.cpp:104-115 *)
Definition block_ops (b : header_block) : res (list op) :=
  let* x := entries_ops b in Ok (line "  Header Block:" :: x).

(* headers_frame.cpp:210-227, push_promise_frame.cpp:175-192 *)
Definition padding_ops (flags : N) (padding : bytes) : list op :=
  line "  Padding:" ::
  (if is_flag_set flags F_PADDED
   then [ins "    "] ++ octet_ops [newline; ins "    "] 0 padding ++ [newline] else []).

(* data_frame.cpp:75-80 *)
Fixpoint indent_ops (l : bytes) : list op :=
  match l with
  | [] => []
  | b :: l' => Insert [b] :: (if b =? 10 then [ins "    "] else []) ++ indent_ops l'
  end.

(* data_frame.cpp:57-100 *)
Definition data_ops (m : ub_mode) (h : frame_header) (payload : bytes) : res (list op) :=
  let padded := is_flag_set (fh_flags h) F_PADDED in
  let* pad := if padded then vget payload 0 else Ok 0 in
  let start := if padded then 1 else 0 in
  let* _ := address_of m payload start in
  let* data :=
    match vrange payload start (data_length padded (fh_length h) pad) with
    | UB _ => UB OobRead
    | r => r
    end in
  let* padding :=
    if padded then
      if pad <=? size payload then Ok (skipn (N.to_nat (size payload - pad)) payload) else UB BadRange
    else Ok [] in
  Ok ([line "=== DATA FRAME ==="] ++ fh_ops h ++ [line "[PAYLOAD]"] ++
      [ins "  Pad Length: "; decimal pad; newline; line "  Data      : "; ins "    "] ++
      indent_ops data ++ [newline; line "  Padding   : "] ++
      octet_ops [Insert (nl ++ str "              ")] 0 padding ++ [newline]).

(* settings_frame.cpp:87-101 *)
Fixpoint settings_ops (ps : settings_map) : res (list op) :=
  match ps with
  | [] => Ok []
  | (k, v) :: ps' =>
      let* x :=
        if (k <? 1) || (SETTINGS_UNKNOWN <=? k) then
          let* s := name_at parameter_names SETTINGS_UNKNOWN in
          Ok [ins "  "; Insert s; ins "("; decimal k; ins "): "; Number v; newline]
        else
          let* s := name_at parameter_names k in
          Ok [ins "  "; Insert s; ins ": "; Number v; newline] in
      let* y := settings_ops ps' in
      Ok (x ++ y)
  end.

(* headers_frame.cpp:184-195 *)
Definition priority_option_ops (flags : N) (p : priority_option) : list op :=
  let show n := Insert (if is_flag_set flags F_PRIORITY then to_string n else []) in
  [ins "  Exclusive: "; show (p_exclusive p); newline;
   ins "  Stream Dependency: "; show (p_dependency p); newline;
   ins "  Weight: "; show (p_weight p); newline].

(* The insertions of dump() of every class, and of http2_client.cpp:201-204,
   operator<<(h2_frame_ptr).  raw_frame.cpp:33-49, data_frame.cpp:57-100,
   headers_frame.cpp:181-230, priority_frame.cpp:112-121,
   rst_stream_frame.cpp:66-79, settings_frame.cpp:84-102,
   push_promise_frame.cpp:156-195, ping_frame.cpp:66-83,
   goaway_frame.cpp:116-138, window_update_frame.cpp:105-113,
   continuation_frame.cpp:101-118.  As in Dump.v, what has been inserted before an
   exception or before undefined behaviour is left out. *)
Definition dump_ops (m : ub_mode) (f : frame) : res (list op) :=
  let head title h := [line title] ++ fh_ops h ++ [line "[PAYLOAD]"] in
  match f with
  | RawFrame h p =>
      Ok (head "=== GENERIC FRAME (unimplemented) ==="%string h ++ octet_ops [newline] 0 p ++ [newline])
  | DataFrame h p => data_ops m h p
  | HeadersFrame _ h padding prio b =>
      let* blk := block_ops b in
      Ok (head "=== HEADERS FRAME ==="%string h ++ priority_option_ops (fh_flags h) prio ++ blk ++
          padding_ops (fh_flags h) padding)
  | PriorityFrame h p =>
      Ok (head "=== PRIORITY FRAME ==="%string h ++
          [ins "  E: "; decimal (p_exclusive p); newline;
           ins "  Stream Dependency: "; decimal (p_dependency p); newline;
           ins "  Weight: "; decimal (p_weight p); newline])
  | RstStreamFrame h code =>
      let* e := error_code_ops code in
      Ok (head "=== RST_STREAM FRAME ==="%string h ++ e)
  | SettingsFrame h ps =>
      let* x := settings_ops ps in
      Ok (head "=== SETTINGS FRAME ==="%string h ++ x)
  | PushPromiseFrame _ h p =>
      let* blk := block_ops (pp_block p) in
      Ok (head "=== PUSH_PROMISE FRAME ==="%string h ++
          [ins "  R: "; decimal (pp_reserved p); newline;
           ins "  Promised Stream ID: "; decimal (pp_promised p); newline] ++
          blk ++ padding_ops (fh_flags h) (pp_padding p))
  | PingFrame h d =>
      Ok (head "=== PING_STREAM FRAME ==="%string h ++ octet_ops [newline] 0 d ++ [newline])
  | GoawayFrame h p =>
      let* e := error_code_ops (g_error_code p) in
      let* d := if size (g_debug p) =? 0 then Ok [] else let* c := put_c_string (g_debug p) in Ok [Insert c] in
      Ok (head "=== GOAWAY FRAME ==="%string h ++
          [ins "  R: "; decimal (g_reserved p); newline;
           ins "  Last-Stream-ID: "; decimal (g_last_stream_id p); newline] ++
          e ++ [ins "  Additional Debug Data: "] ++ d ++ [newline])
  | WindowUpdateFrame h r incr =>
      Ok (head "=== WINDOW_UPDATE FRAME ==="%string h ++
          [ins "  R: "; decimal r; newline; ins "  Window size Increment: "; decimal incr; newline])
  | ContinuationFrame _ h b =>
      let* blk := block_ops b in
      Ok (head "=== CONTINUATION FRAME ==="%string h ++ blk)
  end.

(* out_stream << frame, on a stream whose device does not fail, and on any
   (mh2c/http2_client.cpp:201-204) *)
Definition print (m : ub_mode) (s : ios) (f : frame) : res (bytes * ios) :=
  let* ops := dump_ops m f in Ok (run s ops).
(* mh2c/http2_client.cpp:201-204, on a stream whose device may fail *)
Definition print_on (m : ub_mode) (d : ostream) (f : frame) : res (bytes * ostream) :=
  let* ops := dump_ops m f in Ok (run_on d ops).

(* dynamic_table.cpp:79-89, operator<< *)
Fixpoint table_entries_ops (i : N) (es : list header) : list op :=
  match es with
  | [] => []
  | e :: es' =>
      [ins "["; decimal i; ins "] -> "; Insert (fst e); ins ": "; Insert (snd e); newline] ++
      table_entries_ops (i + 1) es'
  end.
(* dynamic_table.cpp:79-89, operator<< *)
Definition table_ops (t : dyn_table) : list op :=
  line "=== DYNAMIC_TABLE ===" :: table_entries_ops FIRST_INDEX (dt_entries t).
