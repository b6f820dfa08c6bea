(* The text of the exceptions: what e.what() says, for every throw statement of
   the library.  The functions below are those of the rest of the model, with the
   message beside each exception; PropMessages.v proves that they agree (forget). *)
From Coq Require Import String ZArith NArith List Bool.
From Verif Require Import Base Util IntRep HuffmanTable Huffman StaticTable HeaderType DynTable HeaderEnc HeaderDec
  FrameHeader Frames FrameBuilder Ssl Client Dump Connect.
Import ListNotations.
Local Open Scope list_scope.
Open Scope N_scope.

(* What an exception says: a text composed by the library, or the text the
   standard library gives the std::out_of_range of vector::at and map::at, which
   the standard leaves open. *)
Inductive what := Text (s : bytes) | StdText.

(* Outcome of a call, as in Base.v, with the message of an exception (no line
   of /repo; the messages are those of the throw statements, for instance
   header_decoder.cpp:50) *)
Inductive told (A : Type) :=
| Done (a : A)
| Says (x : exn) (w : what)
| Undefined (u : ub)
| OutOfFuel.
Arguments Done {A}. Arguments Says {A}. Arguments Undefined {A}. Arguments OutOfFuel {A}.

(* the outcome without the message (no line of /repo) *)
Definition forget {A} (r : told A) : res A :=
  match r with
  | Done a => Ok a
  | Says x _ => Throw x
  | Undefined u => UB u
  | OutOfFuel => NoFuel
  end.

(* A call whose only exceptions come from vector::at and map::at (for instance
   header_decoder.cpp:85, huffman_encoder.cpp:42-84) *)
Definition standard {A} (r : res A) : told A :=
  match r with
  | Ok a => Done a
  | Throw x => Says x StdText
  | UB u => Undefined u
  | NoFuel => OutOfFuel
  end.

(* two statements in sequence, as Base.bind (no line of /repo: the order of
   statements) *)
Definition tbind {A B} (r : told A) (k : A -> told B) : told B :=
  match r with
  | Done a => k a
  | Says x w => Says x w
  | Undefined u => Undefined u
  | OutOfFuel => OutOfFuel
  end.
Notation "'let+' x ':=' e 'in' k" := (tbind e (fun x => k))
  (at level 200, x pattern, e at level 100, k at level 200, right associativity).

(* throw std::invalid_argument("..." + std::to_string(n)) *)
Definition invalid {A} (s : string) (n : N) : told A := Says InvalidArgument (Text (str s ++ to_string n)).

(* std::to_string of an int *)
Definition int_to_string (z : Z) : bytes :=
  if (z <? 0)%Z then str "-" ++ to_string (Z.to_N (- z)) else to_string (Z.to_N z).

(* ---- frames ---- *)

(* ping_frame.cpp:29-36 and 46-48 *)
Definition mk_ping_told (flags : N) (d : bytes) : told frame :=
  if 8 <? size d then invalid "invalid opaque data size: " (size d)
  else standard (mk_ping flags d).

(* goaway_frame.cpp:32-39 and 80-82 *)
Definition parse_goaway_told (h : frame_header) (raw : bytes) : told frame :=
  if size raw <? 8 then invalid "invalid payload size: " (size raw)
  else standard (parse_goaway h raw).

(* rst_stream_frame.cpp:28-33 and 47-49 *)
Definition parse_rst_stream_told (h : frame_header) (raw : bytes) : told frame :=
  if size raw <? 4 then invalid "invalid payload size: " (size raw)
  else standard (parse_rst_stream h raw).

(* priority_frame.cpp:48-62, validate_payload *)
Definition validate_priority_told (p : priority_option) : told unit :=
  if 1 <? p_exclusive p then invalid "invalid exclusive: " (p_exclusive p)
  else if MAX_STREAM_ID <? p_dependency p then invalid "invalid stream dependency: " (p_dependency p)
  else Done tt.

(* priority_frame.cpp:76-80 *)
Definition mk_priority_told (stream_id : N) (p : priority_option) : told frame :=
  let+ _ := validate_priority_told p in
  Done (PriorityFrame (FH 5 T_PRIORITY 0 0 stream_id) p).

(* priority_frame.cpp:32-46 *)
Definition priority_construct_payload_told (raw : bytes) : told priority_option :=
  if size raw <? 5 then invalid "invalid payload size: " (size raw)
  else standard (priority_construct_payload raw).

(* priority_frame.cpp:82-86 *)
Definition parse_priority_told (h : frame_header) (raw : bytes) : told frame :=
  let+ p := priority_construct_payload_told raw in
  let+ _ := validate_priority_told p in
  Done (PriorityFrame h p).

(* window_update_frame.cpp:54-59, validate_window_size *)
Definition validate_window_size_told (w : N) : told unit :=
  if 0x7fffffff <? w then invalid "invalid window size: " w else Done tt.

(* window_update_frame.cpp:67-74 *)
Definition mk_window_update_told (stream_id reserved increment : N) : told frame :=
  let+ _ := validate_window_size_told increment in
  Done (WindowUpdateFrame (FH 4 T_WINDOW_UPDATE 0 0 stream_id) reserved increment).

(* window_update_frame.cpp:33-52 and 76-82 *)
Definition parse_window_update_told (h : frame_header) (raw : bytes) : told frame :=
  let+ r :=
    match raw with
    | [] => invalid "invalid payload size: " (size raw)
    | b0 :: _ => Done (extract_high_bit RESERVED_BITS 8 b0)
    end in
  let+ w :=
    if negb (size raw =? 4) then invalid "invalid payload size: " (size raw)
    else standard (let* x := bytes2integral 4 raw 0 in Ok (extract_low_bit 31 x)) in
  let+ _ := validate_window_size_told w in
  Done (WindowUpdateFrame h r w).

(* ---- HPACK ---- *)

(* header_type.cpp:42-56 *)
Definition get_header_told (e : hentry) : told header :=
  match e_content e with
  | EHeader h => Done h
  | ESize _ => Says RuntimeError (Text (str "m_entry doesn't hold header_t"))
  end.
(* mh2c/hpack/header_type.cpp:50-56, get_max_size *)
Definition get_max_size_told (e : hentry) : told N :=
  match e_content e with
  | ESize n => Done n
  | EHeader _ => Says RuntimeError (Text (str "m_entry doesn't hold size_t"))
  end.

(* header_encoder.cpp:21-47 *)
Definition encode_index_told (index : N) (p : hprefix) : told bytes :=
  match p with
  | SizeUpdate => invalid "prefix is invalid: " (prefix_val p)
  | _ => standard (encode_index index p)
  end.

(* huffman_decoder.cpp:17-24 *)
Definition construct_integer_told (v : bytes) (required : N) : told N :=
  if size v <? required then
    Says InvalidArgument (Text (str "invalid argument: encoded_data.size()=" ++ to_string (size v) ++
                                str ", required_byte=" ++ to_string required))
  else standard (construct_integer v required).

(* huffman_decoder.cpp:45-91 *)
Fixpoint decode_pass_told (table : list (N * list (N * N))) (temp : bytes) (carry : N * N) : told pass :=
  match table with
  | [] => Done NotFound
  | (bit_length, decode_map) :: table' =>
      if (size temp =? 0) && (snd carry <? bit_length) then Done Padding
      else
        let+ (key, temp_carry, erase_length) :=
          if snd carry <? bit_length then
            let required_bit := bit_length - snd carry in
            let required_byte :=
              if required_bit mod 8 =? 0 then required_bit / 8
              else required_bit / 8 + 1 in
            let+ target := construct_integer_told temp required_byte in
            let shift_bit := (required_byte * 8 + snd carry) - bit_length in
            let shifted_target := N.shiftr target shift_bit in
            let shifted_value :=
              N.lxor target (u32 (N.shiftl shifted_target shift_bit)) in
            let key :=
              N.lor (u32 (N.shiftl (fst carry) (bit_length - snd carry)))
                    shifted_target in
            Done (key, (shifted_value, shift_bit), required_byte)
          else
            let target := fst carry in
            let shift_bit := snd carry - bit_length in
            let shifted_target := N.shiftr target shift_bit in
            let shifted_value :=
              N.lxor target (u32 (N.shiftl shifted_target shift_bit)) in
            Done (shifted_target, (shifted_value, shift_bit), 0)
        in
        match map_find decode_map key with
        | Some sym =>
            let+ temp' := standard (verase_front temp erase_length) in
            Done (Symbol sym bit_length temp' temp_carry)
        | None => decode_pass_told table' temp carry
        end
  end.

(* huffman_decoder.cpp:42-104; lines 93-103 compose the message from the first
   four octets left, read unchecked *)
Fixpoint decode_while_told (fuel : nat) (decoded total : N) (temp : bytes) (carry : N * N) : told bytes :=
  if decoded <? total then
    match fuel with
    | O => OutOfFuel
    | S f =>
        let+ p := decode_pass_told decode_table temp carry in
        match p with
        | Padding => decode_while_told f (decoded + snd carry) total temp carry
        | Symbol sym bit_length temp' carry' =>
            let+ out := decode_while_told f (decoded + bit_length) total temp' carry' in
            Done (u8 sym :: out)
        | NotFound =>
            match temp with
            | a :: b :: c :: d :: _ =>
                Says RuntimeError (Text (
                  str "decode failed: carry_over.first=" ++ to_string (fst carry) ++
                  str ", carry_over.second=" ++ to_string (snd carry) ++
                  str ", temp_encoded_data[0]=" ++ to_string a ++
                  str ", temp_encoded_data[1]=" ++ to_string b ++
                  str ", temp_encoded_data[2]=" ++ to_string c ++
                  str ", temp_encoded_data[3]=" ++ to_string d))
            | _ => Undefined OobRead
            end
        end
    end
  else Done [].

(* huffman_decoder.cpp:35-107 *)
Definition huffman_decode_told (encoded : bytes) : told bytes :=
  let total := size encoded * 8 in
  decode_while_told (S (N.to_nat total)) 0 total encoded (0, 0).

(* header_decoder.cpp:32-51 *)
Definition check_prefix_told (target : N) : told hprefix :=
  match check_prefix target with
  | Throw _ => invalid "target is invalid: " target
  | r => standard r
  end.

(* header_decoder.cpp:53-92 *)
Definition decode_index_told (v : bytes) (p : hprefix) : told (N * N) :=
  match p with
  | SizeUpdate => invalid "prefix is invalid: " (prefix_val p)
  | _ => standard (decode_index v p)
  end.

(* header_decoder.cpp:103-155, decode_header_name and decode_header_value *)
Definition decode_string_told (m : ub_mode) (v : bytes) : told (bytes * N) :=
  let+ (len, consumed) := standard (decode_int_and_length 7 v) in
  let+ b0 := standard (vget v 0) in
  let+ s :=
    if negb (extract_high_bit 1 8 b0 =? 0) then
      let+ enc := standard (vrange v consumed len) in
      let+ dec := huffman_decode_told enc in
      let+ _ := standard (address_of m dec 0) in
      Done dec
    else
      let+ _ := standard (address_of m v consumed) in
      match vrange v consumed len with
      | UB _ => Undefined OobRead
      | r => standard r
      end
  in
  Done (s, consumed + len).

(* header_decoder.cpp:167-216; make_indexed_header (lines 157-165) throws only
   what vector::at and map::at throw *)
Definition decode_header_told (m : ub_mode) (encoded : bytes) (t : dyn_table) : told (hentry * N) :=
  let+ b0 := standard (vget encoded 0) in
  let+ p := check_prefix_told b0 in
  if hprefix_eqb p SizeUpdate then
    let+ (max_size, n) := standard (decode_max_size encoded) in
    Done (HEntry p (ESize max_size), n)
  else
    let+ (index, index_len) := decode_index_told encoded p in
    let+ h := standard (if 0 <? index then make_indexed_header index t else Ok ([], [])) in
    if hprefix_eqb p Indexed then Done (HEntry p (EHeader h), index_len)
    else
      let+ data := standard (verase_front encoded index_len) in
      let+ (name, data, consumed) :=
        if size (fst h) <=? 0 then
          let+ (name, n) := decode_string_told m data in
          let+ data' := standard (verase_front data n) in
          Done (name, data', index_len + n)
        else Done (fst h, data, index_len)
      in
      let+ (value, n) := decode_string_told m data in
      let+ _ := standard (verase_front data n) in
      Done (HEntry p (EHeader (name, value)), consumed + n).

(* headers_frame.cpp:131-136, push_promise_frame.cpp:100-105 and
   continuation_frame.cpp:55-61, the loop over the entries of a block *)
Fixpoint decode_block_loop_told (m : ub_mode) (fuel : nat) (raw : bytes) (t : dyn_table) : told header_block :=
  if 0 <? size raw then
    match fuel with
    | O => OutOfFuel
    | S f =>
        let+ (e, n) := decode_header_told m raw t in
        let+ raw' := standard (verase_front raw n) in
        let+ b := decode_block_loop_told m f raw' t in
        Done (e :: b)
    end
  else Done [].
(* mh2c/frame/headers_frame.cpp:132-136, from its start *)
Definition decode_block_told (m : ub_mode) (raw : bytes) (t : dyn_table) : told header_block :=
  decode_block_loop_told m (length raw) raw t.

(* headers_frame.cpp:90-139 and 160-168 *)
Definition parse_headers_told (m : ub_mode) (h : frame_header) (raw : bytes) (t : dyn_table) : told frame :=
  let+ (padding, data) :=
    standard (if is_flag_set (fh_flags h) F_PADDED then split_padding raw else Ok ([], raw)) in
  let+ (prio, data) :=
    standard (if is_flag_set (fh_flags h) F_PRIORITY then headers_split_priority data
              else Ok (Prio 0 0 0, data)) in
  let+ b := decode_block_told m data t in
  Done (HeadersFrame raw h padding prio b).

(* push_promise_frame.cpp:76-108 and 136-141 *)
Definition parse_push_promise_told (m : ub_mode) (h : frame_header) (raw : bytes) (t : dyn_table) : told frame :=
  let+ (padding, data) :=
    standard (if is_flag_set (fh_flags h) F_PADDED then split_padding raw else Ok ([], raw)) in
  let+ b0 := standard (vget data 0) in
  let+ x := standard (bytes2integral 4 data 0) in
  let+ data' := standard (verase_front data 4) in
  let+ b := decode_block_told m data' t in
  Done (PushPromiseFrame raw h (PushPromise (extract_high_bit RESERVED_BITS 8 b0)
          (extract_low_bit STREAM_ID_BITS x) b padding)).

(* continuation_frame.cpp:51-64 and 81-86 *)
Definition parse_continuation_told (m : ub_mode) (h : frame_header) (raw : bytes) (t : dyn_table) : told frame :=
  let+ b := decode_block_told m raw t in
  Done (ContinuationFrame raw h b).

(* ---- reception ---- *)

(* frame_builder.cpp:56-66; also what is printed to std::cout, as the message
   followed by a newline *)
Definition build_headers_frame_told (m : ub_mode) (h : frame_header) (raw : bytes) (t : dyn_table)
  : told frame * option what :=
  match parse_headers_told m h raw t with
  | Says _ w => (Done (RawFrame h raw), Some w)
  | r => (r, None)
  end.

(* frame_builder.cpp:123-143; what is printed to std::cout *)
Definition build_frame_told (m : ub_mode) (h : frame_header) (raw : bytes) (t : dyn_table)
  : told frame * option what :=
  let ty := fh_type h in
  if ty =? T_DATA then (standard (build_data_frame h raw), None)
  else if ty =? T_HEADERS then build_headers_frame_told m h raw t
  else if ty =? T_PRIORITY then (parse_priority_told h raw, None)
  else if ty =? T_RST_STREAM then (parse_rst_stream_told h raw, None)
  else if ty =? T_SETTINGS then (standard (build_settings_frame h raw), None)
  else if ty =? T_PUSH_PROMISE then (parse_push_promise_told m h raw t, None)
  else if ty =? T_PING then (standard (parse_ping h raw), None)
  else if ty =? T_GOAWAY then (parse_goaway_told h raw, None)
  else if ty =? T_WINDOW_UPDATE then (parse_window_update_told h raw, None)
  else if ty =? T_CONTINUATION then (parse_continuation_told m h raw t, None)
  else (Says OutOfRange StdText, None).

(* ssl_connection.cpp:103-119, write; result is what a failing BIO_write
   returns, length the size of the whole data *)
Fixpoint write_loop_told (result : Z) (length : N) (fuel : nat) (s : tls) (data : bytes) : told unit * tls :=
  match data with
  | [] => (Done tt, s)
  | _ =>
      match fuel with
      | O => (OutOfFuel, s)
      | S f =>
          match bio_write s data with
          | (None, s') =>
              (Says RuntimeError (Text (str "BIO_write failed: result=" ++ int_to_string result ++
                                        str ", length=" ++ to_string length)), s')
          | (Some j, s') => write_loop_told result length f s' (skipn (N.to_nat j) data)
          end
      end
  end.
(* mh2c/ssl/ssl_connection.cpp:103-119 *)
Definition ssl_write_told (result : Z) (s : tls) (data : bytes) : told unit * tls :=
  write_loop_told result (size data) (length data) s data.

(* ssl_connection.cpp:121-136, read *)
Fixpoint read_loop_told (result : Z) (length : N) (fuel : nat) (s : tls) (remain : N) : told bytes * tls :=
  if 0 <? remain then
    match fuel with
    | O => (OutOfFuel, s)
    | S f =>
        match bio_read s remain with
        | (None, s') =>
            (Says RuntimeError (Text (str "BIO_read failed: result=" ++ int_to_string result ++
                                      str ", length=" ++ to_string length)), s')
        | (Some d, s') =>
            let '(r, s'') := read_loop_told result length f s' (remain - size d) in
            (let+ rest := r in Done (d ++ rest), s'')
        end
    end
  else (Done [], s).
(* mh2c/ssl/ssl_connection.cpp:121-136 *)
Definition ssl_read_told (result : Z) (s : tls) (n : N) : told bytes * tls :=
  read_loop_told result n (N.to_nat n) s n.

(* http2_client.cpp:31-46 *)
Definition update_entry_told (t : dyn_table) (e : hentry) : told dyn_table :=
  match e_prefix e with
  | IncrementalIndexing => let+ h := get_header_told e in standard (dt_push t h)
  | SizeUpdate => let+ n := get_max_size_told e in standard (dt_update_size t n)
  | _ => Done t
  end.
(* mh2c/http2_client.cpp:31-46 *)
Fixpoint update_block_told (t : dyn_table) (b : header_block) : told unit * dyn_table :=
  match b with
  | [] => (Done tt, t)
  | e :: b' =>
      match update_entry_told t e with
      | Done t' => update_block_told t' b'
      | Says x w => (Says x w, t)
      | Undefined u => (Undefined u, t)
      | OutOfFuel => (OutOfFuel, t)
      end
  end.

(* http2_client.cpp:48-83 *)
Definition update_frame_told (t : dyn_table) (f : frame) : told unit * dyn_table :=
  let ty := fh_type (frame_fh f) in
  if ty =? T_HEADERS then
    match f with
    | HeadersFrame _ _ _ _ b => update_block_told t b
    | _ => (Undefined NullDeref, t)
    end
  else if ty =? T_PUSH_PROMISE then
    match f with
    | PushPromiseFrame _ _ p => update_block_told t (pp_block p)
    | _ => (Undefined NullDeref, t)
    end
  else if ty =? T_CONTINUATION then
    match f with
    | ContinuationFrame _ _ b => update_block_told t b
    | _ => (Undefined NullDeref, t)
    end
  else let '(r, t') := update_frame t f in (standard r, t').

(* http2_client.cpp:132-146 and 184, receive_frame *)
Definition receive_frame_told (result : Z) (m : ub_mode) (c : client)
  : told frame * option what * client :=
  let '(r, s1) := ssl_read_told result (c_tls c) FRAME_HEADER_BYTES in
  let c1 := set_tls c s1 in
  match (let+ raw_fh := r in standard (build_frame_header raw_fh)) with
  | Says x w => (Says x w, None, c1)
  | Undefined u => (Undefined u, None, c1)
  | OutOfFuel => (OutOfFuel, None, c1)
  | Done fh =>
      let '(r2, c2) :=
        if 0 <? fh_length fh then
          let '(r2, s2) := ssl_read_told result (c_tls c1) (fh_length fh) in (r2, set_tls c1 s2)
        else (Done [], c1) in
      match r2 with
      | Says x w => (Says x w, None, c2)
      | Undefined u => (Undefined u, None, c2)
      | OutOfFuel => (OutOfFuel, None, c2)
      | Done raw =>
          let '(r3, printed) := build_frame_told m fh raw (c_resp c2) in
          match r3 with
          | Says x w => (Says x w, printed, c2)
          | Undefined u => (Undefined u, printed, c2)
          | OutOfFuel => (OutOfFuel, printed, c2)
          | Done f =>
              let '(r4, t) := update_frame_told (c_resp c2) f in
              let c3 := Client (c_tls c2) (c_req c2) t in
              (let+ _ := r4 in Done f, printed, c3)
          end
      end
  end.

(* ---- the constructor of the connection ---- *)

(* The values the constructor puts in its messages, beside those of tls_env:
   results of OpenSSL calls and errno. *)
Record tls_codes := TlsCodes {
  code_alpn : Z;          (* SSL_set_alpn_protos *)
  code_paths : Z;         (* SSL_CTX_set_default_verify_paths *)
  errno_connect : Z;      (* errno after BIO_do_connect *)
  errno_handshake : Z;    (* errno after BIO_do_handshake *)
  code_verify : Z         (* SSL_get_verify_result *)
}.

(* a message without a number, ssl_connection.cpp:45 *)
Definition failed (s : string) : bytes := str s.
(* a message that ends in a number, ssl_connection.cpp:52-53 and the others *)
Definition failed_code (s : string) (z : Z) : bytes := str s ++ int_to_string z.

(* ssl_ctx.cpp:15-19, ssl_bio.cpp:17-22 and ssl_connection.cpp:33-100: the
   throw statements in the order in which they are reached, each with its
   condition and its message *)
Definition connect_checks (env : tls_env) (k : tls_codes) (mode : verify_mode) : list (bool * bytes) :=
  [ (env_ctx_new env, failed "SSL_CTX_new failed");
    (env_bio_new env, failed "BIO_new_ssl_connect failed");
    (env_get_ssl env, failed "BIO_get_ssl failed");
    (env_set_alpn env, failed_code "SSL_set_alpn_protos failed: err=" (code_alpn k));
    (env_verify_paths env, failed_code "SSL_CTX_set_default_verify_paths failed: err=" (code_paths k));
    (env_connect env, failed_code "BIO_do_connect failed: err_code=" (errno_connect k));
    (env_handshake env, failed_code "BIO_do_handshake failed: err_code=" (errno_handshake k));
    (match mode with VERIFY_NONE => true | VERIFY_SERVER_CERT => env_verify_ok env end,
     failed_code "SSL_get_verify_result failed: verify_result=" (code_verify k));
    (is_expected_alpn (env_alpn env), str "unexpected alpn result: alpn_result=" ++ env_alpn env) ].

(* ssl_connection.cpp:36-100: the first check that fails throws *)
Fixpoint first_failure (l : list (bool * bytes)) : told unit :=
  match l with
  | [] => Done tt
  | (ok, msg) :: l' => if ok then first_failure l' else Says RuntimeError (Text msg)
  end.

(* ssl_connection.cpp:33-101, the constructor *)
Definition ssl_connect_told (env : tls_env) (k : tls_codes) (mode : verify_mode) : told unit :=
  first_failure (connect_checks env k mode).
