(* Model of mh2c/http2_client.cpp and http2_client.ipp. *)
From Coq Require Import String NArith List Bool.
From Verif Require Import Base Util HeaderType DynTable FrameHeader Frames FrameBuilder Ssl.
Import ListNotations.
Open Scope N_scope.

(* http2_client.cpp:102-105, private members of impl *)
Record client := Client {
  c_tls : tls;
  c_req : dyn_table;
  c_resp : dyn_table
}.

(* http2_client.cpp:108-110, constructor, once the TLS connection stands *)
Definition new_client (s : tls) : client := Client s default_table default_table.

(* http2_client.cpp:35-43, the lambda *)
Definition update_entry (t : dyn_table) (e : hentry) : res dyn_table :=
  match e_prefix e with
  | IncrementalIndexing => let* h := get_header e in dt_push t h
  | SizeUpdate => let* n := get_max_size e in dt_update_size t n
  | _ => Ok t
  end.

(* http2_client.cpp:31-46, update_dynamic_table(header_block); the returned
   table is the state of the table also when an exception is thrown *)
Fixpoint update_block (t : dyn_table) (b : header_block) : res unit * dyn_table :=
  match b with
  | [] => (Ok tt, t)
  | e :: b' =>
      match update_entry t e with
      | Ok t' => update_block t' b'
      | Throw x => (Throw x, t)
      | UB u => (UB u, t)
      | NoFuel => (NoFuel, t)
      end
  end.

(* http2_client.cpp:48-83, update_dynamic_table(frame); dynamic_cast to the
   wrong class yields a null pointer, which is dereferenced *)
Definition update_frame (t : dyn_table) (f : frame) : res unit * dyn_table :=
  let ty := fh_type (frame_fh f) in
  if ty =? T_HEADERS then
    match f with
    | HeadersFrame _ _ _ _ b => update_block t b
    | _ => (UB NullDeref, t)
    end
  else if ty =? T_PUSH_PROMISE then
    match f with
    | PushPromiseFrame _ _ p => update_block t (pp_block p)
    | _ => (UB NullDeref, t)
    end
  else if ty =? T_CONTINUATION then
    match f with
    | ContinuationFrame _ _ b => update_block t b
    | _ => (UB NullDeref, t)
    end
  else if ty =? T_SETTINGS then
    match f with
    | SettingsFrame _ m =>
        match sm_find m 1 with
        | Some n =>
            match dt_update_size t n with
            | Ok t' => (Ok tt, t')
            | Throw x => (Throw x, t)
            | UB u => (UB u, t)
            | NoFuel => (NoFuel, t)
            end
        | None => (Ok tt, t)
        end
    | _ => (UB NullDeref, t)
    end
  else (Ok tt, t).

(* mh2c/http2_client.cpp:104, the member m_ssl_connection after a call; the
   tables of lines 105-106 are untouched *)
Definition set_tls (c : client) (s : tls) : client := Client s (c_req c) (c_resp c).

(* http2_client.cpp:112-116 and 169-172, send_raw_data *)
Definition send_raw_data (c : client) (data : bytes) : res unit * client :=
  let '(r, s) := ssl_write (c_tls c) data in (r, set_tls c s).

(* http2_client.cpp:118-121 and 174-177, receive_raw_data *)
Definition receive_raw_data (c : client) (n : N) : res bytes * client :=
  let '(r, s) := ssl_read (c_tls c) n in (r, set_tls c s).

(* http2_client.cpp:124-125, the preface literal; \r\n are octets 13, 10 *)
Definition crlf : bytes := [13; 10].
(* http2_client.cpp:124-125, client_connection_preface *)
Definition connection_preface : bytes :=
  bytes_of_string "PRI * HTTP/2.0"%string ++ crlf ++ crlf ++
  bytes_of_string "SM"%string ++ crlf ++ crlf.

(* http2_client.cpp:123-130 and 179-182, send_connection_preface *)
Definition send_connection_preface (c : client) : res unit * client :=
  send_raw_data c connection_preface.

(* http2_client.ipp:9-14, send_frame *)
Definition send_frame (host : endian) (c : client) (f : frame) : res unit * client :=
  match serialize host f with
  | Ok raw => send_raw_data c raw
  | Throw x => (Throw x, c)
  | UB u => (UB u, c)
  | NoFuel => (NoFuel, c)
  end.

(* http2_client.cpp:132-146 and 184, receive_frame *)
Definition receive_frame (m : ub_mode) (c : client) : res frame * client :=
  let '(r, c1) := receive_raw_data c FRAME_HEADER_BYTES in
  match (let* raw_fh := r in build_frame_header raw_fh) with
  | Throw x => (Throw x, c1)
  | UB u => (UB u, c1)
  | NoFuel => (NoFuel, c1)
  | Ok fh =>
      let '(r2, c2) :=
        if 0 <? fh_length fh then receive_raw_data c1 (fh_length fh) else (Ok [], c1) in
      match (let* raw := r2 in build_frame m fh raw (c_resp c2)) with
      | Throw x => (Throw x, c2)
      | UB u => (UB u, c2)
      | NoFuel => (NoFuel, c2)
      | Ok f =>
          let '(r3, t) := update_frame (c_resp c2) f in
          let c3 := Client (c_tls c2) (c_req c2) t in
          (let* _ := r3 in Ok f, c3)
      end
  end.

(* http2_client.cpp:148-152 and 186-190 *)
Definition update_request_dynamic_table (c : client) (b : header_block) : res unit * client :=
  let '(r, t) := update_block (c_req c) b in (r, Client (c_tls c) t (c_resp c)).

(* http2_client.cpp:154-157 and 192-195 *)
Definition update_request_table_size (c : client) (n : N) : res unit * client :=
  match dt_update_size (c_req c) n with
  | Ok t => (Ok tt, Client (c_tls c) t (c_resp c))
  | Throw x => (Throw x, c)
  | UB u => (UB u, c)
  | NoFuel => (NoFuel, c)
  end.

(* http2_client.cpp:159-161 and 197-199 *)
Definition get_request_dynamic_table (c : client) : dyn_table := c_req c.
