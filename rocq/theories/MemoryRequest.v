(* Memory exhaustion while something is sent: std::bad_alloc thrown by the
   allocations of http2_client::send_frame, send_raw_data and
   send_connection_preface (mh2c/http2_client.ipp, http2_client.cpp,
   ssl/ssl_connection.cpp) and by the constructor of a HEADERS frame.

   Simplifications as in Memory.v: one step "alloc" stands for all the allocations
   made between two effects of the code on the client, and it is taken also where
   the code may get by without one.  Memory that OpenSSL allocates is part of what a
   BIO call may return (Ssl.v). *)
From Coq Require Import NArith List Bool.
From Verif Require Import Base Util HeaderType DynTable HeaderEnc FrameHeader Frames Ssl Client Memory.
Import ListNotations.
Open Scope N_scope.

(* ssl_connection.cpp:103-119, write, called by http2_client.cpp:112-116: the text
   of the exception (lines 112-114) is allocated after BIO_write has failed; if
   that fails, std::bad_alloc is thrown in its place *)
Definition send_raw_data_mem (mem : memory) (c : client) (data : bytes)
  : outcome unit * client * memory :=
  match send_raw_data c data with
  | (Throw x, c') =>
      let '(ok, mem') := alloc mem in
      (if ok then Returns (Throw x) else BadAlloc, c', mem')
  | (r, c') => (Returns r, c', mem)
  end.

(* http2_client.ipp:9-14, send_frame: serialize() makes a vector, then the octets
   are sent *)
Definition send_frame_mem (mem : memory) (host : endian) (c : client) (f : frame)
  : outcome unit * client * memory :=
  let '(ok, mem') := alloc mem in
  if ok then
    match serialize host f with
    | Ok raw => send_raw_data_mem mem' c raw
    | Throw x => (Returns (Throw x), c, mem')
    | UB u => (Returns (UB u), c, mem')
    | NoFuel => (Returns NoFuel, c, mem')
    end
  else (BadAlloc, c, mem').

(* http2_client.cpp:123-130, send_connection_preface: the static string of lines
   124-125; if its constructor throws, the next call tries again *)
Definition send_connection_preface_mem (mem : memory) (c : client)
  : outcome unit * client * memory :=
  let '(ok, mem') := alloc mem in
  if ok then send_raw_data_mem mem' c connection_preface else (BadAlloc, c, mem').

(* headers_frame.cpp:77-82 and 146-158, constructor *)
Definition mk_headers_mem (mem : memory) (flags stream_id : N) (b : header_block) (mode : encode_mode)
    (t : dyn_table) (padding : bytes) (prio : priority_option) : outcome frame * memory :=
  let '(ok, mem') := alloc mem in
  (if ok then Returns (mk_headers flags stream_id b mode t padding prio) else BadAlloc, mem').
