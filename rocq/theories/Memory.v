(* Memory exhaustion: std::bad_alloc thrown by the allocations made while a
   dynamic table is updated (mh2c/hpack/dynamic_table.cpp, http2_client.cpp) and
   while a frame is received (http2_client.cpp, frame_builder.cpp).

   Simplifications.  One step "alloc" stands for all the allocations made between
   two effects of the code on the client: it fails if any of them does.  A step is
   also taken where the C++ code may get by without an allocation (short strings,
   spare capacity).  Where the code would run into undefined behaviour or another
   exception between two such allocations, the failure is taken to come first.
   std::vector::insert has no effect when it fails (so do libstdc++ and libc++; the
   standard promises it for a failed allocation of the vector itself). *)
From Coq Require Import NArith List Bool.
From Verif Require Import Base HeaderType DynTable FrameHeader Frames FrameBuilder Ssl Client.
Import ListNotations.
Open Scope N_scope.

(* How a call ends: as in the rest of the model, or with std::bad_alloc. *)
Inductive outcome A := Returns (r : res A) | BadAlloc.
Arguments Returns {A}. Arguments BadAlloc {A}.

(* Whether the coming allocations succeed; those beyond the end do (no line of
   /repo: the allocations of std::deque, std::string and operator new in
   dynamic_table.cpp:37-45 and http2_client.cpp:132-146) *)
Definition memory := list bool.
(* one allocation, which fails by throwing std::bad_alloc *)
Definition alloc (mem : memory) : bool * memory :=
  match mem with [] => (true, []) | b :: mem' => (b, mem') end.

(* mh2c/hpack/dynamic_table.cpp:37-45, push: m_table_size is set before
   m_entries.insert, which may fail *)
Definition dt_push_mem (mem : memory) (t : dyn_table) (h : header)
  : outcome unit * dyn_table * memory :=
  match resize_table (dt_entries t) (dt_size t + entry_size h) (dt_max t) with
  | Ok (entries, sz) =>
      let '(ok, mem') := alloc mem in
      if ok then (Returns (Ok tt), DynTable (h :: entries) sz (dt_max t), mem')
      else (BadAlloc, DynTable entries sz (dt_max t), mem')
  | Throw x => (Returns (Throw x), t, mem)
  | UB u => (Returns (UB u), t, mem)
  | NoFuel => (Returns NoFuel, t, mem)
  end.

(* http2_client.cpp:35-43, the lambda: get_header() returns a copy
   (header_type.cpp:42-48), then push; update_table_size does not allocate *)
Definition update_entry_mem (mem : memory) (t : dyn_table) (e : hentry)
  : outcome unit * dyn_table * memory :=
  match e_prefix e with
  | IncrementalIndexing =>
      match get_header e with
      | Ok h =>
          let '(ok, mem') := alloc mem in
          if ok then dt_push_mem mem' t h else (BadAlloc, t, mem')
      | Throw x => (Returns (Throw x), t, mem)
      | UB u => (Returns (UB u), t, mem)
      | NoFuel => (Returns NoFuel, t, mem)
      end
  | SizeUpdate =>
      match (let* n := get_max_size e in dt_update_size t n) with
      | Ok t' => (Returns (Ok tt), t', mem)
      | Throw x => (Returns (Throw x), t, mem)
      | UB u => (Returns (UB u), t, mem)
      | NoFuel => (Returns NoFuel, t, mem)
      end
  | _ => (Returns (Ok tt), t, mem)
  end.

(* http2_client.cpp:31-46, update_dynamic_table(header_block) *)
Fixpoint update_block_mem (mem : memory) (t : dyn_table) (b : header_block)
  : outcome unit * dyn_table :=
  match b with
  | [] => (Returns (Ok tt), t)
  | e :: b' =>
      match update_entry_mem mem t e with
      | (Returns (Ok _), t', mem') => update_block_mem mem' t' b'
      | (r, t', _) => (r, t')
      end
  end.

(* http2_client.cpp:148-152 and 186-190, update_request_dynamic_table *)
Definition update_request_dynamic_table_mem (mem : memory) (c : client) (b : header_block)
  : outcome unit * client :=
  let '(r, t) := update_block_mem mem (c_req c) b in (r, Client (c_tls c) t (c_resp c)).

(* frame_builder.cpp:38-42, build_raw_frame *)
Definition build_raw_frame_mem (mem : memory) (h : frame_header) (raw : bytes)
  : outcome frame * memory :=
  let '(ok, mem') := alloc mem in
  (if ok then Returns (Ok (RawFrame h raw)) else BadAlloc, mem').

(* frame_builder.cpp:56-66, build_headers_frame: std::bad_alloc is a
   std::exception and caught like any other *)
Definition build_headers_frame_mem (mem : memory) (m : ub_mode) (h : frame_header) (raw : bytes)
    (t : dyn_table) : outcome frame * memory :=
  let '(ok, mem') := alloc mem in
  if ok then
    match parse_headers m h raw t with
    | Throw _ => build_raw_frame_mem mem' h raw
    | r => (Returns r, mem')
    end
  else build_raw_frame_mem mem' h raw.

(* frame_builder.cpp:138-143, build_frame; an unknown type is found before
   anything is allocated *)
Definition build_frame_mem (mem : memory) (m : ub_mode) (h : frame_header) (raw : bytes)
    (t : dyn_table) : outcome frame * memory :=
  if fh_type h =? T_HEADERS then build_headers_frame_mem mem m h raw t
  else if T_CONTINUATION <? fh_type h then (Returns (build_frame m h raw t), mem)
  else
    let '(ok, mem') := alloc mem in
    (if ok then Returns (build_frame m h raw t) else BadAlloc, mem').

(* http2_client.cpp:48-83, update_dynamic_table(frame): the payload is copied out
   of the frame (lines 55, 58, 63 and 67), then the table is updated *)
Definition update_frame_mem (mem : memory) (t : dyn_table) (f : frame) : outcome unit * dyn_table :=
  let ty := fh_type (frame_fh f) in
  let block (b : header_block) :=
    let '(ok, mem') := alloc mem in
    if ok then update_block_mem mem' t b else (BadAlloc, t) in
  if ty =? T_HEADERS then
    match f with
    | HeadersFrame _ _ _ _ b => block b
    | _ => (Returns (UB NullDeref), t)
    end
  else if ty =? T_PUSH_PROMISE then
    match f with
    | PushPromiseFrame _ _ p => block (pp_block p)
    | _ => (Returns (UB NullDeref), t)
    end
  else if ty =? T_CONTINUATION then
    match f with
    | ContinuationFrame _ _ b => block b
    | _ => (Returns (UB NullDeref), t)
    end
  else if ty =? T_SETTINGS then
    match f with
    | SettingsFrame _ _ =>
        let '(ok, _) := alloc mem in
        if ok then let '(r, t') := update_frame t f in (Returns r, t') else (BadAlloc, t)
    | _ => (Returns (UB NullDeref), t)
    end
  else (Returns (Ok tt), t).

(* ssl_connection.cpp:121-136, read, called by http2_client.cpp:118-121: the text of
   the exception (lines 128-130) is allocated after BIO_read has failed; if that
   fails, std::bad_alloc is thrown in its place *)
Definition receive_raw_data_mem (mem : memory) (c : client) (n : N) : outcome bytes * client * memory :=
  match receive_raw_data c n with
  | (Throw x, c') =>
      let '(ok, mem') := alloc mem in
      (if ok then Returns (Throw x) else BadAlloc, c', mem')
  | (r, c') => (Returns r, c', mem)
  end.

(* http2_client.cpp:132-146 and 184, receive_frame: the buffers of lines 133 and
   137, the frame, the update of the table *)
Definition receive_frame_mem (mem : memory) (m : ub_mode) (c : client) : outcome frame * client :=
  let '(ok, mem1) := alloc mem in
  if negb ok then (BadAlloc, c)
  else
    let '(o1, c1, mem1) := receive_raw_data_mem mem1 c FRAME_HEADER_BYTES in
    match o1 with
    | BadAlloc => (BadAlloc, c1)
    | Returns r =>
      match (let* raw_fh := r in build_frame_header raw_fh) with
      | Throw x => (Returns (Throw x), c1)
      | UB u => (Returns (UB u), c1)
      | NoFuel => (Returns NoFuel, c1)
      | Ok fh =>
        let '(ok, mem2) := alloc mem1 in
        if negb ok then (BadAlloc, c1)
        else
          let '(o2, c2, mem2) :=
            if 0 <? fh_length fh then receive_raw_data_mem mem2 c1 (fh_length fh)
            else (Returns (Ok []), c1, mem2) in
          match o2 with
          | BadAlloc => (BadAlloc, c2)
          | Returns (Throw x) => (Returns (Throw x), c2)
          | Returns (UB u) => (Returns (UB u), c2)
          | Returns NoFuel => (Returns NoFuel, c2)
          | Returns (Ok raw) =>
              let '(b, mem3) := build_frame_mem mem2 m fh raw (c_resp c2) in
              match b with
              | BadAlloc => (BadAlloc, c2)
              | Returns (Throw x) => (Returns (Throw x), c2)
              | Returns (UB u) => (Returns (UB u), c2)
              | Returns NoFuel => (Returns NoFuel, c2)
              | Returns (Ok f) =>
                  let '(r3, t) := update_frame_mem mem3 (c_resp c2) f in
                  let c3 := Client (c_tls c2) (c_req c2) t in
                  match r3 with
                  | BadAlloc => (BadAlloc, c3)
                  | Returns r => (Returns (let* _ := r in Ok f), c3)
                  end
              end
          end
      end
    end.
