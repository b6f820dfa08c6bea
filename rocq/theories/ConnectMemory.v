(* Memory exhaustion while a client is made and while it sends the connection
   preface: std::bad_alloc thrown by the
   allocations of http2_client's constructor (mh2c/http2_client.cpp:109-111, 163-165 and
   mh2c/ssl/ssl_connection.cpp:24-101), and what the process remembers between
   one attempt and the next.

   Simplifications.  One step "room" stands for all the allocations made between
   two OpenSSL calls, and is taken where a short string needs none.  Memory that
   OpenSSL cannot get shows in what its calls return (Connect.tls_env).  The
   storage of the client's own objects is not counted here, only the OpenSSL
   objects. *)
From Coq Require Import NArith List Bool.
From Verif Require Import Base Dump Connect Client Memory.
Import ListNotations.
Open Scope N_scope.

(* What outlives an attempt: load_once (ssl_connection.cpp:24) has been passed;
   the function's static alpn_protos (line 49) has been initialised. *)
Record process := Process { p_loaded : bool; p_protos : bool }.

(* a process in which no client was made: ssl_connection.cpp:24 and 49 have
   not been reached *)
Definition new_process : process := Process false false.

(* A piece of code that may run out of memory: the calls it makes, how it
   ends, and the process and memory it leaves. (ssl_connection.cpp:33-101) *)
Definition mcode := process -> memory -> list ssl_call * outcome unit * process * memory.

(* OpenSSL calls *)
Definition mcalls (cs : list ssl_call) : mcode := fun p mem => (cs, Returns (Ok tt), p, mem).

(* An allocation (ssl_connection.cpp:39, 49 and 91) *)
Definition mroom : mcode := fun p mem =>
  let '(ok, mem') := alloc mem in
  ([], if ok then Returns (Ok tt) else BadAlloc, p, mem').

(* if (!b) throw std::runtime_error(text): the text and the exception's copy of
   it are allocated *)
Definition mrequire (b : bool) : mcode := fun p mem =>
  if b then ([], Returns (Ok tt), p, mem)
  else let '(ok, mem') := alloc mem in
       ([], if ok then Returns (Throw RuntimeError) else BadAlloc, p, mem').

(* two pieces of ssl_connection.cpp:36-100 in sequence; a throw ends both *)
Definition mseq (c d : mcode) : mcode := fun p mem =>
  let '(cs, r, p', mem') := c p mem in
  match r with
  | Returns (Ok _) => let '(ds, r', p'', mem'') := d p' mem' in (cs ++ ds, r', p'', mem'')
  | _ => (cs, r, p', mem')
  end.

(* A member whose constructor has returned is destroyed when what follows
   throws, whatever the exception. (ssl_connection.cpp:35) *)
Definition mguarded (destructor : ssl_call) (c : mcode) : mcode := fun p mem =>
  let '(cs, r, p', mem') := c p mem in
  match r with
  | Returns (Throw x) => (cs ++ [destructor], Returns (Throw x), p', mem')
  | BadAlloc => (cs ++ [destructor], BadAlloc, p', mem')
  | _ => (cs, r, p', mem')
  end.

(* ssl_connection.cpp:24-29 and 37, std::call_once *)
Definition mload : mcode := fun p mem =>
  if p_loaded p then ([], Returns (Ok tt), p, mem)
  else ([SSL_library_init; SSL_load_error_strings], Returns (Ok tt), Process true (p_protos p), mem).

(* ssl_connection.cpp:49: initialised by the first execution that reaches it; an
   initialisation that throws is tried again by the next *)
Definition mprotos : mcode := fun p mem =>
  if p_protos p then ([], Returns (Ok tt), p, mem)
  else let '(ok, mem') := alloc mem in
       if ok then ([], Returns (Ok tt), Process (p_loaded p) true, mem') else ([], BadAlloc, p, mem').

(* ssl_connection.cpp:36-100, the body *)
Definition connect_body_mem (env : tls_env) (mode : verify_mode) (host : bytes) (port : N) : mcode :=
  mseq mload
  (mseq mroom                                                  (* line 39, host_port *)
  (mseq (mcalls [BIO_set_conn_hostname (c_str (host ++ [58] ++ to_string port))])
  (mseq (mcalls [BIO_get_ssl])
  (mseq (mrequire (env_get_ssl env))
  (mseq (mcalls [SSL_set_mode_auto_retry])
  (mseq mprotos                                                (* line 49 *)
  (mseq (mcalls [SSL_set_alpn_protos alpn_protos])
  (mseq (mrequire (env_set_alpn env))
  (mseq (mcalls [SSL_CTX_set_default_verify_paths])
  (mseq (mrequire (env_verify_paths env))
  (mseq (mcalls [BIO_do_connect])
  (mseq (mrequire (env_connect env))
  (mseq (mcalls [BIO_do_handshake])
  (mseq (mrequire (env_handshake env))
  (mseq (match mode with
         | VERIFY_NONE => mcalls []
         | VERIFY_SERVER_CERT => mseq (mcalls [SSL_get_verify_result]) (mrequire (env_verify_ok env))
         end)
  (mseq (mcalls [SSL_get0_alpn_selected])
  (mseq mroom                                                  (* line 91, alpn_str *)
        (mrequire (is_expected_alpn (env_alpn env)))))))))))))))))))).

(* ssl_connection.cpp:33-35 with ssl_ctx.cpp:15-21 and ssl_bio.cpp:17-24 *)
Definition ssl_connect_mem (env : tls_env) (mode : verify_mode) (host : bytes) (port : N) : mcode :=
  mseq (mcalls [SSL_CTX_new (env_ctx_new env)])
  (mseq (mrequire (env_ctx_new env))
  (mguarded SSL_CTX_free
    (mseq (mcalls [BIO_new_ssl_connect (env_bio_new env)])
    (mseq (mrequire (env_bio_new env))
    (mguarded BIO_free_all
      (connect_body_mem env mode host port)))))).

(* http2_client.cpp:109-111 and 163-165: the implementation object is allocated first *)
Definition client_connect_mem (env : tls_env) (mode : verify_mode) (host : bytes) (port : N) : mcode :=
  mseq mroom (ssl_connect_mem env mode host port).

(* An attempt to make a client: its arguments, what OpenSSL and the memory do *)
Record attempt := Attempt {
  a_host : bytes; a_port : N; a_mode : verify_mode; a_env : tls_env; a_memory : memory
}.

(* Attempts made one after the other in one process; a client that was made is
   used by BIO_read and BIO_write calls (a_io) and destroyed before the next
   attempt. The result has one entry for each attempt.
   (ssl_connection.cpp:24-101 and ssl_connection.h:33-34) *)
Fixpoint attempts (p : process) (l : list (attempt * list ssl_call)) : list (list ssl_call * outcome unit) * process :=
  match l with
  | [] => ([], p)
  | (a, io) :: l' =>
      let '(cs, r, p', _) := client_connect_mem (a_env a) (a_mode a) (a_host a) (a_port a) p (a_memory a) in
      let cs' := match r with Returns (Ok _) => cs ++ io ++ ssl_destroy | _ => cs end in
      let '(rest, p'') := attempts p' l' in
      ((cs', r) :: rest, p'')
  end.

(* http2_client.cpp:123-130 and 179-182, send_connection_preface: the function's
   static string (line 124) is allocated by the first execution that reaches it;
   made says whether that has happened *)
Definition send_connection_preface_mem (made : bool) (mem : memory) (c : client) : outcome unit * client * bool * memory :=
  if made then let '(r, c') := send_connection_preface c in (Returns r, c', true, mem)
  else let '(ok, mem') := alloc mem in
       if ok then let '(r, c') := send_connection_preface c in (Returns r, c', true, mem')
       else (BadAlloc, c, false, mem').
