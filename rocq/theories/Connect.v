(* Model of the life of an ssl_connection: mh2c/ssl/ssl_connection.cpp:24-101,
   mh2c/ssl/ssl_ctx.cpp and mh2c/ssl/ssl_bio.cpp.  OpenSSL is represented by the
   results its calls return; the calls made are recorded in order. *)
From Coq Require Import NArith List Bool.
From Verif Require Import Base Dump.
Import ListNotations.
Open Scope N_scope.

(* mh2c/ssl/ssl_verify_mode.h:13-16 *)
Inductive verify_mode := VERIFY_NONE | VERIFY_SERVER_CERT.

(* What the calls made by the constructor return. env_cert_matches_host is
   what a host name check of the presented certificate would say; no call made
   by the constructor reports it. (ssl_connection.cpp:40-98,
   ssl_ctx.cpp:15-21, ssl_bio.cpp:17-24) *)
Record tls_env := TlsEnv {
  env_ctx_new : bool;              (* SSL_CTX_new returned non-null *)
  env_bio_new : bool;              (* BIO_new_ssl_connect returned non-null *)
  env_get_ssl : bool;              (* BIO_get_ssl gave non-null *)
  env_set_alpn : bool;             (* SSL_set_alpn_protos returned 0 *)
  env_verify_paths : bool;         (* SSL_CTX_set_default_verify_paths returned 1 *)
  env_connect : bool;              (* BIO_do_connect returned > 0 *)
  env_handshake : bool;            (* BIO_do_handshake returned > 0 *)
  env_verify_ok : bool;            (* SSL_get_verify_result is X509_V_OK *)
  env_alpn : bytes;                (* SSL_get0_alpn_selected *)
  env_cert_matches_host : bool
}.

(* The OpenSSL calls, with the arguments that matter; the two that create an
   object carry whether they succeeded. *)
Inductive ssl_call :=
| SSL_CTX_new (ok : bool)
| BIO_new_ssl_connect (ok : bool)
| SSL_library_init
| SSL_load_error_strings
| BIO_set_conn_hostname (name : bytes)
| BIO_get_ssl
| SSL_set_mode_auto_retry
| SSL_set_alpn_protos (protos : bytes)
| SSL_CTX_set_default_verify_paths
| BIO_do_connect
| BIO_do_handshake
| SSL_get_verify_result
| SSL_get0_alpn_selected
| BIO_write
| BIO_read
| BIO_free_all
| SSL_CTX_free.

(* A piece of code: the calls it makes and its outcome.
   (ssl_connection.cpp:33-101) *)
Definition code := (list ssl_call * res unit)%type.

(* OpenSSL calls whose results are not tested, ssl_connection.cpp:26-29, 40,
   47 *)
Definition calls (cs : list ssl_call) : code := (cs, Ok tt).

(* if (!b) throw std::runtime_error *)
Definition require (b : bool) : code := ([], if b then Ok tt else Throw RuntimeError).

(* two pieces of ssl_connection.cpp:36-100 in sequence; a throw ends both *)
Definition seqc (p q : code) : code :=
  match snd p with
  | Ok _ => (fst p ++ fst q, snd q)
  | r => (fst p, r)
  end.

(* A member whose constructor has returned is destroyed when the code that
   follows throws. (ssl_connection.cpp:35, the members m_ssl_ctx and
   m_ssl_bio) *)
Definition guarded (destructor : ssl_call) (p : code) : code :=
  match snd p with
  | Throw x => (fst p ++ [destructor], Throw x)
  | _ => p
  end.

(* std::string::c_str read as a C string *)
Fixpoint c_str (s : bytes) : bytes :=
  match s with
  | [] => []
  | b :: s' => if b =? 0 then [] else b :: c_str s'
  end.

(* ssl_connection.cpp:49, length-prefixed list of protocols: 2 'h' '2' *)
Definition alpn_protos : bytes := [2; 104; 50].

(* ssl_connection.cpp:93-95 *)
Definition is_expected_alpn (result : bytes) : bool :=
  (size result =? size alpn_protos - 1) && bytes_eqb result (tl alpn_protos).

(* ssl_connection.cpp:36-100, the body; first says that no connection was made
   before in this process (std::call_once, lines 24-29 and 37) *)
Definition connect_body (env : tls_env) (mode : verify_mode) (first : bool) (host : bytes) (port : N) : code :=
  seqc (calls (if first then [SSL_library_init; SSL_load_error_strings] else []))
  (seqc (calls [BIO_set_conn_hostname (c_str (host ++ [58] ++ to_string port))])
  (seqc (calls [BIO_get_ssl])
  (seqc (require (env_get_ssl env))
  (seqc (calls [SSL_set_mode_auto_retry; SSL_set_alpn_protos alpn_protos])
  (seqc (require (env_set_alpn env))
  (seqc (calls [SSL_CTX_set_default_verify_paths])
  (seqc (require (env_verify_paths env))
  (seqc (calls [BIO_do_connect])
  (seqc (require (env_connect env))
  (seqc (calls [BIO_do_handshake])
  (seqc (require (env_handshake env))
  (seqc (match mode with
         | VERIFY_NONE => calls []
         | VERIFY_SERVER_CERT => seqc (calls [SSL_get_verify_result]) (require (env_verify_ok env))
         end)
  (seqc (calls [SSL_get0_alpn_selected])
        (require (is_expected_alpn (env_alpn env)))))))))))))))).

(* ssl_connection.cpp:33-35 with ssl_ctx.cpp:15-21 and ssl_bio.cpp:17-24: the
   members m_ssl_ctx and m_ssl_bio, then the body *)
Definition ssl_connect (env : tls_env) (mode : verify_mode) (first : bool) (host : bytes) (port : N) : code :=
  seqc (calls [SSL_CTX_new (env_ctx_new env)])
  (seqc (require (env_ctx_new env))
  (guarded SSL_CTX_free
    (seqc (calls [BIO_new_ssl_connect (env_bio_new env)])
    (seqc (require (env_bio_new env))
    (guarded BIO_free_all
      (connect_body env mode first host port)))))).

(* The implicit destructor of ssl_connection: members in reverse order
   (ssl_connection.h:33-34, ssl_bio.cpp:24, ssl_ctx.cpp:21) *)
Definition ssl_destroy : list ssl_call := [BIO_free_all; SSL_CTX_free].

(* A connection made, used and destroyed; io is the sequence of BIO_read and
   BIO_write calls made by ssl_connection.cpp:103-136 in between. *)
Definition lifetime (env : tls_env) (mode : verify_mode) (first : bool) (host : bytes) (port : N)
    (io : list ssl_call) : list ssl_call :=
  let '(cs, r) := ssl_connect env mode first host port in
  match r with
  | Ok _ => cs ++ io ++ ssl_destroy
  | _ => cs
  end.
