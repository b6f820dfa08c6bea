(* Connections made by several threads of one process: the std::call_once of
   mh2c/ssl/ssl_connection.cpp:24-29 and 37, the only state the library shares
   between threads.  Each OpenSSL call is one step; steps of different threads
   interleave in any order. *)
From Coq Require Import NArith List Bool.
From Verif Require Import Base Connect.
Import ListNotations.
Open Scope N_scope.

(* One ssl_connection: the arguments of its constructor, what OpenSSL answers,
   and the BIO_read and BIO_write calls made while it is used. *)
Record connection := Conn {
  cn_env : tls_env;
  cn_mode : verify_mode;
  cn_host : bytes;
  cn_port : N;
  cn_io : list ssl_call
}.

(* What a thread does: call OpenSSL, or std::call_once(load_once, load_ssl_lib)
   (ssl_connection.cpp:37). *)
Inductive action := Call (c : ssl_call) | Once.

(* ssl_connection.cpp:33-100, with the call of line 37 kept as one action; the
   members are constructed before it.  connect_body with first = false is the
   body without what load_ssl_lib calls. *)
Definition connect_actions (k : connection) : list action * res unit :=
  let env := cn_env k in
  if negb (env_ctx_new env) then ([Call (SSL_CTX_new false)], Throw RuntimeError)
  else if negb (env_bio_new env) then
    ([Call (SSL_CTX_new true); Call (BIO_new_ssl_connect false); Call SSL_CTX_free], Throw RuntimeError)
  else
    let '(cs, r) := guarded SSL_CTX_free (guarded BIO_free_all (connect_body env (cn_mode k) false (cn_host k) (cn_port k))) in
    ([Call (SSL_CTX_new true); Call (BIO_new_ssl_connect true); Once] ++ map Call cs, r).

(* A connection made, used and destroyed (ssl_connection.cpp:33-136,
   ssl_bio.cpp:24, ssl_ctx.cpp:21). *)
Definition connection_actions (k : connection) : list action :=
  let '(acts, r) := connect_actions k in
  match r with
  | Ok _ => acts ++ map Call (cn_io k ++ ssl_destroy)
  | _ => acts
  end.

(* ssl_connection.cpp:26-29, load_ssl_lib *)
Definition load_ssl_lib : list ssl_call := [SSL_library_init; SSL_load_error_strings].

(* ssl_connection.cpp:24, load_once: nobody has entered; a thread runs
   load_ssl_lib, with the calls left to make; load_ssl_lib has returned. *)
Inductive once_state := Fresh | Loading (thread : nat) (left : list ssl_call) | Loaded.

(* What each thread has still to do, the once_flag, and the calls made so far
   with the threads that made them. (ssl_connection.cpp:24 and 37) *)
Record process := Process {
  ps_threads : list (list action);
  ps_once : once_state;
  ps_trace : list (nat * ssl_call)
}.

(* the thread i has gone on, the others not (no line of /repo: the scheduler)
   *)
Fixpoint set_nth {A} (l : list A) (i : nat) (a : A) : list A :=
  match l, i with
  | [], _ => []
  | _ :: l', O => a :: l'
  | b :: l', S i' => b :: set_nth l' i' a
  end.

(* One step.  std::call_once: the first thread to enter runs the function, any
   other thread waits until it has returned. *)
Inductive step : process -> process -> Prop :=
| step_call : forall ts o tr i c p, nth_error ts i = Some (Call c :: p) ->
    step (Process ts o tr) (Process (set_nth ts i p) o (tr ++ [(i, c)]))
| step_enter : forall ts tr i p, nth_error ts i = Some (Once :: p) ->
    step (Process ts Fresh tr) (Process ts (Loading i load_ssl_lib) tr)
| step_load : forall ts tr i c cs,
    step (Process ts (Loading i (c :: cs)) tr) (Process ts (Loading i cs) (tr ++ [(i, c)]))
| step_loaded : forall ts tr i p, nth_error ts i = Some (Once :: p) ->
    step (Process ts (Loading i []) tr) (Process (set_nth ts i p) Loaded tr)
| step_skip : forall ts tr i p, nth_error ts i = Some (Once :: p) ->
    step (Process ts Loaded tr) (Process (set_nth ts i p) Loaded tr).

(* The start of a process in which thread i makes the connections of the i-th
   list, one after the other (no line of /repo: the program that uses the
   library) *)
Definition start (threads : list (list connection)) : process :=
  Process (map (flat_map connection_actions) threads) Fresh [].

(* any number of steps of any threads (no line of /repo: the scheduler) *)
Inductive steps : nat -> process -> process -> Prop :=
| steps_none : forall s, steps 0 s s
| steps_one : forall n s s' s'', steps n s s' -> step s' s'' -> steps (S n) s s''.
