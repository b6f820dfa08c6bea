(* One client used by several threads.  Every member function of
   mh2c/http2_client.cpp and http2_client.ipp is written as the sequence of
   BIO_read and BIO_write calls (mh2c/ssl/ssl_connection.cpp:103-136) and of
   accesses to the two dynamic tables that it makes; the steps of different
   threads interleave in any order.  No function of the library takes a lock.
   Simplification: each BIO call and each access to a table is one step, so that
   data races inside OpenSSL or inside a table, which are undefined behaviour,
   do not show; what goes wrong here goes wrong even if they are excluded.
   PropShared.v proves that a thread alone does what Client.v says. *)
From Coq Require Import NArith List Bool.
From Verif Require Import Base Util HeaderType DynTable FrameHeader Frames FrameBuilder Ssl Client.
Import ListNotations.
Open Scope N_scope.

(* http2_client.cpp:103-104, the two tables of a client *)
Inductive which := Request | Response.

(* The rest of what a thread does, up to its result (the functions of
   http2_client.cpp:112-195) *)
Inductive io (A : Type) : Type :=
| Ret (a : A)
| BioWrite (data : bytes) (k : option N -> io A)
| BioRead (n : N) (k : option bytes -> io A)
| GetTable (w : which) (k : dyn_table -> io A)
| SetTable (w : which) (t : dyn_table) (k : io A).
Arguments Ret {A} _.
Arguments BioWrite {A} _ _.
Arguments BioRead {A} _ _.
Arguments GetTable {A} _ _.
Arguments SetTable {A} _ _ _.

(* two pieces of a thread in sequence (no line of /repo: the order of
   statements) *)
Fixpoint andthen {A B} (p : io A) (f : A -> io B) : io B :=
  match p with
  | Ret a => f a
  | BioWrite d k => BioWrite d (fun r => andthen (k r) f)
  | BioRead n k => BioRead n (fun r => andthen (k r) f)
  | GetTable w k => GetTable w (fun t => andthen (k t) f)
  | SetTable w t k => SetTable w t (andthen k f)
  end.

(* ssl_connection.cpp:103-119, write *)
Fixpoint io_write (fuel : nat) (data : bytes) : io (res unit) :=
  match data with
  | [] => Ret (Ok tt)
  | _ =>
      match fuel with
      | O => Ret NoFuel
      | S f => BioWrite data (fun r =>
          match r with
          | None => Ret (Throw RuntimeError)
          | Some j => io_write f (skipn (N.to_nat j) data)
          end)
      end
  end.

(* ssl_connection.cpp:121-136, read; [got] are the octets stored so far *)
Fixpoint io_read (fuel : nat) (remain : N) (got : bytes) : io (res bytes) :=
  if 0 <? remain then
    match fuel with
    | O => Ret NoFuel
    | S f => BioRead remain (fun r =>
        match r with
        | None => Ret (Throw RuntimeError)
        | Some d => io_read f (remain - size d) (got ++ d)
        end)
    end
  else Ret (Ok got).

(* http2_client.cpp:112-116 and 169-172, send_raw_data *)
Definition io_send_raw_data (data : bytes) : io (res unit) := io_write (length data) data.

(* http2_client.cpp:118-121 and 174-177, receive_raw_data *)
Definition io_receive_raw_data (n : N) : io (res bytes) := io_read (N.to_nat n) n [].

(* http2_client.ipp:9-14, send_frame *)
Definition io_send_frame (host : endian) (f : frame) : io (res unit) :=
  match serialize host f with
  | Ok raw => io_send_raw_data raw
  | Throw x => Ret (Throw x)
  | UB u => Ret (UB u)
  | NoFuel => Ret NoFuel
  end.

(* http2_client.cpp:132-146 and 184, receive_frame; reading the table for
   build_frame and changing it afterwards are two steps *)
Definition io_receive_frame (m : ub_mode) : io (res frame) :=
  andthen (io_receive_raw_data FRAME_HEADER_BYTES) (fun r =>
  match (let* raw_fh := r in build_frame_header raw_fh) with
  | Throw x => Ret (Throw x)
  | UB u => Ret (UB u)
  | NoFuel => Ret NoFuel
  | Ok fh =>
      andthen (if 0 <? fh_length fh then io_receive_raw_data (fh_length fh) else Ret (Ok [])) (fun r2 =>
      GetTable Response (fun t =>
      match (let* raw := r2 in build_frame m fh raw t) with
      | Throw x => Ret (Throw x)
      | UB u => Ret (UB u)
      | NoFuel => Ret NoFuel
      | Ok f =>
          let '(r3, t') := update_frame t f in
          SetTable Response t' (Ret (let* _ := r3 in Ok f))
      end))
  end).

(* http2_client.cpp:148-152 and 186-190 *)
Definition io_update_request_dynamic_table (b : header_block) : io (res unit) :=
  GetTable Request (fun t => let '(r, t') := update_block t b in SetTable Request t' (Ret r)).

(* http2_client.cpp:154-157 and 192-195 *)
Definition io_update_request_table_size (n : N) : io (res unit) :=
  GetTable Request (fun t =>
  match dt_update_size t n with
  | Ok t' => SetTable Request t' (Ret (Ok tt))
  | Throw x => Ret (Throw x)
  | UB u => Ret (UB u)
  | NoFuel => Ret NoFuel
  end).

(* What the threads share: the TLS connection (octets still to come from the
   peer, octets handed over) and the two tables (http2_client.cpp:102-105). *)
Record shared := Shared {
  sh_in : bytes;
  sh_out : bytes;
  sh_req : dyn_table;
  sh_resp : dyn_table
}.

(* mh2c/http2_client.cpp:105-106, one of the two tables *)
Definition get_table (s : shared) (w : which) : dyn_table :=
  match w with Request => sh_req s | Response => sh_resp s end.
(* mh2c/http2_client.cpp:105-106, one of the two tables is changed *)
Definition set_table (s : shared) (w : which) (t : dyn_table) : shared :=
  match w with
  | Request => Shared (sh_in s) (sh_out s) t (sh_resp s)
  | Response => Shared (sh_in s) (sh_out s) (sh_req s) t
  end.

(* The next step of a thread; a BIO call comes with what OpenSSL does. *)
Definition next {A} (s : shared) (p : io A) (ev : option io_event) : option (shared * io A) :=
  match p, ev with
  | BioWrite d k, Some e =>
      let '(r, x) := bio_write (Tls (sh_in s) (sh_out s) [e]) d in
      Some (Shared (tls_in x) (tls_out x) (sh_req s) (sh_resp s), k r)
  | BioRead n k, Some e =>
      let '(r, x) := bio_read (Tls (sh_in s) (sh_out s) [e]) n in
      Some (Shared (tls_in x) (tls_out x) (sh_req s) (sh_resp s), k r)
  | GetTable w k, None => Some (s, k (get_table s w))
  | SetTable w t k, None => Some (set_table s w t, k)
  | _, _ => None
  end.

(* the thread i has gone on, the others not (no line of /repo: the scheduler)
   *)
Fixpoint replace_nth {A} (l : list A) (i : nat) (a : A) : list A :=
  match l, i with
  | [], _ => []
  | _ :: l', O => a :: l'
  | b :: l', S i' => b :: replace_nth l' i' a
  end.

(* A run of several threads: which thread makes each step, and what OpenSSL
   does if the step is a BIO call. *)
Inductive runs {A} : shared -> list (io A) -> list (nat * option io_event) -> shared -> list (io A) -> Prop :=
| runs_none : forall s ts, runs s ts [] s ts
| runs_step : forall s ts i ev tr p s1 p1 s' ts', nth_error ts i = Some p -> next s p ev = Some (s1, p1) ->
    runs s1 (replace_nth ts i p1) tr s' ts' -> runs s ts ((i, ev) :: tr) s' ts'.
