(* Model of mh2c/ssl/ssl_connection.cpp.  OpenSSL is represented by the
   results its calls may return. *)
From Coq Require Import NArith List Bool.
From Verif Require Import Base.
Import ListNotations.
Open Scope N_scope.

(* One BIO_read / BIO_write call: Chunk c transfers min(c + 1, requested,
   available) octets; Fail returns a result <= 0.
   (mh2c/ssl/ssl_connection.cpp:109 and 126) *)
Inductive io_event := Chunk (c : N) | Fail.

(* The TLS stream seen from the library: the octets the peer will have sent,
   the octets handed to OpenSSL so far, and the behaviour of the coming BIO
   calls.  A call beyond the end of the schedule fails. *)
Record tls := Tls {
  tls_in : bytes;
  tls_out : bytes;
  tls_sched : list io_event
}.

(* The length argument of BIO_read/BIO_write is an int: the size_t is
   converted; OpenSSL returns a result <= 0 for non-positive lengths. *)
Definition to_positive_int (n : N) : option N :=
  let k := n mod 2 ^ 32 in
  if (0 <? k) && (k <? 2 ^ 31) then Some k else None.

(* a BIO call has been made (mh2c/ssl/ssl_connection.cpp:109 and 126) *)
Definition pop_sched (s : tls) : tls := Tls (tls_in s) (tls_out s) (tl (tls_sched s)).

(* BIO_read(bio, p, n): octets read, or None for a result <= 0 (failure, or
   end of the peer's data) (ssl_connection.cpp:126) *)
Definition bio_read (s : tls) (n : N) : option bytes * tls :=
  match tls_sched s, to_positive_int n, tls_in s with
  | Chunk c :: sc, Some k, _ :: _ =>
      let j := N.to_nat (N.min (c + 1) (N.min k (size (tls_in s)))) in
      (Some (firstn j (tls_in s)), Tls (skipn j (tls_in s)) (tls_out s) sc)
  | _, _, _ => (None, pop_sched s)
  end.

(* BIO_write(bio, p, n): number of octets accepted, or None for a result <= 0
   (ssl_connection.cpp:109) *)
Definition bio_write (s : tls) (data : bytes) : option N * tls :=
  match tls_sched s, to_positive_int (size data) with
  | Chunk c :: sc, Some k =>
      let j := N.min (c + 1) k in
      (Some j, Tls (tls_in s) (tls_out s ++ firstn (N.to_nat j) data) sc)
  | _, _ => (None, pop_sched s)
  end.

(* mh2c/ssl/ssl_connection.cpp:103-119, write; [data] are the octets from
   data + written_length on, so its size is remain_length *)
Fixpoint write_loop (fuel : nat) (s : tls) (data : bytes) : res unit * tls :=
  match data with
  | [] => (Ok tt, s)
  | _ =>
      match fuel with
      | O => (NoFuel, s)
      | S f =>
          match bio_write s data with
          | (None, s') => (Throw RuntimeError, s')
          | (Some j, s') => write_loop f s' (skipn (N.to_nat j) data)
          end
      end
  end.

(* mh2c/ssl/ssl_connection.cpp:103-119 *)
Definition ssl_write (s : tls) (data : bytes) : res unit * tls :=
  write_loop (length data) s data.

(* mh2c/ssl/ssl_connection.cpp:121-136, read; returns the octets stored into
   the caller's buffer *)
Fixpoint read_loop (fuel : nat) (s : tls) (remain : N) : res bytes * tls :=
  if 0 <? remain then
    match fuel with
    | O => (NoFuel, s)
    | S f =>
        match bio_read s remain with
        | (None, s') => (Throw RuntimeError, s')
        | (Some d, s') =>
            let '(r, s'') := read_loop f s' (remain - size d) in
            (let* rest := r in Ok (d ++ rest), s'')
        end
    end
  else (Ok [], s).

(* mh2c/ssl/ssl_connection.cpp:121-136 *)
Definition ssl_read (s : tls) (n : N) : res bytes * tls :=
  read_loop (N.to_nat n) s n.
