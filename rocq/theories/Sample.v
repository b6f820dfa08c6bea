(* Model of sample/h2_get/sample_h2_get.cpp. *)
From Coq Require Import String NArith List Bool.
From Verif Require Import Base Util HeaderType DynTable FrameHeader Frames FrameBuilder Ssl Client Dump.
Import ListNotations.
Open Scope N_scope.

(* The program's state: the client, and std::cout (text and std::hex flag, see
   Dump.v). *)
Record machine := Machine {
  mc_client : client;
  mc_text : bytes;
  mc_hex : bool
}.

(* a piece of sample/h2_get/sample_h2_get.cpp:28-110 *)
Definition prog (A : Type) := machine -> res A * machine.
(* its end with a value (return of a piece of sample_h2_get.cpp:28-110) *)
Definition ret {A} (a : A) : prog A := fun s => (Ok a, s).
(* two pieces of main in sequence; an exception ends both
   (sample_h2_get.cpp:48-110) *)
Definition seqp {A B} (p : prog A) (q : A -> prog B) : prog B :=
  fun s =>
    match p s with
    | (Ok a, s') => q a s'
    | (Throw x, s') => (Throw x, s')
    | (UB u, s') => (UB u, s')
    | (NoFuel, s') => (NoFuel, s')
    end.
Notation "'do' x <- p ; q" := (seqp p (fun x => q)) (at level 60, x pattern, right associativity).

(* A call of a member function of the client. (as in sample_h2_get.cpp:66) *)
Definition on_client {A} (f : client -> res A * client) : prog A :=
  fun s => let '(r, c) := f (mc_client s) in (r, Machine c (mc_text s) (mc_hex s)).
(* a call that does not touch the client, for instance sample_h2_get.cpp:61-65
   *)
Definition lift {A} (r : res A) : prog A := fun s => (r, s).

(* std::cout << frame; text written before undefined behaviour is not recorded *)
Definition print (m : ub_mode) (f : frame) : prog unit :=
  fun s =>
    match dump m (mc_hex s) f with
    | Ok (x, hex) => (Ok tt, Machine (mc_client s) (mc_text s ++ x) hex)
    | Throw x => (Throw x, s)
    | UB u => (UB u, s)
    | NoFuel => (NoFuel, s)
    end.

(* sample_h2_get.cpp:10-26 *)
Definition is_more_data (h : frame_header) : bool :=
  if fh_type h =? T_DATA then negb (is_flag_set (fh_flags h) F_END_STREAM)
  else if fh_type h =? T_GOAWAY then false
  else true.

(* sample_h2_get.cpp:28-46; receive_frame never returns a null pointer, the
   message printed before the exception is rethrown is in Report.v.  Fuel: the
   number of octets left in the stream, every frame takes some. *)
Fixpoint receive_loop (m : ub_mode) (fuel : nat) : prog N :=
  match fuel with
  | O => lift NoFuel
  | S n =>
      do f <- on_client (receive_frame m);
      do _ <- print m f;
      if is_more_data (frame_fh f) then receive_loop m n
      else ret (fh_type (frame_fh f))
  end.
(* sample_h2_get.cpp:28-46, receive_frames; each frame takes at least one
   octet *)
Definition receive_frames (m : ub_mode) : prog N :=
  fun s => receive_loop m (S (length (tls_in (c_tls (mc_client s))))) s.

(* sample_h2_get.cpp:61-65 *)
Definition sample_table_size : N := 8192.
(* sample_h2_get.cpp:61-65, make_sf_payload *)
Definition sample_settings : settings_map :=
  make_sf_payload [(2, 0); (4, 65535); (1, sample_table_size)].

(* sample_h2_get.cpp:83-90 *)
Definition sample_headers : list header :=
  map (fun p => (bytes_of_string (fst p), bytes_of_string (snd p)))
    [(":method", "GET"); (":path", "/httpbin/headers"); (":scheme", "https"); (":authority", "nghttp2.org")]%string.

(* sample_h2_get.cpp:48-110, main after the construction of the client (line
   51); headers_frame's default padding and priority *)
Definition sample_main (host : endian) (m : ub_mode) : prog unit :=
  do _ <- on_client send_connection_preface;
  do _ <- on_client (fun c => send_frame host c (mk_settings 0 0 sample_settings));
  do _ <- on_client (fun c => update_request_table_size c sample_table_size);
  do f <- on_client (receive_frame m);
  do _ <- print m f;
  do _ <- on_client (fun c => send_frame host c (mk_settings (make_frame_header_flags F_ACK []) 0 []));
  do b <- lift (make_header_block NeverIndexed sample_headers);
  do hf <- (fun s => (mk_headers (make_frame_header_flags F_END_STREAM [F_END_HEADERS]) 1 b ModeHuffman
                        (get_request_dynamic_table (mc_client s)) [] (Prio 0 0 0), s));
  do _ <- on_client (fun c => send_frame host c hf);
  do _ <- on_client (fun c => update_request_dynamic_table c b);
  do last <- receive_frames m;
  if negb (last =? T_GOAWAY) then
    on_client (fun c => send_frame host c (mk_goaway (Goaway 0 1 0 [])))
  else ret tt.
