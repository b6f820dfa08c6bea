(* What sample/h2_get/sample_h2_get.cpp writes to std::cout when something goes
   wrong: the catch block of its loop, and what the library prints itself.
   Sample.v has the same program without these lines; PropReport.v proves that
   the two agree in everything else. *)
From Coq Require Import String ZArith NArith List Bool.
From Verif Require Import Base Util HeaderType DynTable FrameHeader Frames FrameBuilder Ssl Client Dump Sample Messages.
Import ListNotations.
Open Scope N_scope.

(* std::cout << e.what() << '\n', sample_h2_get.cpp:40 and frame_builder.cpp:63;
   std_text is what the standard library's own std::out_of_range says, which the
   standard leaves open.  A run prints at most one message before it ends, so one
   such text is enough. *)
Definition said (std_text : bytes) (w : what) : bytes :=
  match w with Text s => s | StdText => std_text end.
(* the same, as a change of the machine (sample_h2_get.cpp:40,
   frame_builder.cpp:63) *)
Definition print_line (std_text : bytes) (w : what) (s : machine) : machine :=
  Machine (mc_client s) (mc_text s ++ said std_text w ++ nl) (mc_hex s).

(* h2_client->receive_frame(), sample_h2_get.cpp:31 and 69, with what
   frame_builder.cpp:62-65 prints; result is what a failing BIO_read returns *)
Definition receive_report (result : Z) (std_text : bytes) (m : ub_mode) (s : machine) : told frame * machine :=
  let '(r, printed, c) := receive_frame_told result m (mc_client s) in
  let s1 := Machine c (mc_text s) (mc_hex s) in
  (r, match printed with Some w => print_line std_text w s1 | None => s1 end).

(* sample_h2_get.cpp:31-39, the loop in the try block; fuel as in Sample.v *)
Fixpoint try_loop (result : Z) (std_text : bytes) (m : ub_mode) (fuel : nat) (s : machine) : told N * machine :=
  match fuel with
  | O => (OutOfFuel, s)
  | S n =>
      match receive_report result std_text m s with
      | (Done f, s1) =>
          match print m f s1 with
          | (Ok _, s2) =>
              if is_more_data (frame_fh f) then try_loop result std_text m n s2
              else (Done (fh_type (frame_fh f)), s2)
          | (Throw x, s2) => (Says x StdText, s2)
          | (UB u, s2) => (Undefined u, s2)
          | (NoFuel, s2) => (OutOfFuel, s2)
          end
      | (Says x w, s1) => (Says x w, s1)
      | (Undefined u, s1) => (Undefined u, s1)
      | (OutOfFuel, s1) => (OutOfFuel, s1)
      end
  end.

(* sample_h2_get.cpp:28-46, receive_frames: the catch block prints what the
   exception says and throws it again *)
Definition receive_frames_report (result : Z) (std_text : bytes) (m : ub_mode) (s : machine) : told N * machine :=
  match try_loop result std_text m (S (length (tls_in (c_tls (mc_client s))))) s with
  | (Says x w, s1) => (Says x w, print_line std_text w s1)
  | r => r
  end.

(* a piece of main whose message nobody prints: main has no catch block,
   sample_h2_get.cpp:48-110 *)
Definition unheard {A} (p : machine -> told A * machine) : prog A :=
  fun s => let '(r, s1) := p s in (forget r, s1).

(* sample_h2_get.cpp:48-110, main after the construction of the client; as
   Sample.sample_main.  Throw is the end by std::terminate. *)
Definition main_report (result : Z) (std_text : bytes) (host : endian) (m : ub_mode) : prog unit :=
  do _ <- on_client send_connection_preface;
  do _ <- on_client (fun c => send_frame host c (mk_settings 0 0 sample_settings));
  do _ <- on_client (fun c => update_request_table_size c sample_table_size);
  do f <- unheard (receive_report result std_text m);
  do _ <- print m f;
  do _ <- on_client (fun c => send_frame host c (mk_settings (make_frame_header_flags F_ACK []) 0 []));
  do b <- lift (make_header_block NeverIndexed sample_headers);
  do hf <- (fun s => (mk_headers (make_frame_header_flags F_END_STREAM [F_END_HEADERS]) 1 b ModeHuffman
                        (get_request_dynamic_table (mc_client s)) [] (Prio 0 0 0), s));
  do _ <- on_client (fun c => send_frame host c hf);
  do _ <- on_client (fun c => update_request_dynamic_table c b);
  do last <- unheard (receive_frames_report result std_text m);
  if negb (last =? T_GOAWAY) then
    on_client (fun c => send_frame host c (mk_goaway (Goaway 0 1 0 [])))
  else ret tt.
