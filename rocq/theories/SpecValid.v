(* What RFC 7540, section 6, requires of a frame of each type: the format of its
   payload (layout) and the restrictions it adds (permitted).  Independent of
   the model. *)
From Coq Require Import NArith List.
From Verif Require Import SpecFrame.
Import ListNotations.
Open Scope N_scope.

(* The fields of each type.  Reserved bits carry no information. *)
Inductive content :=
| CData (data padding : list N)                                              (* 6.1 *)
| CHeaders (priority : option (N * N * N)) (fragment padding : list N)       (* 6.2 *)
| CPriority (exclusive dependency weight : N)                                (* 6.3 *)
| CReset (error_code : N)                                                    (* 6.4 *)
| CSettings (params : list (N * N))                                          (* 6.5 *)
| CPush (promised : N) (fragment padding : list N)                           (* 6.6 *)
| CPing (data : list N)                                                      (* 6.7 *)
| CGoaway (last error_code : N) (debug : list N)                             (* 6.8 *)
| CWindow (increment : N)                                                    (* 6.9 *)
| CContinuation (fragment : list N).                                         (* 6.10 *)

(* at most 255 octets of padding, and none without the flag *)
Definition padding_fits (flags : N) (padding : list N) : Prop :=
  (length padding <= 255)%nat /\ (has_padded flags = false -> padding = []).

Inductive layout (flags : N) : N -> list N -> content -> Prop :=
| layout_data : forall data padding, padding_fits flags padding ->
    layout flags DATA (padded_payload (has_padded flags) data padding) (CData data padding)
| layout_headers : forall fragment padding, padding_fits flags padding -> has_priority flags = false ->
    layout flags HEADERS (padded_payload (has_padded flags) fragment padding) (CHeaders None fragment padding)
| layout_headers_priority : forall e d w fragment padding, padding_fits flags padding -> has_priority flags = true ->
    e < 2 -> d < 2 ^ 31 -> w < 2 ^ 8 ->
    layout flags HEADERS (padded_payload (has_padded flags) (priority_fields e d w ++ fragment) padding)
      (CHeaders (Some (e, d, w)) fragment padding)
| layout_priority : forall e d w, e < 2 -> d < 2 ^ 31 -> w < 2 ^ 8 ->
    layout flags PRIORITY (priority_fields e d w) (CPriority e d w)
| layout_reset : forall code, code < 2 ^ 32 -> layout flags RST_STREAM (rst_stream_octets code) (CReset code)
| layout_settings : forall params, Forall (fun p => fst p < 2 ^ 16 /\ snd p < 2 ^ 32) params ->
    layout flags SETTINGS (settings_octets params) (CSettings params)
| layout_push : forall r promised fragment padding, padding_fits flags padding -> r < 2 -> promised < 2 ^ 31 ->
    layout flags PUSH_PROMISE (padded_payload (has_padded flags) (push_promise_contents r promised fragment) padding)
      (CPush promised fragment padding)
| layout_ping : forall data, length data = 8%nat -> layout flags PING data (CPing data)
| layout_goaway : forall r last code debug, r < 2 -> last < 2 ^ 31 -> code < 2 ^ 32 ->
    layout flags GOAWAY (goaway_octets r last code debug) (CGoaway last code debug)
| layout_window : forall r increment, r < 2 -> increment < 2 ^ 31 ->
    layout flags WINDOW_UPDATE (window_update_octets r increment) (CWindow increment)
| layout_continuation : forall fragment, layout flags CONTINUATION fragment (CContinuation fragment).

(* 6.5.2: ENABLE_PUSH, INITIAL_WINDOW_SIZE, MAX_FRAME_SIZE *)
Definition setting_ok (p : N * N) : Prop :=
  (fst p = 2 -> snd p <= 1) /\ (fst p = 4 -> snd p <= 2 ^ 31 - 1) /\
  (fst p = 5 -> 2 ^ 14 <= snd p <= 2 ^ 24 - 1).

Definition has_ack (flags : N) : bool := N.testbit flags 0.

(* Receipt of anything else is a connection or stream error. *)
Definition permitted (flags stream : N) (c : content) : Prop :=
  match c with
  | CData _ _ => stream <> 0
  | CHeaders prio _ _ => stream <> 0 /\ forall e d w, prio = Some (e, d, w) -> d <> stream   (* 5.3.1 *)
  | CPriority _ d _ => stream <> 0 /\ d <> stream
  | CReset _ => stream <> 0
  | CSettings params => stream = 0 /\ (has_ack flags = true -> params = []) /\ Forall setting_ok params
  | CPush promised _ _ => stream <> 0 /\ promised <> 0 /\ promised mod 2 = 0                 (* 5.1.1 *)
  | CPing _ => stream = 0
  | CGoaway _ _ _ => stream = 0
  | CWindow increment => increment <> 0
  | CContinuation _ => stream <> 0
  end.
