(* RFC 7540, sections 3.5, 5.1, 6.2 and 6.10: in which order a client and a
   server may send their frames.  Seen from the client, which sends the
   connection preface before anything else. *)
From Coq Require Import NArith List Bool.
From Verif Require Import SpecFrame.
Import ListNotations.
Open Scope N_scope.

(* A frame as far as the order goes: type, flags, stream, and the stream that a
   PUSH_PROMISE promises *)
Record signal := Signal { s_type : N; s_flags : N; s_stream : N; s_promised : N }.

Definition stream_ends (s : signal) : bool := N.testbit (s_flags s) 0.
Definition ends_list (s : signal) : bool := N.testbit (s_flags s) 2.
Definition acknowledges (s : signal) : bool := N.testbit (s_flags s) 0.

(* 5.1, the states of a stream, for a client.  Cancelled: closed by RST_STREAM of
   the client, which must put up with what the server had already sent. *)
Inductive state := Idle | Reserved | Open | HalfClosedLocal | HalfClosedRemote | Closed | Cancelled.

(* A connection: whether each side has begun; the stream whose header list is
   not at its end, for each side; the highest stream opened by the client; the
   state of each stream *)
Record connection := Connection {
  begun_in : bool; begun_out : bool; list_in : option N; list_out : option N; highest : N; streams : N -> state }.

Definition new_connection : connection := Connection false false None None 0 (fun _ => Idle).

Definition turn (c : connection) (sid : N) (st : state) : N -> state :=
  fun i => if i =? sid then st else streams c i.

Definition open_list (s : signal) : option N := if ends_list s then None else Some (s_stream s).

(* What the client may receive; None where the RFC has a connection or stream
   error. *)
Definition receives (c : connection) (s : signal) : option connection :=
  let sid := s_stream s in
  let moved st := Some (Connection true (begun_out c) (list_in c) (list_out c) (highest c) (turn c sid st)) in
  let listed st := Some (Connection true (begun_out c) (open_list s) (list_out c) (highest c) (turn c sid st)) in
  let kept := Some (Connection true (begun_out c) (list_in c) (list_out c) (highest c) (streams c)) in
  (* 3.5: the server's preface is a SETTINGS frame *)
  if negb (begun_in c) && negb ((s_type s =? SETTINGS) && negb (acknowledges s)) then None else
  match list_in c with
  | Some i =>
      (* 6.2, 6.10: nothing but the rest of the header list *)
      if (s_type s =? CONTINUATION) && (sid =? i)
      then Some (Connection true (begun_out c) (open_list s) (list_out c) (highest c) (streams c)) else None
  | None =>
      if CONTINUATION <? s_type s then kept                              (* 4.1: unknown types *)
      else if s_type s =? CONTINUATION then None
      else if sid =? 0 then
        if (s_type s =? SETTINGS) || (s_type s =? PING) || (s_type s =? GOAWAY) || (s_type s =? WINDOW_UPDATE) then kept else None
      else if (s_type s =? SETTINGS) || (s_type s =? PING) || (s_type s =? GOAWAY) then None
      else if s_type s =? PRIORITY then kept
      else
        match streams c sid with
        | Idle => None
        | Reserved =>
            if s_type s =? HEADERS then listed (if stream_ends s then Closed else HalfClosedLocal)
            else if s_type s =? RST_STREAM then moved Closed else None
        | Open | HalfClosedLocal =>
            let st := streams c sid in
            let ended := match st with Open => HalfClosedRemote | _ => Closed end in
            if s_type s =? DATA then moved (if stream_ends s then ended else st)
            else if s_type s =? HEADERS then listed (if stream_ends s then ended else st)
            else if s_type s =? RST_STREAM then moved Closed
            else if s_type s =? PUSH_PROMISE then
              match streams c (s_promised s) with
              | Idle => if N.even (s_promised s) && negb (s_promised s =? 0)
                        then Some (Connection true (begun_out c) (open_list s) (list_out c) (highest c) (turn c (s_promised s) Reserved)) else None
              | _ => None
              end
            else kept
        | HalfClosedRemote =>
            if s_type s =? RST_STREAM then moved Closed else if s_type s =? WINDOW_UPDATE then kept else None
        | Closed => if (s_type s =? RST_STREAM) || (s_type s =? WINDOW_UPDATE) then kept else None
        | Cancelled =>
            if (s_type s =? HEADERS) || (s_type s =? PUSH_PROMISE)
            then Some (Connection true (begun_out c) (open_list s) (list_out c) (highest c) (streams c)) else kept
        end
  end.

(* What the client may send. *)
Definition sends (c : connection) (s : signal) : option connection :=
  let sid := s_stream s in
  let moved st := Some (Connection (begun_in c) true (list_in c) (list_out c) (highest c) (turn c sid st)) in
  let listed h st := Some (Connection (begun_in c) true (list_in c) (open_list s) h (turn c sid st)) in
  let kept := Some (Connection (begun_in c) true (list_in c) (list_out c) (highest c) (streams c)) in
  if negb (begun_out c) && negb ((s_type s =? SETTINGS) && negb (acknowledges s)) then None else
  match list_out c with
  | Some i =>
      if (s_type s =? CONTINUATION) && (sid =? i)
      then Some (Connection (begun_in c) true (list_in c) (open_list s) (highest c) (streams c)) else None
  | None =>
      if CONTINUATION <? s_type s then kept
      else if (s_type s =? CONTINUATION) || (s_type s =? PUSH_PROMISE) then None   (* 8.2: a client cannot push *)
      else if sid =? 0 then
        if (s_type s =? SETTINGS) || (s_type s =? PING) || (s_type s =? GOAWAY) || (s_type s =? WINDOW_UPDATE) then kept else None
      else if (s_type s =? SETTINGS) || (s_type s =? PING) || (s_type s =? GOAWAY) then None
      else if s_type s =? PRIORITY then kept
      else
        match streams c sid with
        | Idle =>
            (* 5.1.1: odd, and higher than every stream opened before *)
            if (s_type s =? HEADERS) && N.odd sid && (highest c <? sid)
            then listed sid (if stream_ends s then HalfClosedLocal else Open) else None
        | Reserved =>
            if s_type s =? RST_STREAM then moved Cancelled else if s_type s =? WINDOW_UPDATE then kept else None
        | Open | HalfClosedRemote =>
            let st := streams c sid in
            let ended := match st with Open => HalfClosedLocal | _ => Closed end in
            if s_type s =? DATA then moved (if stream_ends s then ended else st)
            else if s_type s =? HEADERS then listed (highest c) (if stream_ends s then ended else st)
            else if s_type s =? RST_STREAM then moved Cancelled
            else kept
        | HalfClosedLocal =>
            if s_type s =? RST_STREAM then moved Cancelled else if s_type s =? WINDOW_UPDATE then kept else None
        | Closed | Cancelled => None
        end
  end.

(* The traffic of a connection: signals sent (true) and received (false) *)
Fixpoint lawful_from (c : connection) (l : list (bool * signal)) : Prop :=
  match l with
  | [] => True
  | (out, s) :: l' =>
      match (if out then sends c s else receives c s) with Some c' => lawful_from c' l' | None => False end
  end.

Definition lawful (l : list (bool * signal)) : Prop := lawful_from new_connection l.
