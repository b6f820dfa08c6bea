(* Model of copying, moving and swapping the objects of the library.  None of
   the frame classes (mh2c/frame/*_frame.h), header_block_entry
   (mh2c/hpack/header_type.h:45-62) and dynamic_table
   (mh2c/hpack/dynamic_table.h:14-51) declares a copy or move operation or a
   destructor, so the compiler declares them, member by member.  http2_client
   declares a destructor and holds a unique_ptr (mh2c/http2_client.h:24-47): it
   can be neither copied nor moved, so it has no part here.

   Simplification: a vector, map or string that was moved from is empty.  The
   standard promises that of a vector moved from by a constructor and leaves the
   rest open; it is what the usual standard libraries do. *)
From Coq Require Import NArith PeanoNat List Bool.
From Verif Require Import Base HeaderType DynTable FrameHeader Frames.
Import ListNotations.
Open Scope N_scope.

(* mh2c/frame/*_frame.h, hpack/header_type.h:45, hpack/dynamic_table.h:14 *)
Inductive object :=
| AFrame (f : frame)
| AnEntry (e : hentry)
| ATable (t : dyn_table).

(* The class of an object; the frame classes are numbered as the constructors
   of frame (mh2c/frame/raw_frame.h, data_frame.h and so on). *)
Inductive cls := FrameClass (n : N) | EntryClass | TableClass.

(* The class of an object (same lines as object) (mh2c/frame/raw_frame.h and
   the others, hpack/header_type.h:45, hpack/dynamic_table.h:14) *)
Definition class_of (o : object) : cls :=
  match o with
  | AFrame f =>
      FrameClass
        match f with
        | RawFrame _ _ => 0 | DataFrame _ _ => 1 | HeadersFrame _ _ _ _ _ => 2
        | PriorityFrame _ _ => 3 | RstStreamFrame _ _ => 4 | SettingsFrame _ _ => 5
        | PushPromiseFrame _ _ _ => 6 | PingFrame _ _ => 7 | GoawayFrame _ _ => 8
        | WindowUpdateFrame _ _ _ => 9 | ContinuationFrame _ _ _ => 10
        end
  | AnEntry _ => EntryClass
  | ATable _ => TableClass
  end.

(* The compiler's check that an assignment is between objects of one class
   (the implicit operator= of the same lines) *)
Definition cls_eqb (a b : cls) : bool :=
  match a, b with
  | FrameClass m, FrameClass n => m =? n
  | EntryClass, EntryClass | TableClass, TableClass => true
  | _, _ => false
  end.

(* What is left of a frame that was moved from: numbers are copied, vectors and
   maps emptied.  The members: raw_frame.h:26-28, data_frame.h:35-37,
   headers_frame.h:52-57, priority_frame.h:38-40, rst_stream_frame.h:29-31,
   settings_frame.h:51-53, push_promise_frame.h:24-29 and 51-54, ping_frame.h:31-33,
   goaway_frame.h:18-23 and 39-41, window_update_frame.h:33-36,
   continuation_frame.h:37-40, the private part of each *)
Definition frame_left (f : frame) : frame :=
  match f with
  | RawFrame h _ => RawFrame h []
  | DataFrame h _ => DataFrame h []
  | HeadersFrame _ h _ prio _ => HeadersFrame [] h [] prio []
  | PriorityFrame h p => PriorityFrame h p
  | RstStreamFrame h e => RstStreamFrame h e
  | SettingsFrame h _ => SettingsFrame h []
  | PushPromiseFrame _ h p =>
      PushPromiseFrame [] h (PushPromise (pp_reserved p) (pp_promised p) [] [])
  | PingFrame h _ => PingFrame h []
  | GoawayFrame h p =>
      GoawayFrame h (Goaway (g_reserved p) (g_last_stream_id p) (g_error_code p) [])
  | WindowUpdateFrame h r w => WindowUpdateFrame h r w
  | ContinuationFrame _ h _ => ContinuationFrame [] h []
  end.

(* mh2c/hpack/header_type.h:60-61: the variant keeps its alternative *)
Definition entry_left (e : hentry) : hentry :=
  match e_content e with
  | EHeader _ => HEntry (e_prefix e) (EHeader ([], []))
  | ESize n => HEntry (e_prefix e) (ESize n)
  end.

(* mh2c/hpack/dynamic_table.h:48-50: m_entries is emptied, m_table_size and
   m_max_table_size are copied *)
Definition table_left (t : dyn_table) : dyn_table := DynTable [] (dt_size t) (dt_max t).

(* The three together (the lines cited at frame_left, entry_left and
   table_left) *)
Definition remains (o : object) : object :=
  match o with
  | AFrame f => AFrame (frame_left f)
  | AnEntry e => AnEntry (entry_left e)
  | ATable t => ATable (table_left t)
  end.

(* What a program does with its variables, which are numbered (no line of
   /repo but for the two member functions cited) *)
Inductive op :=
| Make (x : nat) (o : object)        (* T x{...} or x = T{...} *)
| Copy (x y : nat)                   (* T x{y} or x = y *)
| Move (x y : nat)                   (* T x{std::move(y)} or x = std::move(y) *)
| Swap (x y : nat)                   (* std::swap(x, y) *)
| PushTo (x : nat) (h : header)        (* x.push(h), dynamic_table.cpp:37-45 *)
| LimitTo (x : nat) (n : N)            (* x.update_table_size(n), dynamic_table.cpp:50-53 *)
| Drop (x : nat).                    (* the end of the life of x *)

(* The variables of the program (no line of /repo) *)
Definition store := nat -> option object.

(* A variable gets an object (no line of /repo) *)
Definition put (s : store) (x : nat) (o : option object) : store :=
  fun z => if Nat.eqb z x then o else s z.

(* An object can be constructed in a variable, or assigned to the object of the
   same class that is there (implicit operator=, same lines as object). *)
Definition fits (cur : option object) (o : object) : bool :=
  match cur with None => true | Some c => cls_eqb (class_of c) (class_of o) end.

(* The implicit move constructor and move assignment of the classes (same lines
   as frame_left); a container assigned to itself by a move is emptied. *)
Definition move (s : store) (x y : nat) (o : object) : store :=
  if Nat.eqb x y then put s x (Some (remains o)) else put (put s y (Some (remains o))) x (Some o).

(* One operation; None: the program does not compile, or uses an object that
   does not exist (dynamic_table.cpp:37-53 for PushTo and LimitTo). *)
Definition step (s : store) (o : op) : option (res store) :=
  match o with
  | Make x v => if fits (s x) v then Some (Ok (put s x (Some v))) else None
  | Copy x y =>
      match s y with
      | Some v => if fits (s x) v then Some (Ok (put s x (Some v))) else None
      | None => None
      end
  | Move x y =>
      match s y with
      | Some v => if fits (s x) v then Some (Ok (move s x y v)) else None
      | None => None
      end
  | Swap x y =>                   (* T t{move(x)}; x = move(y); y = move(t) *)
      match s x, s y with
      | Some v, Some w =>
          if fits (Some v) w then
            let s1 := put s x (Some (remains v)) in
            match s1 y with
            | Some w' => Some (Ok (put (move s1 x y w') y (Some v)))
            | None => None
            end
          else None
      | _, _ => None
      end
  | PushTo x h =>
      match s x with
      | Some (ATable t) => Some (let* t' := dt_push t h in Ok (put s x (Some (ATable t'))))
      | _ => None
      end
  | LimitTo x n =>
      match s x with
      | Some (ATable t) => Some (let* t' := dt_update_size t n in Ok (put s x (Some (ATable t'))))
      | _ => None
      end
  | Drop x => match s x with Some _ => Some (Ok (put s x None)) | None => None end
  end.

(* Operations one after the other (no line of /repo) *)
Fixpoint perform (s : store) (p : list op) : option (res store) :=
  match p with
  | [] => Some (Ok s)
  | o :: p' =>
      match step s o with
      | Some (Ok s') => perform s' p'
      | r => r
      end
  end.
