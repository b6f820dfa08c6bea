(* Model of mh2c/hpack/dynamic_table.h and dynamic_table.cpp. *)
From Coq Require Import NArith List Bool.
From Verif Require Import Base HeaderType.
Import ListNotations.
Open Scope N_scope.

(* mh2c/hpack/dynamic_table.h:25-29 *)
Definition DEFAULT_TABLE_SIZE : N := 4096.
(* mh2c/hpack/dynamic_table.h:27 *)
Definition ENTRY_OVERHEAD_SIZE : N := 32.
(* mh2c/hpack/dynamic_table.h:29 *)
Definition FIRST_INDEX : N := 62.

(* mh2c/hpack/dynamic_table.h:48-50; m_entries is newest first *)
Record dyn_table := DynTable {
  dt_entries : list header;
  dt_size : N;
  dt_max : N
}.

(* mh2c/hpack/dynamic_table.cpp:34-35 and :32 (default size) *)
Definition new_table (initial_size : N) : dyn_table := DynTable [] 0 initial_size.
(* mh2c/hpack/dynamic_table.cpp:32, the default constructor *)
Definition default_table : dyn_table := new_table DEFAULT_TABLE_SIZE.

(* mh2c/hpack/dynamic_table.cpp:21-23 and 38-39, size of one entry *)
Definition entry_size (h : header) : N :=
  size (fst h) + size (snd h) + ENTRY_OVERHEAD_SIZE.

(* mh2c/hpack/dynamic_table.cpp:19-26, the while loop, on the entries oldest
   first.  The size_t arithmetic does not wrap in reachable states
   (PropRefs.C99_arithmetic). *)
Fixpoint resize_loop (oldest_first : list header) (current max : N)
  : res (list header * N) :=
  if max <? current then
    match oldest_first with
    | [] => UB EmptyBack
    | h :: rest => resize_loop rest (current - entry_size h) max
    end
  else Ok (oldest_first, current).

(* mh2c/hpack/dynamic_table.cpp:14-28, resize_table; returns the remaining
   entries (newest first) and the new size *)
Definition resize_table (entries : list header) (table_size max : N)
  : res (list header * N) :=
  let* (r, c) := resize_loop (rev entries) table_size max in
  Ok (rev r, c).

(* mh2c/hpack/dynamic_table.cpp:37-45, push.  The argument is a value: the
   case where the C++ reference designates an element of the table itself is
   TableRefs.dt_push_at (the library never does that). *)
Definition dt_push (t : dyn_table) (h : header) : res dyn_table :=
  let* (entries, sz) :=
    resize_table (dt_entries t) (dt_size t + entry_size h) (dt_max t) in
  Ok (DynTable (h :: entries) sz (dt_max t)).

(* mh2c/hpack/dynamic_table.cpp:47-49, at *)
Definition dt_at (t : dyn_table) (position : N) : res header :=
  vat (dt_entries t) position.

(* mh2c/hpack/dynamic_table.cpp:50-53, update_table_size *)
Definition dt_update_size (t : dyn_table) (new_size : N) : res dyn_table :=
  let* (entries, sz) := resize_table (dt_entries t) (dt_size t) new_size in
  Ok (DynTable entries sz new_size).
