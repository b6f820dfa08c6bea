(* Model of what mh2c/hpack/dynamic_table.h lets a caller do with the references
   and iterators a table hands out, with the arithmetic of size_t. *)
From Coq Require Import NArith List Bool.
From Verif Require Import Base HeaderType DynTable.
Import ListNotations.
Open Scope N_scope.

(* size_t, 64 bits: the sums and the difference of dynamic_table.cpp:21-25,
   38-39 and 41 *)
Definition wrap (x : N) : N := x mod 2 ^ 64.
(* subtraction of size_t, dynamic_table.cpp:21-25 *)
Definition minus64 (a b : N) : N := wrap (a + 2 ^ 64 - wrap b).

(* mh2c/hpack/dynamic_table.cpp:19-26, the while loop, entries oldest first *)
Fixpoint resize_loop64 (oldest_first : list header) (current max : N)
  : res (list header * N) :=
  if max <? current then
    match oldest_first with
    | [] => UB EmptyBack
    | h :: rest => resize_loop64 rest (minus64 current (entry_size h)) max
    end
  else Ok (oldest_first, current).

(* mh2c/hpack/dynamic_table.cpp:14-28, resize_table *)
Definition resize_table64 (entries : list header) (table_size max : N)
  : res (list header * N) :=
  let* (r, c) := resize_loop64 (rev entries) table_size max in
  Ok (rev r, c).

(* mh2c/hpack/dynamic_table.cpp:37-45, push of a header outside the table *)
Definition dt_push64 (t : dyn_table) (h : header) : res dyn_table :=
  let* (entries, sz) :=
    resize_table64 (dt_entries t) (wrap (dt_size t + entry_size h)) (dt_max t) in
  Ok (DynTable (h :: entries) sz (dt_max t)).

(* push(at(i)), dynamic_table.cpp:37-45 and 47-49: the argument is a reference
   to the element itself.  If the loop has removed the element, insert copies
   from an object that no longer exists; otherwise insert copies the element
   although it moves the elements (a requirement on std::vector). *)
Definition dt_push_at (t : dyn_table) (i : N) : res dyn_table :=
  let* h := dt_at t i in
  let* (entries, sz) :=
    resize_table64 (dt_entries t) (wrap (dt_size t + entry_size h)) (dt_max t) in
  if i <? size entries then Ok (DynTable (h :: entries) sz (dt_max t))
  else UB OobRead.

(* mh2c/hpack/dynamic_table.cpp:50-53, update_table_size *)
Definition dt_update_size64 (t : dyn_table) (new_size : N) : res dyn_table :=
  let* (entries, sz) := resize_table64 (dt_entries t) (dt_size t) new_size in
  Ok (DynTable entries sz new_size).

(* begin()[i] = h, dynamic_table.h:42 (begin() is not const): the element is
   replaced and m_table_size is not touched *)
Definition dt_write (t : dyn_table) (i : N) (h : header) : res dyn_table :=
  if i <? size (dt_entries t) then
    Ok (DynTable (firstn (N.to_nat i) (dt_entries t) ++ h :: skipn (S (N.to_nat i)) (dt_entries t))
          (dt_size t) (dt_max t))
  else UB OobRead.
