(* Model of mh2c/hpack/header_type.h and header_type.cpp. *)
From Coq Require Import NArith List Bool.
From Verif Require Import Base StaticTable.
Import ListNotations.
Open Scope N_scope.

(* mh2c/hpack/header_type.h:20-26, header_prefix_pattern.  Values outside the
   enumerators (possible through a cast) are not modelled. *)
Inductive hprefix :=
| WithoutIndexing | NeverIndexed | SizeUpdate | IncrementalIndexing | Indexed.

(* mh2c/hpack/header_type.h:20-26, the values of the enumerators *)
Definition prefix_val (p : hprefix) : N :=
  match p with
  | WithoutIndexing => 0x00
  | NeverIndexed => 0x10
  | SizeUpdate => 0x20
  | IncrementalIndexing => 0x40
  | Indexed => 0x80
  end.

(* == of header_prefix_pattern, mh2c/hpack/header_type.h:20 *)
Definition hprefix_eqb (a b : hprefix) : bool := prefix_val a =? prefix_val b.

(* mh2c/hpack/header_type.h:28-31, header_encode_mode *)
Inductive encode_mode := ModeNone | ModeHuffman.

(* mh2c/hpack/header_type.h:28-31, the values of the enumerators *)
Definition mode_val (m : encode_mode) : N :=
  match m with ModeNone => 0x00 | ModeHuffman => 0x80 end.

(* mh2c/hpack/header_type.h:41, header_t (name, value) *)
Notation header := (list N * list N)%type.

(* == of header_t (std::pair of std::string), mh2c/hpack/header_type.h:41 *)
Definition header_eqb (a b : header) : bool :=
  bytes_eqb (fst a) (fst b) && bytes_eqb (snd a) (snd b).

(* mh2c/hpack/header_type.h:61, std::variant<header_t, size_t> *)
Inductive entry_content :=
| EHeader (h : header)
| ESize (n : N).

(* mh2c/hpack/header_type.h:45-62, header_block_entry *)
Record hentry := HEntry { e_prefix : hprefix; e_content : entry_content }.

(* mh2c/hpack/header_type.h:63, header_block_t *)
Definition header_block := list hentry.

(* mh2c/hpack/header_type.cpp:28-29, the one-argument constructor *)
Definition entry_of_header (h : header) : hentry := HEntry NeverIndexed (EHeader h).

(* mh2c/hpack/header_type.cpp:43-49, get_header *)
Definition get_header (e : hentry) : res header :=
  match e_content e with EHeader h => Ok h | ESize _ => Throw RuntimeError end.

(* mh2c/hpack/header_type.cpp:50-56, get_max_size *)
Definition get_max_size (e : hentry) : res N :=
  match e_content e with ESize n => Ok n | EHeader _ => Throw RuntimeError end.

(* mh2c/hpack/header_type.cpp:62-64, set_header *)
Definition set_header (e : hentry) (h : header) : hentry :=
  HEntry (e_prefix e) (EHeader h).

(* mh2c/hpack/header_type.cpp:66-69, operator== *)
Definition hentry_eqb (a b : hentry) : bool :=
  hprefix_eqb (e_prefix a) (e_prefix b) &&
  match e_content a, e_content b with
  | EHeader h, EHeader h' => header_eqb h h'
  | ESize n, ESize n' => n =? n'
  | _, _ => false
  end.

(* reverse_static_table_entries.find(h); first row of a key wins.
   (header_type.cpp:17, header_encoder.cpp:123 and 144) *)
Fixpoint rev_find (rows : list (header * N)) (h : header) : option N :=
  match rows with
  | [] => None
  | (h', i) :: rows' => if header_eqb h h' then Some i else rev_find rows' h
  end.

(* reverse_static_table_entries.find(h), header_encoder.cpp:123 and 144,
   header_type.cpp:17 *)
Definition reverse_static_find (h : header) : option N :=
  rev_find reverse_static_table_entries h.

(* mh2c/hpack/header_type.cpp:15-24, correct_prefix *)
Definition correct_prefix (e : hentry) : res hentry :=
  let* h := get_header e in
  match reverse_static_find h with
  | Some _ => if 0 <? size (snd h) then Ok (HEntry Indexed (EHeader h)) else Ok e
  | None => Ok e
  end.

(* mh2c/hpack/header_type.cpp:80-91, make_header_block (the overload of lines
   75-78 is the one-element case) *)
Fixpoint make_header_block (p : hprefix) (hs : list header) : res header_block :=
  match hs with
  | [] => Ok []
  | h :: hs' =>
      let* e := correct_prefix (HEntry p (EHeader h)) in
      let* b := make_header_block p hs' in
      Ok (e :: b)
  end.
