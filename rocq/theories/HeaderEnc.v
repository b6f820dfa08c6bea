(* Model of mh2c/hpack/header_encoder.cpp. *)
From Coq Require Import NArith List Bool.
From Verif Require Import Base IntRep Huffman StaticTable HeaderType DynTable.
Import ListNotations.
Open Scope N_scope.

(* v[0] |= b (header_encoder.cpp:28 and the others) *)
Definition or_first (v : bytes) (b : N) : res bytes :=
  match v with
  | [] => UB OobRead
  | x :: v' => Ok (N.lor x b :: v')
  end.

(* mh2c/hpack/header_encoder.cpp:21-47, encode_index *)
Definition encode_index (index : N) (p : hprefix) : res bytes :=
  match p with
  | Indexed => or_first (encode_integer_value 7 index) (prefix_val p)
  | IncrementalIndexing => or_first (encode_integer_value 6 index) (prefix_val p)
  | WithoutIndexing | NeverIndexed =>
      or_first (encode_integer_value 4 index) (prefix_val p)
  | SizeUpdate => Throw InvalidArgument
  end.

(* mh2c/hpack/header_encoder.cpp:49-54, encode_max_size *)
Definition encode_max_size (max_size : N) (p : hprefix) : res bytes :=
  or_first (encode_integer_value 5 max_size) (prefix_val p).

(* The common text of encode_header_value and encode_header_name.
   (header_encoder.cpp:56-107) *)
Definition encode_string (s : bytes) (mode : encode_mode) : res bytes :=
  let* encoded :=
    match mode with ModeHuffman => huffman_encode s | ModeNone => Ok s end in
  let* len := or_first (encode_integer_value 7 (size encoded)) (mode_val mode) in
  Ok (len ++ encoded).

(* mh2c/hpack/header_encoder.cpp:56-81, encode_header_value *)
Definition encode_header_value (s : bytes) (mode : encode_mode) : res bytes :=
  encode_string s mode.

(* mh2c/hpack/header_encoder.cpp:83-107, encode_header_name *)
Definition encode_header_name (s : bytes) (mode : encode_mode) : res bytes :=
  encode_string s mode.

(* std::find(dynamic_table.begin(), dynamic_table.end(), h) - begin() *)
Fixpoint find_index (entries : list header) (h : header) : option N :=
  match entries with
  | [] => None
  | e :: entries' =>
      if header_eqb e h then Some 0
      else match find_index entries' h with
           | Some i => Some (i + 1)
           | None => None
           end
  end.

(* static_table_entries.size() (header_encoder.cpp:134) *)
Definition static_table_size : N := map_size static_table_entries.

(* mh2c/hpack/header_encoder.cpp:109-165, encode_header *)
Definition encode_header (e : hentry) (mode : encode_mode) (t : dyn_table)
  : res bytes :=
  let p := e_prefix e in
  if hprefix_eqb p SizeUpdate then
    let* n := get_max_size e in encode_max_size n p
  else
    let* h := get_header e in
    match
      (match reverse_static_find h with
       | Some i => if 0 <? size (snd h) then Some i else None
       | None => None
       end)
    with
    | Some i => encode_index i Indexed
    | None =>
        match find_index (dt_entries t) h with
        | Some i => encode_index (static_table_size + 1 + i) Indexed
        | None =>
            match reverse_static_find (fst h, []) with
            | Some i =>
                let* ix := encode_index i p in
                let* v := encode_header_value (snd h) mode in
                Ok (ix ++ v)
            | None =>
                let* ix := encode_index 0 p in
                let* n := encode_header_name (fst h) mode in
                let* v := encode_header_value (snd h) mode in
                Ok (ix ++ n ++ v)
            end
        end
    end.
