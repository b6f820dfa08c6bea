(* Model of mh2c/hpack/header_decoder.cpp. *)
From Coq Require Import NArith List Bool.
From Verif Require Import Base Util IntRep Huffman StaticTable HeaderType DynTable HeaderEnc.
Import ListNotations.
Open Scope N_scope.

(* mh2c/hpack/header_decoder.cpp:43-47, the for loop over prefixes *)
Fixpoint check_prefix_loop (target_prefix : N) (prefixes : list hprefix) : res hprefix :=
  match prefixes with
  | [] => Throw InvalidArgument
  | p :: ps =>
      if is_flag_set target_prefix (prefix_val p) then Ok p
      else check_prefix_loop target_prefix ps
  end.

(* mh2c/hpack/header_decoder.cpp:32-51, check_prefix *)
Definition check_prefix (target : N) : res hprefix :=
  let target_prefix := N.shiftl (extract_high_bit 4 8 target) (8 - 4) in
  check_prefix_loop target_prefix
    [Indexed; IncrementalIndexing; SizeUpdate; NeverIndexed; WithoutIndexing].

(* "value = decode_integer_value<n>(v); length =
   encode_integer_value<n>(value).size()", the idiom of lines 61-63 etc. *)
Definition decode_int_and_length (n : N) (v : bytes) : res (N * N) :=
  let* x := decode_integer_value n v in
  Ok (x, size (encode_integer_value n x)).

(* mh2c/hpack/header_decoder.cpp:53-92, decode_index *)
Definition decode_index (v : bytes) (p : hprefix) : res (N * N) :=
  match p with
  | Indexed => decode_int_and_length 7 v
  | IncrementalIndexing => decode_int_and_length 6 v
  | WithoutIndexing => decode_int_and_length 4 v
  | NeverIndexed => decode_int_and_length 4 v
  | SizeUpdate => Throw InvalidArgument
  end.

(* mh2c/hpack/header_decoder.cpp:94-101, decode_max_size *)
Definition decode_max_size (v : bytes) : res (N * N) := decode_int_and_length 5 v.

(* &v[i] used only as the start of a copy: undefined under the strict reading
   when i is not an element, a plain pointer otherwise.
   (header_decoder.cpp:118, 121, 145 and 148) *)
Definition address_of (m : ub_mode) (v : bytes) (i : N) : res unit :=
  match m with
  | Strict => if i <? size v then Ok tt else UB OobRead
  | Lenient => Ok tt
  end.

(* The common text of decode_header_name and decode_header_value.
   (header_decoder.cpp:103-155) *)
Definition decode_string (m : ub_mode) (v : bytes) : res (bytes * N) :=
  let* (len, consumed) := decode_int_and_length 7 v in
  let* b0 := vget v 0 in
  let* s :=
    if negb (extract_high_bit 1 8 b0 =? 0) then
      let* enc := vrange v consumed len in
      let* dec := huffman_decode enc in
      let* _ := address_of m dec 0 in
      Ok dec
    else
      let* _ := address_of m v consumed in
      match vrange v consumed len with
      | UB _ => UB OobRead  (* the std::string constructor reads past the end *)
      | r => r
      end
  in
  Ok (s, consumed + len).

(* mh2c/hpack/header_decoder.cpp:103-128, decode_header_name *)
Definition decode_header_name := decode_string.

(* mh2c/hpack/header_decoder.cpp:130-155, decode_header_value *)
Definition decode_header_value := decode_string.

(* static_table_entries.at(index) (header_decoder.cpp:163) *)
Definition static_table_at (index : N) : res header :=
  match map_find static_table_entries index with
  | Some h => Ok h
  | None => Throw OutOfRange
  end.

(* mh2c/hpack/header_decoder.cpp:157-165, make_indexed_header *)
Definition make_indexed_header (index : N) (t : dyn_table) : res header :=
  if static_table_size <? index
  then dt_at t (index - static_table_size - 1)
  else static_table_at index.

(* mh2c/hpack/header_decoder.cpp:167-216, decode_header *)
Definition decode_header (m : ub_mode) (encoded : bytes) (t : dyn_table)
  : res (hentry * N) :=
  let* b0 := vget encoded 0 in
  let* p := check_prefix b0 in
  if hprefix_eqb p SizeUpdate then
    let* (max_size, n) := decode_max_size encoded in
    Ok (HEntry p (ESize max_size), n)
  else
    let* (index, index_len) := decode_index encoded p in
    let* h :=
      if 0 <? index then make_indexed_header index t else Ok ([], []) in
    if hprefix_eqb p Indexed then Ok (HEntry p (EHeader h), index_len)
    else
      let* data := verase_front encoded index_len in
      let* (name, data, consumed) :=
        if size (fst h) <=? 0 then
          let* (name, n) := decode_header_name m data in
          let* data' := verase_front data n in
          Ok (name, data', index_len + n)
        else Ok (fst h, data, index_len)
      in
      let* (value, n) := decode_header_value m data in
      let* _ := verase_front data n in
      Ok (HEntry p (EHeader (name, value)), consumed + n).
