(* The encoder of a header block once more, counting its work in the same way as
   Cost.v: octets read, copied or compared.  PropCostSend.v proves that without
   the counter these are the functions of HeaderEnc.v and Frames.v. *)
From Coq Require Import NArith List Bool.
From Verif Require Import Base IntRep HuffmanTable Huffman StaticTable HeaderType DynTable HeaderEnc Frames Cost.
Import ListNotations.
Open Scope N_scope.

(* mh2c/hpack/integer_representation.ipp:15-36: every octet is pushed back *)
Definition encode_integer_value_c (n value : N) : counted bytes :=
  let$ _ := work (size (encode_integer_value n value)) in
  free (Ok (encode_integer_value n value)).

(* mh2c/hpack/huffman_encoder.cpp:46-69: the octets pushed back (one pass of the
   inner loop each), and one for the row looked at *)
Definition encode_func_c (carry : N * N) (data : N) : counted ((N * N) * bytes) :=
  let$ _ := work 1 in
  let$ (c, out) := free (encode_func carry data) in
  let$ _ := work (size out) in
  free (Ok (c, out)).

(* mh2c/hpack/huffman_encoder.cpp:71 *)
Fixpoint encode_each_c (carry : N * N) (raw : bytes) : counted ((N * N) * bytes) :=
  match raw with
  | [] => free (Ok (carry, []))
  | b :: raw' =>
      let$ (carry', out) := encode_func_c carry b in
      let$ (carry'', out') := encode_each_c carry' raw' in
      free (Ok (carry'', out ++ out'))
  end.

(* mh2c/hpack/huffman_encoder.cpp:42-84; line 80 pushes back the last octet *)
Definition huffman_encode_c (raw : bytes) : counted bytes :=
  let$ (carry, out) := encode_each_c (0, 0) raw in
  if 0 <? snd carry then
    let$ _ := work 1 in
    let$ eos := free (encode_table_at (map_size encode_table_rows - 1)) in
    let pad_bit_size := 8 - snd carry in
    let pad_bits := N.shiftr (fst eos) (snd eos - pad_bit_size) in
    let last_byte := N.lor (u32 (N.shiftl (fst carry) pad_bit_size)) pad_bits in
    free (Ok (out ++ [u8 last_byte]))
  else free (Ok out).

(* mh2c/hpack/header_encoder.cpp:21-47 *)
Definition encode_index_c (index : N) (p : hprefix) : counted bytes :=
  match p with
  | Indexed =>
      let$ v := encode_integer_value_c 7 index in free (or_first v (prefix_val p))
  | IncrementalIndexing =>
      let$ v := encode_integer_value_c 6 index in free (or_first v (prefix_val p))
  | WithoutIndexing | NeverIndexed =>
      let$ v := encode_integer_value_c 4 index in free (or_first v (prefix_val p))
  | SizeUpdate => free (Throw InvalidArgument)
  end.

(* mh2c/hpack/header_encoder.cpp:49-54 *)
Definition encode_max_size_c (max_size : N) (p : hprefix) : counted bytes :=
  let$ v := encode_integer_value_c 5 max_size in free (or_first v (prefix_val p)).

(* mh2c/hpack/header_encoder.cpp:56-81 and 83-107: lines 61 and 88 copy the
   string, 64-65 and 90-91 copy it again unless it is Huffman-coded, 72-78 and 98-104
   copy length and string into the result *)
Definition encode_string_c (s : bytes) (mode : encode_mode) : counted bytes :=
  let$ _ := work (size s) in
  let$ encoded :=
    match mode with
    | ModeHuffman => huffman_encode_c s
    | ModeNone => let$ _ := work (size s) in free (Ok s)
    end in
  let$ v := encode_integer_value_c 7 (size encoded) in
  let$ len := free (or_first v (mode_val mode)) in
  let$ _ := work (size len + size encoded) in
  free (Ok (len ++ encoded)).

(* operator== of two headers: two strings of different lengths are not
   compared octet by octet, and the values only when the names are equal
   (std::find in header_encoder.cpp:131) *)
Definition equal_work (a b : header) : N :=
  1 + (if size (fst a) =? size (fst b) then size (fst a) else 0) +
  (if bytes_eqb (fst a) (fst b) && (size (snd a) =? size (snd b)) then size (snd a) else 0).

(* std::find over the dynamic table *)
Fixpoint find_index_c (entries : list header) (h : header) : counted (option N) :=
  match entries with
  | [] => free (Ok None)
  | e :: entries' =>
      let$ _ := work (equal_work e h) in
      if header_eqb e h then free (Ok (Some 0))
      else
        let$ r := find_index_c entries' h in
        free (Ok (match r with Some i => Some (i + 1) | None => None end))
  end.

(* mh2c/hpack/header_encoder.cpp:109-165: line 119 copies the header, 142 its
   name, and the parts are copied into the result (148-149, 159-163) *)
Definition encode_header_c (e : hentry) (mode : encode_mode) (t : dyn_table)
  : counted bytes :=
  let p := e_prefix e in
  if hprefix_eqb p SizeUpdate then
    let$ n := free (get_max_size e) in encode_max_size_c n p
  else
    let$ h := free (get_header e) in
    let$ _ := work (header_octets h) in
    match
      (match reverse_static_find h with
       | Some i => if 0 <? size (snd h) then Some i else None
       | None => None
       end)
    with
    | Some i => encode_index_c i Indexed
    | None =>
        let$ found := find_index_c (dt_entries t) h in
        match found with
        | Some i => encode_index_c (static_table_size + 1 + i) Indexed
        | None =>
            let$ _ := work (size (fst h)) in
            match reverse_static_find (fst h, []) with
            | Some i =>
                let$ ix := encode_index_c i p in
                let$ v := encode_string_c (snd h) mode in
                let$ _ := work (size v) in
                free (Ok (ix ++ v))
            | None =>
                let$ ix := encode_index_c 0 p in
                let$ n := encode_string_c (fst h) mode in
                let$ _ := work (size n) in
                let$ v := encode_string_c (snd h) mode in
                let$ _ := work (size v) in
                free (Ok (ix ++ n ++ v))
            end
        end
    end.

(* mh2c/frame/headers_frame.cpp:59-66, push_promise_frame.cpp:51-57,
   continuation_frame.cpp:32-39: each encoded entry is copied into the payload *)
Fixpoint encode_block_c (b : header_block) (mode : encode_mode) (t : dyn_table)
  : counted bytes :=
  match b with
  | [] => free (Ok [])
  | e :: b' =>
      let$ x := encode_header_c e mode t in
      let$ _ := work (size x) in
      let$ y := encode_block_c b' mode t in
      free (Ok (x ++ y))
  end.
