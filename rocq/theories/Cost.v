(* The reader of a header block once more, counting its work.  Each function is
   its namesake in Huffman.v, IntRep.v, HeaderDec.v or Frames.v with a counter:
   the number of octets the C++ text reads, copies or moves in vectors and
   strings, and one for every row of the Huffman decoding table it looks at.
   What the text does a fixed number of times for each octet or header on top of
   that (copying the same header again, arithmetic, comparing a prefix, finding
   a key in a map of at most 257 rows, growing a vector) is not counted.
   PropCost.v proves that without the counter they are the same functions. *)
From Coq Require Import NArith List Bool.
From Verif Require Import Base Util IntRep HuffmanTable Huffman StaticTable HeaderType DynTable HeaderEnc HeaderDec Frames.
Import ListNotations.
Open Scope N_scope.

(* An outcome and the work done until it (no line of /repo: every call, as
   Base.res) *)
Definition counted (A : Type) : Type := res A * N.

(* two statements in sequence, as Base.bind, with the sum of their work (no
   line of /repo: the order of statements) *)
Definition cbind {A B} (r : counted A) (k : A -> counted B) : counted B :=
  match fst r with
  | Ok a => let r' := k a in (fst r', snd r + snd r')
  | Throw e => (Throw e, snd r)
  | UB u => (UB u, snd r)
  | NoFuel => (NoFuel, snd r)
  end.

(* Work that yields nothing by itself (no line of /repo: a unit of the count)
   *)
Definition work (n : N) : counted unit := (Ok tt, n).

(* A step of which no work is counted (no line of /repo) *)
Definition free {A} (r : res A) : counted A := (r, 0).

Notation "'let$' x := a 'in' b" := (cbind a (fun x => b)) (at level 200, x pattern, right associativity).

(* vector::erase(begin, begin + n): nothing when n is 0, otherwise the octets
   behind are moved to the front (huffman_decoder.cpp:86-87,
   header_decoder.cpp:189-209, headers_frame.cpp:135) *)
Definition erase_work (v : bytes) (n : N) : N := if n =? 0 then 0 else size v - n.

(* vector::erase(begin, begin + n), huffman_decoder.cpp:86-87,
   header_decoder.cpp:189-209, headers_frame.cpp:135 *)
Definition verase_front_c (v : bytes) (n : N) : counted bytes :=
  let$ v' := free (verase_front v n) in
  let$ _ := work (erase_work v n) in
  free (Ok v').

(* ---- mh2c/hpack/integer_representation.ipp ---- *)

(* mh2c/hpack/integer_representation.ipp:50-56: each pass reads one octet *)
Fixpoint dec_loop_c (rest : bytes) (acc m : N) : counted N :=
  match rest with
  | [] => free (UB OobRead)
  | next :: rest' =>
      let$ _ := work 1 in
      if 32 <=? m then free (UB BadShift) else
      let prod := N.land next 127 * 2 ^ m in
      if 2 ^ 31 <=? prod then free (UB SignedOverflow) else
      let acc' := u32 (acc + prod) in
      if N.land next 128 =? 128
      then dec_loop_c rest' acc' (m + 7)
      else free (Ok acc')
  end.

(* mh2c/hpack/integer_representation.ipp:38-59 *)
Definition decode_integer_value_c (n : N) (encoded : bytes) : counted N :=
  match encoded with
  | [] => free (UB OobRead)
  | b :: rest =>
      let$ _ := work 1 in
      let max_value := 2 ^ n - 1 in
      let d := N.land b max_value in
      if d <? max_value then free (Ok d) else dec_loop_c rest d 0
  end.

(* ---- mh2c/hpack/huffman_decoder.cpp ---- *)

(* mh2c/hpack/huffman_decoder.cpp:17-33: reads the octets it joins *)
Definition construct_integer_c (v : bytes) (required : N) : counted N :=
  let$ x := free (construct_integer v required) in
  let$ _ := work required in
  free (Ok x).

(* mh2c/hpack/huffman_decoder.cpp:45-91; the symbol found is pushed back (line
   84) and the octets used up are erased (lines 86-87) *)
Fixpoint decode_pass_c (table : list (N * list (N * N))) (temp : bytes) (carry : N * N)
  : counted pass :=
  match table with
  | [] => free (Ok NotFound)
  | (bit_length, decode_map) :: table' =>
      let$ _ := work 1 in
      if (size temp =? 0) && (snd carry <? bit_length) then free (Ok Padding)
      else
        let$ (key, temp_carry, erase_length) :=
          if snd carry <? bit_length then
            let required_bit := bit_length - snd carry in
            let required_byte :=
              if required_bit mod 8 =? 0 then required_bit / 8
              else required_bit / 8 + 1 in
            let$ target := construct_integer_c temp required_byte in
            let shift_bit := (required_byte * 8 + snd carry) - bit_length in
            let shifted_target := N.shiftr target shift_bit in
            let shifted_value :=
              N.lxor target (u32 (N.shiftl shifted_target shift_bit)) in
            let key :=
              N.lor (u32 (N.shiftl (fst carry) (bit_length - snd carry)))
                    shifted_target in
            free (Ok (key, (shifted_value, shift_bit), required_byte))
          else
            let target := fst carry in
            let shift_bit := snd carry - bit_length in
            let shifted_target := N.shiftr target shift_bit in
            let shifted_value :=
              N.lxor target (u32 (N.shiftl shifted_target shift_bit)) in
            free (Ok (shifted_target, (shifted_value, shift_bit), 0))
        in
        match map_find decode_map key with
        | Some sym =>
            let$ _ := work 1 in
            let$ temp' := verase_front_c temp erase_length in
            free (Ok (Symbol sym bit_length temp' temp_carry))
        | None => decode_pass_c table' temp carry
        end
  end.

(* mh2c/hpack/huffman_decoder.cpp:42-104 *)
Fixpoint decode_while_c (fuel : nat) (decoded total : N) (temp : bytes) (carry : N * N)
  : counted bytes :=
  if decoded <? total then
    match fuel with
    | O => free NoFuel
    | S f =>
        let$ p := decode_pass_c decode_table temp carry in
        match p with
        | Padding => decode_while_c f (decoded + snd carry) total temp carry
        | Symbol sym bit_length temp' carry' =>
            let$ out := decode_while_c f (decoded + bit_length) total temp' carry' in
            free (Ok (u8 sym :: out))
        | NotFound =>
            if size temp <? 4 then free (UB OobRead)
            else let$ _ := work 4 in free (Throw RuntimeError)
        end
    end
  else free (Ok []).

(* mh2c/hpack/huffman_decoder.cpp:35-107; line 36 copies the data *)
Definition huffman_decode_c (encoded : bytes) : counted bytes :=
  let$ _ := work (size encoded) in
  let total := size encoded * 8 in
  decode_while_c (S (N.to_nat total)) 0 total encoded (0, 0).

(* ---- mh2c/hpack/header_decoder.cpp ---- *)

(* The idiom of lines 61-63 etc.: the value is encoded again for its length *)
Definition decode_int_and_length_c (n : N) (v : bytes) : counted (N * N) :=
  let$ x := decode_integer_value_c n v in
  let$ _ := work (size (encode_integer_value n x)) in
  free (Ok (x, size (encode_integer_value n x))).

(* mh2c/hpack/header_decoder.cpp:53-92 *)
Definition decode_index_c (v : bytes) (p : hprefix) : counted (N * N) :=
  match p with
  | Indexed => decode_int_and_length_c 7 v
  | IncrementalIndexing => decode_int_and_length_c 6 v
  | WithoutIndexing => decode_int_and_length_c 4 v
  | NeverIndexed => decode_int_and_length_c 4 v
  | SizeUpdate => free (Throw InvalidArgument)
  end.

(* mh2c/hpack/header_decoder.cpp:103-128 and 130-155: line 112 (139) reads an
   octet, 116 (143) copies the encoded string, 118 (145) the decoded one, 121
   (148) the string as it is *)
Definition decode_string_c (m : ub_mode) (v : bytes) : counted (bytes * N) :=
  let$ (len, consumed) := decode_int_and_length_c 7 v in
  let$ b0 := free (vget v 0) in
  let$ _ := work 1 in
  let$ s :=
    if negb (extract_high_bit 1 8 b0 =? 0) then
      let$ enc := free (vrange v consumed len) in
      let$ _ := work len in
      let$ dec := huffman_decode_c enc in
      let$ _ := free (address_of m dec 0) in
      let$ _ := work (size dec) in
      free (Ok dec)
    else
      let$ _ := free (address_of m v consumed) in
      match vrange v consumed len with
      | UB _ => free (UB OobRead)
      | r => let$ _ := work len in free r
      end
  in
  free (Ok (s, consumed + len)).

(* The octets of a header (hpack/header_type.h, header_t: the two strings) *)
Definition header_octets (h : header) : N := size (fst h) + size (snd h).

(* mh2c/hpack/header_decoder.cpp:157-165: the header is copied out of its table *)
Definition make_indexed_header_c (index : N) (t : dyn_table) : counted header :=
  let$ h := free (make_indexed_header index t) in
  let$ _ := work (header_octets h) in
  free (Ok h).

(* mh2c/hpack/header_decoder.cpp:167-216; line 169 copies the data *)
Definition decode_header_c (m : ub_mode) (encoded : bytes) (t : dyn_table)
  : counted (hentry * N) :=
  let$ _ := work (size encoded) in
  let$ b0 := free (vget encoded 0) in
  let$ _ := work 1 in
  let$ p := free (check_prefix b0) in
  if hprefix_eqb p SizeUpdate then
    let$ (max_size, n) := decode_int_and_length_c 5 encoded in
    free (Ok (HEntry p (ESize max_size), n))
  else
    let$ (index, index_len) := decode_index_c encoded p in
    let$ h :=
      if 0 <? index then make_indexed_header_c index t else free (Ok ([], [])) in
    if hprefix_eqb p Indexed then free (Ok (HEntry p (EHeader h), index_len))
    else
      let$ data := verase_front_c encoded index_len in
      let$ (name, data, consumed) :=
        if size (fst h) <=? 0 then
          let$ (name, n) := decode_string_c m data in
          let$ data' := verase_front_c data n in
          free (Ok (name, data', index_len + n))
        else free (Ok (fst h, data, index_len))
      in
      let$ (value, n) := decode_string_c m data in
      let$ _ := verase_front_c data n in
      free (Ok (HEntry p (EHeader (name, value)), consumed + n)).

(* header_block.push_back(entry), headers_frame.cpp:134: the octets copied *)
Definition entry_work (e : hentry) : N :=
  match e_content e with EHeader h => header_octets h | ESize _ => 0 end.

(* mh2c/frame/headers_frame.cpp:132-136, push_promise_frame.cpp:101-105,
   continuation_frame.cpp:57-61: the entry is pushed back, the octets used up
   are erased *)
Fixpoint decode_block_loop_c (m : ub_mode) (fuel : nat) (raw : bytes) (t : dyn_table)
  : counted header_block :=
  if 0 <? size raw then
    match fuel with
    | O => free NoFuel
    | S f =>
        let$ (e, n) := decode_header_c m raw t in
        let$ _ := work (entry_work e) in
        let$ raw' := verase_front_c raw n in
        let$ b := decode_block_loop_c m f raw' t in
        free (Ok (e :: b))
    end
  else free (Ok []).

(* the same loop from its start, mh2c/frame/headers_frame.cpp:132-136 *)
Definition decode_block_c (m : ub_mode) (raw : bytes) (t : dyn_table) : counted header_block :=
  decode_block_loop_c m (length raw) raw t.
