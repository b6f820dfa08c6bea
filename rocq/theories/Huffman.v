(* Model of mh2c/hpack/huffman_encoder.cpp and huffman_decoder.cpp. *)
From Coq Require Import NArith List Bool.
From Verif Require Import Base HuffmanTable.
Import ListNotations.
Open Scope N_scope.

(* std::map lookup; rows are in insertion order and the first row of a key
   wins, as in std::map's initializer-list constructor. *)
Fixpoint map_find {V} (m : list (N * V)) (k : N) : option V :=
  match m with
  | [] => None
  | (k', v) :: m' => if k =? k' then Some v else map_find m' k
  end.

(* std::map::size(): number of distinct keys. *)
Fixpoint map_size {V} (m : list (N * V)) : N :=
  match m with
  | [] => 0
  | (k, _) :: m' =>
      (match map_find m' k with Some _ => 0 | None => 1 end) + map_size m'
  end.

(* encode_table.at(k) (huffman_encoder.cpp:48 and 74) *)
Definition encode_table_at (k : N) : res (N * N) :=
  match map_find encode_table_rows k with
  | Some r => Ok r
  | None => Throw OutOfRange
  end.

(* mh2c/hpack/huffman_encoder.cpp:20-33, fill_record; records are
   (value : uint32_t, number of bits) *)
Definition fill_record (dst src : N * N) : (N * N) * (N * N) :=
  let lack := 8 - snd dst in
  let fill_bit := N.min lack (snd src) in
  let remain_bit := snd src - fill_bit in
  let fill_data := N.shiftr (fst src) remain_bit in
  ((N.lor (u32 (N.shiftl (fst dst) fill_bit)) fill_data, snd dst + fill_bit),
   (N.lxor (fst src) (u32 (N.shiftl fill_data remain_bit)), remain_bit)).

(* mh2c/hpack/huffman_encoder.cpp:56-67, the for loop; returns the new
   carry-over record and the octets appended to encoded_data. *)
Fixpoint encode_inner (fuel : nat) (remain_bit_size : N) (carry rec : N * N)
  : res ((N * N) * bytes) :=
  if remain_bit_size <? 8 then Ok (rec, [])
  else
    match fuel with
    | O => NoFuel
    | S f =>
        let '(carry', rec') := fill_record carry rec in
        let* (c, out) := encode_inner f (snd rec') (0, 0) rec' in
        Ok (c, u8 (fst carry') :: out)
    end.

(* mh2c/hpack/huffman_encoder.cpp:46-69, the lambda encode_func *)
Definition encode_func (carry : N * N) (data : N) : res ((N * N) * bytes) :=
  let* rec := encode_table_at data in
  let total := snd carry + snd rec in
  if total <? 8 then Ok (fst (fill_record carry rec), [])
  else encode_inner (N.to_nat total) total carry rec.

(* mh2c/hpack/huffman_encoder.cpp:71, for_each over the input *)
Fixpoint encode_each (carry : N * N) (raw : bytes) : res ((N * N) * bytes) :=
  match raw with
  | [] => Ok (carry, [])
  | b :: raw' =>
      let* (carry', out) := encode_func carry b in
      let* (carry'', out') := encode_each carry' raw' in
      Ok (carry'', out ++ out')
  end.

(* mh2c/hpack/huffman_encoder.cpp:42-84, huffman::encode *)
Definition huffman_encode (raw : bytes) : res bytes :=
  let* (carry, out) := encode_each (0, 0) raw in
  if 0 <? snd carry then
    let* eos := encode_table_at (map_size encode_table_rows - 1) in
    let pad_bit_size := 8 - snd carry in
    let pad_bits := N.shiftr (fst eos) (snd eos - pad_bit_size) in
    let last_byte := N.lor (u32 (N.shiftl (fst carry) pad_bit_size)) pad_bits in
    Ok (out ++ [u8 last_byte])
  else Ok out.

(* mh2c/hpack/huffman_decoder.cpp:17-33, construct_integer.  The octet shifted
   into bit 31 is an int expression (see Util.bytes2integral); the value is
   taken modulo 2^32. *)
Fixpoint construct_loop (l : bytes) (required i : N) (acc : N) : N :=
  match l with
  | [] => acc
  | b :: l' =>
      construct_loop l' required (i + 1)
        (N.lor acc (u32 (N.shiftl b ((required - i - 1) * 8))))
  end.

(* mh2c/hpack/huffman_decoder.cpp:17-33, construct_integer *)
Definition construct_integer (v : bytes) (required : N) : res N :=
  if size v <? required then Throw InvalidArgument
  else Ok (construct_loop (firstn (N.to_nat required) v) required 0 0).

(* Result of one pass of the for loop over decode_table.
   (huffman_decoder.cpp:45-91) *)
Inductive pass :=
| Padding                                                   (* lines 47-51 *)
| Symbol (sym bit_length : N) (temp : bytes) (carry : N * N) (* lines 82-90 *)
| NotFound.                                                 (* line 93 *)

(* mh2c/hpack/huffman_decoder.cpp:45-91, one pass of the for loop *)
Fixpoint decode_pass (table : list (N * list (N * N))) (temp : bytes) (carry : N * N)
  : res pass :=
  match table with
  | [] => Ok NotFound
  | (bit_length, decode_map) :: table' =>
      if (size temp =? 0) && (snd carry <? bit_length) then Ok Padding
      else
        let* (key, temp_carry, erase_length) :=
          if snd carry <? bit_length then
            let required_bit := bit_length - snd carry in
            let required_byte :=
              if required_bit mod 8 =? 0 then required_bit / 8
              else required_bit / 8 + 1 in
            let* target := construct_integer temp required_byte in
            let shift_bit := (required_byte * 8 + snd carry) - bit_length in
            let shifted_target := N.shiftr target shift_bit in
            let shifted_value :=
              N.lxor target (u32 (N.shiftl shifted_target shift_bit)) in
            let key :=
              N.lor (u32 (N.shiftl (fst carry) (bit_length - snd carry)))
                    shifted_target in
            Ok (key, (shifted_value, shift_bit), required_byte)
          else
            let target := fst carry in
            let shift_bit := snd carry - bit_length in
            let shifted_target := N.shiftr target shift_bit in
            let shifted_value :=
              N.lxor target (u32 (N.shiftl shifted_target shift_bit)) in
            Ok (shifted_target, (shifted_value, shift_bit), 0)
        in
        match map_find decode_map key with
        | Some sym =>
            let* temp' := verase_front temp erase_length in
            Ok (Symbol sym bit_length temp' temp_carry)
        | None => decode_pass table' temp carry
        end
  end.

(* mh2c/hpack/huffman_decoder.cpp:42-104, the while loop.  When no entry is
   found, temp_encoded_data[0..3] are read unchecked before runtime_error is
   thrown (lines 93-103). *)
Fixpoint decode_while (fuel : nat) (decoded total : N) (temp : bytes) (carry : N * N)
  : res bytes :=
  if decoded <? total then
    match fuel with
    | O => NoFuel
    | S f =>
        let* p := decode_pass decode_table temp carry in
        match p with
        | Padding => decode_while f (decoded + snd carry) total temp carry
        | Symbol sym bit_length temp' carry' =>
            let* out := decode_while f (decoded + bit_length) total temp' carry' in
            Ok (u8 sym :: out)
        | NotFound =>
            if size temp <? 4 then UB OobRead else Throw RuntimeError
        end
    end
  else Ok [].

(* mh2c/hpack/huffman_decoder.cpp:35-107, huffman::decode *)
Definition huffman_decode (encoded : bytes) : res bytes :=
  let total := size encoded * 8 in
  decode_while (S (N.to_nat total)) 0 total encoded (0, 0).
