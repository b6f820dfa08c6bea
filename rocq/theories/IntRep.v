(* Model of mh2c/hpack/integer_representation.ipp. *)
From Coq Require Import NArith List Bool.
From Verif Require Import Base.
Import ListNotations.
Open Scope N_scope.

(* mh2c/hpack/integer_representation.ipp:28-33, the while loop and the final
   push_back.  The fuel is the bit size of the value, see
   IntRepProofs.enc_cont_eq. *)
Fixpoint enc_loop (fuel : nat) (value : N) : bytes :=
  match fuel with
  | O => []
  | S f =>
      if 128 <=? value
      then u8 (value mod 128 + 128) :: enc_loop f (value / 128)
      else [u8 value]
  end.

(* mh2c/hpack/integer_representation.ipp:28-33, with enough fuel *)
Definition enc_cont (value : N) : bytes := enc_loop (S (N.size_nat value)) value.

(* mh2c/hpack/integer_representation.ipp:15-36, encode_integer_value<n>; the
   template argument is the prefix width n (4, 5, 6 or 7 in the library). *)
Definition encode_integer_value (n : N) (value : N) : bytes :=
  let max_value := 2 ^ n - 1 in
  if value <? max_value
  then [u8 value]
  else max_value :: enc_cont (value - max_value).

(* mh2c/hpack/integer_representation.ipp:50-56, the do/while loop.  [rest] are
   the octets after the iterator, m is the shift.  (next & 127) * (1 << m) is
   computed in int: undefined when the product exceeds 2^31 - 1, or when
   m >= 32.  m is always a multiple of 7, so the case m = 31 does not arise. *)
Fixpoint dec_loop (rest : bytes) (acc m : N) : res N :=
  match rest with
  | [] => UB OobRead
  | next :: rest' =>
      if 32 <=? m then UB BadShift else
      let prod := N.land next 127 * 2 ^ m in
      if 2 ^ 31 <=? prod then UB SignedOverflow else
      let acc' := u32 (acc + prod) in
      if N.land next 128 =? 128
      then dec_loop rest' acc' (m + 7)
      else Ok acc'
  end.

(* mh2c/hpack/integer_representation.ipp:38-59, decode_integer_value<n> *)
Definition decode_integer_value (n : N) (encoded : bytes) : res N :=
  match encoded with
  | [] => UB OobRead
  | b :: rest =>
      let max_value := 2 ^ n - 1 in
      let d := N.land b max_value in
      if d <? max_value then Ok d else dec_loop rest d 0
  end.
