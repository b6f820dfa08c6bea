(* Model of mh2c/util. *)
From Coq Require Import NArith List Bool.
From Verif Require Import Base.
Import ListNotations.
Open Scope N_scope.

(* mh2c/util/bit_operation.ipp:13-16, extract_low_bit<n> *)
Definition extract_low_bit (n : N) (bits : N) : N := N.land bits (2 ^ n - 1).

(* mh2c/util/bit_operation.ipp:18-21, extract_high_bit<n> of a type of
   [width] bits *)
Definition extract_high_bit (n width : N) (bits : N) : N :=
  N.shiftr bits (width - n).

(* mh2c/util/bit_operation.ipp:23-32, is_flag_set (integral and enum
   overloads; underlying_cast of mh2c/util/cast.ipp:11-14 is the identity on
   values) *)
Definition is_flag_set (flags flag : N) : bool :=
  if flag =? 0 then flags =? flag else N.land flags flag =? flag.

(* mh2c/util/byte_order.ipp:19-32, bytes2integral for an unsigned type of
   [k] octets, at most 4, reading from v.begin() + off.  (Of a type of eight
   octets it would shift an int by 56, which is undefined; the library reads
   no such type, and the theorems ask for k <= 4.)  *ite << shift_bit is an int
   expression; for shift 24 and *ite >= 128 the value is only representable in
   unsigned int, which C++17 (CWG 1457) converts, so the sum is taken modulo
   2^(8k). *)
Fixpoint b2i_loop (k : N) (l : bytes) (shift : N) (acc : N) : N :=
  match l with
  | [] => acc
  | b :: l' => b2i_loop k l' (shift - 8) ((acc + N.shiftl b shift) mod 2 ^ (8 * k))
  end.

(* mh2c/util/byte_order.ipp:19-32, bytes2integral *)
Definition bytes2integral (k : N) (v : bytes) (off : N) : res N :=
  let* l := vrange v off k in
  Ok (b2i_loop k l ((k - 1) * 8) 0).

(* mh2c/util/byte_order.ipp:34-47, integral2bytes for an unsigned type of [k]
   octets: octets from shift (k-1)*8 down to 0. *)
Fixpoint integral2bytes (k : nat) (x : N) : bytes :=
  match k with
  | O => []
  | S k' => extract_low_bit 8 (N.shiftr x (8 * N.of_nat k')) :: integral2bytes k' x
  end.

(* Byte order of the machine the library runs on. (htons and htonl,
   mh2c/util/byte_order.cpp:16-18) *)
Inductive endian := LittleEndian | BigEndian.

(* The object representation of an unsigned integer of [k] octets, as read
   through reinterpret_cast<const uint8_t*>(&x). (as in
   frame_header.cpp:24-26) *)
Definition mem_bytes (host : endian) (k : nat) (x : N) : bytes :=
  match host with
  | LittleEndian => rev (integral2bytes k x)
  | BigEndian => integral2bytes k x
  end.

(* mh2c/util/byte_order.cpp:16-18, cvt_host2net for an unsigned type of [k]
   octets (htons / htonl): swaps the octets on a little-endian host. *)
Definition swap_octets (k : nat) (x : N) : N :=
  fold_left (fun acc b => acc * 256 + b) (rev (integral2bytes k x)) 0.

(* mh2c/util/byte_order.cpp:16-18, cvt_host2net *)
Definition cvt_host2net (host : endian) (k : nat) (x : N) : N :=
  match host with
  | LittleEndian => swap_octets k x
  | BigEndian => x
  end.

(* The idiom "auto net = cvt_host2net(x); copy the octets of net" used by the
   serialize functions. (for instance frame_header.cpp:21-26 and
   rst_stream_frame.cpp:58-61) *)
Definition net_bytes (host : endian) (k : nat) (x : N) : bytes :=
  mem_bytes host k (cvt_host2net host k x).
