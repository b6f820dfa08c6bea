(* Model of mh2c/frame/frame_header.{h,ipp,cpp} and frame_type_registry.h. *)
From Coq Require Import NArith List Bool.
From Verif Require Import Base Util.
Import ListNotations.
Open Scope N_scope.

(* mh2c/frame/frame_header.h:39-45, struct frame_header; C++ field types are
   uint32, uint8, uint8, uint8, uint32 *)
Record frame_header := FH {
  fh_length : N;
  fh_type : N;
  fh_flags : N;
  fh_reserved : N;
  fh_stream_id : N
}.

(* The ranges of the C++ field types. *)
Definition fh_typed (h : frame_header) : Prop :=
  fh_length h < 2 ^ 32 /\ fh_type h < 256 /\ fh_flags h < 256 /\
  fh_reserved h < 256 /\ fh_stream_id h < 2 ^ 32.

(* mh2c/frame/frame_header.h:33-37 *)
Definition FRAME_HEADER_BYTES : N := 9.
(* mh2c/frame/frame_header.h:34 *)
Definition LENGTH_BITS : N := 24.
(* mh2c/frame/frame_header.h:35 *)
Definition RESERVED_BITS : N := 1.
(* mh2c/frame/frame_header.h:36 *)
Definition STREAM_ID_BITS : N := 31.
(* mh2c/frame/frame_header.h:37 *)
Definition MAX_STREAM_ID : N := 0x7fffffff.

(* mh2c/frame/frame_type_registry.h:14-25 *)
Definition T_DATA : N := 0.
(* mh2c/frame/frame_type_registry.h:16 *)
Definition T_HEADERS : N := 1.
(* mh2c/frame/frame_type_registry.h:17 *)
Definition T_PRIORITY : N := 2.
(* mh2c/frame/frame_type_registry.h:18 *)
Definition T_RST_STREAM : N := 3.
(* mh2c/frame/frame_type_registry.h:19 *)
Definition T_SETTINGS : N := 4.
(* mh2c/frame/frame_type_registry.h:20 *)
Definition T_PUSH_PROMISE : N := 5.
(* mh2c/frame/frame_type_registry.h:21 *)
Definition T_PING : N := 6.
(* mh2c/frame/frame_type_registry.h:22 *)
Definition T_GOAWAY : N := 7.
(* mh2c/frame/frame_type_registry.h:23 *)
Definition T_WINDOW_UPDATE : N := 8.
(* mh2c/frame/frame_type_registry.h:24 *)
Definition T_CONTINUATION : N := 9.

(* mh2c/frame/frame_header.ipp:9-12, cast_to_fh_length *)
Definition cast_to_fh_length (n : N) : N := u32 n.

(* mh2c/frame/frame_header.ipp:14-17, make_frame_header_flags; a left fold of
   | over at least one argument (the empty pack does not compile) *)
Definition make_frame_header_flags (f : N) (fs : list N) : N :=
  fold_left (fun acc g => N.lor acc (u8 g)) fs (u8 f).

(* mh2c/frame/frame_header.cpp:18-47, serialize *)
Definition serialize_fh (host : endian) (h : frame_header) : bytes :=
  skipn 1 (net_bytes host 4 (fh_length h)) ++
  [fh_type h] ++ [fh_flags h] ++
  net_bytes host 4
    (N.lor (N.shiftl (extract_low_bit RESERVED_BITS (fh_reserved h)) STREAM_ID_BITS)
           (fh_stream_id h)).

(* mh2c/frame/frame_header.cpp:49-62, build_frame_header *)
Definition build_frame_header (raw : bytes) : res frame_header :=
  let* len32 := bytes2integral 4 raw 0 in
  let length := extract_high_bit LENGTH_BITS 32 len32 in
  let* type := vget raw 3 in
  let* flags := vget raw 4 in
  let* rs := bytes2integral 4 raw 5 in
  let reserved := u8 (extract_high_bit RESERVED_BITS 32 rs) in
  let stream_id := extract_low_bit STREAM_ID_BITS rs in
  Ok (FH length type flags reserved stream_id).

(* mh2c/frame/frame_header.cpp:74-78, operator== *)
Definition fh_eqb (a b : frame_header) : bool :=
  (fh_length a =? fh_length b) && (fh_type a =? fh_type b) &&
  (fh_flags a =? fh_flags b) && (fh_reserved a =? fh_reserved b) &&
  (fh_stream_id a =? fh_stream_id b).
