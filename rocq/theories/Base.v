(* Outcomes of C++ code and the vector operations the library uses. *)
From Coq Require Import String Ascii NArith List Bool.
Import ListNotations.
Open Scope N_scope.

(* An octet is an N below 256; byte_array_t (mh2c/common/byte_array.h:12,
   std::vector<uint8_t>) and std::string are lists of octets. *)
Notation bytes := (list N).

(* the values of uint8_t, mh2c/common/byte_array.h:12 *)
Definition wf_byte (b : N) : Prop := b < 256.
(* the values of byte_array_t, mh2c/common/byte_array.h:12, and of std::string
   *)
Definition wf_bytes (l : bytes) : Prop := Forall wf_byte l.

(* The exception classes thrown by the library or by the standard containers
   it calls (vector::at, map::at throw out_of_range).
   (mh2c/hpack/header_type.cpp:47 and the other throw statements of
   /repo/mh2c) *)
Inductive exn := InvalidArgument | OutOfRange | RuntimeError.

(* Reasons for undefined behaviour. (the C++17 rules for the accesses and
   shifts of /repo/mh2c) *)
Inductive ub :=
| OobRead         (* element access or dereference outside a vector *)
| BadRange        (* iterator range or iterator arithmetic past end() *)
| EmptyBack       (* back()/front()/pop_back() on an empty vector *)
| SignedOverflow  (* int arithmetic overflow *)
| BadShift        (* shift by at least the operand width *)
| NullDeref.      (* member access through a null pointer *)

(* Outcome of a C++ call.  NoFuel is not a C++ outcome: it marks a fuelled
   loop that ran out of fuel, and is proved never to occur. *)
Inductive res (A : Type) :=
| Ok (a : A)
| Throw (e : exn)
| UB (u : ub)
| NoFuel.
Arguments Ok {A} a.
Arguments Throw {A} e.
Arguments UB {A} u.
Arguments NoFuel {A}.

(* two C++ statements in sequence; an exception or undefined behaviour of the
   first ends both (all of /repo/mh2c) *)
Definition bind {A B} (r : res A) (k : A -> res B) : res B :=
  match r with
  | Ok a => k a
  | Throw e => Throw e
  | UB u => UB u
  | NoFuel => NoFuel
  end.
Notation "'let*' x ':=' e 'in' k" := (bind e (fun x => k))
  (at level 200, x pattern, e at level 100, k at level 200, right associativity).

(* The two readings of &v[v.size()], see DESIGN.md section 1.
   (mh2c/hpack/header_decoder.cpp:118, 121, 145 and 148) *)
Inductive ub_mode := Strict | Lenient.

(* v.size() (std::vector, mh2c/common/byte_array.h:12) *)
Definition size {A} (v : list A) : N := N.of_nat (length v).

(* v[i] (unchecked element access) (std::vector, as in frame_header.cpp:52) *)
Definition vget (v : bytes) (i : N) : res N :=
  if i <? size v then Ok (nth (N.to_nat i) v 0) else UB OobRead.

(* v.at(i) (as dynamic_table.cpp:47-49) *)
Definition vat {A} (v : list A) (i : N) : res A :=
  if i <? size v then
    match nth_error v (N.to_nat i) with Some a => Ok a | None => Throw OutOfRange end
  else Throw OutOfRange.

(* the octets of [v.begin() + b, v.begin() + b + n) (std::vector, as in
   header_decoder.cpp:115-116) *)
Definition vrange (v : bytes) (b n : N) : res bytes :=
  if b + n <=? size v then Ok (firstn (N.to_nat n) (skipn (N.to_nat b) v))
  else UB BadRange.

(* v.erase(v.begin(), v.begin() + n) (std::vector, as in
   header_decoder.cpp:189-190) *)
Definition verase_front (v : bytes) (n : N) : res bytes :=
  if n <=? size v then Ok (skipn (N.to_nat n) v) else UB BadRange.

(* Conversions to unsigned types of the given width.
   (mh2c/frame/frame_header.h:27-31) *)
Definition u8 (x : N) : N := x mod 2 ^ 8.
(* conversion to uint16_t, for instance sf_id_t in
   mh2c/frame/settings_frame.h:24 *)
Definition u16 (x : N) : N := x mod 2 ^ 16.
(* conversion to uint32_t, for instance fh_length_t in
   mh2c/frame/frame_header.h:27 *)
Definition u32 (x : N) : N := x mod 2 ^ 32.

(* The octets of a C string literal. (for instance http2_client.cpp:125) *)
Fixpoint bytes_of_string (s : string) : bytes :=
  match s with
  | EmptyString => []
  | String c s' => N_of_ascii c :: bytes_of_string s'
  end.

(* std::string / std::vector<uint8_t> operator== *)
Fixpoint bytes_eqb (a b : bytes) : bool :=
  match a, b with
  | [], [] => true
  | x :: a', y :: b' => (x =? y) && bytes_eqb a' b'
  | _, _ => false
  end.
