(* Specification of HPACK integers (RFC 7541 5.1), independent of the model. *)
From Coq Require Import NArith List.
Import ListNotations.
Open Scope N_scope.

(* Continuation octets: little-endian groups of 7 bits, the top bit set on all
   but the last octet. *)
Inductive rfc_cont : list N -> N -> Prop :=
| rfc_cont_last : forall b, b < 128 -> rfc_cont [b] b
| rfc_cont_more : forall b l v,
    128 <= b < 256 -> rfc_cont l v -> rfc_cont (b :: l) ((b - 128) + 128 * v).

(* [rfc_int n l v]: the octets l are a representation of v with an n-bit prefix.
   Bits of the first octet above the prefix are free. *)
Inductive rfc_int (n : N) : list N -> N -> Prop :=
| rfc_int_short : forall b,
    b < 256 -> b mod 2 ^ n < 2 ^ n - 1 -> rfc_int n [b] (b mod 2 ^ n)
| rfc_int_long : forall b l v,
    b < 256 -> b mod 2 ^ n = 2 ^ n - 1 -> rfc_cont l v ->
    rfc_int n (b :: l) (2 ^ n - 1 + v).

(* The shortest representations of v. *)
Definition rfc_int_shortest (n : N) (l : list N) (v : N) : Prop :=
  rfc_int n l v /\ forall l', rfc_int n l' v -> (length l <= length l')%nat.
