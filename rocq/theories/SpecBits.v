(* Specification vocabulary: octets, bit strings and big-endian numbers.
   Independent of the model. *)
From Coq Require Import NArith List Bool.
Import ListNotations.
Open Scope N_scope.

(* The [n] low bits of x, most significant first. *)
Fixpoint bits_of (n : nat) (x : N) : list bool :=
  match n with
  | O => []
  | S n' => N.testbit x (N.of_nat n') :: bits_of n' x
  end.

(* The bit string of an octet string. *)
Definition octets_bits (l : list N) : list bool := flat_map (bits_of 8) l.

(* The number denoted by an octet string, most significant octet first. *)
Definition be_value (l : list N) : N := fold_left (fun acc b => acc * 256 + b) l 0.

Definition is_octets (l : list N) : Prop := forall b, In b l -> b < 256.

Definition is_prefix {A} (p l : list A) : Prop := exists r, l = p ++ r.
