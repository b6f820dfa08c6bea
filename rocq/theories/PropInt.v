(* Properties C03, C04, C05 (HPACK integers). *)
From Coq Require Import ZArith NArith List Bool Lia ZifyBool ZifyNat ZifyN.
From Verif Require Import Base IntRep HeaderDec SpecBits SpecInt Arith IntRepProofs IntSpecProofs.
Import ListNotations.
Open Scope N_scope.

(* C03: the caller may OR any multiple of 2^n into the first octet. *)
Theorem C03_integer_roundtrip : forall n v, 1 <= n <= 8 -> v < 2 ^ 31 + 2 ^ n - 1 ->
  exists first tail, encode_integer_value n v = first :: tail /\
  forall hi rest,
    decode_integer_value n (N.lor first (hi * 2 ^ n) :: tail ++ rest) = Ok v.
Proof.
  intros n v Hn Hv. pose proof (max_value_pos n Hn).
  destruct (encode_integer_first n v Hn) as (b & t & E & _).
  exists b, t. split; [exact E|]. intros hi rest.
  apply decode_encode_integer; [exact Hn|lia|exact E].
Qed.

(* C03: every larger value is encoded, and its decoding is undefined. *)
Theorem C03_integer_above_range : forall n v, 1 <= n <= 8 -> 2 ^ 31 + 2 ^ n - 1 <= v ->
  exists first tail, encode_integer_value n v = first :: tail /\
  forall hi rest, exists u,
    decode_integer_value n (N.lor first (hi * 2 ^ n) :: tail ++ rest) = UB u.
Proof.
  intros n v Hn Hv. pose proof (max_value_pos n Hn).
  destruct (encode_integer_first n v Hn) as (b & t & E & _).
  exists b, t. split; [exact E|]. intros hi rest.
  apply decode_encode_integer_ub with (v := v); [exact Hn|lia|exact E].
Qed.

(* C03: outcome on arbitrary octets: a value exactly when the octets start with
   an RFC representation of it within 6 octets and the range above; otherwise
   undefined behaviour, never an exception. *)
Theorem C03_integer_decode_outcome : forall n input, 1 <= n <= 8 -> is_octets input ->
  (forall x, decode_integer_value n input = Ok x <->
     exists l rest, input = l ++ rest /\ rfc_int n l x /\ size l <= 6 /\
                    x < 2 ^ 31 + 2 ^ n - 1) /\
  ((forall x, decode_integer_value n input <> Ok x) ->
     exists u, decode_integer_value n input = UB u).
Proof.
  intros n input Hn W. pose proof (max_value_pos n Hn). apply is_octets_wf in W. split.
  - intros x. rewrite (decode_integer_char n input x Hn W).
    split; intros (l & r & A & B & C & D); exists l, r; repeat split; auto; lia.
  - intros N. destruct (decode_integer_outcome n input) as [[x E]|E]; [|exact E].
    destruct (N x E).
Qed.

Example C03_case :
  encode_integer_value 5 1337 = [31; 154; 10] /\
  decode_integer_value 5 [0xe0 + 31; 154; 10; 77] = Ok 1337 /\
  (exists u, decode_integer_value 7 [127; 255; 255; 255; 255; 15] = UB u).
Proof. repeat split; try reflexivity. eexists. reflexivity. Qed.

(* C04 *)
Theorem C04_integer_wire_format : forall n v, 1 <= n <= 8 ->
  rfc_int_shortest n (encode_integer_value n v) v /\
  is_octets (encode_integer_value n v) /\
  (exists first tail, encode_integer_value n v = first :: tail /\ first < 2 ^ n) /\
  (v < 2 ^ 64 -> size (encode_integer_value n v) <= 11).
Proof.
  intros n v Hn. repeat split.
  - apply encode_integer_rfc. exact Hn.
  - intros l'. apply encode_integer_shortest. exact Hn.
  - apply is_octets_wf, encode_integer_wf. exact Hn.
  - apply encode_integer_first. exact Hn.
  - apply encode_integer_length_64.
Qed.

Example C04_case : encode_integer_value 4 (2 ^ 64 - 1) =
  [15; 240; 255; 255; 255; 255; 255; 255; 255; 255; 1].
Proof. reflexivity. Qed.

(* C05: the reported length is the number of octets read exactly when those
   octets are a shortest representation. *)
Theorem C05_consumed_length_partial : forall n input x len, 1 <= n <= 8 -> is_octets input ->
  decode_int_and_length n input = Ok (x, len) ->
  exists l rest, input = l ++ rest /\ rfc_int n l x /\
    (len = size l <-> rfc_int_shortest n l x).
Proof.
  intros n input x len Hn W H. apply is_octets_wf in W.
  unfold decode_int_and_length in H. apply bind_ok in H. destruct H as (y & D & E).
  inversion E; subst. apply decode_integer_char in D; [|exact Hn|exact W].
  destruct D as (l & rest & -> & R & _). exists l, rest.
  split; [reflexivity|]. split; [exact R|]. apply reencoded_length; [exact Hn|exact R].
Qed.

(* C05 is false: the value 127 in 3 octets is reported as 2 octets. *)
Theorem C05_consumed_length_refuted : exists n input x len l rest,
  1 <= n <= 8 /\ is_octets input /\ decode_int_and_length n input = Ok (x, len) /\
  input = l ++ rest /\ rfc_int n l x /\ len < size l.
Proof.
  exists 7, [127; 128; 0], 127, 2, [127; 128; 0], (@nil N).
  repeat split; try (vm_compute; reflexivity || discriminate).
  - apply is_octets_wf. repeat constructor.
  - change 127 with (2 ^ 7 - 1 + 0) at 2. apply rfc_int_long; [lia|reflexivity|].
    apply (rfc_cont_zeros 1).
Qed.

Example C05_case : decode_int_and_length 5 [31; 154; 10; 3] = Ok (1337, 3).
Proof. reflexivity. Qed.

Print Assumptions C03_integer_roundtrip.
Print Assumptions C03_integer_above_range.
Print Assumptions C03_integer_decode_outcome.
Print Assumptions C04_integer_wire_format.
Print Assumptions C05_consumed_length_partial.
Print Assumptions C05_consumed_length_refuted.
