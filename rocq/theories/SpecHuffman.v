(* Specification of the HPACK Huffman code, written from RFC 7541 Appendix B
   and section 5.2, independent of the model and of the C++ tables: the code is
   given by its list of code lengths, and code words are assigned canonically
   ("the code assigned to each symbol ... ordered by length, then by symbol"). *)
From Coq Require Import NArith List Bool.
From Verif Require Import SpecBits.
Import ListNotations.
Open Scope N_scope.

(* RFC 7541 Appendix B, code length of symbols 0..256 (256 is EOS). *)
Definition rfc_code_lengths : list N := [
  13; 23; 28; 28; 28; 28; 28; 28; 28; 24; 30; 28; 28; 30; 28; 28;
  28; 28; 28; 28; 28; 28; 30; 28; 28; 28; 28; 28; 28; 28; 28; 28;
  6; 10; 10; 12; 13; 6; 8; 11; 10; 10; 8; 11; 8; 6; 6; 6;
  5; 5; 5; 6; 6; 6; 6; 6; 6; 6; 7; 8; 15; 6; 12; 10;
  13; 6; 7; 7; 7; 7; 7; 7; 7; 7; 7; 7; 7; 7; 7; 7;
  7; 7; 7; 7; 7; 7; 7; 7; 8; 7; 8; 13; 19; 13; 14; 6;
  15; 5; 6; 5; 6; 5; 6; 6; 6; 5; 7; 7; 6; 6; 6; 5;
  6; 7; 6; 5; 5; 6; 7; 7; 7; 7; 7; 15; 11; 14; 13; 28;
  20; 22; 20; 20; 22; 22; 22; 23; 22; 23; 23; 23; 23; 23; 24; 23;
  24; 24; 22; 23; 24; 23; 23; 23; 23; 21; 22; 23; 22; 23; 23; 24;
  22; 21; 20; 22; 22; 23; 23; 21; 23; 22; 22; 24; 21; 22; 23; 23;
  21; 21; 22; 21; 23; 22; 23; 23; 20; 22; 22; 22; 23; 22; 22; 23;
  26; 26; 20; 19; 22; 23; 22; 25; 26; 26; 26; 27; 27; 26; 24; 25;
  19; 21; 26; 27; 27; 26; 27; 24; 21; 21; 26; 26; 28; 27; 27; 27;
  20; 24; 20; 21; 22; 21; 21; 23; 22; 22; 25; 25; 24; 24; 26; 23;
  26; 27; 26; 26; 27; 27; 27; 27; 27; 28; 27; 27; 27; 27; 27; 26;
  30].

Definition EOS : N := 256.

Definition rfc_code_length (s : N) : N := nth (N.to_nat s) rfc_code_lengths 0.

(* Canonical code value: the code word of s is the binary fraction obtained by
   stacking the code words of all symbols that precede s in the order (length,
   symbol), each of weight 2^-length. *)
Fixpoint canonical_sum (ls : list N) (s' : N) (s len : N) : N :=
  match ls with
  | [] => 0
  | l :: ls' =>
      (if (l <? len) || ((l =? len) && (s' <? s)) then 2 ^ (len - l) else 0)
      + canonical_sum ls' (s' + 1) s len
  end.

Definition rfc_code_value (s : N) : N :=
  canonical_sum rfc_code_lengths 0 s (rfc_code_length s).

(* The code word of symbol s as a bit string. *)
Definition rfc_code (s : N) : list bool :=
  bits_of (N.to_nat (rfc_code_length s)) (rfc_code_value s).

(* RFC 7541 5.2: [e] is the Huffman encoding of [s]: the code words of the
   octets of s, padded to an octet boundary with fewer than 8 of the most
   significant bits of EOS (all ones). *)
Definition rfc_huffman_encodes (s e : list N) : Prop :=
  is_octets e /\
  exists pad, octets_bits e = flat_map rfc_code s ++ repeat true pad /\ (pad < 8)%nat.
