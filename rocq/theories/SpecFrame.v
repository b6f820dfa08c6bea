(* Wire format of HTTP/2 frames (RFC 7540 sections 4.1 and 6), independent of
   the model. *)
From Coq Require Import NArith List.
Import ListNotations.
Open Scope N_scope.

(* x as k octets, most significant first *)
Fixpoint be_octets (k : nat) (x : N) : list N :=
  match k with
  | O => []
  | S k' => (x / 256 ^ N.of_nat k') mod 256 :: be_octets k' x
  end.

(* 4.1: 24-bit length, 8-bit type, 8-bit flags, 1 reserved bit, 31-bit stream id *)
Definition wire_header (length type flags r stream : N) : list N :=
  be_octets 3 length ++ [type; flags] ++ be_octets 4 (r * 2 ^ 31 + stream).

Definition wire_frame (type flags r stream : N) (payload : list N) : list N :=
  wire_header (N.of_nat (length payload)) type flags r stream ++ payload.

(* 6.1, 6.2, 6.6: optional padding around the contents *)
Definition padded_payload (padded : bool) (contents padding : list N) : list N :=
  if padded then [N.of_nat (length padding)] ++ contents ++ padding else contents.

(* 6.2 and 6.3: exclusive bit, 31-bit dependency, weight *)
Definition priority_fields (exclusive dependency weight : N) : list N :=
  be_octets 4 (exclusive * 2 ^ 31 + dependency) ++ [weight].

(* 6.4 *)
Definition rst_stream_octets (error_code : N) : list N := be_octets 4 error_code.

(* 6.5.1 *)
Definition settings_octets (params : list (N * N)) : list N :=
  flat_map (fun p => be_octets 2 (fst p) ++ be_octets 4 (snd p)) params.

(* 6.6: reserved bit and promised stream id, then the header block fragment *)
Definition push_promise_contents (r promised : N) (fragment : list N) : list N :=
  be_octets 4 (r * 2 ^ 31 + promised) ++ fragment.

(* 6.8 *)
Definition goaway_octets (r last error_code : N) (debug : list N) : list N :=
  be_octets 4 (r * 2 ^ 31 + last) ++ be_octets 4 error_code ++ debug.

(* 6.9 *)
Definition window_update_octets (r increment : N) : list N :=
  be_octets 4 (r * 2 ^ 31 + increment).

(* frame types, section 6; flags, section 6 *)
Definition DATA := 0.
Definition HEADERS := 1.
Definition PRIORITY := 2.
Definition RST_STREAM := 3.
Definition SETTINGS := 4.
Definition PUSH_PROMISE := 5.
Definition PING := 6.
Definition GOAWAY := 7.
Definition WINDOW_UPDATE := 8.
Definition CONTINUATION := 9.

Definition has_padded (flags : N) : bool := N.testbit flags 3.
Definition has_priority (flags : N) : bool := N.testbit flags 5.
