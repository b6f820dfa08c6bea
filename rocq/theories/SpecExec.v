(* A reference decoder for HPACK (RFC 7541), written from the RFC and independent
   of the model: the specification SpecHpack.v as a program. *)
From Coq Require Import String NArith List Bool.
From Verif Require Import SpecBits SpecInt SpecHuffman SpecHpack.
Import ListNotations.
Open Scope N_scope.

(* 5.1: value and remaining octets *)
Fixpoint exec_cont (l : list N) : option (N * list N) :=
  match l with
  | [] => None
  | b :: l' =>
      if b <? 128 then Some (b, l')
      else match exec_cont l' with
           | Some (v, rest) => Some ((b - 128) + 128 * v, rest)
           | None => None
           end
  end.

Definition exec_int (n : N) (l : list N) : option (N * list N) :=
  match l with
  | [] => None
  | b :: l' =>
      if b mod 2 ^ n <? 2 ^ n - 1 then Some (b mod 2 ^ n, l')
      else match exec_cont l' with
           | Some (v, rest) => Some (2 ^ n - 1 + v, rest)
           | None => None
           end
  end.

(* 5.2, Appendix B: the octet whose code word the bits start with; EOS is not
   one of them *)
Fixpoint strip (code bits : list bool) : option (list bool) :=
  match code, bits with
  | [], _ => Some bits
  | c :: code', b :: bits' => if eqb c b then strip code' bits' else None
  | _, [] => None
  end.

Definition code_words : list (N * list bool) :=
  map (fun i => (N.of_nat i, rfc_code (N.of_nat i))) (seq 0 256).

Fixpoint first_symbol (words : list (N * list bool)) (bits : list bool) : option (N * list bool) :=
  match words with
  | [] => None
  | (s, code) :: words' =>
      match strip code bits with
      | Some rest => Some (s, rest)
      | None => first_symbol words' bits
      end
  end.

Fixpoint exec_huffman (fuel : nat) (bits : list bool) : option (list N) :=
  match first_symbol code_words bits with
  | Some (s, rest) =>
      match fuel with
      | O => None
      | S f => match exec_huffman f rest with Some l => Some (s :: l) | None => None end
      end
  | None =>
      (* padding: fewer than 8 bits, all ones *)
      if (Nat.ltb (length bits) 8) && forallb (fun b => b) bits then Some [] else None
  end.

Definition exec_string (l : list N) : option (list N * list N) :=
  match l, exec_int 7 l with
  | b :: _, Some (len, rest) =>
      if len <=? N.of_nat (length rest) then
        let data := firstn (N.to_nat len) rest in
        let rest' := skipn (N.to_nat len) rest in
        if b <? 128 then Some (data, rest')
        else match exec_huffman (length (octets_bits data)) (octets_bits data) with
             | Some s => Some (s, rest')
             | None => None
             end
      else None
  | _, _ => None
  end.

(* 6.2 *)
Definition exec_literal (k : indexing) (l : list N) : option (repr * list N) :=
  match exec_int (literal_prefix k) l with
  | None => None
  | Some (i, l1) =>
      if i =? 0 then
        match exec_string l1 with
        | None => None
        | Some (name, l2) =>
            match exec_string l2 with
            | None => None
            | Some (v, l3) => Some (RLiteral k (NameLiteral name) v, l3)
            end
        end
      else
        match exec_string l1 with
        | None => None
        | Some (v, l2) => Some (RLiteral k (NameIndex i) v, l2)
        end
  end.

(* 6: the first octet says which representation it is *)
Definition exec_repr (l : list N) : option (repr * list N) :=
  match l with
  | [] => None
  | b :: _ =>
      if 128 <=? b then
        match exec_int 7 l with Some (i, rest) => Some (RIndexed i, rest) | None => None end
      else if 64 <=? b then exec_literal Incremental l
      else if 32 <=? b then
        match exec_int 5 l with Some (n, rest) => Some (RResize n, rest) | None => None end
      else if 16 <=? b then exec_literal Never l
      else exec_literal Without l
  end.

(* 3.2 *)
Fixpoint exec_block (static : list field) (limit : N) (fuel : nat) (t : table) (l : list N)
  : option (list field * table) :=
  match l with
  | [] => Some ([], t)
  | _ =>
      match fuel with
      | O => None
      | S f =>
          match exec_repr l with
          | None => None
          | Some (r, rest) =>
              match step_in static limit t r with
              | None => None
              | Some (o, t1) =>
                  match exec_block static limit f t1 rest with
                  | None => None
                  | Some (fs, t2) => Some (opt_cons o fs, t2)
                  end
              end
          end
      end
  end.

Definition reference_decoder (limit : N) (t : table) (l : list N) : option (list field * table) :=
  exec_block rfc_static limit (length l) t l.

(* ---- the examples of RFC 7541, Appendix C ---- *)

(* hexadecimal digits, blanks ignored *)
Definition hex_digit (c : Ascii.ascii) : option N :=
  let n := Ascii.N_of_ascii c in
  if (48 <=? n) && (n <=? 57) then Some (n - 48)
  else if (97 <=? n) && (n <=? 102) then Some (n - 87) else None.

Fixpoint hex_digits (s : string) : list N :=
  match s with
  | EmptyString => []
  | String c s' => match hex_digit c with Some d => d :: hex_digits s' | None => hex_digits s' end
  end.

Fixpoint pairs (l : list N) : list N :=
  match l with
  | a :: b :: l' => (16 * a + b) :: pairs l'
  | _ => []
  end.

Definition hex (s : string) : list N := pairs (hex_digits s).

Definition fields (l : list (string * string)) : list field := map (fun p => (octets (fst p), octets (snd p))) l.

(* The blocks of one connection, with the fields and the table (newest entry
   first) each leaves; [used] is the table size the RFC prints. *)
Fixpoint run_examples (limit : N) (t : table) (l : list (string * list (string * string) * list (string * string) * N)) : Prop :=
  match l with
  | [] => True
  | (block, header_list, entries, used) :: l' =>
      reference_decoder limit t (hex block) = Some (fields header_list, Table (t_max t) (fields entries)) /\
      total_size (fields entries) = used /\
      run_examples limit (Table (t_max t) (fields entries)) l'
  end.

Local Open Scope string_scope.

(* C.1 *)
Example rfc_C1 : exec_int 5 [10] = Some (10, []) /\ exec_int 5 [31; 154; 10] = Some (1337, []) /\ exec_int 8 [42] = Some (42, []).
Proof. repeat split. Qed.

(* C.2 *)
Example rfc_C2 :
  run_examples 4096 (Table 4096 []) [("400a 6375 7374 6f6d 2d6b 6579 0d63 7573 746f 6d2d 6865 6164 6572",
    [("custom-key", "custom-header")], [("custom-key", "custom-header")], 55)] /\
  run_examples 4096 (Table 4096 []) [("040c 2f73 616d 706c 652f 7061 7468", [(":path", "/sample/path")], [], 0)] /\
  run_examples 4096 (Table 4096 []) [("1008 7061 7373 776f 7264 0673 6563 7265 74", [("password", "secret")], [], 0)] /\
  run_examples 4096 (Table 4096 []) [("82", [(":method", "GET")], [], 0)].
Proof. repeat match goal with |- _ /\ _ => split | |- run_examples _ _ _ => hnf | |- True => exact I end; vm_compute; reflexivity. Qed.

Definition request_1 := [(":method", "GET"); (":scheme", "http"); (":path", "/"); (":authority", "www.example.com")].
Definition request_2 := (request_1 ++ [("cache-control", "no-cache")])%list.
Definition request_3 := [(":method", "GET"); (":scheme", "https"); (":path", "/index.html"); (":authority", "www.example.com");
  ("custom-key", "custom-value")].
Definition request_table_1 := [(":authority", "www.example.com")].
Definition request_table_2 := ("cache-control", "no-cache") :: request_table_1.
Definition request_table_3 := ("custom-key", "custom-value") :: request_table_2.

(* C.3: requests without Huffman coding *)
Definition rfc_C3_blocks := [
  ("8286 8441 0f77 7777 2e65 7861 6d70 6c65 2e63 6f6d", request_1, request_table_1, 57);
  ("8286 84be 5808 6e6f 2d63 6163 6865", request_2, request_table_2, 110);
  ("8287 85bf 400a 6375 7374 6f6d 2d6b 6579 0c63 7573 746f 6d2d 7661 6c75 65", request_3, request_table_3, 164)].
Example rfc_C3 : run_examples 4096 (Table 4096 []) rfc_C3_blocks.
Proof. repeat match goal with |- _ /\ _ => split | |- run_examples _ _ _ => hnf | |- True => exact I end; vm_compute; reflexivity. Qed.

(* C.4: with Huffman coding *)
Definition rfc_C4_blocks := [
  ("8286 8441 8cf1 e3c2 e5f2 3a6b a0ab 90f4 ff", request_1, request_table_1, 57);
  ("8286 84be 5886 a8eb 1064 9cbf", request_2, request_table_2, 110);
  ("8287 85bf 4088 25a8 49e9 5ba9 7d7f 8925 a849 e95b b8e8 b4bf", request_3, request_table_3, 164)].
Example rfc_C4 : run_examples 4096 (Table 4096 []) rfc_C4_blocks.
Proof. repeat match goal with |- _ /\ _ => split | |- run_examples _ _ _ => hnf | |- True => exact I end; vm_compute; reflexivity. Qed.

Definition date_1 := ("date", "Mon, 21 Oct 2013 20:13:21 GMT").
Definition date_2 := ("date", "Mon, 21 Oct 2013 20:13:22 GMT").
Definition location := ("location", "https://www.example.com").
Definition cookie := ("set-cookie", "foo=ASDJKHQKBZXOQWEOPIUAXQWEOIU; max-age=3600; version=1").
Definition private := ("cache-control", "private").
Definition response_1 := [(":status", "302"); private; date_1; location].
Definition response_2 := [(":status", "307"); private; date_1; location].
Definition response_3 := [(":status", "200"); private; date_2; location; ("content-encoding", "gzip"); cookie].
Definition response_table_1 := [location; date_1; private; (":status", "302")].
Definition response_table_2 := [(":status", "307"); location; date_1; private].
Definition response_table_3 := [cookie; ("content-encoding", "gzip"); date_2].

(* C.5: responses, with a table of 256 octets *)
Definition rfc_C5_blocks := [
  ("4803 3330 3258 0770 7269 7661 7465 611d 4d6f 6e2c 2032 3120 4f63 7420 3230 3133 2032 303a 3133 3a32 3120 474d 546e
    1768 7474 7073 3a2f 2f77 7777 2e65 7861 6d70 6c65 2e63 6f6d", response_1, response_table_1, 222);
  ("4803 3330 37c1 c0bf", response_2, response_table_2, 222);
  ("88c1 611d 4d6f 6e2c 2032 3120 4f63 7420 3230 3133 2032 303a 3133 3a32 3220 474d 54c0 5a04 677a 6970 7738 666f 6f3d
    4153 444a 4b48 514b 425a 584f 5157 454f 5049 5541 5851 5745 4f49 553b 206d 6178 2d61 6765 3d33 3630 303b 2076 6572
    7369 6f6e 3d31", response_3, response_table_3, 215)].
Example rfc_C5 : run_examples 256 (Table 256 []) rfc_C5_blocks.
Proof. repeat match goal with |- _ /\ _ => split | |- run_examples _ _ _ => hnf | |- True => exact I end; vm_compute; reflexivity. Qed.

(* C.6: with Huffman coding *)
Definition rfc_C6_blocks := [
  ("4882 6402 5885 aec3 771a 4b61 96d0 7abe 9410 54d4 44a8 2005 9504 0b81 66e0 82a6 2d1b ff6e 919d 29ad 1718 63c7 8f0b
    97c8 e9ae 82ae 43d3", response_1, response_table_1, 222);
  ("4883 640e ffc1 c0bf", response_2, response_table_2, 222);
  ("88c1 6196 d07a be94 1054 d444 a820 0595 040b 8166 e084 a62d 1bff c05a 839b d9ab 77ad 94e7 821d d7f2 e6c7 b335 dfdf
    cd5b 3960 d5af 2708 7f36 72c1 ab27 0fb5 291f 9587 3160 65c0 03ed 4ee5 b106 3d50 07", response_3, response_table_3, 215)].
Example rfc_C6 : run_examples 256 (Table 256 []) rfc_C6_blocks.
Proof. repeat match goal with |- _ /\ _ => split | |- run_examples _ _ _ => hnf | |- True => exact I end; vm_compute; reflexivity. Qed.
