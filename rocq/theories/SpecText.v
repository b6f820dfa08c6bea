(* A reader for the text printed for a frame: lines, "name : value" lines,
   decimal numbers, hexadecimal octets.  Independent of the model of dump(). *)
From Coq Require Import String NArith List Bool.
From Verif Require Import SpecHpack.
Import ListNotations.
Local Open Scope N_scope.

(* The lines of a text, without the line feeds. *)
Fixpoint lines (x : list N) : list (list N) :=
  match x with
  | [] => [[]]
  | c :: r =>
      if c =? 10 then [] :: lines r
      else match lines r with l :: ls => (c :: l) :: ls | [] => [[c]] end
  end.

Fixpoint trim_left (l : list N) : list N :=
  match l with c :: r => if c =? 32 then trim_left r else l | [] => [] end.
Definition trim (l : list N) : list N := rev (trim_left (rev (trim_left l))).

(* The text before the first colon and the text behind it. *)
Fixpoint split_colon (l : list N) : option (list N * list N) :=
  match l with
  | [] => None
  | c :: r =>
      if c =? 58 then Some ([], r)
      else match split_colon r with Some (a, b) => Some (c :: a, b) | None => None end
  end.

Fixpoint same (a b : list N) : bool :=
  match a, b with
  | [], [] => true
  | c :: a, d :: b => (c =? d) && same a b
  | _, _ => false
  end.

(* What stands behind the name, on the first line that has it; spaces do not
   count. *)
Fixpoint entry (name : list N) (ls : list (list N)) : option (list N) :=
  match ls with
  | [] => None
  | l :: ls' =>
      match split_colon l with
      | Some (a, b) => if same (trim a) name then Some (trim_left b) else entry name ls'
      | None => entry name ls'
      end
  end.

(* A decimal number. *)
Definition number (ds : list N) : option N :=
  match ds with
  | [] => None
  | _ => if forallb (fun c => (48 <=? c) && (c <=? 57)) ds then Some (fold_left (fun v c => v * 10 + (c - 48)) ds 0) else None
  end.

Definition read (name : string) (text : list N) : option N :=
  match entry (octets name) (lines text) with Some v => number v | None => None end.

(* The lines behind the first line that reads as given. *)
Fixpoint behind (line : list N) (ls : list (list N)) : list (list N) :=
  match ls with
  | [] => []
  | l :: ls' => if same l line then ls' else behind line ls'
  end.

(* The first lines that begin with four spaces, without them. *)
Fixpoint indented (ls : list (list N)) : list (list N) :=
  match ls with
  | (32 :: 32 :: 32 :: 32 :: l) :: ls' => l :: indented ls'
  | _ => []
  end.

(* Octets written as two hexadecimal digits each; spaces do not count. *)
Definition hex_digit (c : N) : option N :=
  if (48 <=? c) && (c <=? 57) then Some (c - 48) else if (97 <=? c) && (c <=? 102) then Some (c - 87) else None.
Fixpoint hex_octets (x : list N) : option (list N) :=
  match x with
  | [] => Some []
  | c :: r =>
      if c =? 32 then hex_octets r
      else match r with
      | [] => None
      | d :: r' =>
          match hex_digit c, hex_digit d, hex_octets r' with
          | Some a, Some b, Some l => Some (16 * a + b :: l)
          | _, _, _ => None
          end
      end
  end.

(* The sections of the text. *)
Definition payload_lines (text : list N) : list (list N) := behind (octets "[PAYLOAD]") (lines text).
Definition block_lines (text : list N) : list (list N) := indented (behind (octets "  Header Block:") (lines text)).
Definition padding_lines (text : list N) : list (list N) := behind (octets "  Padding:") (lines text).

(* RFC 7540 section 11.2: the frame types. *)
Definition type_names : list string :=
  ["DATA"; "HEADERS"; "PRIORITY"; "RST_STREAM"; "SETTINGS"; "PUSH_PROMISE"; "PING"; "GOAWAY"; "WINDOW_UPDATE"; "CONTINUATION"]%string.
Definition type_name (t : N) : option string := nth_error type_names (N.to_nat t).
