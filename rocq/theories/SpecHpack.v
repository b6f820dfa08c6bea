(* Specification of HPACK (RFC 7541) decoding, independent of the model. *)
From Coq Require Import String Ascii NArith List Bool.
From Verif Require Import SpecBits SpecInt SpecHuffman.
Import ListNotations.
Open Scope N_scope.

(* A header field: name and value octets. *)
Notation field := (list N * list N)%type.

(* ---- static table, Appendix A ---- *)

Definition octets (s : string) : list N := map N_of_ascii (list_ascii_of_string s).

Definition rfc_static_strings : list (string * string) := [
  (":authority", ""); (":method", "GET"); (":method", "POST"); (":path", "/");
  (":path", "/index.html"); (":scheme", "http"); (":scheme", "https");
  (":status", "200"); (":status", "204"); (":status", "206"); (":status", "304");
  (":status", "400"); (":status", "404"); (":status", "500");
  ("accept-charset", ""); ("accept-encoding", "gzip, deflate");
  ("accept-language", ""); ("accept-ranges", ""); ("accept", "");
  ("access-control-allow-origin", ""); ("age", ""); ("allow", "");
  ("authorization", ""); ("cache-control", ""); ("content-disposition", "");
  ("content-encoding", ""); ("content-language", ""); ("content-length", "");
  ("content-location", ""); ("content-range", ""); ("content-type", "");
  ("cookie", ""); ("date", ""); ("etag", ""); ("expect", ""); ("expires", "");
  ("from", ""); ("host", ""); ("if-match", ""); ("if-modified-since", "");
  ("if-none-match", ""); ("if-range", ""); ("if-unmodified-since", "");
  ("last-modified", ""); ("link", ""); ("location", ""); ("max-forwards", "");
  ("proxy-authenticate", ""); ("proxy-authorization", ""); ("range", "");
  ("referer", ""); ("refresh", ""); ("retry-after", ""); ("server", "");
  ("set-cookie", ""); ("strict-transport-security", ""); ("transfer-encoding", "");
  ("user-agent", ""); ("vary", ""); ("via", ""); ("www-authenticate", "")]%string.

Definition rfc_static : list field :=
  map (fun p => (octets (fst p), octets (snd p))) rfc_static_strings.

(* ---- dynamic table, section 4 ---- *)

(* 4.1: size of an entry and of a list of entries *)
Definition field_size (f : field) : N :=
  N.of_nat (length (fst f)) + N.of_nat (length (snd f)) + 32.

Definition total_size (l : list field) : N := fold_right (fun f n => field_size f + n) 0 l.

(* newest entry first *)
Record table := Table { t_max : N; t_entries : list field }.

(* 4.3, 4.4: evicting from the old end leaves the newest entries that fit *)
Fixpoint keep (budget : N) (l : list field) : list field :=
  match l with
  | [] => []
  | f :: l' => if field_size f <=? budget then f :: keep (budget - field_size f) l' else []
  end.

(* 4.4: an entry larger than the table empties it *)
Definition insert (t : table) (f : field) : table :=
  Table (t_max t) (keep (t_max t) (f :: t_entries t)).

(* 4.3 *)
Definition resize (t : table) (n : N) : table := Table n (keep n (t_entries t)).

(* 2.3.3: index address space *)
Definition resolve_in (static : list field) (t : table) (i : N) : option field :=
  if i =? 0 then None
  else if i <=? N.of_nat (length static) then nth_error static (N.to_nat (i - 1))
  else nth_error (t_entries t) (N.to_nat (i - 1 - N.of_nat (length static))).

Definition resolve := resolve_in rfc_static.

(* ---- representations, sections 5.2 and 6 ---- *)

(* the first octet of l is in [lo, hi) *)
Definition first_in (lo hi : N) (l : list N) : Prop :=
  exists b tl, l = b :: tl /\ lo <= b < hi.

Inductive indexing := Incremental | Without | Never.
Inductive name_ref := NameIndex (i : N) | NameLiteral (n : list N).
Inductive repr :=
| RIndexed (i : N)
| RLiteral (k : indexing) (n : name_ref) (v : list N)
| RResize (n : N).

(* 6.2.1, 6.2.2, 6.2.3: prefix width and pattern *)
Definition literal_prefix (k : indexing) : N :=
  match k with Incremental => 6 | Without => 4 | Never => 4 end.
Definition literal_pattern (k : indexing) (l : list N) : Prop :=
  match k with
  | Incremental => first_in 64 128 l
  | Without => first_in 0 16 l
  | Never => first_in 16 32 l
  end.

(* The integer representations are a parameter: rfc_int gives the RFC, a subset
   of it gives the representations of a restricted sender. *)
Section WithIntegers.
Variable int_repr : N -> list N -> N -> Prop.

(* 5.2 *)
Inductive string_with : list N -> list N -> Prop :=
| string_plain : forall l s,
    int_repr 7 l (N.of_nat (length s)) -> first_in 0 128 l -> is_octets s ->
    string_with (l ++ s) s
| string_huffman : forall l e s,
    int_repr 7 l (N.of_nat (length e)) -> first_in 128 256 l -> is_octets s ->
    rfc_huffman_encodes s e ->
    string_with (l ++ e) s.

Inductive repr_with : list N -> repr -> Prop :=
| repr_indexed : forall l i,                                  (* 6.1 *)
    int_repr 7 l i -> first_in 128 256 l -> repr_with l (RIndexed i)
| repr_literal_indexed_name : forall k l i vs v,              (* 6.2 *)
    int_repr (literal_prefix k) l i -> literal_pattern k l -> i <> 0 ->
    string_with vs v ->
    repr_with (l ++ vs) (RLiteral k (NameIndex i) v)
| repr_literal_new_name : forall k l ns n vs v,               (* 6.2 *)
    int_repr (literal_prefix k) l 0 -> literal_pattern k l ->
    string_with ns n -> string_with vs v ->
    repr_with (l ++ ns ++ vs) (RLiteral k (NameLiteral n) v)
| repr_resize : forall l n,                                   (* 6.3 *)
    int_repr 5 l n -> first_in 32 64 l -> repr_with l (RResize n).
End WithIntegers.

Definition rfc_string := string_with rfc_int.
Definition rfc_repr := repr_with rfc_int.

(* Representations in which every integer is as short as possible. *)
Definition minimal_repr := repr_with rfc_int_shortest.

(* ... and below 2^31. *)
Definition small_int (n : N) (l : list N) (v : N) : Prop :=
  rfc_int_shortest n l v /\ v < 2 ^ 31.
Definition small_string := string_with small_int.
Definition small_repr := repr_with small_int.

(* ---- processing, section 3.2, relative to a static table ---- *)

Definition name_of (static : list field) (t : table) (n : name_ref) : option (list N) :=
  match n with
  | NameIndex i => option_map fst (resolve_in static t i)
  | NameLiteral s => Some s
  end.

(* Effect of one representation: the field it adds to the header list, if any,
   and the table afterwards; None is a decoding error.  [limit] is the bound the
   decoder has set for the table size (6.3). *)
Definition step_in (static : list field) (limit : N) (t : table) (r : repr)
  : option (option field * table) :=
  match r with
  | RIndexed i =>
      match resolve_in static t i with Some f => Some (Some f, t) | None => None end
  | RLiteral k n v =>
      match name_of static t n with
      | Some nm =>
          Some (Some (nm, v),
                match k with Incremental => insert t (nm, v) | _ => t end)
      | None => None
      end
  | RResize n => if n <=? limit then Some (None, resize t n) else None
  end.

Definition step := step_in rfc_static.

Definition opt_cons {A} (o : option A) (l : list A) : list A :=
  match o with Some a => a :: l | None => l end.

(* A header block is processed representation by representation. *)
Inductive rfc_block_in (static : list field) (limit : N)
  : table -> list N -> list field -> table -> Prop :=
| rfc_block_nil : forall t, rfc_block_in static limit t [] [] t
| rfc_block_cons : forall t l r o t1 ls fs t2,
    rfc_repr l r -> step_in static limit t r = Some (o, t1) ->
    rfc_block_in static limit t1 ls fs t2 ->
    rfc_block_in static limit t (l ++ ls) (opt_cons o fs) t2.

Definition rfc_block := rfc_block_in rfc_static.
