(* Property C94: the string coding a caller asks for is the one used. *)
From Coq Require Import Ascii String.
From Coq Require Import ZArith NArith List Bool Lia ZifyBool ZifyNat ZifyN.
From Verif Require Import Base Arith Util IntRep Huffman StaticTable HeaderType DynTable HeaderEnc HeaderDec FrameHeader Frames
  SpecBits SpecInt SpecHuffman SpecHpack UtilProofs IntRepProofs HuffmanDecProofs DynTableProofs StaticProofs HeaderProofs HeaderProofs2 PropHeader
  FrameProofs BlockProofs PropFrame.
Import ListNotations.
Local Open Scope string_scope.
Local Open Scope list_scope.
Local Open Scope N_scope.
Ltac Zify.zify_post_hook ::= Z.div_mod_to_equations.

(* ---- specification ---- *)

(* RFC 7541 5.2: [l] is the string literal of [s] with the H bit [h], that is
   Huffman coded when h is true and verbatim when it is false. *)
Definition literal_coded (h : bool) (l s : list N) : Prop :=
  exists len body, l = len ++ body /\ rfc_int_shortest 7 len (N.of_nat (length body)) /\
    if h then first_in 128 256 len /\ rfc_huffman_encodes s body
    else first_in 0 128 len /\ body = s.

(* [l] represents an entry, and every string in it has the H bit [h]. *)
Inductive entry_coded (h : bool) : list N -> repr -> Prop :=
| coded_index : forall l i,
    rfc_int_shortest 7 l i -> first_in 128 256 l -> entry_coded h l (RIndexed i)
| coded_value : forall k l i vs v,
    rfc_int_shortest (literal_prefix k) l i -> literal_pattern k l -> i <> 0 -> literal_coded h vs v ->
    entry_coded h (l ++ vs) (RLiteral k (NameIndex i) v)
| coded_both : forall k l ns n vs v,
    rfc_int_shortest (literal_prefix k) l 0 -> literal_pattern k l -> literal_coded h ns n -> literal_coded h vs v ->
    entry_coded h (l ++ ns ++ vs) (RLiteral k (NameLiteral n) v)
| coded_resize : forall l n,
    rfc_int_shortest 5 l n -> first_in 32 64 l -> entry_coded h l (RResize n).

(* The strings in the representation are those of the caller's entry (which
   field an index stands for is the subject of C20, C21 and C27). *)
Definition own_strings (e : hentry) (r : repr) : Prop :=
  match e_content e, r with
  | ESize n, RResize m => m = n
  | EHeader _, RIndexed _ => True
  | EHeader f, RLiteral _ (NameIndex _) v => v = snd f
  | EHeader f, RLiteral _ (NameLiteral n) v => n = fst f /\ v = snd f
  | _, _ => False
  end.

Definition asks_huffman (mode : encode_mode) : bool := match mode with ModeHuffman => true | ModeNone => false end.

Definition entry_octets (e : hentry) : Prop :=
  match e_content e with EHeader f => is_octets (fst f) /\ is_octets (snd f) | ESize _ => True end.

(* INDEXED is asked for only for fields that are in a table. *)
Definition indexable (t : dyn_table) (e : hentry) : Prop :=
  forall f, e_content e = EHeader f -> e_prefix e = Indexed -> in_tables t f.

(* ---- proofs ---- *)

Lemma encode_string_coded : forall s mode out, is_octets s -> encode_string s mode = Ok out -> literal_coded (asks_huffman mode) out s.
Proof.
  intros s mode out O E. apply octets_wf in O. unfold encode_string in E. destruct mode; cbn [mode_val asks_huffman bind] in *.
  - destruct (or_prefix 7 (size s) 0 pok7) as (l & E' & S & F & _); [vm_compute; discriminate|].
    change (0 * 2 ^ 7) with 0 in *. change ((0 + 1) * 2 ^ 7) with 128 in F.
    rewrite E' in E. cbn [bind] in E. apply Ok_inj in E. subst out. exists l, s. auto.
  - destruct (huffman_roundtrip s O) as (e & E1 & We & R & _). rewrite E1 in E. cbn [bind] in E.
    destruct (or_prefix 7 (size e) 1 pok7) as (l & E' & S & F & _); [vm_compute; discriminate|].
    change (1 * 2 ^ 7) with 128 in *. change ((1 + 1) * 2 ^ 7) with 256 in F.
    rewrite E' in E. cbn [bind] in E. apply Ok_inj in E. subst out. exists l, e. auto.
Qed.

Lemma encode_header_coded : forall e mode t out, entry_octets e -> indexable t e -> encode_header e mode t = Ok out ->
  exists r, entry_coded (asks_huffman mode) out r /\ own_strings e r.
Proof.
  intros [p c] mode t out O X E. unfold encode_header in E. cbn [e_prefix] in E. destruct (hprefix_eqb p SizeUpdate) eqn:P.
  - destruct c as [h|n]; cbn [get_max_size e_content bind] in E; [discriminate E|].
    unfold encode_max_size in E. assert (p = SizeUpdate) by (destruct p; try discriminate P; reflexivity). subst p.
    destruct (or_prefix 5 n 1 ltac:(unfold prefix_ok; lia)) as (l & E' & S & F & _); [vm_compute; discriminate|].
    change (1 * 2 ^ 5) with 32 in *. change ((1 + 1) * 2 ^ 5) with 64 in F. change (prefix_val SizeUpdate) with 32 in E.
    rewrite E' in E. apply Ok_inj in E. subst out. exists (RResize n). split; [constructor; assumption|reflexivity].
  - destruct c as [h|n]; cbn [get_header e_content bind] in E; [|discriminate E]. cbn [entry_octets e_content] in O. destruct O as [On Ov].
    assert (IX : forall i, encode_index i Indexed = Ok out -> exists r, entry_coded (asks_huffman mode) out r /\ own_strings (HEntry p (EHeader h)) r).
    { intros i EI. destruct (encode_index_indexed i) as (l & E' & S & F). rewrite E' in EI. apply Ok_inj in EI. subst out.
      exists (RIndexed i). split; [constructor; assumption|exact I]. }
    destruct (match reverse_static_find h with
       | Some i => if 0 <? size (snd h) then Some i else None | None => None end) as [i|] eqn:RF; [exact (IX _ E)|].
    destruct (find_index (dt_entries t) h) as [i|] eqn:FI; [exact (IX _ E)|].
    assert (K : exists k, p = lib_prefix k).
    { destruct p; try discriminate P; try (exists Incremental; reflexivity); try (exists Without; reflexivity); try (exists Never; reflexivity). exfalso.
      specialize (X h eq_refl eq_refl). destruct (chosen_cases Never h t) as [(_ & i & C & _)|(NI & _)]; [|contradiction].
      unfold chosen in C. rewrite RF, FI in C. destruct (reverse_static_find (fst h, [])); discriminate C. }
    destruct K as (k & ->).
    destruct (reverse_static_find (fst h, [])) as [i|] eqn:R.
    + destruct (encode_index_literal k i) as (l & EL & S & PT). rewrite EL in E. cbn [bind] in E.
      apply bind_ok in E. destruct E as (v & V & E). apply Ok_inj in E. subst out.
      exists (RLiteral k (NameIndex i) (snd h)). split; [|reflexivity]. constructor; try assumption.
      * apply chosen_index_pos in R. lia.
      * exact (encode_string_coded _ _ _ Ov V).
    + destruct (encode_index_literal k 0) as (l & EL & S & PT). rewrite EL in E. cbn [bind] in E.
      apply bind_ok in E. destruct E as (n & NM & E). apply bind_ok in E. destruct E as (v & V & E). apply Ok_inj in E. subst out.
      exists (RLiteral k (NameLiteral (fst h)) (snd h)). split; [|split; reflexivity]. constructor; try assumption.
      * exact (encode_string_coded _ _ _ On NM).
      * exact (encode_string_coded _ _ _ Ov V).
Qed.

(* ---------------------------------------------------------------- C94 *)

(* A block is one representation per entry, in order, and every string in it
   is coded as the caller asked: Huffman coded strings only and always when
   Huffman coding is asked for, the caller's octets themselves otherwise. *)
Theorem C94_coding_as_asked : forall b mode t raw, Forall entry_octets b -> Forall (indexable t) b -> encode_block b mode t = Ok raw ->
  exists parts, raw = concat (map fst parts) /\ Forall2 (fun e p => own_strings e (snd p)) b parts /\
    Forall (fun p => entry_coded (asks_huffman mode) (fst p) (snd p)) parts.
Proof.
  intros b mode t raw O. revert raw. induction O as [|e b OE O IH]; intros raw X E; cbn [encode_block] in E.
  - apply Ok_inj in E. subst raw. exists []. repeat split; constructor.
  - inversion X as [|? ? X1 X2]; subst. apply bind_ok in E. destruct E as (x & EX & E). apply bind_ok in E. destruct E as (y & EY & E).
    apply Ok_inj in E. subst raw. destruct (IH y X2 EY) as (ps & -> & F & G).
    destruct (encode_header_coded e mode t x OE X1 EX) as (r & C & W). exists ((x, r) :: ps). split; [reflexivity|].
    split; constructor; assumption.
Qed.

(* No literal is coded both ways: the first octet tells. *)
Theorem C94_codings_apart : forall l s s', literal_coded true l s -> ~ literal_coded false l s'.
Proof.
  intros l s s' (n & b & -> & _ & (x & y & -> & A) & _) (n' & b' & E & _ & (x' & y' & -> & B) & _). cbn in E. injection E as <- _. lia.
Qed.

(* Without Huffman coding the value of a field that is in no table is sent as
   it is, after its length, and ends the representation. *)
Theorem C94_plain_verbatim : forall k h t raw, is_octets (fst h) -> is_octets (snd h) -> ~ in_tables t h ->
  encode_header (HEntry (lib_prefix k) (EHeader h)) ModeNone t = Ok raw ->
  exists a len, raw = a ++ len ++ snd h /\ rfc_int_shortest 7 len (size (snd h)) /\ first_in 0 128 len.
Proof.
  intros k h t raw On Ov NT E. pose proof (encode_header_spec k h ModeNone t (octets_wf _ On) (octets_wf _ Ov)) as (out & E' & _).
  rewrite E in E'. apply Ok_inj in E'. subst out. unfold encode_header in E. cbn [e_prefix e_content get_header bind] in E.
  rewrite lib_prefix_not_update in E. cbn [bind] in E.
  destruct (chosen_cases k h t) as [(I & _)|(_ & CC)]; [contradiction|].
  assert (C : forall i, chosen k h t <> RIndexed i). { intros i Q. destruct CC as (n & Q1 & _). rewrite Q in Q1. discriminate Q1. }
  unfold chosen in C.
  destruct (match reverse_static_find h with
     | Some i => if 0 <? size (snd h) then Some i else None | None => None end) as [i|]; [exfalso; exact (C _ eq_refl)|].
  destruct (find_index (dt_entries t) h) as [i|]; [exfalso; exact (C _ eq_refl)|]. clear C CC.
  assert (V : forall x, encode_header_value (snd h) ModeNone = Ok x ->
    exists len, x = len ++ snd h /\ rfc_int_shortest 7 len (size (snd h)) /\ first_in 0 128 len).
  { intros x X. destruct (encode_string_coded (snd h) ModeNone x Ov X) as (len & body & -> & S & F & ->). eauto. }
  destruct (reverse_static_find (fst h, [])) as [i|].
  - apply bind_ok in E. destruct E as (ix & _ & E). apply bind_ok in E. destruct E as (v & VV & E). apply Ok_inj in E. subst raw.
    destruct (V v VV) as (len & -> & P). exists ix, len. auto.
  - apply bind_ok in E. destruct E as (ix & _ & E). apply bind_ok in E. destruct E as (n & _ & E).
    apply bind_ok in E. destruct E as (v & VV & E). apply Ok_inj in E. subst raw.
    destruct (V v VV) as (len & -> & P). exists (ix ++ n), len. split; [rewrite <- app_assoc; reflexivity|exact P].
Qed.

Example C94_case :
  let b := [HEntry Indexed (EHeader (octets ":method", octets "GET")); HEntry SizeUpdate (ESize 100);
            HEntry WithoutIndexing (EHeader (octets "x", octets "abc"))] in
  Forall entry_octets b /\ Forall (indexable default_table) b /\
  encode_block b ModeNone default_table = Ok [130; 63; 69; 0; 1; 120; 3; 97; 98; 99] /\
  encode_block b ModeHuffman default_table = Ok [130; 63; 69; 0; 129; 243; 130; 28; 100].
Proof.
  cbv zeta. assert (O : forall p : string, is_octets (octets p)) by (intros p b I; apply in_map_iff in I; destruct I as (a & <- & _); apply N_ascii_bounded).
  split; [|split; [|split; vm_compute; reflexivity]].
  - apply Forall_cons; [split; apply O|]. apply Forall_cons; [exact I|]. apply Forall_cons; [split; apply O|]. apply Forall_nil.
  - apply Forall_cons; [|apply Forall_cons; [|apply Forall_cons; [|apply Forall_nil]]].
    + intros f C _. injection C as <-. left. split; [apply in_static; exists 2; vm_compute; reflexivity|discriminate].
    + intros f C _. discriminate C.
    + intros f _ P. discriminate P.
Qed.

Print Assumptions C94_coding_as_asked.
Print Assumptions C94_codings_apart.
Print Assumptions C94_plain_verbatim.
