(* Property C83: a build in which an address one past the end of a vector stops
   the program, and one in which it does not. *)
From Coq Require Import String.
From Coq Require Import ZArith NArith List Bool Lia ZifyBool ZifyNat ZifyN.
From Verif Require Import Base Arith Util HeaderType DynTable HeaderDec FrameHeader Frames FrameBuilder
  Ssl Client Dump Sample SpecHpack SpecFrame PropHeader PropSsl PropClient PropRequest PropDuplex PropFrame.
Import ListNotations.
Local Open Scope string_scope.
Local Open Scope list_scope.
Local Open Scope N_scope.
Ltac Zify.zify_post_hook ::= Z.div_mod_to_equations.

(* The checked build ends in undefined behaviour, or both builds do the same. *)
Definition same_or_ub {A} (strict lenient : res A) : Prop := (exists u, strict = UB u) \/ lenient = strict.

Lemma same_refl : forall A (r : res A), same_or_ub r r.
Proof. intros. right. reflexivity. Qed.

Lemma same_bind : forall A B (r r' : res A) (k k' : A -> res B), same_or_ub r r' ->
  (forall a, r = Ok a -> same_or_ub (k a) (k' a)) -> same_or_ub (bind r k) (bind r' k').
Proof.
  intros A B r r' k k' [(u & ->)| ->] K; [left; cbn; eauto|].
  destruct r as [a|x|u|]; cbn; try (right; reflexivity). apply K. reflexivity.
Qed.

Lemma same_address : forall v i, same_or_ub (address_of Strict v i) (address_of Lenient v i).
Proof. intros v i. unfold address_of. destruct (i <? size v); [right; reflexivity|left; eauto]. Qed.

Lemma same_string : forall v, same_or_ub (decode_string Strict v) (decode_string Lenient v).
Proof.
  intros v. unfold decode_string. apply same_bind; [apply same_refl|]. intros [len consumed] _.
  apply same_bind; [apply same_refl|]. intros b0 _. apply same_bind; [|intros; apply same_refl].
  destruct (negb _).
  - apply same_bind; [apply same_refl|]. intros enc _. apply same_bind; [apply same_refl|]. intros dec _.
    apply same_bind; [apply same_address|]. intros; apply same_refl.
  - apply same_bind; [apply same_address|]. intros; apply same_refl.
Qed.

Lemma same_header : forall raw t, same_or_ub (decode_header Strict raw t) (decode_header Lenient raw t).
Proof.
  intros raw t. unfold decode_header, decode_header_name, decode_header_value.
  apply same_bind; [apply same_refl|]. intros b0 _. apply same_bind; [apply same_refl|]. intros p _.
  destruct (hprefix_eqb p SizeUpdate); [apply same_refl|].
  apply same_bind; [apply same_refl|]. intros [i n] _. apply same_bind; [apply same_refl|]. intros h _.
  destruct (hprefix_eqb p Indexed); [apply same_refl|].
  apply same_bind; [apply same_refl|]. intros data _. apply same_bind.
  - destruct (size (fst h) <=? 0); [|apply same_refl].
    apply same_bind; [apply same_string|]. intros; apply same_refl.
  - intros [[name d] k] _. apply same_bind; [apply same_string|]. intros; apply same_refl.
Qed.

Lemma same_block : forall raw t, same_or_ub (decode_block Strict raw t) (decode_block Lenient raw t).
Proof.
  intros raw t. unfold decode_block. generalize (length raw). intros fuel. revert raw.
  induction fuel as [|f IH]; intros raw; cbn [decode_block_loop]; (destruct (0 <? size raw); [|apply same_refl]); [apply same_refl|].
  apply same_bind; [apply same_header|]. intros [e n] _. apply same_bind; [apply same_refl|]. intros raw' _.
  apply same_bind; [apply IH|]. intros; apply same_refl.
Qed.

Lemma same_build : forall h raw t, same_or_ub (build_frame Strict h raw t) (build_frame Lenient h raw t).
Proof.
  intros h raw t. unfold build_frame.
  repeat match goal with |- same_or_ub (if ?b then _ else _) _ => destruct b; try apply same_refl end.
  - unfold build_headers_frame.
    assert (P : same_or_ub (parse_headers Strict h raw t) (parse_headers Lenient h raw t)).
    { unfold parse_headers, headers_decode_payload. apply same_bind; [|intros; apply same_refl].
      apply same_bind; [apply same_refl|]. intros [padding d] _. apply same_bind; [apply same_refl|]. intros [prio d'] _.
      apply same_bind; [apply same_block|]. intros; apply same_refl. }
    destruct P as [(u & ->)| ->]; [left; eauto|apply same_refl].
  - unfold parse_push_promise, push_promise_decode_payload. apply same_bind; [|intros; apply same_refl].
    apply same_bind; [apply same_refl|]. intros [padding d] _. apply same_bind; [apply same_refl|]. intros b0 _.
    apply same_bind; [apply same_refl|]. intros x _. apply same_bind; [apply same_refl|]. intros d' _.
    apply same_bind; [apply same_block|]. intros; apply same_refl.
  - unfold parse_continuation. apply same_bind; [apply same_block|]. intros; apply same_refl.
Qed.

Theorem C83_receive : forall c,
  (exists u, fst (receive_frame Strict c) = UB u) \/ receive_frame Lenient c = receive_frame Strict c.
Proof.
  intros c. unfold receive_frame. destruct (receive_raw_data c FRAME_HEADER_BYTES) as [r c1].
  destruct (bind r build_frame_header) as [fh|x|u|]; try (right; reflexivity).
  destruct (if 0 <? fh_length fh then receive_raw_data c1 (fh_length fh) else (Ok [], c1)) as [r2 c2].
  assert (B : same_or_ub (let* raw := r2 in build_frame Strict fh raw (c_resp c2)) (let* raw := r2 in build_frame Lenient fh raw (c_resp c2))).
  { apply same_bind; [apply same_refl|]. intros; apply same_build. }
  destruct B as [(u & ->)| ->]; [left; exists u; reflexivity|right; reflexivity].
Qed.

Theorem C83_print : forall hex f, same_or_ub (dump Strict hex f) (dump Lenient hex f).
Proof.
  intros hex f. destruct f; try apply same_refl. unfold dump, dump_data. apply same_bind; [apply same_refl|]. intros pad _.
  apply same_bind; [apply same_address|]. intros; apply same_refl.
Qed.

(* Any sequence of calls. *)
Definition undefined (r : returned) : Prop := exists u, r = Received (UB u) \/ r = Returned (UB u).

Theorem C83_calls : forall host ks c,
  Exists undefined (fst (make_calls host Strict c ks)) \/ make_calls host Lenient c ks = make_calls host Strict c ks.
Proof.
  intros host. induction ks as [|k ks IH]; intros c; [right; reflexivity|]. cbn [make_calls].
  assert (S : undefined (fst (make_call host Strict c k)) \/ make_call host Lenient c k = make_call host Strict c k).
  { destruct k; try (right; reflexivity). cbn [make_call]. destruct (C83_receive c) as [(u & E)|E].
    - left. exists u. left. cbn [fst]. rewrite E. reflexivity.
    - right. rewrite E. reflexivity. }
  destruct S as [S|S].
  - left. destruct (make_call host Strict c k) as [r c1]. destruct (make_calls host Strict c1 ks) as [rs c2]. left. exact S.
  - rewrite S. destruct (make_call host Strict c k) as [r c1]. destruct (IH c1) as [E|E].
    + left. destruct (make_calls host Strict c1 ks) as [rs c2]. right. exact E.
    + right. rewrite E. reflexivity.
Qed.

(* The sample program. *)
Definition same_prog {A} (p q : prog A) : Prop := forall s, (exists u, fst (p s) = UB u) \/ q s = p s.

Lemma same_prog_refl : forall A (p : prog A), same_prog p p.
Proof. intros A p s. right. reflexivity. Qed.

Lemma same_seq : forall A B (p p' : prog A) (k k' : A -> prog B), same_prog p p' -> (forall a, same_prog (k a) (k' a)) ->
  same_prog (seqp p k) (seqp p' k').
Proof.
  intros A B p p' k k' P K s. unfold seqp. destruct (P s) as [(u & E)|E].
  - left. destruct (p s) as [r s']. cbn in E. subst r. exists u. reflexivity.
  - rewrite E. destruct (p s) as [[a|x|u|] s']; try (right; reflexivity). apply K.
Qed.

Lemma same_receive : same_prog (on_client (receive_frame Strict)) (on_client (receive_frame Lenient)).
Proof.
  intros s. unfold on_client. destruct (C83_receive (mc_client s)) as [(u & E)|E].
  - left. destruct (receive_frame Strict (mc_client s)) as [r c]. cbn in *. eauto.
  - right. rewrite E. reflexivity.
Qed.

Lemma same_print : forall f, same_prog (print Strict f) (print Lenient f).
Proof.
  intros f s. unfold print. destruct (C83_print (mc_hex s) f) as [(u & E)|E]; rewrite E; [left; exists u; reflexivity|right; reflexivity].
Qed.

Lemma same_loop : forall n, same_prog (receive_loop Strict n) (receive_loop Lenient n).
Proof.
  induction n as [|n IH]; [apply same_prog_refl|]. cbn [receive_loop]. apply same_seq; [apply same_receive|]. intros f.
  apply same_seq; [apply same_print|]. intros _. destruct (is_more_data (frame_fh f)); [exact IH|apply same_prog_refl].
Qed.

Theorem C83_program : forall host s,
  (exists u, fst (sample_main host Strict s) = UB u) \/ sample_main host Lenient s = sample_main host Strict s.
Proof.
  intros host. change (same_prog (sample_main host Strict) (sample_main host Lenient)). unfold sample_main.
  apply same_seq; [apply same_prog_refl|]. intros _. apply same_seq; [apply same_prog_refl|]. intros _.
  apply same_seq; [apply same_prog_refl|]. intros _. apply same_seq; [apply same_receive|]. intros f.
  apply same_seq; [apply same_print|]. intros _. apply same_seq; [apply same_prog_refl|]. intros _.
  apply same_seq; [apply same_prog_refl|]. intros b. apply same_seq; [apply same_prog_refl|]. intros hf.
  apply same_seq; [apply same_prog_refl|]. intros _. apply same_seq; [apply same_prog_refl|]. intros _.
  apply same_seq; [intros s; apply same_loop|]. intros last. apply same_prog_refl.
Qed.

(* ---- where the builds differ ---- *)

Lemma differ_string : forall v u s n, decode_string Strict v = UB u -> decode_string Lenient v = Ok (s, n) -> s = [].
Proof.
  intros v u s n S L. unfold decode_string in *. destruct (decode_int_and_length 7 v) as [[len k]|x|w|]; try discriminate L. cbn [bind] in *.
  destruct (vget v 0) as [b0|x|w|]; try discriminate L. cbn [bind] in *. destruct (negb _).
  - destruct (vrange v k len) as [enc|x|w|]; try discriminate L. cbn [bind] in *.
    destruct (Huffman.huffman_decode enc) as [dec|x|w|]; try discriminate L. cbn [bind address_of] in *.
    destruct (N.ltb_spec 0 (size dec)) as [Z|Z]; [discriminate S|]. apply Ok_inj in L. injection L as <- <-.
    destruct dec; [reflexivity|]. rewrite size_cons in Z. lia.
  - cbn [bind address_of] in *. destruct (N.ltb_spec k (size v)) as [Z|Z].
    + cbn [bind] in S. rewrite S in L. discriminate L.
    + unfold vrange in L. destruct (N.leb_spec (k + len) (size v)) as [Y|Y]; [|discriminate L]. cbn [bind] in L.
      apply Ok_inj in L. injection L as <- <-. assert (len = 0) as -> by lia. reflexivity.
Qed.

Lemma differ_header : forall raw t u e n, decode_header Strict raw t = UB u -> decode_header Lenient raw t = Ok (e, n) ->
  e_prefix e <> Indexed /\ exists name value, e_content e = EHeader (name, value) /\ (name = [] \/ value = []).
Proof.
  intros raw t u e n S L. unfold decode_header, decode_header_name, decode_header_value in *.
  destruct (vget raw 0) as [b0|x|w|]; try discriminate L. cbn [bind] in *.
  destruct (check_prefix b0) as [p|x|w|]; try discriminate L. cbn [bind] in *.
  destruct (hprefix_eqb p SizeUpdate); [rewrite S in L; discriminate L|].
  destruct (decode_index raw p) as [[i k]|x|w|]; try discriminate L. cbn [bind] in *.
  destruct (if 0 <? i then make_indexed_header i t else Ok ([], [])) as [h|x|w|]; try discriminate L. cbn [bind] in *.
  destruct (hprefix_eqb p Indexed) eqn:PI; [discriminate S|].
  assert (PN : p <> Indexed) by (intros ->; discriminate PI).
  destruct (verase_front raw k) as [data|x|w|]; try discriminate L. cbn [bind] in *.
  destruct (size (fst h) <=? 0).
  - destruct (decode_string Lenient data) as [[name j]|x|w|] eqn:LN; try discriminate L. cbn [bind] in L.
    destruct (verase_front data j) as [data'|x|w|] eqn:VE; try discriminate L. cbn [bind] in L.
    destruct (decode_string Lenient data') as [[value q]|x|w|] eqn:LV; try discriminate L. cbn [bind] in L.
    destruct (verase_front data' q) as [z|x|w|] eqn:VZ; try discriminate L. cbn [bind] in L. apply Ok_inj in L. injection L as <- <-.
    cbn [e_prefix e_content]. split; [exact PN|]. exists name, value. split; [reflexivity|].
    destruct (same_string data) as [(v & SN)|SN].
    + left. exact (differ_string _ _ _ _ SN LN).
    + rewrite <- SN, LN in S. cbn [bind] in S. rewrite VE in S. cbn [bind] in S.
      destruct (same_string data') as [(v & SV)|SV].
      * right. exact (differ_string _ _ _ _ SV LV).
      * rewrite <- SV, LV in S. cbn [bind] in S. rewrite VZ in S. discriminate S.
  - cbn [bind] in *. destruct (decode_string Lenient data) as [[value q]|x|w|] eqn:LV; try discriminate L. cbn [bind] in L.
    destruct (verase_front data q) as [z|x|w|] eqn:VZ; try discriminate L. cbn [bind] in L. apply Ok_inj in L. injection L as <- <-.
    cbn [e_prefix e_content]. split; [exact PN|]. exists (fst h), value. split; [reflexivity|].
    destruct (same_string data) as [(v & SV)|SV].
    + right. exact (differ_string _ _ _ _ SV LV).
    + rewrite <- SV, LV in S. cbn [bind] in S. rewrite VZ in S. discriminate S.
Qed.

(* A header block that only the unchecked build decodes has a literal with an
   empty name or an empty value. *)
Theorem C83_difference : forall raw t u b, decode_block Strict raw t = UB u -> decode_block Lenient raw t = Ok b ->
  exists e name value, In e b /\ e_prefix e <> Indexed /\ e_content e = EHeader (name, value) /\ (name = [] \/ value = []).
Proof.
  intros raw t u. unfold decode_block. generalize (length raw). intros fuel. revert raw.
  induction fuel as [|f IH]; intros raw b S L; cbn [decode_block_loop] in *; (destruct (0 <? size raw); [|discriminate S]); [discriminate L|].
  destruct (decode_header Lenient raw t) as [[e n]|x|w|] eqn:LH; try discriminate L. cbn [bind] in L.
  destruct (verase_front raw n) as [raw'|x|w|] eqn:VE; try discriminate L. cbn [bind] in L.
  destruct (decode_block_loop Lenient f raw' t) as [b'|x|w|] eqn:LB; try discriminate L. cbn [bind] in L.
  apply Ok_inj in L. subst b. destruct (same_header raw t) as [(v & SH)|SH].
  - destruct (differ_header _ _ _ _ _ SH LH) as (P & name & value & C & Z). exists e, name, value. cbn [In]. auto.
  - rewrite <- SH, LH in S. cbn [bind] in S. rewrite VE in S. cbn [bind] in S.
    destruct (decode_block_loop Strict f raw' t) as [b2|x|w|] eqn:SB; try discriminate S. cbn [bind] in S. injection S as ->.
    destruct (IH raw' b' SB LB) as (e' & name & value & I & R). exists e', name, value. split; [right; exact I|exact R].
Qed.

(* A frame both builds receive alike, and a header with an empty value at the
   end of a block, which only the unchecked build receives. *)
Example C83_case :
  let c raw := new_client (Tls (wire (WFrame HEADERS 4 0 1 raw)) [] (repeat (Chunk 8) 20)) in
  (exists f, fst (receive_frame Strict (c [0x82; 0x40; 1; 97; 1; 98])) = Ok f) /\
  receive_frame Lenient (c [0x82; 0x40; 1; 97; 1; 98]) = receive_frame Strict (c [0x82; 0x40; 1; 97; 1; 98]) /\
  (exists u, decode_block Strict [0x40; 1; 97; 0] default_table = UB u) /\
  decode_block Lenient [0x40; 1; 97; 0] default_table = Ok [HEntry IncrementalIndexing (EHeader (octets "a", []))].
Proof.
  cbv zeta. split; [eexists; vm_compute; reflexivity|]. split; [vm_compute; reflexivity|].
  split; [eexists; vm_compute; reflexivity|vm_compute; reflexivity].
Qed.

Print Assumptions C83_receive.
Print Assumptions C83_print.
Print Assumptions C83_calls.
Print Assumptions C83_program.
Print Assumptions C83_difference.
