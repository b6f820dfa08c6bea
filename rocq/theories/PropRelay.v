(* Property C102: a header list received on one connection and sent on another. *)
From Coq Require Import String.
From Coq Require Import ZArith NArith List Bool Lia ZifyBool ZifyNat ZifyN.
From Verif Require Import Base Arith Util IntRep Huffman StaticTable HeaderType DynTable HeaderEnc HeaderDec FrameHeader Frames FrameBuilder Ssl Client
  SpecBits SpecInt SpecHpack SpecFrame SpecUnique UtilProofs IntRepProofs DynTableProofs StaticProofs HeaderProofs HeaderProofs2 FrameProofs BlockProofs
  HistoryProofs PropHeader PropFrame PropBlock PropSsl PropClient PropHistory PropRequest PropParts PropGather.
Import ListNotations.
Local Open Scope string_scope.
Local Open Scope list_scope.
Local Open Scope N_scope.
Ltac Zify.zify_post_hook ::= Z.div_mod_to_equations.

(* The header block get_payload() gives for a frame. *)
Definition block_of (f : frame) : header_block :=
  match f with
  | HeadersFrame _ _ _ _ b => b
  | PushPromiseFrame _ _ p => pp_block p
  | ContinuationFrame _ _ b => b
  | _ => []
  end.

(* It is given to the constructor of a new HEADERS frame. *)
Definition relay (f : frame) (flags sid : N) (mode : encode_mode) : request := Request flags sid (block_of f) mode [] 0 0 0.

Lemma block_fields : forall f, frame_fields f = fields_of (block_of f).
Proof. intros []; reflexivity. Qed.

(* The block of a received frame that is plain for the second connection (C52)
   is read by the second server as the list the first server sent. *)
Theorem C102_relayed_partial : forall m limit limit' host w x fs t' c rest, carries w x -> wframe_ok w ->
  decodable_block m limit (Table (dt_max (c_resp c)) (dt_entries (c_resp c))) x fs t' -> dt_ok (c_resp c) ->
  tls_in (c_tls c) = wire w ++ rest -> delivers (size (wire w)) (c_tls c) ->
  exists f c', receive_frame m c = (Ok f, c') /\
    forall flags sid mode d d', dt_ok (c_req d) ->
    let before := Table (dt_max (c_req d)) (dt_entries (c_req d)) in
    plain_requests limit' before [relay f flags sid mode] ->
    perform host d (relay f flags sid mode) = (Ok tt, d') ->
    exists out, tls_out (c_tls d') = tls_out (c_tls d) ++ out /\
      server_reads limit' before out [fs] (Table (dt_max (c_req d')) (dt_entries (c_req d'))) /\
      (forall fss t, server_reads limit' before out fss t -> fss = [fs]).
Proof.
  intros m limit limit' host w x fs t' c rest C W B K I D.
  destruct (receive_complete m c w rest 0 W I) as (s' & _ & _ & _ & Q); [rewrite N.add_0_r; exact D|].
  destruct (carried_ok m limit _ w x fs t' (c_resp c) C B W K eq_refl) as (f & Hf & Ff & _). rewrite Hf in Q.
  exists f. eexists. split; [exact Q|]. intros flags sid mode d d' Kd before P R.
  assert (PA : perform_all host d [relay f flags sid mode] = (Ok tt, d')) by (cbn [perform_all]; rewrite R; reflexivity).
  destruct (C52_request_table_partial host limit' [relay f flags sid mode] d d' PA Kd P) as (out & O & S & U).
  assert (E : map (fun q => fields_of (q_block q)) [relay f flags sid mode] = [fs]).
  { cbn [map relay q_block]. rewrite <- block_fields, Ff. reflexivity. }
  rewrite E in S, U. exists out. split; [exact O|]. split; [exact S|]. intros fss t S'. apply (U fss t S').
Qed.

Lemma index_run : forall m limit t b h, 128 < b < 255 -> b <> 148 -> resolve t (b - 128) = Some h ->
  rfc_run m limit t [b] [RIndexed (b - 128)] [HEntry Indexed (EHeader h)] [h] t.
Proof.
  intros m limit t b h B N20 R. change [b] with ([b] ++ []). change [h] with (opt_cons (Some h) (@nil field)).
  change [HEntry Indexed (EHeader h)] with [reported (RIndexed (b - 128)) (Some h)].
  eapply rfc_run_cons; [apply repr_indexed| | |constructor].
  - split; [|change (2 ^ 31) with 2147483648; lia]. split.
    + replace (b - 128) with (b mod 2 ^ 7) by (change (2 ^ 7) with 128; lia). apply short_int; [lia|]. change (2 ^ 7) with 128. lia.
    + intros l' H. destruct H; cbn; lia.
  - do 2 eexists. split; [reflexivity|]. lia.
  - unfold step, resolve in *. cbn [step_in]. rewrite R. reflexivity.
  - split; [cbn; lia|exact I].
Qed.

(* A frame that carries a decodable fragment is returned with its block. *)
Lemma carried_block : forall m w x T b, carries w x -> decode_block m x T = Ok b -> fst (update_block T b) = Ok tt ->
  exists f, fst (handled m T w) = Ok f /\ block_of f = b.
Proof.
  intros m w x T b C D U. destruct (update_block T b) as [r T'] eqn:U0. cbn [fst] in U. subst r.
  destruct C; unfold handled, header_of; cbn [w_type w_flags w_reserved w_stream w_payload].
  - unfold build_frame. cbn [fh_type]. change (HEADERS =? T_DATA) with false. change (HEADERS =? T_HEADERS) with true. cbv iota.
    unfold build_headers_frame, parse_headers.
    rewrite (headers_parse_wire m T flags _ 0 sid e dep wt fragment padding b) by assumption. cbn [bind].
    unfold update_frame. cbn [frame_fh fh_type]. change (HEADERS =? T_HEADERS) with true. cbv iota.
    rewrite U0. cbn. eauto.
  - change (build_frame m (FH ?len PUSH_PROMISE flags 0 sid) ?raw T) with (parse_push_promise m (FH len PUSH_PROMISE flags 0 sid) raw T).
    unfold parse_push_promise.
    rewrite (push_parse_wire m T flags _ 0 sid r promised fragment padding b) by assumption. cbn [bind].
    unfold update_frame. cbn [frame_fh fh_type pp_block]. change (PUSH_PROMISE =? T_HEADERS) with false.
    change (PUSH_PROMISE =? T_PUSH_PROMISE) with true. cbv iota.
    rewrite U0. cbn. eauto.
  - change (build_frame m (FH ?len CONTINUATION flags 0 sid) ?raw T) with (parse_continuation m (FH len CONTINUATION flags 0 sid) raw T).
    unfold parse_continuation. rewrite D. cbn [bind].
    unfold update_frame. cbn [frame_fh fh_type]. change (CONTINUATION =? T_HEADERS) with false.
    change (CONTINUATION =? T_PUSH_PROMISE) with false. change (CONTINUATION =? T_CONTINUATION) with true. cbv iota.
    rewrite U0. cbn. eauto.
Qed.

(* An entry "indexed field" that is in none of the tables. *)
Lemma absent_step : forall host limit T h q, dt_ok T -> request_ok (Table (dt_max T) (dt_entries T)) q ->
  is_octets (fst h) -> is_octets (snd h) -> ~ in_tables T h -> q_block q = [HEntry Indexed (EHeader h)] ->
  ~ C52_step host limit T q.
Proof.
  intros host limit T h q K Q On Ov NI B.
  destruct (reverse_static_find (fst h, [])) as [i|] eqn:RN.
  2:{ apply (C52_indexed_absent_refuted host limit T h q K Q On Ov NI); [| |exact B].
      - intros I. destruct (list_eq_dec N.eq_dec (snd h) []) as [E|NE].
        + rewrite (surjective_pairing h), E in I. apply in_static in I. destruct I as [j J]. congruence.
        + apply NI. left. auto.
      - intros I. apply in_static in I. destruct I as [j J]. congruence. }
  pose proof (chosen_index_pos _ _ RN) as Li.
  destruct (encode_string_spec (snd h) (q_mode q) (octets_wf _ Ov)) as (vs & EV & _).
  assert (E : encode_header (HEntry Indexed (EHeader h)) (q_mode q) T = Ok ((128 + i) :: vs)).
  { unfold encode_header. cbn [e_prefix get_header e_content bind]. change (hprefix_eqb Indexed SizeUpdate) with false. cbv iota.
    assert (X : match reverse_static_find h with Some j => if 0 <? size (snd h) then Some j else None | None => None end = None).
    { destruct (reverse_static_find h) as [j|] eqn:RS; [|reflexivity]. destruct (snd h) as [|z v] eqn:V; [reflexivity|].
      exfalso. apply NI. left. split; [apply in_static; eauto|]. rewrite V. discriminate. }
    rewrite X. clear X.
    destruct (find_index (dt_entries T) h) as [j|] eqn:F.
    { exfalso. apply NI. right. apply find_index_some in F. eapply nth_error_In; eassumption. }
    rewrite RN. unfold encode_header_value. rewrite EV.
    assert (EI : encode_index i Indexed = Ok [128 + i]).
    { clear - Li. assert (I : In i indices) by (apply in_indices; exact Li).
      assert (G : forallb (fun i => match encode_index i Indexed with Ok [b] => b =? 128 + i | _ => false end) indices = true) by (vm_compute; reflexivity).
      pose proof (proj1 (forallb_forall _ _) G i I) as P. cbv beta in P.
      destruct (encode_index i Indexed) as [[|b [|]]| | |]; try discriminate P. apply N.eqb_eq in P. subst b. reflexivity. }
    rewrite EI. reflexivity. }
  assert (EB : encode_block (q_block q) (q_mode q) T = Ok ((128 + i) :: vs)).
  { rewrite B. cbn [encode_block]. rewrite E. cbn [bind]. rewrite app_nil_r. reflexivity. }
  apply (refute_reading host limit T q _ K Q EB). intros T' _ H. rewrite B in H. change (fields_of [HEntry Indexed (EHeader h)]) with [h] in H.
  inversion H as [|t0 l r o t1 ls fs t2 R S H' E1 E2 E3 E4]. subst t0 t2.
  assert (R0 : rfc_repr [128 + i] (RIndexed i)).
  { apply repr_indexed; [|do 2 eexists; split; [reflexivity|]; lia].
    replace i with ((128 + i) mod 2 ^ 7) at 2 by (change (2 ^ 7) with 128; lia). apply short_int; [lia|]. change (2 ^ 7) with 128. lia. }
  destruct (repr_unique _ _ _ _ _ vs R R0 E2) as (-> & -> & ->).
  change (step limit (rfc_table T) (RIndexed i) = Some (o, t1)) in S. unfold step in S. cbn [step_in] in S.
  unfold resolve_in in S. change (N.of_nat (length rfc_static)) with 61 in S.
  replace (i =? 0) with false in S by lia. replace (i <=? 61) with true in S by lia.
  destruct (nth_error rfc_static (N.to_nat (i - 1))) as [g|] eqn:G; [|discriminate S].
  injection S as <- <-. cbn [opt_cons] in E3. injection E3 as -> ->.
  assert (V : snd h = []).
  { clear - Li G RN. assert (I : In i indices) by (apply in_indices; exact Li).
    assert (X : forallb (fun i => match map_find static_table_entries i, nth_error rfc_static (N.to_nat (i - 1)) with
      | Some h, Some h' => bytes_eqb (snd h) (snd h') | _, _ => false end) indices = true) by (vm_compute; reflexivity).
    pose proof (proj1 (forallb_forall _ _) X i I) as P. cbv beta in P.
    apply static_inverse in RN. rewrite RN, G in P. apply bytes_eqb_eq in P. cbn [snd] in P. congruence. }
  rewrite V in EV.
  assert (VS : vs = [0] \/ vs = [128]) by (destruct (q_mode q); vm_compute in EV; apply Ok_inj in EV; auto).
  clear - VS H'. inversion H' as [|t0 l r o t1 ls fs t2 R S H E1 E2 E3 E4].
  - subst vs. destruct VS as [VS|VS]; discriminate VS.
  - destruct VS as [-> | ->].
    + assert (R0 : rfc_repr [0; 0; 0] (RLiteral Without (NameLiteral []) [])).
      { apply (repr_literal_new_name rfc_int Without [0] [0] [] [0] []);
          [exact (short_int 4 0 eq_refl eq_refl)|do 2 eexists; split; [reflexivity|]; lia|..];
          (apply (short_string []); [intros ? []|reflexivity]). }
      assert (E : l ++ ls ++ [0; 0] = [0; 0; 0] ++ []) by (rewrite app_assoc, E2; reflexivity).
      destruct (repr_unique _ _ _ _ _ _ R R0 E) as (-> & _ & _). discriminate E2.
    + assert (R0 : rfc_repr [128] (RIndexed 0)).
      { apply repr_indexed; [exact (short_int 7 128 eq_refl eq_refl)|]. do 2 eexists. split; [reflexivity|]. lia. }
      destruct (repr_unique _ _ _ _ _ [] R R0 E2) as (-> & -> & _). discriminate S.
Qed.

Lemma plain_step : forall host limit T q, dt_ok T -> request_ok (rfc_table T) q ->
  plain_block limit (of_table (rfc_table T)) (dt_max T) false (q_block q) -> C52_step host limit T q.
Proof.
  intros host limit T q K Q P. destruct (perform_plain host limit T q K Q P) as (out & T' & SR & K' & R' & L & E).
  exists out. intros c CE D. rewrite (E c CE). rewrite <- (N.add_0_r (size out)) in D.
  destruct (send_raw_more c out 0 L D) as (c1 & S & _ & O & _). rewrite S.
  eexists. split; [reflexivity|]. cbn [c_tls c_req]. split; [exact O|].
  rewrite <- (app_nil_r out). apply SR. constructor.
Qed.

(* A field received as an index into the tables of the first connection is read
   by the second server as that field exactly when the field is in the tables of
   the second connection, or in the static table with a value. *)
Theorem C102_indexed_partial : forall m limit limit' host w b h c rest, carries w [b] -> wframe_ok w -> dt_ok (c_resp c) ->
  128 < b < 255 -> b <> 148 -> resolve (Table (dt_max (c_resp c)) (dt_entries (c_resp c))) (b - 128) = Some h ->
  is_octets (fst h) -> is_octets (snd h) ->
  tls_in (c_tls c) = wire w ++ rest -> delivers (size (wire w)) (c_tls c) ->
  let before := Table (dt_max (c_resp c)) (dt_entries (c_resp c)) in
  rfc_block limit before [b] [h] before /\
  exists f c', receive_frame m c = (Ok f, c') /\ frame_fields f = [h] /\
    forall flags sid mode T, dt_ok T -> request_ok (Table (dt_max T) (dt_entries T)) (relay f flags sid mode) ->
      (C52_step host limit' T (relay f flags sid mode) <-> in_tables T h).
Proof.
  intros m limit limit' host w b h c rest C W K B N20 R On Ov I D before.
  pose proof (index_run m limit _ b h B N20 R) as RUN.
  destruct (C28_block_decoding_partial m limit (c_resp c) [b] _ _ _ _ RUN ltac:(repeat split; discriminate)) as (DB & _ & RB).
  split; [exact RB|].
  destruct (receive_complete m c w rest 0 W I) as (s' & _ & _ & _ & Q); [rewrite N.add_0_r; exact D|].
  destruct (carried_block m w [b] (c_resp c) _ C DB eq_refl) as (f & Hf & Bf). rewrite Hf in Q.
  exists f. eexists. split; [exact Q|]. split; [rewrite block_fields, Bf; reflexivity|].
  intros flags sid mode T KT QT.
  assert (QB : q_block (relay f flags sid mode) = [HEntry Indexed (EHeader h)]) by exact Bf.
  split; intros S.
  - destruct (in_tablesb T h) eqn:X.
    + apply orb_true_iff in X. destruct X as [X|X].
      * apply andb_true_iff in X. destruct X as [X V]. apply existsb_exists in X. destruct X as (g & IN & EQ).
        apply header_eqb_eq in EQ. subst g. left. split; [exact IN|]. intros V0. rewrite V0 in V. discriminate V.
      * apply existsb_exists in X. destruct X as (g & IN & EQ). apply header_eqb_eq in EQ. subst g. right. exact IN.
    + exfalso. exact (absent_step host limit' T h _ KT QT On Ov (in_tablesb_false _ _ X) QB S).
  - apply plain_step; [exact KT|exact QT|]. rewrite QB, (of_rfc_table T KT). cbn [plain_block]. split; [|exact Logic.I].
    destruct S as [S|S]; [left; exact S|right; auto].
Qed.

(* So the list cannot always be sent on: an entry of the first connection's
   dynamic table that the second connection does not have, and an entry of the
   static table without value, are not. *)
Theorem C102_indexed_refuted : forall m limit limit' host w b h c rest, carries w [b] -> wframe_ok w -> dt_ok (c_resp c) ->
  128 < b < 255 -> b <> 148 -> resolve (Table (dt_max (c_resp c)) (dt_entries (c_resp c))) (b - 128) = Some h ->
  is_octets (fst h) -> is_octets (snd h) -> ~ In h (map snd static_table_entries) \/ snd h = [] ->
  tls_in (c_tls c) = wire w ++ rest -> delivers (size (wire w)) (c_tls c) ->
  let before := Table (dt_max (c_resp c)) (dt_entries (c_resp c)) in
  rfc_block limit before [b] [h] before /\
  exists f c', receive_frame m c = (Ok f, c') /\ frame_fields f = [h] /\
    forall flags sid mode T, dt_ok T -> ~ In h (dt_entries T) ->
      request_ok (Table (dt_max T) (dt_entries T)) (relay f flags sid mode) ->
      ~ C52_step host limit' T (relay f flags sid mode).
Proof.
  intros m limit limit' host w b h c rest C W K B N20 R On Ov NS I D before.
  destruct (C102_indexed_partial m limit limit' host w b h c rest C W K B N20 R On Ov I D) as (RB & f & c' & Q & F & X).
  split; [exact RB|]. exists f, c'. split; [exact Q|]. split; [exact F|]. intros flags sid mode T KT NI QT S.
  apply (proj1 (X flags sid mode T KT QT)) in S. destruct S as [[S V]|S]; [|contradiction]. destruct NS; contradiction.
Qed.

(* "a: b" received as a new field, with indexing, and sent on a new connection. *)
Example C102_case : forall m,
  let w := WFrame HEADERS 4 0 1 [0x40; 1; 97; 1; 98] in
  let c := Client (Tls (wire w) [] (repeat (Chunk 5) 100)) default_table default_table in
  carries w [0x40; 1; 97; 1; 98] /\ wframe_ok w /\
  decodable_block m 4096 (Table 4096 []) [0x40; 1; 97; 1; 98] [([97], [98])] (Table 4096 [([97], [98])]) /\
  delivers (size (wire w)) (c_tls c) /\
  exists f c', receive_frame m c = (Ok f, c') /\ plain_requests 4096 (Table 4096 []) [relay f 5 1 ModeHuffman].
Proof.
  intros m w c.
  assert (C : carries w [0x40; 1; 97; 1; 98]).
  { unfold w. change [0x40; 1; 97; 1; 98] with (headers_octets 4 0 0 0 [0x40; 1; 97; 1; 98] []) at 1. apply carries_headers; reflexivity. }
  assert (W : wframe_ok w) by (apply wframe_check; reflexivity).
  pose proof (run_a_b m default_table eq_refl) as RUN.
  assert (D : delivers (size (wire w)) (c_tls c)) by (apply frame_delivers; discriminate).
  split; [exact C|]. split; [exact W|]. split.
  { do 2 eexists. split; [exact RUN|]. split; [repeat split; discriminate|]. split; [discriminate|exact I]. }
  split; [exact D|].
  destruct (C28_block_decoding_partial m 4096 default_table _ _ _ _ _ RUN ltac:(repeat split; discriminate)) as (DB & _).
  destruct (receive_complete m c w [] 0 W) as (s' & _ & _ & _ & Q); [symmetry; apply app_nil_r|rewrite N.add_0_r; exact D|].
  destruct (carried_block m w _ default_table _ C DB eq_refl) as (f & Hf & Bf). cbn [c c_resp] in Q. rewrite Hf in Q.
  exists f. eexists. split; [exact Q|]. unfold relay. rewrite Bf.
  split; [eapply request_okb; [vm_compute; reflexivity|vm_compute; reflexivity]|].
  split; [|exact I]. split; [apply fresh_check; vm_compute; reflexivity|]. split; [discriminate|exact I].
Qed.

(* The same field received as an index, and sent on a new connection; and the
   entry "accept: " of the static table. *)
Example C102_indexed_case : forall mode,
  let T := DynTable [([97], [98])] 34 4096 in
  carries (WFrame HEADERS 4 0 1 [0xbe]) [0xbe] /\ wframe_ok (WFrame HEADERS 4 0 1 [0xbe]) /\ dt_ok T /\
  resolve (Table (dt_max T) (dt_entries T)) (0xbe - 128) = Some ([97], [98]) /\ ~ In ([97], [98]) (map snd static_table_entries) /\
  resolve (Table (dt_max T) (dt_entries T)) (0x93 - 128) = Some (octets "accept", []) /\
  delivers (size (wire (WFrame HEADERS 4 0 1 [0xbe]))) (Tls (wire (WFrame HEADERS 4 0 1 [0xbe])) [] (repeat (Chunk 5) 100)) /\
  dt_ok default_table /\ ~ In ([97], [98]) (dt_entries default_table) /\
  request_ok (Table 4096 []) (Request 5 1 [HEntry Indexed (EHeader ([97], [98]))] mode [] 0 0 0) /\
  request_ok (Table 4096 []) (Request 5 1 [HEntry Indexed (EHeader (octets "accept", []))] mode [] 0 0 0).
Proof.
  intros mode T. split.
  { change (WFrame HEADERS 4 0 1 [0xbe]) with (WFrame HEADERS 4 0 1 (headers_octets 4 0 0 0 [0xbe] [])). apply carries_headers; reflexivity. }
  split; [apply wframe_check; reflexivity|]. split; [split; [reflexivity|discriminate]|]. split; [reflexivity|]. split.
  { intros IN. apply in_static in IN. destruct IN as [i IN]. vm_compute in IN. discriminate IN. }
  split; [reflexivity|]. split; [apply frame_delivers; discriminate|]. split; [split; [reflexivity|discriminate]|]. split; [intros []|].
  destruct mode; (split; (eapply request_okb; [vm_compute; reflexivity|vm_compute; reflexivity])).
Qed.

Print Assumptions C102_relayed_partial.
Print Assumptions C102_indexed_partial.
Print Assumptions C102_indexed_refuted.
