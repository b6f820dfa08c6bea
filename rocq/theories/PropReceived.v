(* Property C93: the client receives what a server sends. *)
From Coq Require Import String.
From Coq Require Import ZArith NArith List Bool Lia ZifyBool ZifyNat ZifyN.
From Verif Require Import Base Arith Util HeaderType DynTable HeaderDec FrameHeader Frames FrameBuilder Ssl Client
  SpecBits SpecHpack SpecFrame SpecValid UtilProofs DynTableProofs FrameProofs HeaderProofs BlockProofs HistoryProofs
  PropHeader PropFrame PropBlock PropSsl PropClient PropHistory PropValid PropThrow PropDefined.
Import ListNotations.
Local Open Scope string_scope.
Local Open Scope list_scope.
Local Open Scope N_scope.
Ltac Zify.zify_post_hook ::= Z.div_mod_to_equations.

(* One message of a server: the frame, the content it has by RFC 7540, and the
   header fields its fragment has by RFC 7541. *)
Record message := Message { msg_frame : wframe; msg_content : content; msg_fields : list field }.

(* The messages a server can send whose encoder has table t; t' is the table
   after.  The server keeps to RFC 7540 and 7541, and avoids what the library
   is known to misread: header blocks as in C51, padded DATA frames, and
   SETTINGS frames that change the table size or name a parameter twice. *)
Inductive server_sends (m : ub_mode) (limit : N) (t : table) : message -> table -> Prop :=
| sends_fields : forall w c fragment fs t', layout (w_flags w) (w_type w) (w_payload w) c ->
    fragment_of c = Some fragment -> decodable_block m limit t fragment fs t' ->
    server_sends m limit t (Message w c fs) t'
| sends_plain : forall w c, layout (w_flags w) (w_type w) (w_payload w) c -> fragment_of c = None ->
    ~ (w_type w = DATA /\ has_padded (w_flags w) = true) ->
    (forall params, c = CSettings params -> NoDup (map fst params) /\ no_table_size params) ->
    server_sends m limit t (Message w c []) t.

Inductive server_session (m : ub_mode) (limit : N) : table -> list message -> table -> Prop :=
| session_nil : forall t, server_session m limit t [] t
| session_cons : forall t x t1 xs t2, server_sends m limit t x t1 -> server_session m limit t1 xs t2 ->
    server_session m limit t (x :: xs) t2.

(* A frame object that says what was sent: type, flags, stream, and content. *)
Definition tells (f : frame) (x : message) : Prop :=
  let w := msg_frame x in
  fh_type (frame_fh f) = w_type w /\ fh_flags (frame_fh f) = w_flags w /\ fh_stream_id (frame_fh f) = w_stream w /\
  match f, msg_content x with
  | DataFrame _ p, CData data _ => p = data
  | HeadersFrame _ _ pad pr b, CHeaders prio _ padding =>
      pad = padding /\ fields_of b = msg_fields x /\ forall e d w, prio = Some (e, d, w) -> pr = Prio e d w
  | PriorityFrame _ p, CPriority e d w => p = Prio e d w
  | RstStreamFrame _ code, CReset code' => code = code'
  | SettingsFrame _ map, CSettings params => forall id, sm_find map id = last_value params id
  | PushPromiseFrame _ _ p, CPush promised _ padding =>
      pp_promised p = promised /\ pp_padding p = padding /\ fields_of (pp_block p) = msg_fields x
  | PingFrame _ o, CPing data => o = data
  | GoawayFrame _ p, CGoaway last code debug => g_last_stream_id p = last /\ g_error_code p = code /\ g_debug p = debug
  | WindowUpdateFrame _ _ inc, CWindow inc' => inc = inc'
  | ContinuationFrame _ _ b, CContinuation _ => fields_of b = msg_fields x
  | _, _ => False
  end.

Lemma settings_value : forall params, no_table_size params -> last_value params 1 = None.
Proof.
  intros params N. unfold last_value.
  assert (G : forall acc, acc = None -> fold_left (fun acc p => if fst p =? 1 then Some (snd p) else acc) params acc = None); [|apply G; reflexivity].
  induction params as [|p ps IH]; intros acc A; [exact A|]. cbn [fold_left]. apply IH.
  - intros q I. apply N. right. exact I.
  - destruct (N.eqb_spec (fst p) 1) as [E|_]; [exfalso; exact (N p (or_introl eq_refl) E)|exact A].
Qed.

Lemma handled_message : forall m limit t x t' T, server_sends m limit t x t' -> wframe_ok (msg_frame x) ->
  dt_ok T -> rfc_table T = t ->
  exists f, fst (handled m T (msg_frame x)) = Ok f /\ tells f x /\
    dt_ok (snd (handled m T (msg_frame x))) /\ rfc_table (snd (handled m T (msg_frame x))) = t'.
Proof.
  intros m limit t x t' T S W K E. subst t.
  destruct S as [w c fragment fs t' L F (rs & b & R & NL & IF)|w c L F ND NS]; cbn [msg_frame] in *.
  - destruct (C28_block_decoding_partial m limit T fragment rs b fs t' R NL) as (D & FO & _).
    destruct (update_block_spec b T K IF) as (T' & U & K' & R').
    change (Table (dt_max T) (dt_entries T)) with (rfc_table T) in R.
    rewrite (run_table_after _ _ _ _ _ _ _ _ R) in R'.
    assert (BD : block_decodes_in m T c) by (destruct c; cbn in *; try exact I; injection F as ->; eauto).
    destruct (C88_well_formed_accepted m T (header_of w) (w_payload w) c L BD) as (f & B & _ & SH).
    assert (NM : ~ misread (fh_flags (header_of w)) (fh_type (header_of w)) (w_payload w)).
    { change (fh_flags (header_of w)) with (w_flags w). change (fh_type (header_of w)) with (w_type w).
      intros M. destruct L; try discriminate F; inversion M. }
    specialize (SH NM). destruct (C46_dispatch _ _ _ _ _ B) as (_ & _ & TY & FL & SI & _).
    unfold handled. rewrite B. unfold update_frame. rewrite TY. change (fh_type (header_of w)) with (w_type w).
    exists f. unfold tells. cbn [msg_frame msg_content msg_fields]. rewrite TY, FL, SI. clear TY FL SI B NM BD NL W.
    destruct w as [ty fl r sid payload]. cbn [header_of fh_type fh_flags fh_stream_id w_type w_flags w_stream w_payload] in *.
    destruct L; try discriminate F; injection F as ->; destruct f; cbn [shows] in SH; try contradiction;
      cbn [N.eqb Pos.eqb HEADERS PUSH_PROMISE CONTINUATION T_HEADERS T_PUSH_PROMISE T_CONTINUATION].
    + destruct SH as (-> & D' & P). rewrite D in D'. apply Ok_inj in D'. subst. rewrite U. cbn. auto 10.
    + destruct SH as (-> & D' & P). rewrite D in D'. apply Ok_inj in D'. subst. rewrite U. cbn. auto 10.
    + destruct SH as (-> & -> & D'). rewrite D in D'. apply Ok_inj in D'. subst. rewrite U. cbn. auto 10.
    + rewrite D in SH. apply Ok_inj in SH. subst. rewrite U. cbn. auto 10.
  - assert (BD : block_decodes_in m T c) by (destruct c; try discriminate F; exact I).
    destruct (C88_well_formed_accepted m T (header_of w) (w_payload w) c L BD) as (f & B & _ & SH).
    assert (NM : ~ misread (fh_flags (header_of w)) (fh_type (header_of w)) (w_payload w)).
    { change (fh_flags (header_of w)) with (w_flags w). change (fh_type (header_of w)) with (w_type w).
      intros M. inversion M as [raw HP Q1 Q2|raw HL Q1 Q2|raw HL Q1 Q2|raw HL Q1 Q2|ps PO DU Q1 Q2].
      - apply ND. split; [symmetry; exact Q1|exact HP].
      - rewrite <- Q1 in L. inversion L. contradiction.
      - rewrite <- Q1 in L. inversion L as [| | |e d v A1 A2 A3 A4 A5| | | | | | |]. rewrite <- A5 in HL. unfold priority_fields in HL. rewrite app_length in HL. cbn in HL. lia.
      - rewrite <- Q1 in L. inversion L as [| | | |code A1 A2 A3| | | | | |]. rewrite <- A3 in HL. cbn in HL. lia.
      - rewrite <- Q1 in L. inversion L as [| | | | |qs A1 A2 A3 A4| | | | |]. rewrite <- Q2 in A3.
        apply settings_octets_inj in A3; [|exact A1|exact PO]. subst qs. apply DU. apply (NS ps). symmetry. exact A4. }
    specialize (SH NM). destruct (C46_dispatch _ _ _ _ _ B) as (_ & _ & TY & FL & SI & _).
    unfold handled. rewrite B. unfold update_frame. rewrite TY. change (fh_type (header_of w)) with (w_type w).
    exists f. unfold tells. cbn [msg_frame msg_content msg_fields]. rewrite TY, FL, SI. clear TY FL SI B NM BD ND W.
    destruct w as [ty fl r sid payload]. cbn [header_of fh_type fh_flags fh_stream_id w_type w_flags w_stream w_payload] in *.
    destruct L; try discriminate F; destruct f; cbn [shows] in SH; try contradiction; try (cbn; auto 10; fail).
    cbn [N.eqb Pos.eqb SETTINGS T_SETTINGS T_HEADERS T_PUSH_PROMISE T_CONTINUATION].
    rewrite SH, (settings_value params) by apply (NS params eq_refl). cbn. auto 10.
Qed.

(* Whatever the chunking, the calls return the frames sent, in order, each with
   the content and the header fields the server meant, none fails, and the
   table of the client is that of the server's encoder. *)
Theorem C93_received_as_sent_partial : forall m limit xs t t' c rest,
  server_session m limit t xs t' -> Forall wframe_ok (map msg_frame xs) ->
  dt_ok (c_resp c) -> Table (dt_max (c_resp c)) (dt_entries (c_resp c)) = t ->
  tls_in (c_tls c) = concat (map wire (map msg_frame xs)) ++ rest ->
  delivers (size (concat (map wire (map msg_frame xs)))) (c_tls c) ->
  exists fs c', receive_n m (length xs) c = (map Ok fs, c') /\ Forall2 tells fs xs /\
    tls_in (c_tls c') = rest /\ tls_out (c_tls c') = tls_out (c_tls c) /\ c_req c' = c_req c /\
    dt_ok (c_resp c') /\ Table (dt_max (c_resp c')) (dt_entries (c_resp c')) = t'.
Proof.
  intros m limit xs t t' c rest H. revert c. induction H as [t|t x t1 xs t2 S H IH]; intros c F K T E D.
  - exists [], c. cbn in *. auto 10.
  - cbn [map concat length receive_n] in *. pose proof (Forall_inv F) as W.
    rewrite <- app_assoc in E. rewrite size_app in D.
    destruct (receive_complete m c (msg_frame x) _ _ W E D) as (s1 & I1 & O1 & D1 & R1). rewrite R1.
    destruct (handled_message m limit t x t1 (c_resp c) S W K T) as (f & B & P & K1 & T1).
    destruct (IH (Client s1 (c_req c) (snd (handled m (c_resp c) (msg_frame x)))) (Forall_inv_tail F) K1 T1 I1 D1)
      as (fs & c' & R & P' & I & O & Q & K2 & T2). cbn [c_tls c_req] in O, Q.
    rewrite R, B. exists (f :: fs), c'. split; [reflexivity|]. split; [constructor; assumption|].
    split; [exact I|]. split; [congruence|]. auto.
Qed.

(* Every server of RFC 7540 and 7541. *)
Inductive rfc_sends (limit : N) (t : table) : message -> table -> Prop :=
| rfc_sends_fields : forall w c fragment fs t', layout (w_flags w) (w_type w) (w_payload w) c ->
    permitted (w_flags w) (w_stream w) c -> fragment_of c = Some fragment -> rfc_block limit t fragment fs t' ->
    rfc_sends limit t (Message w c fs) t'
| rfc_sends_plain : forall w c, layout (w_flags w) (w_type w) (w_payload w) c ->
    permitted (w_flags w) (w_stream w) c -> fragment_of c = None -> rfc_sends limit t (Message w c []) t.

(* The servers above are such servers, when they keep to the restrictions of
   RFC 7540, section 6. *)
Theorem C93_servers_partial : forall m limit t x t', server_sends m limit t x t' ->
  permitted (w_flags (msg_frame x)) (w_stream (msg_frame x)) (msg_content x) -> rfc_sends limit t x t'.
Proof.
  intros m limit t x t' [w c fragment fs t1 L F (rs & b & R & _)|w c L F _ _] P; cbn [msg_frame msg_content] in P.
  - apply rfc_sends_fields with (fragment := fragment); try assumption. exact (proj1 (rfc_run_block _ _ _ _ _ _ _ _ R)).
  - apply rfc_sends_plain; assumption.
Qed.

(* A padded DATA frame, whatever the data, padding and stream, is not received
   as sent. *)
Theorem C93_received_as_sent_refuted : forall m limit c rest flags stream data padding,
  let w := WFrame DATA flags 0 stream (padded_payload true data padding) in
  has_padded flags = true -> (length padding <= 255)%nat -> stream <> 0 -> wframe_ok w ->
  tls_in (c_tls c) = wire w ++ rest -> delivers (size (wire w)) (c_tls c) ->
  let t := Table (dt_max (c_resp c)) (dt_entries (c_resp c)) in
  rfc_sends limit t (Message w (CData data padding) []) t /\
  exists f c', receive_frame m c = (Ok f, c') /\ ~ tells f (Message w (CData data padding) []).
Proof.
  intros m limit c rest flags stream data padding w HP PL NZ W E D t. split.
  - apply rfc_sends_plain; [|exact NZ|reflexivity]. cbn [w w_flags w_type w_payload].
    rewrite <- HP. apply layout_data. split; [exact PL|]. intros X. rewrite X in HP. discriminate HP.
  - destruct (receive_complete m c w rest 0 W E) as (s' & _ & _ & _ & R); [rewrite N.add_0_r; exact D|].
    rewrite R. unfold handled. change (build_frame m (header_of w) (w_payload w) (c_resp c))
      with (@Ok frame (mk_data flags stream (padded_payload true data padding))).
    unfold update_frame. change (fh_type (frame_fh (mk_data flags stream (padded_payload true data padding)))) with 0.
    cbn [N.eqb T_HEADERS T_PUSH_PROMISE T_CONTINUATION T_SETTINGS]. eexists _, _. split; [reflexivity|].
    intros (_ & _ & _ & T). cbn [mk_data msg_content] in T. apply (f_equal (@length N)) in T.
    unfold padded_payload in T. cbn [length app] in T. rewrite app_length in T. lia.
Qed.

(* SETTINGS, a response with a header field that enters the table, its data,
   and a second response that refers to the table. *)
Definition four : list message :=
  [Message (WFrame SETTINGS 0 0 0 (settings_octets [(3, 100); (4, 65535)])) (CSettings [(3, 100); (4, 65535)]) [];
   Message (WFrame HEADERS 4 0 1 [0x40; 1; 97; 1; 98]) (CHeaders None [0x40; 1; 97; 1; 98] []) [([97], [98])];
   Message (WFrame DATA 1 0 1 [1; 2; 3]) (CData [1; 2; 3] []) [];
   Message (WFrame HEADERS 12 1 3 [2; 0xbe; 0; 0]) (CHeaders None [0xbe] [0; 0]) [([97], [98])]].

Example C93_case : forall m,
  server_session m 4096 (Table 4096 []) four (Table 4096 [([97], [98])]) /\
  Forall wframe_ok (map msg_frame four) /\
  Forall (fun x => permitted (w_flags (msg_frame x)) (w_stream (msg_frame x)) (msg_content x)) four /\
  delivers (size (concat (map wire (map msg_frame four))))
    (Tls (concat (map wire (map msg_frame four))) [] (repeat (Chunk 5) 100)).
Proof.
  intros m. assert (NP : forall flags, padding_fits flags []) by (intros flags; split; [cbn; lia|reflexivity]).
  split; [|split; [|split]].
  - eapply session_cons; [|eapply session_cons; [|eapply session_cons; [|eapply session_cons; [|constructor]]]].
    + apply sends_plain; [| reflexivity|intros [X _]; discriminate X|].
      * apply layout_settings. repeat constructor.
      * intros params P. injection P as <-. split.
        -- constructor; [intros [X|[]]; discriminate X|]. constructor; [intros []|constructor].
        -- intros p [<-|[<-|[]]]; discriminate.
    + eapply sends_fields; [exact (layout_headers 4 [0x40; 1; 97; 1; 98] [] (NP 4) eq_refl)|reflexivity|].
      do 2 eexists. split; [exact (run_a_b m default_table eq_refl)|].
      split; [repeat split; discriminate|]. split; [discriminate|exact I].
    + apply sends_plain; [exact (layout_data 1 [1; 2; 3] [] (NP 1))|reflexivity|intros [_ X]; discriminate X|discriminate].
    + eapply sends_fields; [refine (layout_headers 12 [0xbe] [0; 0] _ eq_refl)|reflexivity|].
      * split; [cbn; lia|discriminate].
      * do 2 eexists. split; [apply (run_be m (Table 4096 [([97], [98])]) ([97], [98]) eq_refl)|].
        split; [repeat split; discriminate|]. exact I.
  - repeat constructor; apply wframe_check; reflexivity.
  - repeat constructor; try discriminate; unfold setting_ok; cbn; intuition (try discriminate; lia).
  - apply frame_delivers. discriminate.
Qed.

Print Assumptions C93_received_as_sent_partial.
Print Assumptions C93_servers_partial.
Print Assumptions C93_received_as_sent_refuted.
