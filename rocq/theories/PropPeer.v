(* Property C71: two instances of the library at the two ends of a connection. *)
From Coq Require Import Ascii String.
From Coq Require Import ZArith NArith List Bool Lia ZifyBool ZifyNat ZifyN.
From Verif Require Import Base Arith Util StaticTable HeaderType DynTable HeaderEnc HeaderDec FrameHeader Frames FrameBuilder Ssl Client
  SpecBits SpecHpack SpecFrame DynTableProofs StaticProofs HeaderProofs HeaderProofs2 FrameProofs BlockProofs HistoryProofs
  PropHeader PropFrame PropBlock PropSsl PropClient PropHistory PropRequest.
Import ListNotations.
Local Open Scope string_scope.
Local Open Scope list_scope.
Local Open Scope N_scope.
Ltac Zify.zify_post_hook ::= Z.div_mod_to_equations.

(* A request one instance can pass to another: constructor arguments in range,
   entries that can be encoded and read back (sendable, BlockProofs.v: literals,
   headers found in a table, size updates below 2^31 + 31), no entry with
   incremental indexing for a header that is already in a table (C52), insertions
   that fit (C15). *)
Definition sendable_request (m : ub_mode) (t : table) (q : request) : Prop :=
  request_ok t q /\ q_flags q < 2 ^ 8 /\ q_weight q < 2 ^ 8 /\ is_octets (q_padding q) /\
  Forall (sendable m (of_table t)) (q_block q) /\ size (t_entries t) < 2 ^ 30 /\ inserts_fit (t_max t) (q_block q).

Definition peer_request (m : ub_mode) (t : table) (q : request) : Prop :=
  sendable_request m t q /\
  forall h, In (HEntry IncrementalIndexing (EHeader h)) (q_block q) -> ~ in_tables (of_table t) h.

Fixpoint peer_requests (m : ub_mode) (t : table) (qs : list request) : Prop :=
  match qs with
  | [] => True
  | q :: qs' => peer_request m t q /\ peer_requests m (table_after t (q_block q)) qs'
  end.

(* The frame the receiver returns carries the request. *)
Definition delivered (q : request) (r : res frame) : Prop :=
  exists encoded len b,
    r = Ok (HeadersFrame encoded (FH len HEADERS (q_flags q) 0 (q_stream q))
              (if has_padded (q_flags q) then q_padding q else [])
              (if has_priority (q_flags q) then Prio (q_exclusive q) (q_dependency q) (q_weight q) else Prio 0 0 0) b) /\
    fields_of b = fields_of (q_block q).

Lemma received_update : forall T m b b' t, Forall2 (received T) b b' -> Forall (sendable m T) b ->
  (forall h, In (HEntry IncrementalIndexing (EHeader h)) b -> ~ in_tables T h) ->
  update_block t b' = update_block t b /\ fields_of b' = fields_of b.
Proof.
  intros T m b b' t F. revert t. induction F as [|e e' b b' R F IH]; intros t S NI; [auto|].
  assert (NI' : forall h, In (HEntry IncrementalIndexing (EHeader h)) b -> ~ in_tables T h) by (intros h I; apply NI; right; exact I).
  destruct R as [e _|p h I].
  - split.
    + cbn [update_block]. destruct (update_entry t e); try reflexivity. apply IH; [exact (Forall_inv_tail S)|exact NI'].
    + destruct (IH t (Forall_inv_tail S) NI') as [_ Q]. unfold fields_of in *. cbn [flat_map]. rewrite Q. reflexivity.
  - destruct (IH t (Forall_inv_tail S) NI') as [U Q]. split.
    + cbn [update_block]. destruct p; cbn [update_entry e_prefix]; try exact U.
      * exfalso. pose proof (Forall_inv S) as X. inversion X. destruct k; discriminate.
      * exfalso. apply (NI h); [left; reflexivity|exact I].
    + change (fields_of (HEntry Indexed (EHeader h) :: b')) with (h :: fields_of b').
      change (fields_of (HEntry p (EHeader h) :: b)) with (h :: fields_of b). rewrite Q. reflexivity.
Qed.

(* The frame the receiver builds for block b'. *)
Definition request_frame (q : request) (payload : list N) (b' : header_block) : frame :=
  HeadersFrame payload (FH (size payload) HEADERS (q_flags q) 0 (q_stream q))
    (if has_padded (q_flags q) then q_padding q else [])
    (if has_priority (q_flags q) then Prio (q_exclusive q) (q_dependency q) (q_weight q) else Prio 0 0 0) b'.

Lemma peer_frame : forall host m T q, dt_ok T -> sendable_request m (rfc_table T) q ->
  exists w T' b', wframe_ok w /\ size (wire w) < 2 ^ 31 /\ w_type w = HEADERS /\
    update_block T (q_block q) = (Ok tt, T') /\ dt_ok T' /\ rfc_table T' = table_after (rfc_table T) (q_block q) /\
    Forall2 (received T) (q_block q) b' /\
    build_frame m (header_of w) (w_payload w) T = Ok (request_frame q (w_payload w) b') /\
    forall c, c_req c = T -> perform host c q = let '(r, c1) := send_raw_data c (wire w) in
      match r with Ok _ => (Ok tt, Client (c_tls c1) T' (c_resp c1)) | _ => (r, c1) end.
Proof.
  intros host m T q K ((Ls & Lp & Le & Ld & SZ) & Lf & Lw & Op & S & N30 & FI).
  rewrite (of_rfc_table _ K) in *. change (t_entries (rfc_table T)) with (dt_entries T) in N30.
  destruct (encode_block_total m T (q_mode q) (q_block q) S N30) as (raw & E). specialize (SZ raw E).
  set (payload := headers_octets (q_flags q) (q_exclusive q) (q_dependency q) (q_weight q) raw (q_padding q)) in *.
  assert (LR : size raw < 2 ^ 31).
  { assert (size raw <= size payload).
    { unfold payload, headers_octets, padded_payload. destruct (has_padded (q_flags q)), (has_priority (q_flags q));
      rewrite ?size_app; lia. }
    change (2 ^ 24) with 16777216 in SZ. change (2 ^ 31) with 2147483648. lia. }
  destruct (block_roundtrip m T (q_mode q) (q_block q) S N30 raw E LR) as (Wr & b' & D & R).
  destruct (update_block_spec (q_block q) T K FI) as (T' & U & K' & R').
  exists (WFrame HEADERS (q_flags q) 0 (q_stream q) payload), T', b'.
  assert (OP : is_octets payload).
  { apply wf_octets in Wr. unfold payload, headers_octets, padded_payload, priority_fields.
    assert (B : forall k x, is_octets (be_octets k x)).
    { clear. induction k as [|k IH]; intros x b H; [destruct H|]. cbn [be_octets] in H. destruct H as [<-|H]; [lia|exact (IH _ _ H)]. }
    intros x X.
    assert (P : In x (if has_priority (q_flags q) then be_octets 4 (q_exclusive q * 2 ^ 31 + q_dependency q) ++ [q_weight q] else []) -> x < 256).
    { destruct (has_priority (q_flags q)); [|intros []]. intros Y. apply in_app_or in Y. destruct Y as [Y|[<-|[]]]; [exact (B _ _ _ Y)|exact Lw]. }
    destruct (has_padded (q_flags q)).
    - cbn [app In] in X. destruct X as [<-|X]; [unfold size in Lp; lia|].
      apply in_app_or in X. destruct X as [X|X]; [apply in_app_or in X; destruct X as [X|X]; [exact (P X)|exact (Wr _ X)]|exact (Op _ X)].
    - apply in_app_or in X. destruct X as [X|X]; [exact (P X)|exact (Wr _ X)]. }
  assert (W : wframe_ok (WFrame HEADERS (q_flags q) 0 (q_stream q) payload)).
  { split; [reflexivity|]. split; [exact Lf|]. split; [reflexivity|]. split; [exact Ls|]. split; [exact OP|exact SZ]. }
  split; [exact W|]. split.
  { rewrite (wire_size _ W). cbn [w_payload]. change (2 ^ 24) with 16777216 in SZ. change (2 ^ 31) with 2147483648. lia. }
  split; [reflexivity|]. split; [exact U|]. split; [exact K'|]. split; [exact R'|]. split; [exact R|]. split.
  { unfold header_of. cbn [w_type w_flags w_reserved w_stream w_payload].
    unfold build_frame. cbn [fh_type]. change (HEADERS =? T_DATA) with false. change (HEADERS =? T_HEADERS) with true. cbv iota.
    unfold build_headers_frame, parse_headers. unfold payload at 2.
    rewrite (headers_parse_wire m T (q_flags q) (size payload) 0 (q_stream q) _ _ _ raw (q_padding q) b') by (try assumption; lia).
    reflexivity. }
  intros c CE. unfold perform, mk_headers, get_request_dynamic_table. rewrite CE.
  rewrite (headers_payload_wire (q_flags q) (q_block q) (q_mode q) T (q_padding q) (q_exclusive q) (q_dependency q)
    (q_weight q) raw) by (try assumption; lia). cbn [bind]. unfold send_frame.
  rewrite (serialize_wire host (HeadersFrame _ _ _ _ _) payload);
    cbn [frame_fh fh_stream_id fh_length fh_reserved fh_type fh_flags payload_bytes]; try reflexivity; try assumption.
  - change T_HEADERS with HEADERS. change (wire (WFrame HEADERS (q_flags q) 0 (q_stream q) payload)) with (wire_frame HEADERS (q_flags q) 0 (q_stream q) payload).
    unfold send_raw_data. destruct (ssl_write _ _) as [r s]. destruct r; try reflexivity.
    unfold update_request_dynamic_table, set_tls. cbn [c_req c_tls c_resp]. rewrite CE, U. reflexivity.
  - apply u32_small. change (2 ^ 24) with 16777216 in SZ. change (2 ^ 32) with 4294967296. clear -SZ. lia.
Qed.

Lemma peer_step : forall host m T q, dt_ok T -> peer_request m (rfc_table T) q ->
  exists w T', wframe_ok w /\ size (wire w) < 2 ^ 31 /\ dt_ok T' /\ rfc_table T' = table_after (rfc_table T) (q_block q) /\
    delivered q (fst (handled m T w)) /\ snd (handled m T w) = T' /\
    forall c, c_req c = T -> perform host c q = let '(r, c1) := send_raw_data c (wire w) in
      match r with Ok _ => (Ok tt, Client (c_tls c1) T' (c_resp c1)) | _ => (r, c1) end.
Proof.
  intros host m T q K (SQ & NI).
  destruct (peer_frame host m T q K SQ) as (w & T' & b' & W & LW & TY & U & K' & R' & R & B & PF).
  destruct SQ as (_ & _ & _ & _ & S & _). rewrite (of_rfc_table _ K) in *.
  destruct (received_update T m _ _ T R S NI) as [UE FE].
  exists w, T'. split; [exact W|]. split; [exact LW|]. split; [exact K'|]. split; [exact R'|].
  unfold handled. rewrite B. unfold request_frame, update_frame. cbn [frame_fh fh_type].
  change (HEADERS =? T_HEADERS) with true. cbv iota. rewrite UE, U. cbn [fst snd bind].
  split; [do 3 eexists; split; [reflexivity|exact FE]|]. split; [reflexivity|exact PF].
Qed.

(* Any number of requests, any chunking on either side: the receiver returns the
   requests in order and both header tables are equal again. *)
Theorem C71_peers_agree_partial : forall host m qs T, dt_ok T -> peer_requests m (Table (dt_max T) (dt_entries T)) qs ->
  exists out T',
    (forall a, c_req a = T -> delivers (size out) (c_tls a) ->
       exists a', perform_all host a qs = (Ok tt, a') /\ tls_out (c_tls a') = tls_out (c_tls a) ++ out /\ c_req a' = T') /\
    (forall b rest, c_resp b = T -> tls_in (c_tls b) = out ++ rest -> delivers (size out) (c_tls b) ->
       exists rs b', receive_n m (length qs) b = (rs, b') /\ tls_in (c_tls b') = rest /\ c_resp b' = T' /\
         Forall2 delivered qs rs).
Proof.
  intros host m qs. induction qs as [|q qs IH]; intros T K P.
  - exists [], T. split.
    + intros a A _. exists a. rewrite app_nil_r. auto.
    + intros b rest B I _. exists [], b. cbn. auto.
  - destruct P as [Q P]. destruct (peer_step host m T q K Q) as (w & T1 & W & LW & K1 & R1 & DL & HT & PF).
    fold (rfc_table T) in P. rewrite <- R1 in P. destruct (IH T1 K1 P) as (out & T' & A & B).
    exists (wire w ++ out), T'. split.
    + intros a AE D. rewrite size_app in D. destruct (send_raw_more a (wire w) (size out) LW D) as (a1 & S & D1 & O1 & _).
      cbn [perform_all]. rewrite (PF a AE), S.
      destruct (A (Client (c_tls a1) T1 (c_resp a1)) eq_refl D1) as (a' & X & O' & T2).
      exists a'. split; [exact X|]. cbn [c_tls] in O'. rewrite O', O1, <- app_assoc. auto.
    + intros b rest BE I D. rewrite <- app_assoc in I. rewrite size_app in D.
      destruct (receive_complete m b w _ _ W I D) as (s1 & I1 & O1 & D1 & X1).
      cbn [length receive_n]. rewrite X1, BE.
      destruct (B (Client s1 (c_req b) (snd (handled m T w))) rest HT I1 D1) as (rs & b' & X & I2 & T2 & F).
      rewrite X. eexists _, b'. split; [reflexivity|]. split; [exact I2|]. split; [exact T2|]. constructor; assumption.
Qed.

(* Whatever the sender's TLS layer does, what arrives is a prefix of the
   requests: the receiver never sees a request that was not made. *)
Theorem C71_interrupted_partial : forall host m qs a r a', dt_ok (c_req a) ->
  peer_requests m (Table (dt_max (c_req a)) (dt_entries (c_req a))) qs -> perform_all host a qs = (r, a') ->
  exists sent done, tls_out (c_tls a') = tls_out (c_tls a) ++ sent /\ (done <= length qs)%nat /\
    (r = Ok tt -> done = length qs) /\
    forall b rest, c_resp b = c_req a -> tls_in (c_tls b) = sent ++ rest -> delivers (size sent) (c_tls b) ->
      exists rs b', receive_n m done b = (rs, b') /\ c_resp b' = c_req a' /\ Forall2 delivered (firstn done qs) rs.
Proof.
  intros host m qs. induction qs as [|q qs IH]; intros a r a' K P H.
  - cbn in H. injection H as <- <-. exists [], 0%nat. rewrite app_nil_r. split; [reflexivity|]. split; [cbn; lia|]. split; [reflexivity|].
    intros b rest B _ _. exists [], b. cbn. auto.
  - destruct P as [Q P]. destruct (peer_step host m (c_req a) q K Q) as (w & T1 & W & LW & K1 & R1 & DL & HT & PF).
    cbn [perform_all] in H. rewrite (PF a eq_refl) in H.
    destruct (send_raw_exact a (wire w)) as (k & S). destruct (send_raw_data a (wire w)) as [r1 a1].
    destruct S as (O & _ & TQ & _ & [[-> F]|[-> _]]).
    + rewrite F in O. fold (rfc_table (c_req a)) in P. rewrite <- R1 in P.
      destruct (IH (Client (c_tls a1) T1 (c_resp a1)) r a' K1 P H) as (sent & done & O' & L & RD & B).
      exists (wire w ++ sent), (Datatypes.S done). cbn [c_tls] in O'. rewrite O', O, <- app_assoc. split; [reflexivity|].
      split; [cbn; lia|]. split; [intros X; cbn; rewrite (RD X); reflexivity|].
      intros b rest BE I D. rewrite <- app_assoc in I. rewrite size_app in D.
      destruct (receive_complete m b w _ _ W I D) as (s1 & I1 & O1 & D1 & X1).
      cbn [receive_n firstn]. rewrite X1, BE.
      destruct (B (Client s1 (c_req b) (snd (handled m (c_req a) w))) rest HT I1 D1) as (rs & b' & X & T2 & F2).
      rewrite X. eexists _, b'. split; [reflexivity|]. split; [exact T2|]. constructor; assumption.
    + injection H as <- <-. exists (firstn k (wire w)), 0%nat. split; [exact O|]. split; [lia|]. split; [discriminate|].
      intros b rest BE _ _. exists [], b. cbn. rewrite TQ. auto.
Qed.

(* A header already in a table, submitted with incremental indexing: the sender
   inserts it, the receiver (told an index) does not.  For every table with room
   for it. *)
Theorem C71_duplicate_refuted : forall host m T h q, dt_ok T -> in_tables T h ->
  dt_size T + field_size h <= dt_max T -> q_block q = [HEntry IncrementalIndexing (EHeader h)] ->
  sendable_request m (Table (dt_max T) (dt_entries T)) q ->
  exists out, forall a, c_req a = T -> delivers (size out) (c_tls a) ->
    exists a', perform host a q = (Ok tt, a') /\ tls_out (c_tls a') = tls_out (c_tls a) ++ out /\
      forall b rest, c_resp b = T -> tls_in (c_tls b) = out ++ rest -> delivers (size out) (c_tls b) ->
        exists r b', receive_frame m b = (r, b') /\ delivered q r /\ c_resp b' <> c_req a'.
Proof.
  intros host m T h q K I L QB SQ.
  destruct (peer_frame host m T q K SQ) as (w & T' & b' & W & LW & TY & U & K' & R' & R & B & PF).
  rewrite QB in U, R. inversion R as [|e e' x y R0 RN E1 E2]; subst. inversion RN; subst. clear R RN.
  assert (Q : e' = HEntry Indexed (EHeader h)).
  { inversion R0 as [e NT|p h0 IT]; subst; [|reflexivity]. exfalso. apply (NT h); [reflexivity|exact I]. }
  subst e'. exists (wire w). intros a AE D.
  destruct (send_raw_more a (wire w) 0 LW) as (a1 & S & _ & O1 & _). { rewrite N.add_0_r. exact D. }
  rewrite (PF a AE), S. eexists. split; [reflexivity|]. cbn [c_tls c_req]. split; [exact O1|].
  intros b rest BE IN D2. destruct (receive_complete m b w rest 0 W IN) as (s1 & _ & _ & _ & X). { rewrite N.add_0_r. exact D2. }
  rewrite X, BE. eexists _, _. split; [reflexivity|]. cbn [c_resp].
  unfold handled. rewrite B. unfold request_frame, update_frame. cbn [frame_fh fh_type].
  change (HEADERS =? T_HEADERS) with true. cbv iota. cbn [update_block update_entry e_prefix fst snd bind].
  split. { do 3 eexists. split; [reflexivity|]. rewrite QB. reflexivity. }
  intros E. cbn [update_block update_entry e_prefix get_header e_content bind] in U.
  rewrite (dt_push_spec T h K), entry_size_eq in U. destruct (N.leb_spec (field_size h) (dt_max T)) as [_|G]; [|lia].
  injection U as U. rewrite <- U in E. destruct K as [KS KM]. destruct T as [es s mx]. cbn [dt_entries dt_size dt_max] in *.
  rewrite (keep_all es (mx - field_size h)) in E by (rewrite <- KS; lia).
  injection E as E _. assert (X1 : length es = Datatypes.S (length es)) by (rewrite E at 1; reflexivity). lia.
Qed.

Example C71_case :
  let h := (octets "x", octets "yz") in
  let q e := Request 4 1 [e] ModeNone [] 0 0 0 in
  let qs := [q (HEntry IncrementalIndexing (EHeader h)); q (HEntry NeverIndexed (EHeader h)); q (HEntry SizeUpdate (ESize 0))] in
  peer_requests Strict (Table 4096 []) qs /\ dt_ok default_table /\
  (let a := snd (perform_all LittleEndian (new_client (Tls [] [] (repeat (Chunk 3) 200))) qs) in
   let b := receive_n Strict 3 (new_client (Tls (tls_out (c_tls a)) [] (repeat (Chunk 1) 200))) in
   exists f1 f2 f3, fst b = [Ok f1; Ok f2; Ok f3] /\ frame_fields f2 = [h] /\ c_resp (snd b) = c_req a).
Proof.
  cbv zeta. split; [|split; [apply new_table_ok|]].
  - assert (O : forall p : string, is_octets (octets p)) by (intros p b I; apply in_map_iff in I; destruct I as (a & <- & _); apply N_ascii_bounded).
    cbn [peer_requests]. split; [|split; [|split; [|exact I]]].
    + split; [split; [eapply request_okb; [vm_compute; reflexivity|vm_compute; reflexivity]|]|].
      * split; [reflexivity|]. split; [reflexivity|]. split; [intros b []|]. split.
        { constructor; [|constructor]. apply (send_literal Strict _ Incremental); [apply O|apply O|]. right. split; discriminate. }
        split; [reflexivity|]. split; [discriminate|exact I].
      * intros h [E|[]]. injection E as <-. apply in_tablesb_false. vm_compute. reflexivity.
    + split; [split; [eapply request_okb; [vm_compute; reflexivity|vm_compute; reflexivity]|]|].
      * split; [reflexivity|]. split; [reflexivity|]. split; [intros b []|]. split.
        { constructor; [|constructor]. apply (send_literal Strict _ Never); [apply O|apply O|]. right. split; discriminate. }
        split; [reflexivity|exact I].
      * intros h [E|[]]. discriminate.
    + split; [split; [eapply request_okb; [vm_compute; reflexivity|vm_compute; reflexivity]|]|].
      * split; [reflexivity|]. split; [reflexivity|]. split; [intros b []|]. split.
        { constructor; [|constructor]. apply send_size. reflexivity. }
        split; [reflexivity|exact I].
      * intros h [E|[]]. discriminate.
  - eexists _, _, _. split; [vm_compute; reflexivity|]. split; vm_compute; reflexivity.
Qed.

Print Assumptions C71_peers_agree_partial.
Print Assumptions C71_interrupted_partial.
Print Assumptions C71_duplicate_refuted.
