(* Property C84: the server's settings and what the client sends. *)
From Coq Require Import String.
From Coq Require Import ZArith NArith List Bool Lia ZifyBool ZifyNat ZifyN.
From Verif Require Import Base Arith Util IntRep StaticTable HeaderType DynTable HeaderEnc HeaderDec FrameHeader Frames FrameBuilder Ssl Client
  SpecBits SpecInt SpecHpack SpecFrame SpecUnique IntRepProofs DynTableProofs StaticProofs HeaderProofs HeaderProofs2 FrameProofs BlockProofs HistoryProofs
  PropHeader PropFrame PropBlock PropSsl PropClient PropHistory PropRequest PropDuplex PropSession.
Import ListNotations.
Local Open Scope string_scope.
Local Open Scope list_scope.
Local Open Scope N_scope.
Ltac Zify.zify_post_hook ::= Z.div_mod_to_equations.

Lemma all_sends : forall ks, Forall (fun k => is_receive k = false) ks ->
  filter is_receive ks = [] /\ filter (fun k => negb (is_receive k)) ks = ks.
Proof.
  intros ks F. induction F as [|k ks K F [IH1 IH2]]; [split; reflexivity|]. cbn [filter]. rewrite K. cbn [negb]. rewrite IH1, IH2. auto.
Qed.

(* Whatever frame the client has received, in particular a SETTINGS frame, the
   following calls send the same octets as if it had not. *)
Theorem C84_ignored_refuted : forall host m c w rest ks, wframe_ok w -> tls_in (c_tls c) = wire w ++ rest ->
  Forall (fun k => is_receive k = false) ks -> small_pieces (all_written host (c_req c) ks) ->
  delivers (size (wire w) + size (concat (all_written host (c_req c) ks))) (c_tls c) ->
  let told := make_calls host m c (CallReceive :: ks) in
  let untold := make_calls host m c ks in
  tls_out (c_tls (snd told)) = tls_out (c_tls (snd untold)) /\ tl (fst told) = fst untold /\
  c_req (snd told) = c_req (snd untold).
Proof.
  intros host m c w rest ks W I F SM D told untold. destruct (all_sends ks F) as [F1 F2].
  destruct (C73_interleaving host m (CallReceive :: ks) c c c [w] rest) as
    (rs & c' & rr & cr' & rw & cw' & E1 & E2 & E3 & G1 & G2 & G3 & _ & _ & G4 & G5).
  - split; [|constructor; [exact W|constructor]]. cbn [filter is_receive]. rewrite F1. reflexivity.
  - cbn [map concat]. rewrite app_nil_r. exact I.
  - reflexivity. - reflexivity. - reflexivity. - reflexivity.
  - cbn [all_written written fst snd]. constructor; [reflexivity|exact SM].
  - cbn [all_written written fst snd map concat app]. rewrite app_nil_r. exact D.
  - cbn [map concat]. rewrite app_nil_r. eapply delivers_mono; [|exact D]. clear; lia.
  - cbn [all_written written fst snd map concat app]. eapply delivers_mono; [|exact D]. clear; lia.
  - cbn [filter is_receive negb] in E3. rewrite F2 in E3. subst told untold. rewrite E1, E3. cbn [fst snd].
    split; [exact G4|]. split; [|exact G5]. rewrite <- G2. clear -G3 F. cbn [map is_receive] in G3.
    destruct rs as [|r rs]; [discriminate G3|]. cbn [map] in G3. injection G3 as RR G. cbn [filter tl]. rewrite RR. cbn [negb].
    revert rs G. induction F as [|k ks K F IH]; intros [|r' rs] G; try discriminate G; [reflexivity|].
    cbn [map] in G. injection G as G0 G. cbn [filter]. rewrite G0, K. cbn [negb]. rewrite <- (IH rs G). reflexivity.
Qed.

(* ---- SETTINGS_HEADER_TABLE_SIZE ---- *)

Lemma perform_raw : forall host T q raw T', dt_ok T -> request_ok (rfc_table T) q -> encode_block (q_block q) (q_mode q) T = Ok raw ->
  update_block T (q_block q) = (Ok tt, T') ->
  let out := wire_frame HEADERS (q_flags q) 0 (q_stream q)
    (headers_octets (q_flags q) (q_exclusive q) (q_dependency q) (q_weight q) raw (q_padding q)) in
  size (headers_octets (q_flags q) (q_exclusive q) (q_dependency q) (q_weight q) raw (q_padding q)) < 2 ^ 24 /\ size out < 2 ^ 31 /\
  forall c, c_req c = T -> perform host c q = let '(r, c1) := send_raw_data c out in
    match r with Ok _ => (Ok tt, Client (c_tls c1) T' (c_resp c1)) | _ => (r, c1) end.
Proof.
  intros host T q raw T' K (Ls & Lp & Le & Ld & SZ) E U out. rewrite (of_rfc_table _ K) in SZ. specialize (SZ raw E).
  split; [exact SZ|]. split.
  - subst out. unfold wire_frame, wire_header. rewrite !size_app. unfold size at 1 2 3. rewrite !be_octets_len. cbn [length].
    change (2 ^ 24) with 16777216 in SZ. change (2 ^ 31) with 2147483648. clear -SZ. lia.
  - intros c CE. unfold perform, mk_headers, get_request_dynamic_table. rewrite CE.
    rewrite (headers_payload_wire (q_flags q) (q_block q) (q_mode q) T (q_padding q) (q_exclusive q) (q_dependency q)
      (q_weight q) raw) by (try assumption; lia). cbn [bind]. unfold send_frame.
    rewrite (serialize_wire host (HeadersFrame _ _ _ _ _)
      (headers_octets (q_flags q) (q_exclusive q) (q_dependency q) (q_weight q) raw (q_padding q)));
      cbn [frame_fh fh_stream_id fh_length fh_reserved fh_type fh_flags payload_bytes]; try reflexivity; try assumption.
    + change T_HEADERS with HEADERS. fold out. unfold send_raw_data. destruct (ssl_write _ _) as [r s]. destruct r; try reflexivity.
      unfold update_request_dynamic_table, set_tls. cbn [c_req c_tls c_resp]. rewrite CE, U. reflexivity.
    + apply u32_small. change (2 ^ 24) with 16777216 in SZ. change (2 ^ 32) with 4294967296. clear -SZ. lia.
Qed.

Lemma reads_one : forall limit t flags r sid e dep w fr pad rest fss t2,
  size (headers_octets flags e dep w fr pad) < 2 ^ 24 ->
  server_reads limit t (wire_frame HEADERS flags r sid (headers_octets flags e dep w fr pad) ++ rest) fss t2 ->
  exists fs fss' t1, fss = fs :: fss' /\ rfc_block limit t fr fs t1 /\ server_reads limit t1 rest fss' t2.
Proof.
  intros limit t flags r sid e dep w fr pad rest fss t2 L H.
  remember (wire_frame HEADERS flags r sid (headers_octets flags e dep w fr pad) ++ rest) as x eqn:EX.
  destruct H as [t|t flags' r' sid' e' dep' w' fr' pad' fs t1 rest' fss t2 payload' L' B' H]; [discriminate EX|].
  apply (wire_frame_inj _ _ _ _ _ _ _ _ _ _ _ _ L' L) in EX. destruct EX as (_ & -> & EP & ->).
  apply headers_octets_inj in EP. subst fr'. exists fs, fss, t1. auto.
Qed.

(* A server that announces a table size below the size of some field, and a
   client that sends this field with indexing and then once more: the server
   cannot read the requests. *)
Theorem C84_table_size_refuted : forall host m n h q1 q2 p, n < field_size h -> field_size h <= 4096 ->
  is_octets (fst h) -> is_octets (snd h) -> ~ In h (map snd static_table_entries) -> fst h <> octets "accept-control-allow-origin" ->
  q_block q1 = [HEntry IncrementalIndexing (EHeader h)] -> q_block q2 = [HEntry p (EHeader h)] -> p <> SizeUpdate ->
  request_ok (Table 4096 []) q1 -> request_ok (Table 4096 [h]) q2 ->
  let w := WFrame SETTINGS 0 0 0 (settings_octets [(1, n)]) in
  exists out, (forall fss t, ~ server_reads n (Table n []) out fss t) /\
  forall s rest, tls_in s = wire w ++ rest -> delivers (size (wire w) + size out) s ->
  exists c1 c2, receive_frame m (new_client s) = (Ok (mk_settings 0 0 [(1, n)]), c1) /\
  perform_all host c1 [q1; q2] = (Ok tt, c2) /\ tls_out (c_tls c2) = tls_out s ++ out.
Proof.
  intros host m n h q1 q2 p LN LM On Ov NS NM B1 B2 NP Q1 Q2 w.
  set (T1 := DynTable [h] (field_size h) 4096).
  assert (K0 : dt_ok default_table) by apply new_table_ok.
  assert (K1 : dt_ok T1) by (split; cbn; lia).
  assert (NI : ~ in_tables default_table h) by (intros [[X _]|X]; [exact (NS X)|exact X]).
  destruct (literal_means Incremental h (q_mode q1) default_table On Ov NI NM) as (raw1 & nm & E1 & R1 & N1). cbn [lib_prefix] in E1.
  assert (EB1 : encode_block (q_block q1) (q_mode q1) default_table = Ok raw1).
  { rewrite B1. cbn [encode_block]. rewrite E1. cbn [bind]. rewrite app_nil_r. reflexivity. }
  assert (U1 : update_block default_table (q_block q1) = (Ok tt, T1)).
  { destruct (update_block_spec [HEntry IncrementalIndexing (EHeader h)] default_table K0) as (T' & U & K' & R').
    { cbn. split; [exact LM|exact I]. }
    rewrite B1, U. f_equal. rewrite <- (of_rfc_table _ K'), R'. cbn [table_after]. unfold insert, rfc_table. cbn [t_max t_entries default_table new_table dt_max dt_entries keep].
    change DEFAULT_TABLE_SIZE with 4096. destruct (N.leb_spec (field_size h) 4096); [|lia]. unfold of_table, T1. cbn [t_entries t_max total_size keep]. f_equal. rewrite total_cons. cbn. lia. }
  assert (E2 : encode_header (HEntry p (EHeader h)) (q_mode q2) T1 = Ok [0xbe]).
  { unfold encode_header. cbn [e_prefix get_header e_content bind].
    replace (hprefix_eqb p SizeUpdate) with false by (destruct p; try reflexivity; contradiction).
    destruct (reverse_static_find h) as [i|] eqn:RS; [exfalso; apply NS, in_static; eauto|].
    unfold T1. cbn [dt_entries find_index]. rewrite (proj2 (header_eqb_eq h h) eq_refl). vm_compute. reflexivity. }
  assert (EB2 : encode_block (q_block q2) (q_mode q2) T1 = Ok [0xbe]).
  { rewrite B2. cbn [encode_block]. rewrite E2. reflexivity. }
  assert (U2 : exists T2, update_block T1 (q_block q2) = (Ok tt, T2)).
  { rewrite B2. destruct (update_block_spec [HEntry p (EHeader h)] T1 K1) as (T2 & U & _); [|eauto].
    destruct p; try contradiction; cbn; auto. }
  destruct U2 as (T2 & U2).
  destruct (perform_raw host default_table q1 raw1 T1 K0 Q1 EB1 U1) as (S1 & L1 & P1).
  destruct (perform_raw host T1 q2 [0xbe] T2 K1 Q2 EB2 U2) as (S2 & L2 & P2).
  set (o1 := wire_frame HEADERS (q_flags q1) 0 (q_stream q1) _) in *. set (o2 := wire_frame HEADERS (q_flags q2) 0 (q_stream q2) _) in *.
  exists (o1 ++ o2). split.
  - intros fss t H. apply (reads_one _ _ _ _ _ _ _ _ _ _ _ _ _ S1) in H. destruct H as (fs1 & fss' & t1 & _ & BL1 & H).
    assert (B1' : rfc_block n (Table n []) raw1 [h] (Table n [])).
    { apply (one_repr _ _ _ _ _ _ R1). cbn [step_in]. rewrite N1. destruct h as [a b]. cbn [fst snd]. unfold insert. cbn [t_max t_entries keep].
      destruct (N.leb_spec (field_size (a, b)) n); [lia|reflexivity]. }
    destruct (rfc_block_unique _ _ _ _ _ B1' _ _ BL1) as [_ <-].
    rewrite <- (app_nil_r o2) in H. apply (reads_one _ _ _ _ _ _ _ _ _ _ _ _ _ S2) in H. destruct H as (fs2 & _ & t2 & _ & BL2 & _).
    remember (Table n []) as t0 eqn:ET. remember [0xbe] as x eqn:EX. destruct BL2 as [t3|t3 l r o t4 ls fs t5 R S BL2]; [discriminate EX|]. subst t3.
    assert (RI : rfc_repr [0xbe] (RIndexed 62)).
    { apply repr_indexed; [exact (short_int 7 0xbe eq_refl eq_refl)|]. do 2 eexists. split; [reflexivity|]. lia. }
    rewrite <- (app_nil_r [0xbe]) in EX. destruct (repr_unique _ _ _ _ _ _ R RI EX) as (_ & -> & _). discriminate S.
  - intros s rest I D. assert (SM : std_map [(1, n)]).
    { split; [repeat constructor|]. constructor; [|constructor]. split; [reflexivity|]. cbn [snd]. change (2 ^ 32) with 4294967296. lia. }
    destruct (settings_frame_wire host m default_table 0 0 [(1, n)] eq_refl eq_refl SM) as (W & _ & B).
    destruct (receive_complete m (new_client s) w rest (size (o1 ++ o2)) W I D) as (s1 & I1 & O1 & D1 & X1).
    rewrite size_app in D1.
    assert (HA : fst (handled m default_table w) = Ok (mk_settings 0 0 [(1, n)])).
    { unfold handled. fold w in B. rewrite B. unfold update_frame, mk_settings. cbn [frame_fh fh_type].
      change (T_SETTINGS =? T_HEADERS) with false. change (T_SETTINGS =? T_PUSH_PROMISE) with false.
      change (T_SETTINGS =? T_CONTINUATION) with false. change (T_SETTINGS =? T_SETTINGS) with true. cbv iota.
      cbn [sm_find]. change (1 =? 1) with true. cbv iota. rewrite (dt_update_spec default_table n K0). reflexivity. }
    cbn [new_client c_resp c_req] in X1. rewrite HA in X1.
    destruct (send_raw_quiet (Client s1 default_table (snd (handled m default_table w))) o1 (size o2) L1 D1) as (s2 & Z2 & D2 & O2 & _).
    destruct (send_raw_quiet (Client s2 T1 (snd (handled m default_table w))) o2 0 L2) as (s3 & Z3 & _ & O3 & _).
    { rewrite N.add_0_r. exact D2. }
    eexists. eexists. split; [exact X1|]. split.
    + set (R := snd (handled m default_table w)) in *. cbn [perform_all]. rewrite (P1 (Client s1 default_table R) eq_refl). rewrite Z2. cbn [c_tls c_resp c_req].
      rewrite (P2 (Client s2 T1 R) eq_refl). rewrite Z3. reflexivity.
    + cbn [c_tls] in *. rewrite O3, O2, O1, <- app_assoc. reflexivity.
Qed.

(* A caller who begins the next block with a size update to the announced value
   is understood. *)
Theorem C84_explicit_update_partial : forall host n q qs b c c', c_req c = default_table ->
  q_block q = HEntry SizeUpdate (ESize n) :: b -> plain_requests n (Table 4096 []) (q :: qs) ->
  perform_all host c (q :: qs) = (Ok tt, c') ->
  exists out t, tls_out (c_tls c') = tls_out (c_tls c) ++ out /\ t_max t = dt_max (c_req c') /\ t_entries t = dt_entries (c_req c') /\
  server_reads n (Table 4096 []) out (map (fun q => fields_of (q_block q)) (q :: qs)) t.
Proof.
  intros host n q qs b c c' RQ QB P H. pose proof (C52_request_table_partial host n (q :: qs) c c' H) as C. rewrite RQ in C.
  destruct (C (new_table_ok _) P) as (out & O & S & _). exists out. eexists. split; [exact O|]. split; [|split; [|exact S]]; reflexivity.
Qed.

(* ---- SETTINGS_MAX_FRAME_SIZE ---- *)

(* Whatever maximum the server announced, a longer DATA payload is sent as one
   frame. *)
Theorem C84_frame_size_refuted : forall host m n flags sid payload, n < size payload -> size payload < 2 ^ 24 ->
  flags < 2 ^ 8 -> sid < 2 ^ 31 ->
  let w := WFrame SETTINGS 0 0 0 (settings_octets [(5, n)]) in
  let out := wire_frame DATA flags 0 sid payload in
  forall s rest, tls_in s = wire w ++ rest -> delivers (size (wire w) + size out) s ->
  exists c1 c2, receive_frame m (new_client s) = (Ok (mk_settings 0 0 [(5, n)]), c1) /\
  send_frame host c1 (mk_data flags sid payload) = (Ok tt, c2) /\ tls_out (c_tls c2) = tls_out s ++ out.
Proof.
  intros host m n flags sid payload LN LP LF LS w out s rest I D.
  assert (SM : std_map [(5, n)]).
  { split; [repeat constructor|]. constructor; [|constructor]. split; [reflexivity|]. cbn [snd].
    change (2 ^ 32) with 4294967296. change (2 ^ 24) with 16777216 in LP. clear -LN LP. lia. }
  destruct (settings_frame_wire host m default_table 0 0 [(5, n)] eq_refl eq_refl SM) as (W & _ & B).
  destruct (receive_complete m (new_client s) w rest (size out) W I D) as (s1 & I1 & O1 & D1 & X1).
  assert (HA : fst (handled m default_table w) = Ok (mk_settings 0 0 [(5, n)])).
  { unfold handled. fold w in B. rewrite B. reflexivity. }
  cbn [new_client c_resp c_req] in X1. rewrite HA in X1.
  assert (SE : serialize host (mk_data flags sid payload) = Ok out).
  { assert (U : cast_to_fh_length (size payload) = size payload).
    { apply u32_small. change (2 ^ 24) with 16777216 in LP. change (2 ^ 32) with 4294967296. clear -LP. lia. }
    unfold mk_data. rewrite (serialize_wire host _ payload); [reflexivity|reflexivity|exact LS|exact U|reflexivity]. }
  assert (LO : size out < 2 ^ 31).
  { subst out. unfold wire_frame, wire_header. rewrite !size_app. unfold size at 1 2 3. rewrite !be_octets_len. cbn [length].
    change (2 ^ 24) with 16777216 in LP. change (2 ^ 31) with 2147483648. clear -LP. lia. }
  destruct (send_raw_quiet (Client s1 default_table (snd (handled m default_table w))) out 0 LO) as (s2 & Z2 & _ & O2 & _).
  { rewrite N.add_0_r. exact D1. }
  eexists. eexists. split; [exact X1|]. split.
  - unfold send_frame. rewrite SE. exact Z2.
  - cbn [c_tls] in *. rewrite O2, O1. reflexivity.
Qed.

(* A server that announces a table of 20 octets. *)
Example C84_case :
  let h := (octets "x", octets "y") in
  let q1 := Request 5 1 [HEntry IncrementalIndexing (EHeader h)] ModeNone [] 0 0 0 in
  let q2 := Request 5 3 [HEntry WithoutIndexing (EHeader h)] ModeNone [] 0 0 0 in
  let q3 := Request 5 1 [HEntry SizeUpdate (ESize 20); HEntry NeverIndexed (EHeader h)] ModeNone [] 0 0 0 in
  (20 < field_size h /\ field_size h <= 4096 /\ is_octets (fst h) /\ is_octets (snd h) /\ ~ In h (map snd static_table_entries) /\
   fst h <> octets "accept-control-allow-origin" /\ request_ok (Table 4096 []) q1 /\ request_ok (Table 4096 [h]) q2) /\
  plain_requests 20 (Table 4096 []) [q3] /\
  (let w := WFrame SETTINGS 0 0 0 (settings_octets [(1, 20)]) in
   let c := new_client (Tls (wire w) [] (repeat (Chunk 5) 60)) in
   wframe_ok w /\ small_pieces (all_written LittleEndian (c_req c) [CallRequest q1; CallRequest q2]) /\
   tls_out (c_tls (snd (make_calls LittleEndian Strict c [CallReceive; CallRequest q1; CallRequest q2]))) =
     [0; 0; 5; 1; 5; 0; 0; 0; 1; 64; 1; 120; 1; 121] ++ [0; 0; 1; 1; 5; 0; 0; 0; 3; 0xbe]).
Proof.
  cbv zeta. assert (O : forall b, existsb (fun x => 256 <=? x) b = false -> is_octets b).
  { intros b H x I. destruct (N.ltb_spec x 256) as [L|L]; [exact L|]. exfalso.
    assert (T : existsb (fun x => 256 <=? x) b = true) by (apply existsb_exists; exists x; split; [exact I|apply N.leb_le; exact L]). congruence. }
  assert (NS : ~ In (octets "x", octets "y") (map snd static_table_entries)).
  { intros I. assert (X : existsb (header_eqb (octets "x", octets "y")) (map snd static_table_entries) = true).
    { apply existsb_exists. exists (octets "x", octets "y"). split; [exact I|]. apply header_eqb_eq. reflexivity. }
    vm_compute in X. discriminate X. }
  split; [|split; [|split; [|split]]].
  - split; [vm_compute; reflexivity|]. split; [vm_compute; discriminate|]. split; [apply O; reflexivity|]. split; [apply O; reflexivity|].
    split; [exact NS|]. split; [discriminate|].
    split; (split; [reflexivity|]; split; [reflexivity|]; split; [reflexivity|]; split; [reflexivity|]; intros raw E; vm_compute in E; apply Ok_inj in E; subst raw; vm_compute; reflexivity).
  - cbn [plain_requests q_block]. split; [|split; [|exact I]].
    + split; [reflexivity|]. split; [reflexivity|]. split; [reflexivity|]. split; [reflexivity|]. intros raw E. vm_compute in E. apply Ok_inj in E. subst raw. vm_compute. reflexivity.
    + cbn [plain_block]. split; [lia|]. split; [|exact I]. right. split; [|split; [discriminate|split; apply O; reflexivity]].
      intros [[X _]|X]; [exact (NS X)|exact X].
  - repeat split; try reflexivity. apply O. vm_compute. reflexivity.
  - constructor; [vm_compute; reflexivity|]. constructor; [vm_compute; reflexivity|constructor].
  - vm_compute. reflexivity.
Qed.

Print Assumptions C84_ignored_refuted.
Print Assumptions C84_table_size_refuted.
Print Assumptions C84_explicit_update_partial.
Print Assumptions C84_frame_size_refuted.
