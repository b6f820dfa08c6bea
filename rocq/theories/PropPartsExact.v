(* Property C100: exactly which header lists in several frames the server reads
   as submitted, and with what table it ends. *)
From Coq Require Import String.
From Coq Require Import ZArith NArith List Bool Lia ZifyBool ZifyNat ZifyN.
From Verif Require Import Base Arith Util StaticTable HeaderType DynTable HeaderEnc HeaderDec FrameHeader Frames FrameBuilder Ssl Client
  SpecBits SpecHpack SpecFrame SpecUnique UtilProofs DynTableProofs StaticProofs HeaderProofs HeaderProofs2 FrameProofs BlockProofs
  HistoryProofs PropHeader PropFrame PropBlock PropSsl PropClient PropHistory PropRequest PropRelay PropSingle PropSettings PropAhead PropPeer PropParts
  PropReqBlock PropReqHistory.
Import ListNotations.
Local Open Scope string_scope.
Local Open Scope list_scope.
Local Open Scope N_scope.
Ltac Zify.zify_post_hook ::= Z.div_mod_to_equations.

(* ---------------------------------------------------------------- which header lists *)

(* A CONTINUATION frame that is built with table T. *)
Definition part_sendable (T : dyn_table) (p : part) : Prop :=
  part_fits (Table (dt_max T) (dt_entries T)) p /\ Forall octets_entry (p_block p) /\ Forall (indexed_present T) (p_block p).

(* All frames are built with one table. *)
Definition once_sendable (T : dyn_table) (q : long_request) : Prop :=
  flags_ok (q_flags (l_first q) :: map p_flags (l_more q)) /\ sendable T (l_first q) /\ Forall (part_sendable T) (l_more q).

(* Every frame is built with the table that the one before has left. *)
Fixpoint parts_sendable (T : dyn_table) (ps : list part) : Prop :=
  match ps with
  | [] => True
  | p :: ps' => part_sendable T p /\ parts_sendable (after_block T (p_block p)) ps'
  end.
Definition turn_sendable (T : dyn_table) (q : long_request) : Prop :=
  flags_ok (q_flags (l_first q) :: map p_flags (l_more q)) /\ sendable T (l_first q) /\
  parts_sendable (after_block T (q_block (l_first q))) (l_more q).

Fixpoint lists_sendable (ok : dyn_table -> long_request -> Prop) (T : dyn_table) (qs : list long_request) : Prop :=
  match qs with
  | [] => True
  | q :: qs' => ok T q /\ lists_sendable ok (after_block T (l_block q)) qs'
  end.

(* The blocks of the frames of a header list. *)
Definition frame_blocks (q : long_request) : list header_block := q_block (l_first q) :: map p_block (l_more q).

(* ---------------------------------------------------------------- blocks *)

Lemma piece : forall limit T mode b raw more gs t t', Forall octets_entry b -> Forall (indexed_present T) b ->
  encode_block b mode T = Ok raw ->
  (rfc_block limit t (raw ++ more) (fields_of b ++ gs) t' <-> exists t1, follows limit T t b t1 /\ rfc_block limit t1 more gs t').
Proof.
  intros limit T mode b raw more gs t t' O P E. split.
  - apply read_follows_more with (mode := mode); assumption.
  - intros (t1 & F & M). destruct (follows_read limit T mode b t t1 O F) as (raw' & E' & R). rewrite E in E'. apply Ok_inj in E'. subst raw'.
    exact (rfc_block_join _ _ _ _ _ R _ _ _ M).
Qed.

Lemma last_piece : forall limit T mode b raw t t', Forall octets_entry b -> Forall (indexed_present T) b ->
  encode_block b mode T = Ok raw -> (rfc_block limit t raw (fields_of b) t' <-> follows limit T t b t').
Proof.
  intros limit T mode b raw t t' O P E. split; [apply read_follows with (mode := mode); assumption|].
  intros F. destruct (follows_read limit T mode b t t' O F) as (raw' & E' & R). rewrite E in E'. apply Ok_inj in E'. subst raw'. exact R.
Qed.

Lemma after_joined : forall T a b, after_block (after_block T a) b = after_block T (a ++ b).
Proof.
  intros T a b. unfold after_block. rewrite table_after_app.
  destruct (table_after (Table (dt_max T) (dt_entries T)) a) as [mx es]. reflexivity.
Qed.

(* ---------------------------------------------------------------- frames *)

Lemma assembles_one : forall limit t flags sid e dep wt raw padding w block fs fss rest t2,
  sid < 2 ^ 31 -> size (headers_octets flags e dep wt raw padding) < 2 ^ 24 -> completes flags sid raw w block ->
  (server_assembles limit t (wire_frame HEADERS flags 0 sid (headers_octets flags e dep wt raw padding) ++ w ++ rest) ((sid, fs) :: fss) t2 <->
   exists t1, rfc_block limit t block fs t1 /\ server_assembles limit t1 rest fss t2).
Proof.
  intros limit t flags sid e dep wt raw padding w block fs fss rest t2 S L C. split.
  - intros H. remember (wire_frame HEADERS flags 0 sid (headers_octets flags e dep wt raw padding) ++ w ++ rest) as out eqn:EO.
    remember ((sid, fs) :: fss) as all eqn:EA.
    destruct H as [t|t flags' r' sid' e' dep' wt' fr' pad' w' block' fs' t1' rest' fss0 t20 payload' R' S' L' C' B' H0]; [discriminate EA|].
    injection EA as -> -> ->.
    assert (Z : 0 < 2) by reflexivity.
    destruct (wire_frame_stream _ _ _ _ _ _ _ _ _ _ _ _ L' L R' Z S' S EO) as (_ & -> & _ & EP & ER).
    apply headers_octets_inj in EP. subst fr'.
    assert (X : w' = w /\ block' = block /\ rest' = rest).
    { destruct C as [(EF & -> & ->)|(EF & more & C & ->)]; destruct C' as [(EF' & -> & ->)|(EF' & more' & C' & ->)]; try congruence.
      - auto.
      - destruct (continued_unique _ _ _ S C' _ _ _ _ C ER) as (-> & -> & ->). auto. }
    destruct X as (_ & -> & ->). eauto.
  - intros (t1 & B & H). eapply assembles_headers; [reflexivity|exact S|exact L|exact C|exact B|exact H].
Qed.

Lemma part_built : forall host T sid p f, dt_ok T -> sid < 2 ^ 31 -> part_sendable T p ->
  mk_continuation (p_flags p) sid (p_block p) (p_mode p) T = Ok f ->
  exists raw, encode_block (p_block p) (p_mode p) T = Ok raw /\ size raw < 2 ^ 24 /\
    serialize host f = Ok (wire_frame CONTINUATION (p_flags p) 0 sid raw).
Proof.
  intros host T sid p f K S (F & _ & _) M. unfold mk_continuation in M. apply bind_ok in M. destruct M as (raw & E & M).
  apply Ok_inj in M. subst f. unfold part_fits in F. fold (rfc_table T) in F. rewrite (of_rfc_table _ K) in F. specialize (F raw E).
  exists raw. split; [exact E|]. split; [exact F|].
  rewrite (serialize_wire host (ContinuationFrame _ _ _) raw);
    cbn [frame_fh fh_stream_id fh_length fh_reserved fh_type fh_flags payload_bytes]; try reflexivity; try assumption.
  apply u32_small. change (2 ^ 24) with 16777216 in F. change (2 ^ 32) with 4294967296. clear - F. lia.
Qed.

Lemma first_built : forall host T q f, dt_ok T -> sendable T q -> build_request T q = Ok f ->
  exists raw, encode_block (q_block q) (q_mode q) T = Ok raw /\
    size (headers_octets (q_flags q) (q_exclusive q) (q_dependency q) (q_weight q) raw (q_padding q)) < 2 ^ 24 /\
    serialize host f = Ok (wire_frame HEADERS (q_flags q) 0 (q_stream q)
      (headers_octets (q_flags q) (q_exclusive q) (q_dependency q) (q_weight q) raw (q_padding q))).
Proof.
  intros host T q f K (Q & O & P) B.
  assert (E : exists raw, encode_block (q_block q) (q_mode q) T = Ok raw).
  { unfold build_request, mk_headers, headers_construct_payload in B.
    destruct (if is_flag_set (q_flags q) F_PRIORITY then _ else _); try discriminate B.
    destruct (encode_block (q_block q) (q_mode q) T) as [raw| | |]; try discriminate B. eauto. }
  destruct E as (raw & E). destruct (first_frame host T q raw K Q E) as (L & g & G & S).
  rewrite B in G. apply Ok_inj in G. subst g. exists raw. auto.
Qed.

(* ---------------------------------------------------------------- all frames at once *)

Lemma parts_built : forall host limit T sid, dt_ok T -> sid < 2 ^ 31 -> forall ps fs, Forall (part_sendable T) ps ->
  flags_ok (map p_flags ps) -> build_parts T sid ps = Ok fs ->
  exists ws fragment, Forall2 (fun f w => serialize host f = Ok w) fs ws /\ continued sid (concat ws) fragment /\
    forall t t', rfc_block limit t fragment (fields_of (flat_map p_block ps)) t' <-> follows limit T t (flat_map p_block ps) t'.
Proof.
  intros host limit T sid K S. induction ps as [|p ps IH]; intros fs A FL B; [destruct FL|].
  cbn [build_parts] in B. apply bind_ok in B. destruct B as (f & M & B). apply bind_ok in B. destruct B as (fs' & B & X). apply Ok_inj in X. subst fs.
  pose proof (Forall_inv A) as A0. destruct (part_built host T sid p f K S A0 M) as (raw & E & L & SE). destruct A0 as (_ & O & P).
  destruct ps as [|p2 ps].
  - apply Ok_inj in B. subst fs'. exists [wire_frame CONTINUATION (p_flags p) 0 sid raw], raw.
    split; [constructor; [exact SE|constructor]|]. cbn [concat flat_map]. rewrite !app_nil_r.
    split; [apply continued_last; [exact FL|reflexivity|exact L]|]. intros t t'. exact (last_piece limit T _ _ raw t t' O P E).
  - cbn [map] in FL. apply flags_tail in FL. destruct FL as [FF FL].
    destruct (IH fs' (Forall_inv_tail A) FL B) as (ws & fragment & W & C & R).
    exists (wire_frame CONTINUATION (p_flags p) 0 sid raw :: ws), (raw ++ fragment).
    split; [constructor; [exact SE|exact W]|]. split; [cbn [concat]; apply continued_more; [exact FF|reflexivity|exact L|exact C]|].
    intros t t'. set (ps' := p2 :: ps) in *. cbn [flat_map]. rewrite fields_of_app, (piece limit T _ _ raw _ _ t t' O P E), follows_app.
    split; intros (t1 & F & X); exists t1; (split; [exact F|]); apply R; exact X.
Qed.

Lemma frames_sent : forall host fs ws, Forall2 (fun f w => serialize host f = Ok w) fs ws -> forall c c1,
  send_frames host c fs = (Ok tt, c1) -> tls_out (c_tls c1) = tls_out (c_tls c) ++ concat ws /\ c_req c1 = c_req c.
Proof.
  intros host fs ws F. induction F as [|f w fs ws S F IH]; intros c c1 H; cbn [send_frames] in H.
  - injection H as <-. rewrite app_nil_r. auto.
  - destruct (send_frame host c f) as [[[]| | |] c2] eqn:SF; try discriminate H. destruct (sent_ok host c f w c2 S SF) as [O Q].
    destruct (IH c2 c1 H) as [O' Q']. cbn [concat]. rewrite O', O, <- app_assoc. split; [reflexivity|congruence].
Qed.

Lemma updated : forall c b c', dt_ok (c_req c) -> update_request_dynamic_table c b = (Ok tt, c') ->
  c_tls c' = c_tls c /\ c_req c' = after_block (c_req c) b /\ dt_ok (c_req c').
Proof.
  intros c b c' K U. unfold update_request_dynamic_table in U. destruct (update_block (c_req c) b) as [r T'] eqn:UB.
  injection U as -> <-. cbn [c_tls c_req]. destruct (after_update _ _ _ K UB) as [-> K']. auto.
Qed.

Lemma once_read : forall host limit c q c', perform_at_once host c q = (Ok tt, c') -> dt_ok (c_req c) -> once_sendable (c_req c) q ->
  exists w, tls_out (c_tls c') = tls_out (c_tls c) ++ w /\ c_req c' = after_block (c_req c) (l_block q) /\ dt_ok (c_req c') /\
    forall t rest fss t2, server_assembles limit t (w ++ rest) ((l_stream q, fields_of (l_block q)) :: fss) t2 <->
      exists t1, follows limit (c_req c) t (l_block q) t1 /\ server_assembles limit t1 rest fss t2.
Proof.
  intros host limit c [q ps] c' H K (FL & Q & A). unfold perform_at_once, get_request_dynamic_table, l_stream, l_block in *. cbn [l_first l_more] in *.
  set (T := c_req c) in *.
  destruct (let* f := build_request T q in let* fs := build_parts T (q_stream q) ps in Ok (f :: fs)) as [all| | |] eqn:B; try discriminate H.
  apply bind_ok in B. destruct B as (f & B0 & B). apply bind_ok in B. destruct B as (fs & B1 & X). apply Ok_inj in X. subst all.
  destruct (first_built host T q f K Q B0) as (raw & E & L & SE). pose proof Q as (QO & O & P). assert (SID : q_stream q < 2 ^ 31) by apply QO.
  set (w0 := wire_frame HEADERS (q_flags q) 0 (q_stream q)
        (headers_octets (q_flags q) (q_exclusive q) (q_dependency q) (q_weight q) raw (q_padding q))) in *.
  assert (G : exists ws block, Forall2 (fun f w => serialize host f = Ok w) fs ws /\
    completes (q_flags q) (q_stream q) raw (concat ws) block /\
    forall t t', rfc_block limit t block (fields_of (q_block q ++ flat_map p_block ps)) t' <-> follows limit T t (q_block q ++ flat_map p_block ps) t').
  { destruct ps as [|p ps].
    - apply Ok_inj in B1. subst fs. exists [], raw. split; [constructor|]. split; [left; split; [exact FL|auto]|]. intros t t'.
      cbn [flat_map]. rewrite app_nil_r. exact (last_piece limit T _ _ raw t t' O P E).
    - cbn [map] in FL. apply flags_tail in FL. destruct FL as [FF FL].
      destruct (parts_built host limit T (q_stream q) K SID (p :: ps) fs A FL B1) as (ws & fragment & W & C & R).
      exists ws, (raw ++ fragment). split; [exact W|]. split; [right; split; [exact FF|eauto]|]. intros t t'.
      rewrite fields_of_app, (piece limit T _ _ raw _ _ t t' O P E), follows_app.
      split; intros (t1 & F & X); exists t1; (split; [exact F|]); apply R; exact X. }
  destruct G as (ws & block & W & C & R).
  destruct (send_frames host c (f :: fs)) as [[[]| | |] c1] eqn:SF; try discriminate H.
  destruct (frames_sent host (f :: fs) (w0 :: ws) (Forall2_cons _ _ SE W) c c1 SF) as [O1 Q1].
  destruct (updated c1 _ c' ltac:(rewrite Q1; exact K) H) as (T1 & Q2 & K2). exists (w0 ++ concat ws).
  split; [rewrite T1, O1; reflexivity|]. split; [rewrite Q2, Q1; reflexivity|]. split; [exact K2|].
  intros t rest fss t2. rewrite <- app_assoc. unfold w0. rewrite (assembles_one limit t _ _ _ _ _ _ _ _ _ _ _ _ _ SID L C).
  split; intros (t1 & X & Y); exists t1; (split; [apply R; exact X|exact Y]).
Qed.

(* ---------------------------------------------------------------- frames in turn *)

Lemma follows_same : forall limit T T' b t t', dt_entries T = dt_entries T' -> follows limit T t b t' -> follows limit T' t b t'.
Proof.
  intros limit T T' b t t' E F. assert (I : forall h, ~ in_tables T h -> ~ in_tables T' h) by (unfold in_tables; rewrite E; auto).
  induction F.
  - constructor.
  - apply follows_size; assumption.
  - apply follows_static; assumption.
  - rewrite E in *. eapply follows_dynamic; eassumption.
  - apply follows_literal; auto.
  - apply follows_insert; auto.
Qed.

Lemma follows_all_one : forall limit T b t t', follows_all limit T t [b] t' <-> follows limit T t b t'.
Proof.
  intros. split.
  - intros X. inversion X as [|T1 t0 b0 t1 bs t2 F Y]; subst. inversion Y; subst. exact F.
  - intros F. eapply follows_next; [exact F|constructor].
Qed.

Lemma follows_all_cons : forall limit T b bs t t',
  follows_all limit T t (b :: bs) t' <-> exists t1, follows limit T t b t1 /\ follows_all limit (after_block T b) t1 bs t'.
Proof.
  intros. split.
  - intros X. inversion X; subst. eauto.
  - intros (t1 & F & X). eapply follows_next; eassumption.
Qed.

Lemma follows_all_app : forall limit bs cs T t t',
  follows_all limit T t (bs ++ cs) t' <-> exists t1, follows_all limit T t bs t1 /\ follows_all limit (after_block T (concat bs)) t1 cs t'.
Proof.
  intros limit. induction bs as [|b bs IH]; intros cs T t t'.
  - cbn [app concat]. assert (E : forall d, follows_all limit (after_block T []) d cs t' <-> follows_all limit T d cs t').
    { intros d. unfold after_block. cbn [table_after]. destruct cs as [|b cs]; [split; intros X; inversion X; subst; constructor|].
      rewrite !follows_all_cons. assert (AB : after_block (of_table (Table (dt_max T) (dt_entries T))) b = after_block T b) by reflexivity.
      rewrite AB. split; intros (t1 & F & X); exists t1; (split; [|exact X]); (eapply follows_same; [|exact F]); reflexivity. }
    split.
    + intros X. exists t. split; [constructor|]. apply E. exact X.
    + intros (t1 & X & Y). inversion X; subst. apply E. exact Y.
  - cbn [app concat]. rewrite follows_all_cons. split.
    + intros (t1 & F & X). apply IH in X. destruct X as (t2 & X & Y). exists t2. split; [eapply follows_next; eassumption|].
      rewrite after_joined in Y. exact Y.
    + intros (t2 & X & Y). apply follows_all_cons in X. destruct X as (t1 & F & X). exists t1. split; [exact F|]. apply IH.
      exists t2. split; [exact X|]. rewrite after_joined. exact Y.
Qed.

Lemma parts_read : forall host limit sid, sid < 2 ^ 31 -> forall ps c c', send_parts host sid c ps = (Ok tt, c') -> dt_ok (c_req c) ->
  parts_sendable (c_req c) ps -> flags_ok (map p_flags ps) ->
  exists w fragment, continued sid w fragment /\ tls_out (c_tls c') = tls_out (c_tls c) ++ w /\
    c_req c' = after_block (c_req c) (flat_map p_block ps) /\ dt_ok (c_req c') /\
    forall t t', rfc_block limit t fragment (fields_of (flat_map p_block ps)) t' <-> follows_all limit (c_req c) t (map p_block ps) t'.
Proof.
  intros host limit sid S. induction ps as [|p ps IH]; intros c c' H K A FL; [destruct FL|].
  destruct A as [A0 A]. cbn [send_parts] in H. unfold get_request_dynamic_table in H.
  destruct (mk_continuation (p_flags p) sid (p_block p) (p_mode p) (c_req c)) as [f| | |] eqn:M; try discriminate H.
  destruct (part_built host (c_req c) sid p f K S A0 M) as (raw & E & L & SE). destruct A0 as (_ & O & P).
  destruct (send_frame host c f) as [[[]| | |] c1] eqn:SF; try discriminate H.
  destruct (sent_ok host c f _ c1 SE SF) as [O1 Q1].
  destruct (update_request_dynamic_table c1 (p_block p)) as [[[]| | |] c2] eqn:U; try discriminate H.
  destruct (updated c1 _ c2 ltac:(rewrite Q1; exact K) U) as (T2 & Q2 & K2). rewrite Q1 in Q2.
  destruct ps as [|p2 ps].
  - cbn [send_parts] in H. injection H as <-. exists (wire_frame CONTINUATION (p_flags p) 0 sid raw), raw.
    split; [apply continued_last; [exact FL|reflexivity|exact L]|]. split; [rewrite T2; exact O1|]. cbn [flat_map map]. rewrite app_nil_r.
    split; [exact Q2|]. split; [exact K2|]. intros t t'. rewrite follows_all_one. exact (last_piece limit _ _ _ raw t t' O P E).
  - cbn [map] in FL. apply flags_tail in FL. destruct FL as [FF FL]. rewrite <- Q2 in A.
    destruct (IH c2 c' H K2 A FL) as (w & fragment & C & O2 & Q3 & K3 & R).
    exists (wire_frame CONTINUATION (p_flags p) 0 sid raw ++ w), (raw ++ fragment).
    split; [apply continued_more; [exact FF|reflexivity|exact L|exact C]|]. split; [rewrite O2, T2, O1, <- app_assoc; reflexivity|].
    set (ps' := p2 :: ps) in *. cbn [flat_map]. change (map p_block (p :: ps')) with (p_block p :: map p_block ps').
    split; [rewrite Q3, Q2; apply after_joined|]. split; [exact K3|].
    intros t t'. rewrite fields_of_app, (piece limit _ _ _ raw _ _ t t' O P E), follows_all_cons. rewrite Q2 in R.
    split; intros (t1 & F & X); exists t1; (split; [exact F|]); apply R; exact X.
Qed.

Lemma turn_read : forall host limit c q c', perform_in_turn host c q = (Ok tt, c') -> dt_ok (c_req c) -> turn_sendable (c_req c) q ->
  exists w, tls_out (c_tls c') = tls_out (c_tls c) ++ w /\ c_req c' = after_block (c_req c) (l_block q) /\ dt_ok (c_req c') /\
    forall t rest fss t2, server_assembles limit t (w ++ rest) ((l_stream q, fields_of (l_block q)) :: fss) t2 <->
      exists t1, follows_all limit (c_req c) t (frame_blocks q) t1 /\ server_assembles limit t1 rest fss t2.
Proof.
  intros host limit c [q ps] c' H K (FL & Q & A). unfold perform_in_turn, l_stream, l_block, frame_blocks in *. cbn [l_first l_more] in *.
  destruct (perform host c q) as [[[]| | |] c2] eqn:PF; try discriminate H.
  unfold perform in PF. fold (build_request (get_request_dynamic_table c) q) in PF. unfold get_request_dynamic_table in PF.
  destruct (build_request (c_req c) q) as [f| | |] eqn:B; try discriminate PF.
  destruct (first_built host (c_req c) q f K Q B) as (raw & E & L & SE). pose proof Q as (QO & O & P). assert (SID : q_stream q < 2 ^ 31) by apply QO.
  destruct (send_frame host c f) as [[[]| | |] c1] eqn:SF; try discriminate PF.
  destruct (sent_ok host c f _ c1 SE SF) as [O1 Q1].
  destruct (updated c1 _ c2 ltac:(rewrite Q1; exact K) PF) as (T2 & Q2 & K2). rewrite Q1 in Q2. rewrite <- Q2 in A.
  set (w0 := wire_frame HEADERS (q_flags q) 0 (q_stream q)
        (headers_octets (q_flags q) (q_exclusive q) (q_dependency q) (q_weight q) raw (q_padding q))) in *.
  assert (G : exists w block, completes (q_flags q) (q_stream q) raw w block /\ tls_out (c_tls c') = tls_out (c_tls c2) ++ w /\
    c_req c' = after_block (c_req c) (q_block q ++ flat_map p_block ps) /\ dt_ok (c_req c') /\
    forall t t', rfc_block limit t block (fields_of (q_block q ++ flat_map p_block ps)) t' <->
      follows_all limit (c_req c) t (q_block q :: map p_block ps) t').
  { destruct ps as [|p ps].
    - cbn [send_parts] in H. injection H as <-. exists [], raw. split; [left; split; [exact FL|auto]|]. cbn [flat_map map]. rewrite !app_nil_r.
      split; [reflexivity|]. split; [exact Q2|]. split; [exact K2|]. intros t t'. rewrite follows_all_one.
      exact (last_piece limit _ _ _ raw t t' O P E).
    - cbn [map] in FL. apply flags_tail in FL. destruct FL as [FF FL].
      destruct (parts_read host limit (q_stream q) SID (p :: ps) c2 c' H K2 A FL) as (w & fragment & C & O2 & Q3 & K3 & R).
      exists w, (raw ++ fragment). split; [right; split; [exact FF|eauto]|]. split; [exact O2|].
      split; [rewrite Q3, Q2; apply after_joined|]. split; [exact K3|]. intros t t'.
      rewrite fields_of_app, (piece limit _ _ _ raw _ _ t t' O P E), follows_all_cons. rewrite Q2 in R.
      split; intros (t1 & F & X); exists t1; (split; [exact F|]); apply R; exact X. }
  destruct G as (w & block & C & O2 & Q3 & K3 & R). exists (w0 ++ w).
  split; [rewrite O2, T2, O1, <- app_assoc; reflexivity|]. split; [exact Q3|]. split; [exact K3|].
  intros t rest fss t2. rewrite <- app_assoc. unfold w0. rewrite (assembles_one limit t _ _ _ _ _ _ _ _ _ _ _ _ _ SID L C).
  split; intros (t1 & X & Y); exists t1; (split; [apply R; exact X|exact Y]).
Qed.

(* ---------------------------------------------------------------- any number of header lists *)

Lemma flat_frame_blocks : forall q, concat (frame_blocks q) = l_block q.
Proof. intros q. unfold frame_blocks, l_block. cbn [concat]. rewrite flat_map_concat_map. reflexivity. Qed.

(* Whatever tables the two sides start with: the server reads what was submitted
   and ends with t' exactly when it follows the blocks of the frames to t', each
   looked up in the table that the one before has left. *)
Theorem C100_in_turn_exact_partial : forall host limit qs c c', all_in_order (perform_in_turn host) c qs = (Ok tt, c') ->
  dt_ok (c_req c) -> lists_sendable turn_sendable (c_req c) qs ->
  let submitted := map (fun q => (l_stream q, fields_of (l_block q))) qs in
  exists out, tls_out (c_tls c') = tls_out (c_tls c) ++ out /\
    forall t t', (server_assembles limit t out submitted t' <-> follows_all limit (c_req c) t (flat_map frame_blocks qs) t').
Proof.
  intros host limit. cbv zeta. induction qs as [|q qs IH]; intros c c' H K A.
  - cbn in H. injection H as <-. exists []. rewrite app_nil_r. split; [reflexivity|]. intros t t'. cbn [map flat_map].
    split; intros X; inversion X; subst; constructor.
  - destruct A as [A0 A]. cbn [all_in_order] in H. destruct (perform_in_turn host c q) as [[[]| | |] c1] eqn:P; try discriminate H.
    destruct (turn_read host limit c q c1 P K A0) as (w & O1 & Q1 & K1 & W). rewrite <- Q1 in A.
    destruct (IH c1 c' H K1 A) as (out & O & R). exists (w ++ out). split; [rewrite O, O1, <- app_assoc; reflexivity|].
    intros t t'. cbn [map flat_map]. rewrite W, follows_all_app, flat_frame_blocks. rewrite Q1 in R.
    split; intros (t1 & F & X); exists t1; (split; [exact F|]); apply R; exact X.
Qed.

(* The same when all frames of a header list are built with one table: every
   field of the list is looked up in the table before the list. *)
Theorem C100_at_once_exact_partial : forall host limit qs c c', all_in_order (perform_at_once host) c qs = (Ok tt, c') ->
  dt_ok (c_req c) -> lists_sendable once_sendable (c_req c) qs ->
  let submitted := map (fun q => (l_stream q, fields_of (l_block q))) qs in
  exists out, tls_out (c_tls c') = tls_out (c_tls c) ++ out /\
    forall t t', (server_assembles limit t out submitted t' <-> follows_all limit (c_req c) t (map l_block qs) t').
Proof.
  intros host limit. cbv zeta. induction qs as [|q qs IH]; intros c c' H K A.
  - cbn in H. injection H as <-. exists []. rewrite app_nil_r. split; [reflexivity|]. intros t t'. cbn [map].
    split; intros X; inversion X; subst; constructor.
  - destruct A as [A0 A]. cbn [all_in_order] in H. destruct (perform_at_once host c q) as [[[]| | |] c1] eqn:P; try discriminate H.
    destruct (once_read host limit c q c1 P K A0) as (w & O1 & Q1 & K1 & W). rewrite <- Q1 in A.
    destruct (IH c1 c' H K1 A) as (out & O & R). exists (w ++ out). split; [rewrite O, O1, <- app_assoc; reflexivity|].
    intros t t'. cbn [map]. rewrite W, follows_all_cons. rewrite Q1 in R.
    split; intros (t1 & F & X); exists t1; (split; [exact F|]); apply R; exact X.
Qed.

(* Frames built at once: whenever one of them inserts a new field and a later
   entry of the list is a field of the table (and not of the static table), a
   server with the client's table does not read the list as submitted. *)
Theorem C100_stale_refuted : forall host limit q c c' h e p b1 b2 b3, perform_at_once host c q = (Ok tt, c') -> dt_ok (c_req c) ->
  once_sendable (c_req c) q ->
  l_block q = b1 ++ HEntry IncrementalIndexing (EHeader h) :: b2 ++ HEntry p (EHeader e) :: b3 -> p <> SizeUpdate ->
  ~ in_tables (c_req c) h -> In e (dt_entries (c_req c)) -> ~ (In e (map snd static_table_entries) /\ snd e <> []) ->
  let before := Table (dt_max (c_req c)) (dt_entries (c_req c)) in
  exists out, tls_out (c_tls c') = tls_out (c_tls c) ++ out /\
    forall t', ~ server_assembles limit before out [(l_stream q, fields_of (l_block q))] t'.
Proof.
  intros host limit q c c' h e p b1 b2 b3 H K A B PS NI IE NS before.
  destruct (once_read host limit c q c' H K A) as (out & O & _ & _ & R). exists out. split; [exact O|]. intros t' X.
  rewrite <- (app_nil_r out) in X. apply R in X. destruct X as (t1 & X & _).
  refine (follows_stale limit (c_req c) _ _ _ [] X _ (Forall_nil _) e p (b1 ++ HEntry IncrementalIndexing (EHeader h) :: b2) b3 _ PS IE NS _).
  - exists (length (dt_entries (c_req c))). cbn [t_entries before app]. rewrite firstn_all. reflexivity.
  - rewrite B, <- app_assoc. reflexivity.
  - right. exists h, b1, b2. split; [reflexivity|exact NI].
Qed.

(* A list in two frames: the second frame refers to the field that the first
   inserts if the frames are built in turn, and repeats it if they are built at
   once; and one whose second frame refers to an entry that was there before. *)
Definition in_two (b : header_block) : long_request :=
  Long (Request 1 1 [HEntry IncrementalIndexing (EHeader ([97], [98]))] ModeNone [] 0 0 0) [Part 4 b ModeNone].

Example C100_exact_case : forall host,
  let c := new_client (Tls [] [] (repeat (Chunk 100) 2)) in
  let qs := [in_two [HEntry WithoutIndexing (EHeader ([97], [98]))]] in
  let c1 := Client (Tls [] [] (repeat (Chunk 100) 2)) (DynTable [([99], [100])] 34 4096) default_table in
  let q := in_two [HEntry Indexed (EHeader ([99], [100]))] in
  lists_sendable turn_sendable (c_req c) qs /\ lists_sendable once_sendable (c_req c) qs /\
  (exists c', all_in_order (perform_in_turn host) c qs = (Ok tt, c')) /\ (exists c', all_in_order (perform_at_once host) c qs = (Ok tt, c')) /\
  follows_all 4096 (c_req c) (Table 4096 []) (flat_map frame_blocks qs) (Table 4096 [([97], [98])]) /\
  follows_all 4096 (c_req c) (Table 4096 []) (map l_block qs) (Table 4096 [([97], [98])]) /\
  dt_ok (c_req c1) /\ once_sendable (c_req c1) q /\ (exists c', perform_at_once host c1 q = (Ok tt, c')) /\
  ~ in_tables (c_req c1) ([97], [98]) /\ ~ in_tables (DynTable [] 0 0) ([99], [100]).
Proof.
  intros host c qs c1 q.
  assert (N1 : ~ in_tables (DynTable [] 0 4096) ([97], [98])) by (apply in_tablesb_false; vm_compute; reflexivity).
  assert (OE : forall p n v, n < 256 -> v < 256 -> Forall octets_entry [HEntry p (EHeader ([n], [v]))])
    by (intros p n v A B; apply Forall_cons; [apply octets_ab; assumption|apply Forall_nil]).
  assert (NP : forall T p h, p <> Indexed -> Forall (indexed_present T) [HEntry p (EHeader h)]).
  { intros T p h A. apply Forall_cons; [|apply Forall_nil]. intros g E. injection E as -> _. contradiction. }
  assert (PF : forall t b m raw0, encode_block b m (of_table t) = Ok raw0 -> size raw0 <? 2 ^ 24 = true -> part_fits t (Part 4 b m)).
  { intros t b m raw0 E L raw E'. cbn [p_block p_mode] in E'. rewrite E in E'. apply Ok_inj in E'. subst raw. apply N.ltb_lt. exact L. }
  split; [|split; [|split; [|split; [|split; [|split; [|split; [|split; [|split; [|split]]]]]]]]].
  - split; [|exact I]. split; [split; reflexivity|]. split.
    + split; [eapply request_okb; [vm_compute; reflexivity|vm_compute; reflexivity]|]. split; [apply OE; reflexivity|apply NP; discriminate].
    + split; [|exact I]. split; [eapply PF; [vm_compute; reflexivity|vm_compute; reflexivity]|]. split; [apply OE; reflexivity|apply NP; discriminate].
  - split; [|exact I]. split; [split; reflexivity|]. split.
    + split; [eapply request_okb; [vm_compute; reflexivity|vm_compute; reflexivity]|]. split; [apply OE; reflexivity|apply NP; discriminate].
    + apply Forall_cons; [|apply Forall_nil]. split; [eapply PF; [vm_compute; reflexivity|vm_compute; reflexivity]|]. split; [apply OE; reflexivity|apply NP; discriminate].
  - eexists. destruct host; vm_compute; reflexivity.
  - eexists. destruct host; vm_compute; reflexivity.
  - apply follows_next with (t1 := Table 4096 [([97], [98])]).
    + apply follows_insert; [exact N1|discriminate|]. constructor.
    + apply follows_next with (t1 := Table 4096 [([97], [98])]); [|constructor].
      apply follows_dynamic with (k := 0%nat); [discriminate|intros X; apply N1; left; exact X| |reflexivity|constructor].
      split; [reflexivity|]. intros j J. inversion J.
  - apply follows_all_one. apply follows_insert; [exact N1|discriminate|]. apply follows_literal; [left; reflexivity|exact N1|discriminate|]. constructor.
  - split; [reflexivity|discriminate].
  - split; [split; reflexivity|]. split.
    + split; [eapply request_okb; [vm_compute; reflexivity|vm_compute; reflexivity]|]. split; [apply OE; reflexivity|apply NP; discriminate].
    + apply Forall_cons; [|apply Forall_nil]. split; [eapply PF; [vm_compute; reflexivity|vm_compute; reflexivity]|]. split; [apply OE; reflexivity|].
      apply Forall_cons; [|apply Forall_nil]. intros g E. injection E as <-. right. left. reflexivity.
  - eexists. destruct host; vm_compute; reflexivity.
  - apply in_tablesb_false. vm_compute. reflexivity.
  - apply in_tablesb_false. vm_compute. reflexivity.
Qed.

Print Assumptions C100_in_turn_exact_partial.
Print Assumptions C100_at_once_exact_partial.
Print Assumptions C100_stale_refuted.
