(* C86: HEADERS frames that are built before earlier ones have been sent and
   reported to update_request_dynamic_table. *)
From Coq Require Import String.
From Coq Require Import ZArith NArith List Bool Lia ZifyBool ZifyNat ZifyN.
From Verif Require Import Base Arith Util StaticTable HeaderType DynTable HeaderEnc HeaderDec FrameHeader Frames FrameBuilder
  SpecBits SpecHpack SpecFrame UtilProofs DynTableProofs HeaderProofs HeaderProofs2 PropHeader FrameProofs BlockProofs PropFrame
  PropBlock StaticProofs Ssl Client SpecUnique HistoryProofs PropSsl PropClient PropHistory PropRequest.
Import ListNotations.
Local Open Scope string_scope.
Local Open Scope list_scope.
Local Open Scope N_scope.
Ltac Zify.zify_post_hook ::= Z.div_mod_to_equations.

(* The frame of a request, built with the table given. *)
Definition build_request (T : dyn_table) (q : request) : res frame :=
  mk_headers (q_flags q) (q_stream q) (q_block q) (q_mode q) T (q_padding q)
    (Prio (q_exclusive q) (q_dependency q) (q_weight q)).

Fixpoint build_requests (T : dyn_table) (qs : list request) : res (list frame) :=
  match qs with
  | [] => Ok []
  | q :: qs' =>
      let* f := build_request T q in
      let* fs := build_requests T qs' in
      Ok (f :: fs)
  end.

(* Send each frame and report its block. *)
Fixpoint send_built (host : endian) (c : client) (fs : list frame) (bs : list header_block) : res unit * client :=
  match fs, bs with
  | f :: fs', b :: bs' =>
      let '(r, c1) := send_frame host c f in
      match r with
      | Ok _ =>
          let '(r2, c2) := update_request_dynamic_table c1 b in
          match r2 with Ok _ => send_built host c2 fs' bs' | _ => (r2, c2) end
      | _ => (r, c1)
      end
  | _, _ => (Ok tt, c)
  end.

(* All frames are built first, with the client's table as it is then. *)
Definition perform_ahead (host : endian) (c : client) (qs : list request) : res unit * client :=
  match build_requests (get_request_dynamic_table c) qs with
  | Ok fs => send_built host c fs (map q_block qs)
  | Throw x => (Throw x, c)
  | UB u => (UB u, c)
  | NoFuel => (NoFuel, c)
  end.

(* t0 is the table when the frames are built, t the table when this frame is
   sent: it is the same, or the block has no field of either. *)
Fixpoint ahead_ok (t0 t : table) (qs : list request) : Prop :=
  match qs with
  | [] => True
  | q :: qs' =>
      (t_entries t = t_entries t0 \/
       forall h, In h (fields_of (q_block q)) -> ~ In h (t_entries t0) /\ ~ In h (t_entries t)) /\
      ahead_ok t0 (table_after t (q_block q)) qs'
  end.

Lemma find_index_none : forall es h, ~ In h es -> find_index es h = None.
Proof.
  induction es as [|e es IH]; intros h N; [reflexivity|]. cbn [find_index]. cbn [In] in N.
  destruct (header_eqb e h) eqn:E; [exfalso; apply N; left; apply header_eqb_eq; exact E|].
  rewrite IH by tauto. reflexivity.
Qed.

Lemma encode_same : forall mode T T' b,
  dt_entries T = dt_entries T' \/ (forall h, In h (fields_of b) -> ~ In h (dt_entries T') /\ ~ In h (dt_entries T)) ->
  encode_block b mode T = encode_block b mode T'.
Proof.
  intros mode T T' b H.
  assert (G : forall e, In e b -> encode_header e mode T = encode_header e mode T').
  { intros [p x] I. unfold encode_header. cbn [e_prefix get_header get_max_size e_content].
    destruct (hprefix_eqb p SizeUpdate); [reflexivity|]. unfold get_header. cbn [e_content]. destruct x as [h|n]; [|reflexivity]. cbn [bind].
    replace (find_index (dt_entries T) h) with (find_index (dt_entries T') h); [reflexivity|].
    destruct H as [->|H]; [reflexivity|]. destruct (H h) as [N' N].
    { unfold fields_of. apply in_flat_map. eexists. split; [exact I|]. left. reflexivity. }
    rewrite !find_index_none by assumption. reflexivity. }
  clear H. induction b as [|e b IH]; [reflexivity|]. cbn [encode_block]. rewrite (G e (or_introl eq_refl)), IH; [reflexivity|].
  intros x I. apply G. right. exact I.
Qed.

Lemma build_same : forall T T' q,
  dt_entries T = dt_entries T' \/ (forall h, In h (fields_of (q_block q)) -> ~ In h (dt_entries T') /\ ~ In h (dt_entries T)) ->
  build_request T q = build_request T' q.
Proof.
  intros T T' q H. unfold build_request, mk_headers, headers_construct_payload. rewrite (encode_same _ T T' _ H). reflexivity.
Qed.

Lemma perform_built : forall host c q f, build_request (c_req c) q = Ok f ->
  perform host c q = let '(r, c1) := send_frame host c f in
    match r with Ok _ => update_request_dynamic_table c1 (q_block q) | _ => (r, c1) end.
Proof. intros host c q f B. unfold perform, get_request_dynamic_table. unfold build_request in B. rewrite B. reflexivity. Qed.

Lemma plain_builds : forall limit T q, dt_ok T -> request_ok (rfc_table T) q ->
  plain_block limit (of_table (rfc_table T)) (dt_max T) false (q_block q) -> exists f, build_request T q = Ok f.
Proof.
  intros limit T q K (Ls & Lp & Le & Ld & SZ) P. rewrite (of_rfc_table _ K) in *.
  destruct (block_means limit T (q_mode q) (q_block q) (rfc_table T) false P ltac:(reflexivity)) as (raw & E & _).
  unfold build_request, mk_headers.
  rewrite (headers_payload_wire (q_flags q) (q_block q) (q_mode q) T (q_padding q) (q_exclusive q) (q_dependency q)
      (q_weight q) raw) by (try assumption; lia). cbn [bind]. eauto.
Qed.

(* Frames built ahead are the frames that would be built in turn. *)
Theorem C86_same_frames_partial : forall host limit qs c, dt_ok (c_req c) ->
  let t := Table (dt_max (c_req c)) (dt_entries (c_req c)) in
  plain_requests limit t qs -> ahead_ok t t qs -> perform_ahead host c qs = perform_all host c qs.
Proof.
  intros host limit qs c K t P A. unfold perform_ahead, get_request_dynamic_table.
  remember (c_req c) as T0 eqn:E0.
  assert (G : forall c, dt_ok (c_req c) -> plain_requests limit (rfc_table (c_req c)) qs ->
    ahead_ok t (rfc_table (c_req c)) qs ->
    exists fs, build_requests T0 qs = Ok fs /\ send_built host c fs (map q_block qs) = perform_all host c qs).
  { clear c K P A E0. induction qs as [|q qs IH]; intros c K P A; [exists []; split; reflexivity|].
    destruct P as (Q & PB & P). destruct A as [A0 A].
    destruct (plain_builds limit (c_req c) q K Q PB) as (f & F).
    assert (F0 : build_request T0 q = Ok f).
    { rewrite <- F. apply build_same. subst t. cbn [t_entries rfc_table] in A0. destruct A0 as [X|X]; [left; symmetry; exact X|right].
      intros h I. destruct (X h I). auto. }
    pose proof (perform_built host c q f F) as PF.
    destruct (perform_plain host limit (c_req c) q K Q PB) as (out & T' & _ & K' & R' & _ & E). specialize (E c eq_refl).
    assert (B : exists fs, build_requests T0 qs = Ok fs).
    { destruct (IH (Client (c_tls c) T' (c_resp c)) K') as (fs & B & _); [cbn [c_req]; rewrite R'; exact P|cbn [c_req]; rewrite R'; exact A|].
      eauto. }
    destruct B as (fs & B). exists (f :: fs). cbn [build_requests]. rewrite F0, B. split; [reflexivity|].
    cbn [map send_built perform_all]. rewrite PF in *. clear PF.
    destruct (send_frame host c f) as [r c1]. destruct (send_raw_data c out) as [r' c1'].
    destruct r as [u| | |]; cbn [bind]; try reflexivity.
    destruct (update_request_dynamic_table c1 (q_block q)) as [r2 c2]. destruct r2 as [u2| | |]; try reflexivity.
    destruct r' as [u'| | |]; try discriminate E. injection E as _ ->.
    destruct (IH (Client (c_tls c1') T' (c_resp c1')) K') as (fs' & B' & S); [cbn [c_req]; rewrite R'; exact P|cbn [c_req]; rewrite R'; exact A|].
    rewrite B in B'. apply Ok_inj in B'. subst fs'. exact S. }
  subst T0. destruct (G c K P A) as (fs & B & S). rewrite B. exact S.
Qed.

(* So the server recovers the submitted fields. *)
Theorem C86_built_ahead_partial : forall host limit qs c c', perform_ahead host c qs = (Ok tt, c') -> dt_ok (c_req c) ->
  let before := Table (dt_max (c_req c)) (dt_entries (c_req c)) in
  let after := Table (dt_max (c_req c')) (dt_entries (c_req c')) in
  let submitted := map (fun q => fields_of (q_block q)) qs in
  plain_requests limit before qs -> ahead_ok before before qs ->
  exists out, tls_out (c_tls c') = tls_out (c_tls c) ++ out /\ server_reads limit before out submitted after /\
    (forall fss t, server_reads limit before out fss t -> fss = submitted /\ t = after).
Proof.
  intros host limit qs c c' H K before after submitted P A. subst before.
  rewrite (C86_same_frames_partial host limit qs c K P A) in H. exact (C52_request_table_partial host limit qs c c' H K P).
Qed.

Lemma request_wire : forall host T q raw, dt_ok T -> request_ok (rfc_table T) q -> encode_block (q_block q) (q_mode q) T = Ok raw ->
  let payload := headers_octets (q_flags q) (q_exclusive q) (q_dependency q) (q_weight q) raw (q_padding q) in
  let w := wire_frame HEADERS (q_flags q) 0 (q_stream q) payload in
  size payload < 2 ^ 24 /\ size w < 2 ^ 31 /\ exists f, build_request T q = Ok f /\ serialize host f = Ok w.
Proof.
  intros host T q raw K (Ls & Lp & Le & Ld & SZ) E. rewrite (of_rfc_table T K) in SZ. specialize (SZ raw E). cbv zeta.
  set (payload := headers_octets (q_flags q) (q_exclusive q) (q_dependency q) (q_weight q) raw (q_padding q)) in *.
  split; [exact SZ|]. split.
  - unfold wire_frame, wire_header. rewrite !size_app. unfold size at 1 2 3. rewrite !be_octets_len. cbn [length].
    change (2 ^ 24) with 16777216 in SZ. change (2 ^ 31) with 2147483648. clear -SZ. lia.
  - unfold build_request, mk_headers.
    rewrite (headers_payload_wire (q_flags q) (q_block q) (q_mode q) T (q_padding q) (q_exclusive q) (q_dependency q)
      (q_weight q) raw) by assumption. fold payload. cbn [bind]. eexists. split; [reflexivity|].
    assert (U : cast_to_fh_length (size payload) = size payload).
    { apply u32_small. change (2 ^ 24) with 16777216 in SZ. change (2 ^ 32) with 4294967296. clear -SZ. lia. }
    rewrite (serialize_wire host (HeadersFrame _ _ _ _ _) payload) by (try reflexivity; try exact Ls; exact U). reflexivity.
Qed.

(* Two frames built ahead, whatever the table: the first inserts a field, the
   second refers to what was the newest entry when it was built.  Both are sent,
   and the server reads the first frame's field again. *)
Theorem C86_stale_index_refuted : forall host limit c h old es q1 q2, dt_ok (c_req c) ->
  let t := Table (dt_max (c_req c)) (dt_entries (c_req c)) in
  request_ok t q1 -> request_ok t q2 ->
  dt_entries (c_req c) = old :: es -> ~ In old (map snd static_table_entries) ->
  is_octets (fst h) -> is_octets (snd h) -> ~ in_tables (c_req c) h -> fst h <> octets "accept-control-allow-origin" ->
  field_size h <= dt_max (c_req c) ->
  q_block q1 = [HEntry IncrementalIndexing (EHeader h)] -> q_block q2 = [HEntry Indexed (EHeader old)] ->
  exists out, server_reads limit t out [[h]; [h]] (insert t h) /\
    (forall fss t', server_reads limit t out fss t' -> fss <> [[h]; [old]]) /\
    (delivers (size out) (c_tls c) ->
     exists c', perform_ahead host c [q1; q2] = (Ok tt, c') /\ tls_out (c_tls c') = tls_out (c_tls c) ++ out).
Proof.
  intros host limit c h old es q1 q2 K t Q1 Q2 TE NS On Ov NI NM L B1 B2. subst t. fold (rfc_table (c_req c)) in *.
  set (T := c_req c) in *.
  destruct (literal_means Incremental h (q_mode q1) T On Ov NI NM) as (o1 & n & E1 & R & S). cbn [lib_prefix] in E1.
  assert (E2 : encode_header (HEntry Indexed (EHeader old)) (q_mode q2) T = Ok [0xbe]).
  { unfold encode_header. cbn [e_prefix get_header e_content bind]. change (hprefix_eqb Indexed SizeUpdate) with false. cbv iota.
    destruct (reverse_static_find old) as [i|] eqn:RS; [exfalso; apply NS, in_static; eauto|].
    rewrite TE. cbn [find_index]. rewrite (proj2 (header_eqb_eq old old) eq_refl). vm_compute. reflexivity. }
  assert (X1 : encode_block (q_block q1) (q_mode q1) T = Ok o1).
  { rewrite B1. cbn [encode_block]. rewrite E1. cbn [bind]. rewrite app_nil_r. reflexivity. }
  assert (X2 : encode_block (q_block q2) (q_mode q2) T = Ok [0xbe]).
  { rewrite B2. cbn [encode_block]. rewrite E2. reflexivity. }
  destruct (request_wire host T q1 o1 K Q1 X1) as (P1 & W1 & f1 & F1 & S1).
  destruct (request_wire host T q2 [0xbe] K Q2 X2) as (P2 & W2 & f2 & F2 & S2).
  cbv zeta in *.
  set (w1 := wire_frame HEADERS (q_flags q1) 0 (q_stream q1) _) in *.
  set (w2 := wire_frame HEADERS (q_flags q2) 0 (q_stream q2) _) in *.
  assert (SR : server_reads limit (rfc_table T) (w1 ++ w2) [[h]; [h]] (insert (rfc_table T) h)).
  { eapply reads_headers; [exact P1| |].
    - apply (one_repr _ _ _ _ _ (insert (rfc_table T) h) R). cbn [step_in]. rewrite S. destruct h. reflexivity.
    - rewrite <- (app_nil_r w2). eapply reads_headers; [exact P2| |constructor].
      eapply (one_repr limit _ _ (RIndexed 62)).
      + change 62 with (0xbe mod 2 ^ 7). apply repr_indexed; [exact (short_int 7 0xbe eq_refl eq_refl)|].
        do 2 eexists. split; [reflexivity|]. lia.
      + cbn [step_in]. replace (resolve_in rfc_static (insert (rfc_table T) h) 62) with (Some h); [reflexivity|].
        unfold insert, rfc_table. cbn [t_max t_entries keep]. destruct (N.leb_spec (field_size h) (dt_max T)); [reflexivity|lia]. }
  exists (w1 ++ w2). split; [exact SR|]. split.
  - intros fss t' SR'. destruct (server_reads_unique _ _ _ _ _ SR _ _ SR') as [<- _]. intros X. injection X as X.
    apply NI. right. rewrite TE. left. symmetry. exact X.
  - intros D. rewrite size_app in D.
    destruct (update_block_spec (q_block q1) T K) as (T1 & U1 & K1 & _). { rewrite B1. cbn. split; [lia|exact Logic.I]. }
    destruct (update_block_spec (q_block q2) T1 K1) as (T2 & U2 & _ & _). { rewrite B2. cbn. exact Logic.I. }
    destruct (send_raw_more c w1 (size w2) W1 D) as (c1 & Z1 & D1 & O1 & C1).
    destruct (send_raw_more (Client (c_tls c1) T1 (c_resp c1)) w2 0 W2) as (c2 & Z2 & _ & O2 & C2). { rewrite N.add_0_r. exact D1. }
    unfold perform_ahead, get_request_dynamic_table. fold T. cbn [build_requests map]. rewrite F1, F2. cbn [bind].
    cbn [send_built]. unfold send_frame. rewrite S1, Z1. unfold update_request_dynamic_table at 1. rewrite C1. fold T. rewrite U1.
    rewrite S2, Z2. unfold update_request_dynamic_table. rewrite C2. cbn [c_req]. rewrite U2.
    eexists. split; [reflexivity|]. cbn [c_tls] in *. rewrite O2, O1, app_assoc. reflexivity.
Qed.

(* Two requests built ahead: the first inserts "a: b", the second uses neither
   that entry nor any other; and the hypotheses of the counterexample. *)
Definition two_ahead : list request :=
  [ask 1 [HEntry Indexed (EHeader (octets ":method", octets "GET")); HEntry IncrementalIndexing (EHeader (octets "a", octets "b"))];
   ask 3 [HEntry Indexed (EHeader (octets ":method", octets "GET")); HEntry NeverIndexed (EHeader (octets "k", octets "v"))]].

Example C86_case : plain_requests 4096 (Table 4096 []) two_ahead /\ ahead_ok (Table 4096 []) (Table 4096 []) two_ahead.
Proof.
  assert (ST : in_static_valued (octets ":method", octets "GET")).
  { split; [|discriminate]. vm_compute. right; left. reflexivity. }
  cbn [two_ahead plain_requests ahead_ok]. split.
  - split; [eapply request_okb; [vm_compute; reflexivity|vm_compute; reflexivity]|]. split.
    { split; [left; exact ST|]. split; [apply fresh_check; vm_compute; reflexivity|]. split; [discriminate|exact I]. }
    split; [eapply request_okb; [vm_compute; reflexivity|vm_compute; reflexivity]|]. split; [|exact I].
    split; [left; exact ST|]. split; [right; apply fresh_check; vm_compute; reflexivity|exact I].
  - split; [left; reflexivity|]. split; [|exact I]. right. intros h J. split; [intros []|].
    vm_compute. intros [X|[]]. subst h. vm_compute in J. destruct J as [J|[J|[]]]; discriminate J.
Qed.

Example C86_refuted_case :
  let T := DynTable [(octets "x", octets "y")] 34 4096 in
  dt_ok T /\ request_ok (rfc_table T) (ask 1 [HEntry IncrementalIndexing (EHeader (octets "a", octets "b"))]) /\
  request_ok (rfc_table T) (ask 3 [HEntry Indexed (EHeader (octets "x", octets "y"))]) /\
  ~ In (octets "x", octets "y") (map snd static_table_entries) /\ ~ in_tables T (octets "a", octets "b").
Proof.
  cbv zeta. split; [split; [reflexivity|discriminate]|].
  split; [eapply request_okb; [vm_compute; reflexivity|vm_compute; reflexivity]|].
  split; [eapply request_okb; [vm_compute; reflexivity|vm_compute; reflexivity]|].
  split; [|apply in_tablesb_false; vm_compute; reflexivity].
  intros X. vm_compute in X. repeat (destruct X as [X|X]; [discriminate X|]). exact X.
Qed.

Print Assumptions C86_same_frames_partial.
Print Assumptions C86_built_ahead_partial.
Print Assumptions C86_stale_index_refuted.
