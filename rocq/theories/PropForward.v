(* Property C77: a received frame that is sent on. *)
From Coq Require Import String.
From Coq Require Import ZArith NArith List Bool Lia ZifyBool ZifyNat ZifyN Sorted.
From Verif Require Import Base Arith Util HeaderType DynTable HeaderEnc HeaderDec FrameHeader Frames FrameBuilder
  Ssl Client SpecBits SpecHpack SpecFrame UtilProofs HeaderProofs DynTableProofs FrameProofs PropFrame PropSsl PropClient.
Import ListNotations.
Local Open Scope string_scope.
Local Open Scope list_scope.
Local Open Scope N_scope.
Ltac Zify.zify_post_hook ::= Z.div_mod_to_equations.

Lemma high_bit_octet : forall a b c d, wf_bytes [a; b; c; d] -> a / 128 = be_value [a; b; c; d] / 2 ^ 31.
Proof.
  intros a b c d W. change (2 ^ 31) with 2147483648.
  assert (E : be_value [a; b; c; d] = a * 16777216 + b * 65536 + c * 256 + d).
  { unfold be_value. cbn. lia. }
  rewrite E. unfold wf_bytes in W. repeat (let H := fresh in pose proof (Forall_inv W) as H; apply Forall_inv_tail in W).
  unfold wf_byte in *. lia.
Qed.

Lemma rejoin : forall l, wf_bytes l -> size l = 4 -> be_octets 4 (be_value l / 2 ^ 31 * 2 ^ 31 + be_value l mod 2 ^ 31) = l.
Proof.
  intros l W S. replace (be_value l / 2 ^ 31 * 2 ^ 31 + be_value l mod 2 ^ 31) with (be_value l).
  - pose proof (be_octets_of l W) as E. unfold size in S. replace (length l) with 4%nat in E by lia. exact E.
  - pose proof (N.div_mod (be_value l) (2 ^ 31)) as E. change (2 ^ 31) with 2147483648 in *. lia.
Qed.

(* What is left of a payload when the frame object is serialised again. *)
Definition kept (type : N) (payload p : list N) : Prop :=
  if type =? PRIORITY then p = firstn 5 payload
  else if type =? RST_STREAM then p = firstn 4 payload
  else if type =? SETTINGS then exists params, Forall param_ok params /\ payload = settings_octets params /\
    p = settings_octets (fold_settings params [])
  else p = payload.

Lemma size4_split : forall l : list N, 4 <= size l -> exists a b c d r, l = [a; b; c; d] ++ r.
Proof.
  intros l S. destruct (split4 l S) as (h & r & -> & H). destruct (list4 h H) as (a & b & c & d & ->). eauto 6.
Qed.

Lemma built_payload : forall host m t h payload f, is_octets payload -> size payload < 2 ^ 24 ->
  build_frame m h payload t = Ok f -> exists p, payload_bytes host f = Ok p /\ kept (fh_type h) payload p.
Proof.
  intros host m t [len ty fl r sid] payload f O LT H. apply octets_wf in O. unfold build_frame in H. cbn [fh_type] in *.
  repeat match type of H with
  | (if ?ty =? ?c then _ else _) = _ => destruct (N.eqb_spec ty c) as [->|]
  end; try discriminate H.
  - apply Ok_inj in H. subst f. exists payload. split; reflexivity.
  - unfold build_headers_frame in H. destruct (parse_headers m _ payload t) eqn:E; try discriminate H; apply Ok_inj in H; subst f.
    + unfold parse_headers in E. apply bind_ok in E. destruct E as ([[pad pr] b] & _ & E). apply Ok_inj in E. subst. exists payload. split; reflexivity.
    + exists payload. split; reflexivity.
  - unfold parse_priority, priority_construct_payload in H. destruct (N.ltb_spec (size payload) 5) as [|S]; [discriminate H|].
    destruct (size4_split payload ltac:(lia)) as (a & b & c & d & q & ->).
    destruct q as [|w q]; [rewrite size_app in S; unfold size in S; cbn in S; lia|].
    apply wf_bytes_app in O. destruct O as [O _].
    rewrite (b2i4 [a; b; c; d] (w :: q) O eq_refl) in H. cbn [app] in H.
    assert (V0 : vget (a :: b :: c :: d :: w :: q) 0 = Ok a) by reflexivity.
    assert (V4 : vget (a :: b :: c :: d :: w :: q) 4 = Ok w) by (unfold vget; rewrite !size_cons; destruct (N.ltb_spec 4 (size q + 1 + 1 + 1 + 1 + 1)); [reflexivity|lia]).
    rewrite V0, V4 in H.
    cbn [bind] in H. unfold STREAM_ID_BITS in H. rewrite low31, high1_8, (high_bit_octet a b c d O) in H.
    apply bind_ok in H. destruct H as ([] & _ & H). apply Ok_inj in H. subst f.
    eexists. split; [reflexivity|]. unfold kept. change (T_PRIORITY =? PRIORITY) with true. cbv iota.
    cbn [p_exclusive p_dependency p_weight]. rewrite net_be, low1.
    pose proof (be4_lt [a; b; c; d] O eq_refl) as B.
    rewrite N.mod_small by (change (2 ^ 31) with 2147483648; change (2 ^ 32) with 4294967296 in B; lia).
    unfold STREAM_ID_BITS. rewrite join31 by apply mod31_lt. rewrite rejoin by (exact O || reflexivity). reflexivity.
  - unfold parse_rst_stream in H. destruct (N.ltb_spec (size payload) 4) as [|S]; [discriminate H|].
    destruct (split4 payload S) as (l & q & -> & SL). apply wf_bytes_app in O. destruct O as [O _].
    rewrite (b2i4 l q O SL) in H. cbn [bind] in H. apply Ok_inj in H. subst f.
    eexists. split; [reflexivity|]. unfold kept. change (T_RST_STREAM =? PRIORITY) with false. change (T_RST_STREAM =? RST_STREAM) with true. cbv iota.
    rewrite net_be. pose proof (be_octets_of l O) as E. unfold size in SL. replace (length l) with 4%nat in E by lia. rewrite E.
    replace 4%nat with (length l) by lia. rewrite firstn_app, firstn_all, Nat.sub_diag. cbn. rewrite app_nil_r. reflexivity.
  - unfold build_settings_frame in H. apply bind_ok in H. destruct H as (ps & E & H). apply Ok_inj in H. subst f.
    eexists. split; [cbn [mk_settings payload_bytes]; rewrite settings_payload_wire; reflexivity|].
    unfold kept. change (T_SETTINGS =? PRIORITY) with false. change (T_SETTINGS =? RST_STREAM) with false. change (T_SETTINGS =? SETTINGS) with true. cbv iota.
    pose proof (N.div_mod (size payload) 6 ltac:(discriminate)) as DM. pose proof (N.mod_lt (size payload) 6 ltac:(discriminate)) as ML.
    pose (k := N.to_nat (6 * (size payload / 6))). rewrite <- (firstn_skipn k payload) in O.
    apply wf_bytes_app in O. destruct O as [O1 O2].
    assert (S1 : size (firstn k payload) = 6 * N.of_nat (N.to_nat (size payload / 6))).
    { unfold size in *. rewrite firstn_length. unfold k. lia. }
    assert (S2 : size (skipn k payload) = size payload mod 6).
    { unfold size in *. rewrite skipn_length. unfold k. lia. }
    destruct (settings_of_octets _ _ O1 S1) as (params & P & OK & _).
    assert (PE : payload = settings_octets params ++ skipn k payload) by (rewrite <- P; symmetry; apply firstn_skipn).
    destruct (N.eq_dec (size payload mod 6) 0) as [Z|Z].
    + rewrite Z in S2. apply size_0 in S2. rewrite S2, app_nil_r in PE.
      rewrite PE in E. rewrite settings_loop_spec in E by (exact OK || apply Nat.le_refl).
      apply Ok_inj in E. subst ps. exists params. auto.
    + destruct (settings_loop_app_tail params (skipn k payload) (length payload) [] OK) as (u & U).
      * rewrite S2. lia.
      * exact O2.
      * rewrite <- PE. apply Nat.le_refl.
      * rewrite <- PE, E in U. discriminate U.
  - unfold parse_push_promise in H. apply bind_ok in H. destruct H as (p & _ & H). apply Ok_inj in H. subst f. exists payload. split; reflexivity.
  - unfold parse_ping in H. apply Ok_inj in H. subst f. exists payload. split; reflexivity.
  - unfold parse_goaway, goaway_construct_payload in H. destruct (N.ltb_spec (size payload) 8) as [|S]; [discriminate H|].
    destruct (split4 payload ltac:(lia)) as (l & q & -> & SL). rewrite size_app in S. destruct (split4 q ltac:(lia)) as (l2 & q2 & -> & SL2).
    apply wf_bytes_app in O. destruct O as [O O']. apply wf_bytes_app in O'. destruct O' as [O2 _].
    rewrite (b2i4 l _ O SL) in H. cbn [bind] in H.
    replace 4 with (size l) in H at 2 by exact SL. rewrite bytes2integral_spec in H by assumption. cbn [bind] in H.
    apply Ok_inj in H. subst f. cbn [payload_bytes]. unfold goaway_payload_bytes. cbn [g_reserved g_last_stream_id g_error_code g_debug].
    unfold RESERVED_BITS, STREAM_ID_BITS. rewrite high1_32, low31. pose proof (be4_lt l O SL) as B. rewrite u8_bit by exact B.
    unfold shl31. destruct (N.leb_spec 2 (be_value l / 2 ^ 31)) as [X|_].
    { exfalso. change (2 ^ 31) with 2147483648 in X. change (2 ^ 32) with 4294967296 in B. lia. }
    cbn [bind]. eexists. split; [reflexivity|]. change (kept T_GOAWAY) with (fun payload p : list N => p = payload). cbv beta.
    rewrite !net_be, !low31. unfold STREAM_ID_BITS.
    rewrite N.mod_small by apply mod31_lt. rewrite join31' by apply mod31_lt. rewrite rejoin by assumption.
    pose proof (be_octets_of l2 O2) as E. unfold size in SL2. replace (length l2) with 4%nat in E by lia. rewrite E, opt_debug.
    f_equal. f_equal. destruct (N.ltb_spec 8 (size (l ++ l2 ++ q2))) as [_|Y].
    + rewrite app_assoc. apply skipn_len_app. rewrite app_length. unfold size in *. lia.
    + rewrite !size_app in Y. symmetry. apply size_0. unfold size in *. lia.
  - unfold parse_window_update in H. destruct payload as [|b0 q]; [discriminate H|]. cbn [bind] in H.
    destruct (N.eqb_spec (size (b0 :: q)) 4) as [S|]; [|discriminate H]. cbn [negb] in H.
    destruct (list4 (b0 :: q) S) as (a & b & c & d & E). rewrite E in *. injection E as -> _.
    pose proof (b2i4 [a; b; c; d] [] O eq_refl) as B. rewrite app_nil_r in B. rewrite B in H. cbn [bind] in H.
    apply bind_ok in H. destruct H as ([] & _ & H). apply Ok_inj in H. subst f. cbn [payload_bytes].
    eexists. split; [reflexivity|]. change (kept T_WINDOW_UPDATE) with (fun payload p : list N => p = payload). cbv beta.
    unfold window_update_get_payload, RESERVED_BITS. rewrite net_be, low1, !low31, high1_8, (high_bit_octet a b c d O).
    pose proof (be4_lt [a; b; c; d] O eq_refl) as L4.
    rewrite (N.mod_small (_ / _)) by (change (2 ^ 31) with 2147483648; change (2 ^ 32) with 4294967296 in L4; lia).
    rewrite (N.mod_small (_ mod _)) by apply mod31_lt. rewrite join31 by apply mod31_lt. apply rejoin; [exact O|reflexivity].
  - unfold parse_continuation in H. apply bind_ok in H. destruct H as (b & _ & H). apply Ok_inj in H. subst f. exists payload. split; reflexivity.
Qed.

(* The frames of which the frame object keeps everything: no reserved bit on
   DATA and SETTINGS, no octets beyond the fields of PRIORITY and RST_STREAM,
   parameters of SETTINGS in strictly increasing order. *)
Definition forwardable (w : wframe) : Prop :=
  (w_type w = DATA -> w_reserved w = 0) /\
  (w_type w = PRIORITY -> size (w_payload w) = 5) /\
  (w_type w = RST_STREAM -> size (w_payload w) = 4) /\
  (w_type w = SETTINGS -> w_reserved w = 0 /\ exists params, std_map params /\ w_payload w = settings_octets params).

Lemma built_wire : forall host m t w f, wframe_ok w -> forwardable w ->
  build_frame m (header_of w) (w_payload w) t = Ok f -> serialize host f = Ok (wire w).
Proof.
  intros host m t w f (WT & WF & WR & WS & WO & WL) (FD & FP & FR & FS) B.
  destruct (built_payload host m t (header_of w) (w_payload w) f WO WL B) as (p & P & K).
  destruct (C46_dispatch m (header_of w) (w_payload w) t f B) as (_ & _ & HT & HF & HS & HE & HD & HM).
  cbn [header_of fh_type fh_flags fh_stream_id] in *.
  assert (KP : p = w_payload w).
  { unfold kept in K. destruct (N.eqb_spec (w_type w) PRIORITY) as [E|].
    { subst p. specialize (FP E). unfold size in FP. apply firstn_all2. lia. }
    destruct (N.eqb_spec (w_type w) RST_STREAM) as [E|].
    { subst p. specialize (FR E). unfold size in FR. apply firstn_all2. lia. }
    destruct (N.eqb_spec (w_type w) SETTINGS) as [E|]; [|exact K].
    destruct K as (ps & PO & PE & ->). destruct (FS E) as (_ & qs & (SS & QO) & QE). rewrite QE in PE.
    apply settings_octets_inj in PE; [|exact QO|exact PO]. subst qs. rewrite QE, fold_ordered_app by exact SS. reflexivity. }
  subst p.
  assert (LEN : fh_length (frame_fh f) = size (w_payload w) /\ fh_reserved (frame_fh f) = w_reserved w).
  { destruct (N.eq_dec (w_type w) DATA) as [E|ND].
    - destruct (HD E) as [-> _]. { eapply N.lt_trans; [exact WL|reflexivity]. } cbn. split; [reflexivity|]. symmetry. exact (FD E).
    - destruct (N.eq_dec (w_type w) SETTINGS) as [E|NS].
      + destruct (HM E) as (mp & ->). destruct (FS E) as (R0 & _). cbn [mk_settings frame_fh fh_length fh_reserved].
        split; [|symmetry; exact R0]. cbn [mk_settings payload_bytes] in P. rewrite settings_payload_wire in P. apply Ok_inj in P.
        rewrite <- P, settings_size. rewrite <- P, settings_size in WL. rewrite u32_small; [lia|].
        change (2 ^ 32) with 4294967296. change (2 ^ 24) with 16777216 in WL. lia.
      + rewrite (HE ND NS). cbn. auto. }
  destruct LEN as [L1 L2]. rewrite (serialize_wire host f (w_payload w) P).
  - rewrite HT, HF, HS, L2. reflexivity.
  - rewrite HS. exact WS.
  - exact L1.
  - rewrite L2. exact WR.
Qed.

(* Whatever was received and is sent on, to any connection: the octets written
   are those that were received. *)
Theorem C77_forwarded_partial : forall host m c w rest f c' d r d', wframe_ok w -> forwardable w ->
  tls_in (c_tls c) = wire w ++ rest -> receive_frame m c = (Ok f, c') -> send_frame host d f = (r, d') ->
  (r = Ok tt /\ tls_out (c_tls d') = tls_out (c_tls d) ++ wire w) \/
  (r = Throw RuntimeError /\ exists k, (k < length (wire w))%nat /\
     tls_out (c_tls d') = tls_out (c_tls d) ++ firstn k (wire w)).
Proof.
  intros host m c w rest f c' d r d' W F I R S.
  destruct (C49_any_schedule m c w rest W I) as (r0 & c0 & R0 & _ & [[_ B]|[E _]]); rewrite R in R0; injection R0 as <- <-; [|discriminate E].
  specialize (B f eq_refl). pose proof (built_wire host m (c_resp c) w f W F B) as Z.
  destruct (C54_send_exact host d (SendFrame f) r d' S) as (_ & _ & _ & [(x & T & RR & O)|[(x & k & T & RR & K & O)|(N & _ & _)]]);
    try (cbn [to_send] in T; rewrite Z in T; apply Ok_inj in T; subst x).
  - left. auto.
  - right. split; [exact RR|]. eauto.
  - exfalso. apply (N (wire w)). exact Z.
Qed.

(* ---- what is not sent on as it was received ---- *)

Lemma wire_inj_payload : forall host f w p q, payload_bytes host f = Ok p -> serialize host f = Ok (wire w) ->
  q = w_payload w -> p = q.
Proof.
  intros host f w p q P S ->. unfold serialize in S. rewrite P in S. cbn [bind] in S. apply Ok_inj in S.
  unfold wire, wire_frame in S. pose proof (serialize_fh_size host (frame_fh f)) as S1.
  pose proof (wire_header_size (N.of_nat (length (w_payload w))) (w_type w) (w_flags w) (w_reserved w) (w_stream w)) as S2.
  apply app_split in S; [apply S|]. unfold size in *. lia.
Qed.

Lemma received_built : forall m c w rest f, wframe_ok w -> tls_in (c_tls c) = wire w ++ rest -> delivers (size (wire w)) (c_tls c) ->
  build_frame m (header_of w) (w_payload w) (c_resp c) = Ok f -> fst (update_frame (c_resp c) f) = Ok tt ->
  exists c', receive_frame m c = (Ok f, c').
Proof.
  intros m c w rest f W I D B U. destruct (receive_complete m c w rest 0 W I) as (s' & _ & _ & _ & R).
  { rewrite N.add_0_r. exact D. }
  unfold handled in R. rewrite B in R. destruct (update_frame (c_resp c) f) as [u t']. cbn [fst] in U. subst u. cbn in R. eauto.
Qed.

(* The extra octets of a PRIORITY or RST_STREAM frame are dropped, but counted in
   the length: whoever receives the result takes octets of the next frame for
   them. *)
Theorem C77_longer_refuted : forall host m c w rest n, wframe_ok w ->
  (w_type w = PRIORITY /\ n = 5%nat) \/ (w_type w = RST_STREAM /\ n = 4%nat) -> (n < length (w_payload w))%nat ->
  tls_in (c_tls c) = wire w ++ rest -> delivers (size (wire w)) (c_tls c) ->
  exists f c', receive_frame m c = (Ok f, c') /\
    serialize host f = Ok (wire_header (size (w_payload w)) (w_type w) (w_flags w) (w_reserved w) (w_stream w) ++
                           firstn n (w_payload w)) /\
    serialize host f <> Ok (wire w).
Proof.
  intros host m c w rest n W T L I D.
  assert (B : exists f, build_frame m (header_of w) (w_payload w) (c_resp c) = Ok f /\ fst (update_frame (c_resp c) f) = Ok tt).
  { destruct W as (_ & _ & _ & _ & O & _). apply octets_wf in O.
    unfold build_frame, header_of. cbn [fh_type]. destruct T as [[-> ->]|[-> ->]].
    - change (PRIORITY =? T_DATA) with false. change (PRIORITY =? T_HEADERS) with false. change (PRIORITY =? T_PRIORITY) with true. cbv iota.
      unfold parse_priority, priority_construct_payload. destruct (N.ltb_spec (size (w_payload w)) 5) as [X|_]; [unfold size in X; lia|].
      destruct (b2i_len 4 (w_payload w) 0) as (x & X & _). { unfold size. lia. } { exact O. }
      unfold vget. destruct (N.ltb_spec 0 (size (w_payload w))) as [_|Y]; [|unfold size in Y; lia].
      destruct (N.ltb_spec 4 (size (w_payload w))) as [_|Y]; [|unfold size in Y; lia]. rewrite X. cbn [bind].
      unfold validate_priority. cbn [p_exclusive p_dependency].
      assert (B0 : nth (N.to_nat 0) (w_payload w) 0 < 256).
      { destruct (w_payload w) as [|a l]; [cbn; lia|]. exact (Forall_inv O). }
      rewrite high1_8. unfold STREAM_ID_BITS. rewrite low31. pose proof (mod31_lt x) as M. unfold MAX_STREAM_ID.
      destruct (N.ltb_spec 1 (nth (N.to_nat 0) (w_payload w) 0 / 128)) as [Y|_]; [lia|].
      destruct (N.ltb_spec 0x7fffffff (x mod 2 ^ 31)) as [Y|_]; [change (2 ^ 31) with 2147483648 in *; lia|].
      cbn [bind]. eexists. split; reflexivity.
    - change (RST_STREAM =? T_DATA) with false. change (RST_STREAM =? T_HEADERS) with false. change (RST_STREAM =? T_PRIORITY) with false.
      change (RST_STREAM =? T_RST_STREAM) with true. cbv iota.
      unfold parse_rst_stream. destruct (N.ltb_spec (size (w_payload w)) 4) as [X|_]; [unfold size in X; lia|].
      destruct (b2i_len 4 (w_payload w) 0) as (x & X & _). { unfold size. lia. } { exact O. }
      rewrite X. cbn [bind]. eexists. split; reflexivity. }
  destruct B as (f & B & U). destruct (received_built m c w rest f W I D B U) as (c' & R). exists f, c'. split; [exact R|].
  destruct W as (WT & WF & WR & WS & WO & WL).
  destruct (built_payload host m (c_resp c) (header_of w) (w_payload w) f WO WL B) as (p & P & K).
  assert (KP : p = firstn n (w_payload w)).
  { unfold kept in K. cbn [header_of fh_type] in K. destruct T as [[E ->]|[E ->]]; rewrite E in K; exact K. }
  destruct (C46_dispatch m (header_of w) (w_payload w) (c_resp c) f B) as (_ & _ & _ & _ & _ & HE & _).
  assert (HH : frame_fh f = header_of w).
  { apply HE; cbn [header_of fh_type]; destruct T as [[-> _]|[-> _]]; discriminate. }
  split.
  - unfold serialize. rewrite P, HH, KP. cbn [bind]. rewrite serialize_fh_wire by exact WS.
    cbn [header_of fh_length fh_type fh_flags fh_reserved fh_stream_id]. rewrite N.mod_small by exact WR. reflexivity.
  - intros S. pose proof (wire_inj_payload host f w p _ P S eq_refl) as E. rewrite KP in E. apply (f_equal (@length N)) in E.
    rewrite firstn_length in E. lia.
Qed.

(* SETTINGS whose identifiers are not strictly increasing are sent on in
   increasing order, without the repeated ones. *)
Theorem C77_settings_refuted : forall host m c w rest params, wframe_ok w -> w_type w = SETTINGS ->
  w_payload w = settings_octets params -> Forall (fun p => fst p < 2 ^ 16 /\ snd p < 2 ^ 32) params ->
  ~ StronglySorted N.lt (map fst params) -> dt_ok (c_resp c) ->
  tls_in (c_tls c) = wire w ++ rest -> delivers (size (wire w)) (c_tls c) ->
  exists f c', receive_frame m c = (Ok f, c') /\ serialize host f <> Ok (wire w).
Proof.
  intros host m c w rest params W T PE PO NS K I D.
  assert (B : build_frame m (header_of w) (w_payload w) (c_resp c) = Ok (mk_settings (w_flags w) (w_stream w) (fold_settings params []))).
  { unfold build_frame, header_of. cbn [fh_type]. rewrite T.
    change (SETTINGS =? T_DATA) with false. change (SETTINGS =? T_HEADERS) with false. change (SETTINGS =? T_PRIORITY) with false.
    change (SETTINGS =? T_RST_STREAM) with false. change (SETTINGS =? T_SETTINGS) with true. cbv iota.
    unfold build_settings_frame. rewrite PE, settings_loop_spec by (exact PO || apply Nat.le_refl). reflexivity. }
  assert (U : fst (update_frame (c_resp c) (mk_settings (w_flags w) (w_stream w) (fold_settings params []))) = Ok tt).
  { unfold update_frame, mk_settings. cbn [frame_fh fh_type]. change (T_SETTINGS =? T_HEADERS) with false.
    change (T_SETTINGS =? T_PUSH_PROMISE) with false. change (T_SETTINGS =? T_CONTINUATION) with false.
    change (T_SETTINGS =? T_SETTINGS) with true. cbv iota. destruct (sm_find _ 1) as [n|]; [|reflexivity].
    rewrite (dt_update_spec _ n K). reflexivity. }
  destruct (received_built m c w rest _ W I D B U) as (c' & R). eexists _, c'. split; [exact R|].
  intros S. destruct W as (WT & WF & WR & WS & WO & WL).
  assert (P : payload_bytes host (mk_settings (w_flags w) (w_stream w) (fold_settings params [])) = Ok (settings_octets (fold_settings params []))).
  { cbn [mk_settings payload_bytes]. rewrite settings_payload_wire. reflexivity. }
  pose proof (wire_inj_payload host _ w _ _ P S eq_refl) as E. rewrite PE in E.
  destruct (C38_make_sf_payload params PO) as ((SS & QO) & _). change (make_sf_payload params) with (fold_settings params []) in SS, QO.
  apply settings_octets_inj in E; [|exact QO|exact PO]. rewrite E in SS. exact (NS SS).
Qed.

(* The reserved bit of a DATA frame is cleared. *)
Theorem C77_reserved_refuted : forall host m c w rest, wframe_ok w -> w_type w = DATA -> w_reserved w = 1 ->
  tls_in (c_tls c) = wire w ++ rest -> delivers (size (wire w)) (c_tls c) ->
  exists f c', receive_frame m c = (Ok f, c') /\
    serialize host f = Ok (wire_frame DATA (w_flags w) 0 (w_stream w) (w_payload w)) /\ serialize host f <> Ok (wire w).
Proof.
  intros host m c w rest W T R1 I D.
  assert (B : build_frame m (header_of w) (w_payload w) (c_resp c) = Ok (mk_data (w_flags w) (w_stream w) (w_payload w))).
  { unfold build_frame, header_of. cbn [fh_type]. rewrite T. reflexivity. }
  destruct (received_built m c w rest _ W I D B eq_refl) as (c' & R). eexists _, c'. split; [exact R|].
  destruct W as (WT & WF & WR & WS & WO & WL).
  assert (S : serialize host (mk_data (w_flags w) (w_stream w) (w_payload w)) = Ok (wire_frame DATA (w_flags w) 0 (w_stream w) (w_payload w))).
  { apply (C32_data_roundtrip host m (c_resp c)); assumption. }
  split; [exact S|]. rewrite S. intros E. apply Ok_inj in E. unfold wire, wire_frame in E. rewrite T, R1 in E.
  apply app_inv_tail in E. unfold wire_header in E. apply app_inv_head in E. apply app_inv_head in E.
  apply (f_equal be_value) in E. rewrite !be_octets_value in E. change (256 ^ N.of_nat 4) with 4294967296 in E.
  change (2 ^ 31) with 2147483648 in *. rewrite !N.mod_small in E by (clear -WS; lia). clear -E. lia.
Qed.

Example C77_case :
  let w := WFrame GOAWAY 0 1 0 [128; 0; 0; 7; 0; 0; 0; 11; 98; 121; 101] in
  let p := WFrame SETTINGS 0 0 0 (settings_octets [(1, 4096); (4, 65535)]) in
  let c := new_client (Tls (wire w ++ wire p) [] (repeat (Chunk 2) 60)) in
  wframe_ok w /\ forwardable w /\ wframe_ok p /\ forwardable p /\
  exists f g c1 c2, receive_frame Strict c = (Ok f, c1) /\ receive_frame Strict c1 = (Ok g, c2) /\
    serialize BigEndian f = Ok (wire w) /\ serialize BigEndian g = Ok (wire p).
Proof.
  cbv zeta. split; [|split; [|split; [|split]]].
  - unfold wframe_ok. cbn [w_type w_flags w_reserved w_stream w_payload]. repeat (split; [reflexivity|]). split; [|reflexivity].
    intros b H. repeat (destruct H as [<-|H]; [reflexivity|]). destruct H.
  - unfold forwardable. cbn [w_type w_payload w_reserved]. repeat split; try discriminate; intros; discriminate.
  - unfold wframe_ok. cbn [w_type w_flags w_reserved w_stream w_payload]. repeat (split; [reflexivity|]). split; [|reflexivity].
    intros b H. vm_compute in H. repeat (destruct H as [<-|H]; [reflexivity|]). destruct H.
  - unfold forwardable. cbn [w_type w_payload w_reserved]. repeat split; try discriminate. exists [(1, 4096); (4, 65535)].
    split; [|reflexivity]. split; repeat constructor.
  - eexists _, _, _, _. split; [vm_compute; reflexivity|]. split; [vm_compute; reflexivity|]. split; vm_compute; reflexivity.
Qed.

(* an over-long RST_STREAM swallows the start of what follows *)
Example C77_longer_case :
  let w := WFrame RST_STREAM 0 0 5 [0; 0; 0; 8; 9; 9] in
  wframe_ok w /\ exists f c', receive_frame Strict (new_client (Tls (wire w) [] (repeat (Chunk 2) 60))) = (Ok f, c') /\
    serialize LittleEndian f = Ok [0; 0; 6; 3; 0; 0; 0; 0; 5; 0; 0; 0; 8].
Proof.
  cbv zeta. split.
  - unfold wframe_ok. cbn [w_type w_flags w_reserved w_stream w_payload]. repeat (split; [reflexivity|]). split; [|reflexivity].
    intros b H. repeat (destruct H as [<-|H]; [reflexivity|]). destruct H.
  - eexists _, _. split; vm_compute; reflexivity.
Qed.

Print Assumptions C77_forwarded_partial.
Print Assumptions C77_longer_refuted.
Print Assumptions C77_settings_refuted.
Print Assumptions C77_reserved_refuted.
