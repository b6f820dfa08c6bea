(* C85: what get_header() and get_payload() tell the user about a frame that was
   received, or about one that they built. *)
From Coq Require Import String.
From Coq Require Import ZArith NArith List Bool Lia ZifyBool ZifyNat ZifyN.
From Verif Require Import Base Arith Util HeaderType DynTable HeaderEnc HeaderDec FrameHeader Frames FrameBuilder Access
  SpecBits SpecHpack SpecFrame UtilProofs BitsProofs DynTableProofs HeaderProofs HeaderProofs2 PropHeader FrameProofs BlockProofs PropFrame
  PropBlock Ssl Client PropSsl PropClient PropForward PropEntry.
From Verif Require PropHistory.
Import ListNotations.
Local Open Scope string_scope.
Local Open Scope list_scope.
Local Open Scope N_scope.
Ltac Zify.zify_post_hook ::= Z.div_mod_to_equations.

(* ---- specification: RFC 7540 section 6 ---- *)

(* What a frame carries, for its receiver. *)
Inductive content :=
| Data (d : list N)
| Priority (exclusive dependency weight : N)
| Reset (error_code : N)
| Settings (params : list (N * N))
| Ping (d : list N)
| Goaway_ (last error_code : N) (debug : list N)
| Window (increment : N)
| Fields (fs : list field)
| Promise (promised : N) (fs : list field).

(* The payload octets of a frame with these flags carry this content; limit and
   t are the receiver's limit on the table size and its table. *)
Inductive carries (limit : N) (t : table) (flags : N) : N -> list N -> content -> Prop :=
| carries_data d : has_padded flags = false -> carries limit t flags DATA d (Data d)
| carries_padded d padding : has_padded flags = true -> size padding < 2 ^ 8 ->
    carries limit t flags DATA (size padding :: d ++ padding) (Data d)
| carries_priority e dep w : e < 2 -> dep < 2 ^ 31 -> w < 2 ^ 8 ->
    carries limit t flags PRIORITY (priority_fields e dep w) (Priority e dep w)
| carries_reset ec : ec < 2 ^ 32 -> carries limit t flags RST_STREAM (rst_stream_octets ec) (Reset ec)
| carries_settings params : Forall (fun p => fst p < 2 ^ 16 /\ snd p < 2 ^ 32) params ->
    carries limit t flags SETTINGS (settings_octets params) (Settings params)
| carries_ping d : size d = 8 -> carries limit t flags PING d (Ping d)
| carries_goaway r last ec debug : r < 2 -> last < 2 ^ 31 -> ec < 2 ^ 32 ->
    carries limit t flags GOAWAY (goaway_octets r last ec debug) (Goaway_ last ec debug)
| carries_window r inc : r < 2 -> inc < 2 ^ 31 ->
    carries limit t flags WINDOW_UPDATE (window_update_octets r inc) (Window inc)
| carries_headers e dep w fragment padding fs t' : size padding < 2 ^ 8 -> e < 2 -> dep < 2 ^ 31 -> w < 2 ^ 8 ->
    rfc_block limit t fragment fs t' ->
    carries limit t flags HEADERS (headers_octets flags e dep w fragment padding) (Fields fs)
| carries_promise r promised fragment padding fs t' : size padding < 2 ^ 8 -> r < 2 -> promised < 2 ^ 31 ->
    rfc_block limit t fragment fs t' ->
    carries limit t flags PUSH_PROMISE (push_promise_octets flags r promised fragment padding) (Promise promised fs)
| carries_continuation fragment fs t' : rfc_block limit t fragment fs t' ->
    carries limit t flags CONTINUATION fragment (Fields fs).

(* The value returned by get_payload() describes this content; a repeated
   setting has the value that came last (section 6.5.3). *)
Inductive shows : payload_view -> content -> Prop :=
| shows_data d : shows (VBytes d) (Data d)
| shows_priority e dep w : shows (VPriority (Prio e dep w)) (Priority e dep w)
| shows_reset ec : shows (VCode ec) (Reset ec)
| shows_settings m params : (forall id, sm_find m id = last_value params id) -> shows (VSettings m) (Settings params)
| shows_ping d : shows (VBytes d) (Ping d)
| shows_goaway r last ec debug : shows (VGoaway (Goaway r last ec debug)) (Goaway_ last ec debug)
| shows_window inc : shows (VWindow inc) (Window inc)
| shows_fields b : shows (VBlock b) (Fields (fields_of b))
| shows_promise r promised b padding : shows (VPromise (PushPromise r promised b padding)) (Promise promised (fields_of b)).

(* ---- the frame built from a payload, whatever the frame header ---- *)

Section Parse.
Set Default Proof Using "Type".
Variables (m : ub_mode) (h : frame_header) (t : dyn_table).

Lemma build_priority : forall e dep w, fh_type h = PRIORITY -> e < 2 -> dep < 2 ^ 31 ->
  build_frame m h (priority_fields e dep w) t = Ok (PriorityFrame h (Prio e dep w)).
Proof.
  intros e dep w T E D. unfold build_frame. rewrite T.
  change (PRIORITY =? T_DATA) with false. change (PRIORITY =? T_HEADERS) with false.
  change (PRIORITY =? T_PRIORITY) with true. cbv iota.
  assert (V : validate_priority (Prio e dep w) = Ok tt).
  { unfold validate_priority, MAX_STREAM_ID. cbn [p_exclusive p_dependency]. change (2 ^ 31) with 2147483648 in D.
    destruct (N.ltb_spec 1 e); [lia|]. destruct (N.ltb_spec 0x7fffffff dep); [lia|reflexivity]. }
  assert (Z : size (priority_fields e dep w) = 5).
  { unfold priority_fields. rewrite size_app, be_octets_size. reflexivity. }
  unfold parse_priority, priority_construct_payload. rewrite Z. change (5 <? 5) with false. cbv iota.
  destruct (be4_first e dep E D) as (b & tl & Q & B & _).
  assert (G0 : vget (priority_fields e dep w) 0 = Ok b).
  { unfold vget. rewrite Z. change (0 <? 5) with true. cbv iota. unfold priority_fields. rewrite Q. reflexivity. }
  assert (G4 : vget (priority_fields e dep w) 4 = Ok w).
  { unfold vget. rewrite Z. reflexivity. }
  rewrite G0, G4. cbn [bind]. unfold priority_fields. rewrite be4_round by (apply join_lt; assumption). cbn [bind].
  unfold STREAM_ID_BITS. rewrite high1_8, B, low31, join_low by exact D. rewrite V. reflexivity.
Qed.

Lemma build_rst_stream : forall ec, fh_type h = RST_STREAM -> ec < 2 ^ 32 ->
  build_frame m h (rst_stream_octets ec) t = Ok (RstStreamFrame h ec).
Proof.
  intros ec T E. unfold build_frame. rewrite T. change (RST_STREAM =? T_DATA) with false. change (RST_STREAM =? T_HEADERS) with false.
  change (RST_STREAM =? T_PRIORITY) with false. change (RST_STREAM =? T_RST_STREAM) with true. cbv iota.
  unfold parse_rst_stream, rst_stream_octets. rewrite be_octets_size. change (N.of_nat 4 <? 4) with false. cbv iota.
  rewrite <- (app_nil_r (be_octets 4 ec)), be4_round by exact E. reflexivity.
Qed.

Lemma build_goaway : forall r last ec debug, fh_type h = GOAWAY -> r < 2 -> last < 2 ^ 31 -> ec < 2 ^ 32 ->
  build_frame m h (goaway_octets r last ec debug) t = Ok (GoawayFrame h (Goaway r last ec debug)).
Proof.
  intros r last ec debug T R L E. unfold build_frame. rewrite T.
  assert (Z : size (goaway_octets r last ec debug) = 8 + size debug).
  { unfold goaway_octets. rewrite !size_app, !be_octets_size. lia. }
  change (GOAWAY =? T_DATA) with false. change (GOAWAY =? T_HEADERS) with false.
  change (GOAWAY =? T_PRIORITY) with false. change (GOAWAY =? T_RST_STREAM) with false.
  change (GOAWAY =? T_SETTINGS) with false. change (GOAWAY =? T_PUSH_PROMISE) with false.
  change (GOAWAY =? T_PING) with false. change (GOAWAY =? T_GOAWAY) with true. cbv iota.
  unfold parse_goaway, goaway_construct_payload.
  rewrite Z. destruct (N.ltb_spec (8 + size debug) 8); [lia|].
  unfold goaway_octets. rewrite be4_round by (apply join_lt; assumption). cbn [bind].
  assert (X : bytes2integral 4 (be_octets 4 (r * 2 ^ 31 + last) ++ be_octets 4 ec ++ debug) 4 = Ok ec).
  { change 4 with (size (be_octets 4 (r * 2 ^ 31 + last))) at 2.
    rewrite bytes2integral_spec by (apply be_octets_wf || apply be_octets_size).
    rewrite be_octets_value, mod32 by exact E. reflexivity. }
  rewrite X. cbn [bind].
  assert (Y : (if 8 <? 8 + size debug then skipn 8 (be_octets 4 (r * 2 ^ 31 + last) ++ be_octets 4 ec ++ debug) else []) = debug).
  { destruct (N.ltb_spec 8 (8 + size debug)).
    - rewrite app_assoc. apply skipn_len_app. reflexivity.
    - symmetry. apply size_0. lia. }
  rewrite Y. unfold RESERVED_BITS, STREAM_ID_BITS.
  rewrite high1_32, low31, join_high, join_low by exact L.
  rewrite u8_small by lia. reflexivity.
Qed.

Lemma build_window : forall r inc, fh_type h = WINDOW_UPDATE -> r < 2 -> inc < 2 ^ 31 ->
  build_frame m h (window_update_octets r inc) t = Ok (WindowUpdateFrame h r inc).
Proof.
  intros r inc T R I. unfold build_frame. rewrite T.
  assert (V : validate_window_size inc = Ok tt).
  { unfold validate_window_size. change (2 ^ 31) with 2147483648 in I.
    destruct (N.ltb_spec 0x7fffffff inc); [lia|reflexivity]. }
  assert (Z : size (window_update_octets r inc) = 4) by (apply be_octets_size).
  change (WINDOW_UPDATE =? T_DATA) with false. change (WINDOW_UPDATE =? T_HEADERS) with false.
  change (WINDOW_UPDATE =? T_PRIORITY) with false. change (WINDOW_UPDATE =? T_RST_STREAM) with false.
  change (WINDOW_UPDATE =? T_SETTINGS) with false. change (WINDOW_UPDATE =? T_PUSH_PROMISE) with false.
  change (WINDOW_UPDATE =? T_PING) with false. change (WINDOW_UPDATE =? T_GOAWAY) with false.
  change (WINDOW_UPDATE =? T_WINDOW_UPDATE) with true. cbv iota.
  unfold parse_window_update. rewrite Z. change (negb (4 =? 4)) with false. cbv iota.
  destruct (be4_first r inc R I) as (b & tl & Q & B & _).
  pose proof (be4_round (r * 2 ^ 31 + inc) [] ltac:(apply join_lt; assumption)) as V4. rewrite app_nil_r in V4.
  unfold window_update_octets. rewrite V4. rewrite Q. cbn [bind].
  unfold RESERVED_BITS. rewrite high1_8, B, low31, join_low by exact I. rewrite V. reflexivity.
Qed.

Lemma build_settings : forall params, fh_type h = SETTINGS -> Forall (fun p => fst p < 2 ^ 16 /\ snd p < 2 ^ 32) params ->
  build_frame m h (settings_octets params) t = Ok (mk_settings (fh_flags h) (fh_stream_id h) (fold_settings params [])).
Proof.
  intros params T P. unfold build_frame. rewrite T.
  change (SETTINGS =? T_DATA) with false. change (SETTINGS =? T_HEADERS) with false. change (SETTINGS =? T_PRIORITY) with false.
  change (SETTINGS =? T_RST_STREAM) with false. change (SETTINGS =? T_SETTINGS) with true. cbv iota.
  unfold build_settings_frame. rewrite settings_loop_spec by (exact P || apply Nat.le_refl). reflexivity.
Qed.

End Parse.

Lemma window_view : forall r inc, r < 2 -> inc < 2 ^ 31 -> window_update_get_payload r inc = r * 2 ^ 31 + inc.
Proof.
  intros r inc R I. unfold window_update_get_payload, RESERVED_BITS.
  rewrite low1, low31, (N.mod_small r) by exact R. rewrite (N.mod_small inc), join31 by exact I. reflexivity.
Qed.

Lemma insert_size : forall m k v, ~ In k (map fst m) -> size (sm_insert m k v) = size m + 1.
Proof.
  induction m as [|[a b] m IH]; intros k v N; cbn [sm_insert]; [reflexivity|]. cbn [map fst In] in N.
  destruct (N.ltb_spec k a).
  - unfold size. cbn [length]. lia.
  - destruct (N.eqb_spec k a) as [->|]; [tauto|]. specialize (IH k v ltac:(tauto)). unfold size in *. cbn [length]. lia.
Qed.

Lemma fold_size : forall l m, NoDup (map fst (l ++ m)) -> size (fold_settings l m) = size l + size m.
Proof.
  unfold fold_settings. induction l as [|[k v] l IH]; intros m D; cbn [fold_left]; [reflexivity|].
  cbn [app map fst] in D. inversion D as [|? ? NI D']; subst. rewrite map_app in NI, D'.
  assert (NM : ~ In k (map fst m)) by (intros X; apply NI; apply in_or_app; right; exact X).
  cbn [fst snd]. rewrite IH.
  - rewrite insert_size by exact NM. unfold size. cbn [length]. lia.
  - rewrite map_app. revert NI D'. generalize (map fst l) as ks. clear -NM. induction ks as [|a ks IHk]; intros NI D; cbn [app] in *.
    + clear NI. revert NM D. induction m as [|[a b] m IHm]; intros NM D; cbn [sm_insert map fst] in *; [repeat constructor; intros []|].
      destruct (N.ltb_spec k a); [cbn [map fst]; constructor; assumption|].
      destruct (N.eqb_spec k a) as [->|]; [cbn in NM; tauto|]. cbn [map fst].
      inversion D as [|? ? NI' D2]; subst. constructor.
      * intros X. apply sm_insert_keys in X. destruct X as [X|X]; [congruence|exact (NI' X)].
      * apply IHm; [cbn in NM; tauto|exact D2].
    + inversion D as [|? ? NI' D2]; subst. constructor.
      * intros X. apply in_app_or in X. destruct X as [X|X]; [apply NI'; apply in_or_app; left; exact X|].
        apply sm_insert_keys in X. destruct X as [->|X]; [apply NI; left; reflexivity|apply NI'; apply in_or_app; right; exact X].
      * apply IHk; [|exact D2]. intros X. apply NI. right. exact X.
Qed.

Lemma settings_octets_size : forall params, size (settings_octets params) = 6 * size params.
Proof.
  induction params as [|[k v] ps IH]; [reflexivity|]. unfold settings_octets in *. cbn [flat_map fst snd].
  rewrite !size_app, !be_octets_size, IH. unfold size. cbn [length]. lia.
Qed.

Lemma shows_data_inv : forall a b, shows (VBytes a) (Data b) -> a = b.
Proof. intros a b X. inversion X. reflexivity. Qed.

Lemma shows_window_inv : forall a b, shows (VWindow a) (Window b) -> a = b.
Proof. intros a b X. inversion X. reflexivity. Qed.

(* ---- C85 ---- *)

(* A frame other than a header-block frame: DATA without padding, WINDOW_UPDATE
   with the reserved bit clear, SETTINGS without repeated identifiers. *)
Definition plain_content (flags : N) (payload : list N) (x : content) : Prop :=
  match x with
  | Data _ => has_padded flags = false
  | Window inc => payload = window_update_octets 0 inc
  | Settings params => NoDup (map fst params)
  | Fields _ | Promise _ _ => False
  | _ => True
  end.

(* It is accepted; get_payload() describes what it carries, and get_header() is
   the header that was received, except for the reserved bit of DATA and
   SETTINGS frames. *)
Theorem C85_received_partial : forall m c w rest limit x, wframe_ok w -> dt_ok (c_resp c) ->
  carries limit (rfc_table (c_resp c)) (w_flags w) (w_type w) (w_payload w) x ->
  plain_content (w_flags w) (w_payload w) x ->
  tls_in (c_tls c) = wire w ++ rest -> delivers (size (wire w)) (c_tls c) ->
  exists f c', receive_frame m c = (Ok f, c') /\ shows (get_payload f) x /\
    get_header f = FH (size (w_payload w)) (w_type w) (w_flags w)
      (if (w_type w =? DATA) || (w_type w =? SETTINGS) then 0 else w_reserved w) (w_stream w).
Proof.
  intros m c w rest limit x W K C P I D.
  assert (B : exists f, build_frame m (header_of w) (w_payload w) (c_resp c) = Ok f /\ fst (update_frame (c_resp c) f) = Ok tt /\
    shows (get_payload f) x /\ get_header f = FH (size (w_payload w)) (w_type w) (w_flags w)
      (if (w_type w =? DATA) || (w_type w =? SETTINGS) then 0 else w_reserved w) (w_stream w)).
  { pose proof W as (WT & WF & WR & WS & WO & WL). destruct w as [ty fl r sid pl].
    cbn [w_type w_flags w_payload w_stream w_reserved header_of] in *. unfold header_of. cbn [w_type w_flags w_payload w_stream w_reserved] in *.
    inversion C; subst; cbn [plain_content] in P; try contradiction; try congruence.
    - exists (mk_data fl sid pl). split; [reflexivity|]. split; [reflexivity|]. split; [constructor|].
      unfold get_header, mk_data. cbn [frame_fh]. unfold cast_to_fh_length. rewrite u32_small; [reflexivity|].
      change (2 ^ 32) with 4294967296. change (2 ^ 24) with 16777216 in WL. lia.
    - eexists. split; [apply build_priority; [reflexivity|assumption|assumption]|]. split; [reflexivity|]. split; [constructor|reflexivity].
    - eexists. split; [apply build_rst_stream; [reflexivity|assumption]|]. split; [reflexivity|]. split; [constructor|reflexivity].
    - eexists. split; [apply build_settings; [reflexivity|assumption]|]. cbn [fh_flags fh_stream_id]. split.
      { unfold update_frame, mk_settings. cbn [frame_fh fh_type]. change (T_SETTINGS =? T_HEADERS) with false.
        change (T_SETTINGS =? T_PUSH_PROMISE) with false. change (T_SETTINGS =? T_CONTINUATION) with false.
        change (T_SETTINGS =? T_SETTINGS) with true. cbv iota. destruct (sm_find _ 1) as [n|]; [|reflexivity].
        rewrite (dt_update_spec _ n K). reflexivity. }
      split; [constructor; exact (C39_make_sf_payload_partial params P)|].
      unfold get_header, mk_settings. cbn [frame_fh]. rewrite fold_size by (rewrite app_nil_r; exact P).
      rewrite settings_octets_size in *. change (size (@nil (N * N))) with 0. rewrite N.add_0_r. rewrite u32_small; [reflexivity|].
      change (2 ^ 32) with 4294967296. change (2 ^ 24) with 16777216 in WL. lia.
    - eexists. split; [reflexivity|]. split; [reflexivity|]. split; [constructor|reflexivity].
    - eexists. split; [apply build_goaway; [reflexivity|assumption|assumption|assumption]|]. split; [reflexivity|]. split; [constructor|reflexivity].
    - rewrite P. eexists. split; [apply build_window; [reflexivity|lia|assumption]|]. split; [reflexivity|].
      split; [cbn [get_payload]; rewrite window_view by (lia || assumption); rewrite N.mul_0_l, N.add_0_l; constructor|reflexivity]. }
  destruct B as (f & B & U & S & H). destruct (received_built m c w rest f W I D B U) as (c' & R).
  exists f, c'. auto.
Qed.

(* A HEADERS or CONTINUATION frame whose block does not refer to a dynamic entry
   after a table change in the same block: when it is returned, get_payload()
   gives the RFC's header list. *)
Theorem C85_block_frames_partial : forall m c w rest limit fragment rs b fs t' f c', wframe_ok w ->
  rfc_run m limit (rfc_table (c_resp c)) fragment rs b fs t' -> no_late_reference false rs ->
  (exists e dep wt padding, size padding < 2 ^ 8 /\ e < 2 /\ dep < 2 ^ 31 /\ wt < 2 ^ 8 /\ w_type w = HEADERS /\
     w_payload w = headers_octets (w_flags w) e dep wt fragment padding) \/
  (w_type w = CONTINUATION /\ w_payload w = fragment) ->
  tls_in (c_tls c) = wire w ++ rest -> receive_frame m c = (Ok f, c') ->
  carries limit (rfc_table (c_resp c)) (w_flags w) (w_type w) (w_payload w) (Fields fs) /\
  shows (get_payload f) (Fields fs) /\ get_header f = header_of w.
Proof.
  intros m c w rest limit fragment rs b fs t' f c' W H NL T I R.
  destruct (C28_block_decoding_partial m limit (c_resp c) fragment rs b fs t' H NL) as (DB & F & RB).
  destruct (C49_any_schedule m c w rest W I) as (r0 & c0 & R0 & _ & [[_ B]|[E _]]); rewrite R in R0; injection R0 as <- <-; [|discriminate E].
  specialize (B f eq_refl). destruct w as [ty fl r sid pl]. unfold header_of in *. cbn [w_type w_flags w_payload w_stream w_reserved] in *.
  destruct T as [(e & dep & wt & padding & P & E & D & WT & -> & ->)|[-> ->]].
  - split; [econstructor; eassumption|].
    unfold build_frame in B. cbn [fh_type] in B. change (HEADERS =? T_DATA) with false in B. change (HEADERS =? T_HEADERS) with true in B.
    cbv iota in B. unfold build_headers_frame, parse_headers in B.
    rewrite (headers_parse_wire m (c_resp c) fl _ r sid e dep wt fragment padding b) in B by (assumption || exact P).
    cbn [bind] in B. apply Ok_inj in B. subst f. split; [|reflexivity]. cbn [get_payload]. rewrite <- F. constructor.
  - split; [econstructor; eassumption|].
    unfold build_frame in B. cbn [fh_type] in B.
    change (CONTINUATION =? T_DATA) with false in B. change (CONTINUATION =? T_HEADERS) with false in B.
    change (CONTINUATION =? T_PRIORITY) with false in B. change (CONTINUATION =? T_RST_STREAM) with false in B.
    change (CONTINUATION =? T_SETTINGS) with false in B. change (CONTINUATION =? T_PUSH_PROMISE) with false in B.
    change (CONTINUATION =? T_PING) with false in B. change (CONTINUATION =? T_GOAWAY) with false in B.
    change (CONTINUATION =? T_WINDOW_UPDATE) with false in B. change (CONTINUATION =? T_CONTINUATION) with true in B. cbv iota in B.
    unfold parse_continuation in B. rewrite DB in B. cbn [bind] in B. apply Ok_inj in B. subst f.
    split; [|reflexivity]. cbn [get_payload]. rewrite <- F. constructor.
Qed.

(* The same for PUSH_PROMISE, with the promised stream. *)
Theorem C85_promise_partial : forall m c w rest limit fragment rs b fs t' r promised padding f c', wframe_ok w ->
  rfc_run m limit (rfc_table (c_resp c)) fragment rs b fs t' -> no_late_reference false rs ->
  size padding < 2 ^ 8 -> r < 2 -> promised < 2 ^ 31 -> w_type w = PUSH_PROMISE ->
  w_payload w = push_promise_octets (w_flags w) r promised fragment padding ->
  tls_in (c_tls c) = wire w ++ rest -> receive_frame m c = (Ok f, c') ->
  carries limit (rfc_table (c_resp c)) (w_flags w) (w_type w) (w_payload w) (Promise promised fs) /\
  shows (get_payload f) (Promise promised fs) /\ get_header f = header_of w.
Proof.
  intros m c w rest limit fragment rs b fs t' r promised padding f c' W H NL P RR D T PL I R.
  destruct (C28_block_decoding_partial m limit (c_resp c) fragment rs b fs t' H NL) as (DB & F & RB).
  destruct (C49_any_schedule m c w rest W I) as (r0 & c0 & R0 & _ & [[_ B]|[E _]]); rewrite R in R0; injection R0 as <- <-; [|discriminate E].
  specialize (B f eq_refl). destruct w as [ty fl rr sid pl]. unfold header_of in *. cbn [w_type w_flags w_payload w_stream w_reserved] in *. subst ty pl.
  split; [econstructor; eassumption|].
  unfold build_frame in B. cbn [fh_type] in B.
  change (PUSH_PROMISE =? T_DATA) with false in B. change (PUSH_PROMISE =? T_HEADERS) with false in B.
  change (PUSH_PROMISE =? T_PRIORITY) with false in B. change (PUSH_PROMISE =? T_RST_STREAM) with false in B.
  change (PUSH_PROMISE =? T_SETTINGS) with false in B. change (PUSH_PROMISE =? T_PUSH_PROMISE) with true in B. cbv iota in B.
  unfold parse_push_promise in B.
  rewrite (push_parse_wire m (c_resp c) fl _ rr sid r promised fragment padding b) in B by (assumption || exact P).
  cbn [bind] in B. apply Ok_inj in B. subst f. split; [|reflexivity]. cbn [get_payload]. rewrite <- F. constructor.
Qed.

(* Every padded DATA frame: get_payload() gives the pad length and the padding
   with the data. *)
Theorem C85_padded_data_refuted : forall m c w rest limit d padding, wframe_ok w -> w_type w = DATA ->
  has_padded (w_flags w) = true -> w_payload w = size padding :: d ++ padding -> size padding < 2 ^ 8 ->
  tls_in (c_tls c) = wire w ++ rest -> delivers (size (wire w)) (c_tls c) ->
  carries limit (rfc_table (c_resp c)) (w_flags w) (w_type w) (w_payload w) (Data d) /\
  exists f c', receive_frame m c = (Ok f, c') /\ get_payload f = VBytes (size padding :: d ++ padding) /\
    ~ shows (get_payload f) (Data d).
Proof.
  intros m c w rest limit d padding W T F P S I D. split; [rewrite T, P; constructor; assumption|].
  assert (B : build_frame m (header_of w) (w_payload w) (c_resp c) = Ok (mk_data (w_flags w) (w_stream w) (w_payload w))).
  { unfold build_frame, header_of. cbn [fh_type]. rewrite T. reflexivity. }
  destruct (received_built m c w rest _ W I D B eq_refl) as (c' & R). eexists _, c'. split; [exact R|].
  cbn [mk_data get_payload]. rewrite P. split; [reflexivity|]. intros X.
  apply shows_data_inv in X. rename X into E. clear -E.
  apply (f_equal (@length N)) in E. cbn [length] in E. rewrite app_length in E. lia.
Qed.

(* Every WINDOW_UPDATE frame with the reserved bit set, which a receiver must
   ignore: get_payload() gives 2^31 more than the increment. *)
Theorem C85_window_refuted : forall m c w rest limit inc, wframe_ok w -> w_type w = WINDOW_UPDATE ->
  inc < 2 ^ 31 -> w_payload w = window_update_octets 1 inc ->
  tls_in (c_tls c) = wire w ++ rest -> delivers (size (wire w)) (c_tls c) ->
  carries limit (rfc_table (c_resp c)) (w_flags w) (w_type w) (w_payload w) (Window inc) /\
  exists f c', receive_frame m c = (Ok f, c') /\ get_payload f = VWindow (2 ^ 31 + inc) /\ ~ shows (get_payload f) (Window inc).
Proof.
  intros m c w rest limit inc W T J P I D. split; [rewrite T, P; constructor; [lia|exact J]|].
  assert (B : build_frame m (header_of w) (w_payload w) (c_resp c) = Ok (WindowUpdateFrame (header_of w) 1 inc)).
  { rewrite P. apply build_window; [exact T|lia|exact J]. }
  assert (U : fst (update_frame (c_resp c) (WindowUpdateFrame (header_of w) 1 inc)) = Ok tt).
  { unfold update_frame. cbn [frame_fh header_of fh_type]. rewrite T. reflexivity. }
  destruct (received_built m c w rest _ W I D B U) as (c' & R). eexists _, c'. split; [exact R|].
  cbn [get_payload]. rewrite window_view by (lia || exact J). rewrite N.mul_1_l. split; [reflexivity|].
  intros X. apply shows_window_inv in X. rename X into E. clear -E. change (2 ^ 31) with 2147483648 in E. lia.
Qed.

(* Built frames: the accessors give back the constructor's arguments. *)
Theorem C85_constructed : forall host f,
  (forall flags sid d, f = mk_data flags sid d -> get_payload f = VBytes d) /\
  (forall flags sid s, f = mk_data_string flags sid s -> Forall (fun c => -128 <= c < 128)%Z s ->
     exists d, get_payload f = VBytes d /\ is_octets d /\ length d = length s /\ f = mk_data flags sid d /\
     forall i c, nth_error s i = Some c -> exists o, nth_error d i = Some o /\ (Z.of_N o = c \/ Z.of_N o = c + 256)%Z) /\
  (forall flags sid b mode t padding p, mk_headers flags sid b mode t padding p = Ok f -> get_payload f = VBlock b) /\
  (forall sid p, mk_priority sid p = Ok f -> get_payload f = VPriority p) /\
  (forall sid ec, f = mk_rst_stream sid ec -> get_payload f = VCode ec) /\
  (forall flags sid params, f = mk_settings flags sid (make_sf_payload params) -> NoDup (map fst params) ->
     exists map, get_payload f = VSettings map /\ forall id, sm_find map id = last_value params id) /\
  (forall flags sid p mode t, mk_push_promise host flags sid p mode t = Ok f -> get_payload f = VPromise p) /\
  (forall flags d, mk_ping flags d = Ok f -> exists zeros, Forall (eq 0) zeros /\ size (d ++ zeros) = 8 /\ get_payload f = VBytes (d ++ zeros)) /\
  (forall p, f = mk_goaway p -> get_payload f = VGoaway p) /\
  (forall sid inc, mk_window_update2 sid inc = Ok f -> get_payload f = VWindow inc) /\
  (forall flags sid b mode t, mk_continuation flags sid b mode t = Ok f -> get_payload f = VBlock b).
Proof.
  intros host f. repeat split.
  - intros flags sid d ->. reflexivity.
  - intros flags sid s -> B. exists (map (fun c => Z.to_N (c mod 256)) s). split; [reflexivity|]. split; [|split; [|split]].
    + intros x X. apply in_map_iff in X. destruct X as (z & <- & _). pose proof (Z.mod_pos_bound z 256 eq_refl) as M. clear -M. lia.
    + apply map_length.
    + unfold mk_data_string, mk_data, size. rewrite map_length. reflexivity.
    + intros i c X. rewrite nth_error_map, X. cbn [option_map]. eexists. split; [reflexivity|].
      pose proof (nth_error_In _ _ X) as Y. rewrite Forall_forall in B. specialize (B c Y). cbn beta in B. clear -B. pose proof (Z.mod_pos_bound c 256 eq_refl) as M. rewrite Z2N.id by lia. clear M.
      destruct (Z.lt_ge_cases c 0) as [N|N]; [right; symmetry; apply (Z.mod_unique c 256 (-1)); lia|left; apply Z.mod_small; lia].
  - intros flags sid b mode t padding p H. unfold mk_headers in H. repeat (apply bind_ok in H; destruct H as (? & _ & H)). apply Ok_inj in H. subst f. reflexivity.
  - intros sid p H. unfold mk_priority in H. apply bind_ok in H; destruct H as (? & _ & H). apply Ok_inj in H. subst f. reflexivity.
  - intros sid ec ->. reflexivity.
  - intros flags sid params -> D. eexists. split; [reflexivity|]. exact (C39_make_sf_payload_partial params D).
  - intros flags sid p mode t H. unfold mk_push_promise in H. repeat (apply bind_ok in H; destruct H as (? & _ & H)). apply Ok_inj in H. subst f. reflexivity.
  - intros flags d H. destruct (N.le_gt_cases (size d) 8) as [L|L].
    + unfold mk_ping, construct_opaque_data in H. destruct (N.ltb_spec 8 (size d)); [lia|]. cbn [bind] in H. apply Ok_inj in H. subst f.
      exists (repeat 0 (8 - length d)). split; [apply Forall_forall; intros x X; symmetry; eapply repeat_spec; exact X|].
      split; [|reflexivity]. rewrite size_app. unfold size in *. rewrite repeat_length. lia.
    + rewrite C33_ping_too_long in H by exact L. discriminate H.
  - intros p ->. reflexivity.
  - intros sid inc H. unfold mk_window_update2, mk_window_update in H. apply bind_ok in H; destruct H as (u & V & H). apply Ok_inj in H. subst f.
    cbn [get_payload]. rewrite window_view; [f_equal; lia|lia|].
    unfold validate_window_size in V. destruct (N.ltb_spec 0x7fffffff inc); [discriminate V|]. change (2 ^ 31) with 2147483648. lia.
  - intros flags sid b mode t H. unfold mk_continuation in H. repeat (apply bind_ok in H; destruct H as (? & _ & H)). apply Ok_inj in H. subst f. reflexivity.
Qed.

(* The convenience functions: one parameter of SETTINGS, one header, operator!=. *)
Theorem C85_one_parameter : forall host flags sid id value, flags < 2 ^ 8 -> sid < 2 ^ 31 -> id < 2 ^ 16 -> value < 2 ^ 32 ->
  serialize host (mk_settings flags sid (make_sf_payload [make_sf_parameter id value])) =
    Ok (wire_frame SETTINGS flags 0 sid (settings_octets [(id, value)])).
Proof.
  intros host flags sid id value F S I V. unfold make_sf_parameter, u16. rewrite N.mod_small by exact I.
  change (make_sf_payload [(id, value)]) with [(id, value)]. apply (C38_settings_roundtrip host Strict default_table); [exact F|exact S|].
  destruct (C38_make_sf_payload [(id, value)]) as [M _]; [|exact M]. constructor; [split; assumption|constructor].
Qed.

Theorem C65_one_header : forall p h, exists e, make_header_block1 p h = Ok [e] /\ entry_for p h e.
Proof.
  intros p h. destruct (C65_one_entry_each p [h]) as (b & M & F). inversion F as [|? e ? ? K E]; subst. inversion E; subst. eauto.
Qed.

(* Prefix and content of a header block entry, and nothing else, make the entry. *)
Theorem C66_prefix_and_entry : forall p c, Access.get_prefix (HEntry p c) = p /\ Access.get_entry (HEntry p c) = c /\
  forall e, Access.get_prefix e = p -> Access.get_entry e = c -> hentry_eqb e (HEntry p c) = true.
Proof.
  intros p c. split; [reflexivity|]. split; [reflexivity|]. intros [p' c'] P C. cbn in P, C. subst. apply C66_equality. reflexivity.
Qed.

Theorem C57_unequal : forall a b, (frame_neqb a b = true <-> frame_eqb a b <> true) /\ (frame_neqb a b = false <-> frame_eqb a b = true).
Proof. intros a b. unfold frame_neqb. destruct (frame_eqb a b); cbn; intuition congruence. Qed.

(* A PRIORITY frame on stream 3 and a padded DATA frame, for a client that has
   just connected. *)
Example C85_case : exists c : client,
  tls_in (c_tls c) = wire (WFrame PRIORITY 0xff 1 3 [0x80; 0; 0; 1; 15]) ++ [] /\
  carries 4096 (rfc_table (c_resp c)) 0xff PRIORITY [0x80; 0; 0; 1; 15] (Priority 1 1 15) /\
  plain_content 0xff [0x80; 0; 0; 1; 15] (Priority 1 1 15) /\ dt_ok (c_resp c) /\
  delivers 14 (c_tls c) /\
  carries 4096 (rfc_table (c_resp c)) 8 DATA [2; 7; 0; 0] (Data [7]).
Proof.
  exists (Client (Tls (wire (WFrame PRIORITY 0xff 1 3 [0x80; 0; 0; 1; 15])) [] (repeat (Chunk 0) 14)) default_table default_table).
  split; [rewrite app_nil_r; reflexivity|]. split; [apply (carries_priority 4096 _ 0xff 1 1 15); reflexivity|]. split; [exact Logic.I|].
  split; [apply new_table_ok|]. split; [|apply (carries_padded 4096 _ 8 [7] [0; 0]); reflexivity].
  exists (repeat (Chunk 0) 14), []. split; [reflexivity|]. split; [repeat constructor; discriminate|vm_compute; discriminate].
Qed.

(* A HEADERS and a PUSH_PROMISE frame with a block that inserts a field. *)
Example C85_block_case : forall m,
  let fragment := [0x40; 1; 97; 1; 98] in
  let w := WFrame HEADERS 4 0 1 (headers_octets 4 0 0 0 fragment []) in
  let v := WFrame PUSH_PROMISE 12 1 1 (push_promise_octets 12 0 2 fragment [0; 0]) in
  wframe_ok w /\ wframe_ok v /\
  (exists rs b, rfc_run m 4096 (rfc_table default_table) fragment rs b [([97], [98])] (Table 4096 [([97], [98])]) /\
     no_late_reference false rs) /\
  (exists f c', receive_frame m (new_client (Tls (wire w) [] (repeat (Chunk 2) 20))) = (Ok f, c') /\
     get_payload f = VBlock [HEntry IncrementalIndexing (EHeader ([97], [98]))]) /\
  (exists f c', receive_frame m (new_client (Tls (wire v) [] (repeat (Chunk 2) 20))) = (Ok f, c') /\
     get_payload f = VPromise (PushPromise 0 2 [HEntry IncrementalIndexing (EHeader ([97], [98]))] [0; 0])).
Proof.
  intros m. cbv zeta. split; [apply PropHistory.wframe_check; reflexivity|]. split; [apply PropHistory.wframe_check; reflexivity|].
  split; [|split; do 2 eexists; (split; [destruct m; vm_compute; reflexivity|reflexivity])].
  do 2 eexists. split; [exact (PropHistory.run_a_b m default_table eq_refl)|]. repeat split; discriminate.
Qed.

Print Assumptions C85_received_partial.
Print Assumptions C85_block_frames_partial.
Print Assumptions C85_promise_partial.
Print Assumptions C85_padded_data_refuted.
Print Assumptions C85_window_refuted.
Print Assumptions C85_constructed.
Print Assumptions C85_one_parameter.
Print Assumptions C65_one_header.
Print Assumptions C66_prefix_and_entry.
Print Assumptions C57_unequal.
