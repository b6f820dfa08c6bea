(* Property C92: the frames that can be made and sent are valid frames. *)
From Coq Require Import String.
From Coq Require Import ZArith NArith List Bool Lia ZifyBool ZifyNat ZifyN.
From Verif Require Import Base Arith Util HeaderType DynTable HeaderEnc FrameHeader Frames FrameBuilder Ssl Client
  SpecBits SpecHpack SpecFrame SpecValid UtilProofs DynTableProofs FrameProofs HeaderProofs BlockProofs
  PropFrame PropBlock PropValid PropThrow PropDefined.
From Verif Require PropAccess.
Import ListNotations.
Local Open Scope string_scope.
Local Open Scope list_scope.
Local Open Scope N_scope.
Ltac Zify.zify_post_hook ::= Z.div_mod_to_equations.

(* The frame a constructor call makes, the flags and stream given to it (PING
   and GOAWAY take no stream, some take no flags), and the content the call
   asks for.  A DATA frame is given its payload as one vector, so the caller
   pads it; the padding of HEADERS and PUSH_PROMISE is an argument, and is used
   where the flag is set. *)
Inductive asked : frame -> N -> N -> content -> Prop :=
| asked_data : forall flags sid data padding, padding_fits flags padding ->
    asked (mk_data flags sid (padded_payload (has_padded flags) data padding)) flags sid (CData data padding)
| asked_headers : forall flags sid b mode t padding e d w fragment f, (length padding <= 255)%nat ->
    e < 2 -> d < 2 ^ 31 -> w < 2 ^ 8 -> encode_block b mode t = Ok fragment ->
    mk_headers flags sid b mode t padding (Prio e d w) = Ok f ->
    asked f flags sid (CHeaders (if has_priority flags then Some (e, d, w) else None) fragment (if has_padded flags then padding else []))
| asked_priority : forall sid e d w f, w < 2 ^ 8 -> mk_priority sid (Prio e d w) = Ok f -> asked f 0 sid (CPriority e d w)
| asked_reset : forall sid code, code < 2 ^ 32 -> asked (mk_rst_stream sid code) 0 sid (CReset code)
| asked_settings : forall flags sid params, Forall (fun p => fst p < 2 ^ 16 /\ snd p < 2 ^ 32) params ->
    asked (mk_settings flags sid (make_sf_payload params)) flags sid (CSettings (make_sf_payload params))
| asked_push : forall host flags sid r promised b padding mode t fragment f, (length padding <= 255)%nat ->
    r < 2 -> promised < 2 ^ 31 -> encode_block b mode t = Ok fragment ->
    mk_push_promise host flags sid (PushPromise r promised b padding) mode t = Ok f ->
    asked f flags sid (CPush promised fragment (if has_padded flags then padding else []))
| asked_ping : forall flags d f, mk_ping flags d = Ok f -> asked f flags 0 (CPing (d ++ repeat 0 (8 - length d)))
| asked_goaway : forall r last code debug, r < 2 -> last < 2 ^ 31 -> code < 2 ^ 32 ->
    asked (mk_goaway (Goaway r last code debug)) 0 0 (CGoaway last code debug)
| asked_window : forall sid r increment f, r < 2 -> mk_window_update sid r increment = Ok f -> asked f 0 sid (CWindow increment)
| asked_continuation : forall flags sid b mode t fragment f, encode_block b mode t = Ok fragment ->
    mk_continuation flags sid b mode t = Ok f -> asked f flags sid (CContinuation fragment).

Definition type_of (c : content) : N :=
  match c with
  | CData _ _ => DATA | CHeaders _ _ _ => HEADERS | CPriority _ _ _ => PRIORITY | CReset _ => RST_STREAM
  | CSettings _ => SETTINGS | CPush _ _ _ => PUSH_PROMISE | CPing _ => PING | CGoaway _ _ _ => GOAWAY
  | CWindow _ => WINDOW_UPDATE | CContinuation _ => CONTINUATION
  end.

(* The octets of a frame whose length field agrees with its payload. *)
Lemma sent_as : forall host f p raw, serialize host f = Ok raw -> size raw < 9 + 2 ^ 24 ->
  payload_bytes host f = Ok p -> fh_stream_id (frame_fh f) < 2 ^ 31 -> fh_length (frame_fh f) = u32 (size p) ->
  fh_reserved (frame_fh f) = 0 ->
  raw = wire_frame (fh_type (frame_fh f)) (fh_flags (frame_fh f)) 0 (fh_stream_id (frame_fh f)) p.
Proof.
  intros host f p raw S L P I Z R.
  assert (B : size p < 2 ^ 24).
  { pose proof S as S1. unfold serialize in S1. rewrite P in S1. cbn [bind] in S1. injection S1 as <-.
    rewrite size_app, serialize_fh_size in L. clear - L. change (2 ^ 24) with 16777216 in *. lia. }
  rewrite (serialize_wire host f p P I) in S.
  - injection S as <-. rewrite R. reflexivity.
  - rewrite Z. apply u32_small. clear - B. change (2 ^ 32) with 4294967296. change (2 ^ 24) with 16777216 in B. lia.
  - rewrite R. reflexivity.
Qed.

Lemma fits_or_none : forall flags padding, (length padding <= 255)%nat ->
  padding_fits flags (if has_padded flags then padding else []).
Proof.
  intros flags padding H. unfold padding_fits. destruct (has_padded flags); split; try discriminate; try assumption; try reflexivity.
  cbn. lia.
Qed.

Lemma padded_if : forall flags contents padding,
  padded_payload (has_padded flags) contents padding =
  padded_payload (has_padded flags) contents (if has_padded flags then padding else []).
Proof. intros flags contents padding. destruct (has_padded flags); reflexivity. Qed.

(* Whatever is asked for is sent, in the format of its type. *)
Theorem C92_format_partial : forall host f flags sid c raw, asked f flags sid c ->
  flags < 2 ^ 8 -> sid < 2 ^ 31 -> serialize host f = Ok raw -> size raw < 9 + 2 ^ 24 ->
  exists payload, raw = wire_frame (type_of c) flags 0 sid payload /\ layout flags (type_of c) payload c.
Proof.
  intros host f flags sid c raw A F I S L. destruct A; cbn [type_of].
  - eexists. split; [exact (sent_as host _ _ raw S L eq_refl I eq_refl eq_refl)|]. constructor. assumption.
  - rename H4 into M. unfold mk_headers in M.
    rewrite (headers_payload_wire flags b mode t padding e d w fragment) in M; [|unfold size; lia|assumption|assumption|assumption].
    cbn [bind] in M. injection M as <-.
    eexists. split; [exact (sent_as host _ _ raw S L eq_refl I eq_refl eq_refl)|].
    unfold headers_octets. rewrite padded_if. pose proof (fits_or_none flags padding H) as Q.
    destruct (has_priority flags) eqn:P; constructor; assumption.
  - unfold mk_priority in H0. apply bind_ok in H0. destruct H0 as ([] & V & E). injection E as <-.
    unfold validate_priority in V. cbn [p_exclusive p_dependency] in V.
    destruct (N.ltb_spec 1 e) as [|X]; [discriminate V|]. unfold MAX_STREAM_ID in V.
    destruct (N.ltb_spec 0x7fffffff d) as [|Y]; [discriminate V|].
    assert (X' : e < 2) by lia. assert (Y' : d < 2 ^ 31) by (change (2 ^ 31) with 2147483648; lia).
    destruct (C36_priority_roundtrip host Strict default_table sid e d w I X' Y' H) as (f & M & W & _).
    unfold mk_priority in M. unfold validate_priority in M. cbn [p_exclusive p_dependency] in M.
    destruct (N.ltb_spec 1 e) as [|_]; [lia|]. unfold MAX_STREAM_ID in M.
    destruct (N.ltb_spec 0x7fffffff d) as [|_]; [lia|]. cbn [bind] in M. injection M as <-.
    rewrite W in S. injection S as <-. eexists. split; [reflexivity|]. constructor; assumption.
  - destruct (C35_rst_stream_roundtrip host Strict default_table sid code I H) as (W & _).
    rewrite W in S. injection S as <-. eexists. split; [reflexivity|]. constructor; assumption.
  - destruct (C38_make_sf_payload params H) as (D & _).
    destruct (C38_settings_roundtrip host Strict default_table flags sid (make_sf_payload params) F I D) as (W & _).
    rewrite W in S. injection S as <-. eexists. split; [reflexivity|]. constructor. exact (proj2 D).
  - rename H3 into M. unfold mk_push_promise in M.
    rewrite (push_payload_wire host0 flags r promised b padding mode t fragment) in M; [|unfold size; lia|assumption|assumption|assumption].
    cbn [bind] in M. injection M as <-.
    eexists. split; [exact (sent_as host _ _ raw S L eq_refl I eq_refl eq_refl)|].
    unfold push_promise_octets. rewrite padded_if. constructor; try assumption. exact (fits_or_none flags padding H).
  - unfold mk_ping, construct_opaque_data in H. destruct (N.ltb_spec 8 (size d)) as [|X]; [discriminate H|].
    cbn [bind] in H. injection H as <-.
    assert (Z : length (d ++ repeat 0 (8 - length d)) = 8%nat) by (rewrite app_length, repeat_length; unfold size in X; lia).
    assert (U : 8 = u32 (size (d ++ repeat 0 (8 - length d)))) by (unfold size; rewrite Z; reflexivity).
    eexists. split; [exact (sent_as host _ _ raw S L eq_refl I U eq_refl)|]. constructor. exact Z.
  - assert (B : 8 + size debug < 2 ^ 24).
    { pose proof S as S1. unfold serialize in S1. cbn [mk_goaway payload_bytes] in S1.
      rewrite goaway_payload_wire in S1 by assumption. cbn [bind g_reserved g_last_stream_id g_error_code g_debug] in S1.
      injection S1 as <-. rewrite size_app, serialize_fh_size in L.
      unfold goaway_octets in L. rewrite !size_app, !be_octets_size in L. clear - L.
      change (2 ^ 24) with 16777216 in *. lia. }
    destruct (C34_goaway_roundtrip host Strict default_table r last code debug H H0 H1 B) as (W & _).
    rewrite W in S. injection S as <-. eexists. split; [reflexivity|]. constructor; assumption.
  - assert (Y : increment < 2 ^ 31).
    { destruct (N.lt_ge_cases increment (2 ^ 31)) as [|X]; [assumption|].
      rewrite C37_window_update_rejects in H0 by exact X. discriminate H0. }
    destruct (C37_window_update_roundtrip host Strict default_table sid r increment I H Y) as (f' & M & W & _).
    rewrite H0 in M. injection M as <-. rewrite W in S. injection S as <-.
    eexists. split; [reflexivity|]. constructor; assumption.
  - unfold mk_continuation in H0. rewrite H in H0. cbn [bind] in H0. injection H0 as <-.
    eexists. split; [exact (sent_as host _ _ raw S L eq_refl I eq_refl eq_refl)|]. constructor.
Qed.

(* PING and GOAWAY always go out on stream 0, as they must. *)
Theorem C92_connection_partial : forall f flags sid c, asked f flags sid c -> type_of c = PING \/ type_of c = GOAWAY ->
  permitted flags sid c.
Proof.
  intros f flags sid c A [T | T]; destruct A; try discriminate T; reflexivity.
Qed.

(* A DATA frame with the PADDED flag goes out whatever its payload is, also
   when the payload has no length octet or promises more padding than it has. *)
Theorem C92_data_format_refuted : forall host flags sid payload, flags < 2 ^ 8 -> sid < 2 ^ 31 -> size payload < 2 ^ 24 ->
  has_padded flags = true -> payload = [] \/ (exists n rest, payload = n :: rest /\ size rest < n) ->
  serialize host (mk_data flags sid payload) = Ok (wire_frame DATA flags 0 sid payload) /\
  forall c, ~ layout flags DATA payload c.
Proof.
  intros host flags sid payload F I L P B. split; [apply (C32_data_roundtrip host Strict default_table); assumption|].
  intros c Q. inversion Q as [data padding (PL & _) QT QP| | | | | | | | | | ]. rewrite P in QP. unfold padded_payload in QP.
  destruct B as [B | (n & rest & B & N)]; rewrite B in QP; [discriminate QP|]. injection QP as Q1 Q2.
  subst rest. rewrite size_app in N. unfold size in N. lia.
Qed.

(* Nothing keeps a caller from sending what section 6 of RFC 7540 forbids. *)
Definition sends_forbidden (host : endian) (f : frame) (flags sid : N) (c : content) : Prop :=
  asked f flags sid c /\ ~ permitted flags sid c /\
  exists payload, serialize host f = Ok (wire_frame (type_of c) flags 0 sid payload) /\ layout flags (type_of c) payload c.

Lemma forbidden_sent : forall host f flags sid c raw, asked f flags sid c -> flags < 2 ^ 8 -> sid < 2 ^ 31 ->
  serialize host f = Ok raw -> size raw < 9 + 2 ^ 24 -> ~ permitted flags sid c -> sends_forbidden host f flags sid c.
Proof.
  intros host f flags sid c raw A F I S L P. split; [exact A|]. split; [exact P|].
  destruct (C92_format_partial host f flags sid c raw A F I S L) as (payload & E & Y). exists payload. rewrite S, E. split; [reflexivity|exact Y].
Qed.

Lemma sent_size : forall t flags r sid payload, size (wire_frame t flags r sid payload) = 9 + size payload.
Proof.
  intros. unfold wire_frame, wire_header. rewrite !size_app, !be_octets_size. cbn. lia.
Qed.

Lemma made_sent : forall host f p, payload_bytes host f = Ok p -> size p < 2 ^ 24 ->
  exists raw, serialize host f = Ok raw /\ size raw < 9 + 2 ^ 24.
Proof.
  intros host f p P L. unfold serialize. rewrite P. cbn [bind]. eexists. split; [reflexivity|].
  rewrite size_app, serialize_fh_size. clear - L. change (2 ^ 24) with 16777216 in *. lia.
Qed.

Theorem C92_forbidden_refuted : forall host sid, sid < 2 ^ 31 ->
  (* on stream 0 *)
  (forall data, size data < 2 ^ 24 -> sends_forbidden host (mk_data 0 0 data) 0 0 (CData data [])) /\
  (forall code, code < 2 ^ 32 -> sends_forbidden host (mk_rst_stream 0 code) 0 0 (CReset code)) /\
  (forall b mode t fragment, encode_block b mode t = Ok fragment -> size fragment < 2 ^ 23 ->
     (exists f, sends_forbidden host f 0 0 (CHeaders None fragment [])) /\
     (exists f, sends_forbidden host f 0 0 (CContinuation fragment)) /\
     (* a stream depending on itself, an odd promised stream *)
     (exists f, sends_forbidden host f 32 sid (CHeaders (Some (0, sid, 15)) fragment [])) /\
     (forall promised, promised < 2 ^ 31 -> N.odd promised = true -> exists f, sends_forbidden host f 0 sid (CPush promised fragment []))) /\
  (exists f, sends_forbidden host f 0 sid (CPriority 0 sid 15)) /\
  (* SETTINGS on a stream, with values out of range, or acknowledging with parameters *)
  (forall params, sid <> 0 \/ params <> [] -> Forall (fun p => fst p < 2 ^ 16 /\ snd p < 2 ^ 32) params ->
     sends_forbidden host (mk_settings 1 sid (make_sf_payload params)) 1 sid (CSettings (make_sf_payload params))) /\
  (forall id value, id < 2 ^ 16 -> value < 2 ^ 32 -> ~ setting_ok (id, value) ->
     sends_forbidden host (mk_settings 0 0 (make_sf_payload [(id, value)])) 0 0 (CSettings [(id, value)])) /\
  (* a window grown by nothing *)
  (exists f, sends_forbidden host f 0 sid (CWindow 0)).
Proof.
  intros host sid I.
  assert (Z8 : 0 < 2 ^ 8) by reflexivity. assert (Z31 : 0 < 2 ^ 31) by reflexivity.
  assert (PF : forall flags, padding_fits flags []) by (intros flags; split; [cbn; lia|reflexivity]).
  split; [|split; [|split; [|split; [|split; [|split]]]]].
  - intros data L. destruct (made_sent host (mk_data 0 0 data) data eq_refl L) as (raw & S & B).
    apply (forbidden_sent host _ 0 0 _ raw); try assumption; [|intros H; apply H; reflexivity].
    exact (asked_data 0 0 data [] (PF 0)).
  - intros code C. destruct (C35_rst_stream_roundtrip host Strict default_table 0 code Z31 C) as (W & _).
    apply (forbidden_sent host _ 0 0 _ _ (asked_reset 0 code C) Z8 Z31 W); [reflexivity|intros H; apply H; reflexivity].
  - intros b mode t fragment X L.
    assert (L' : size fragment < 2 ^ 24) by (clear - L; change (2 ^ 23) with 8388608 in L; change (2 ^ 24) with 16777216; lia).
    assert (G : forall flags s d f, s < 2 ^ 31 -> d < 2 ^ 31 -> flags < 2 ^ 8 -> has_padded flags = false ->
      mk_headers flags s b mode t [] (Prio 0 d 15) = Ok f ->
      ~ permitted flags s (CHeaders (if has_priority flags then Some (0, d, 15) else None) fragment []) ->
      sends_forbidden host f flags s (CHeaders (if has_priority flags then Some (0, d, 15) else None) fragment [])).
    { intros flags s d f HS HD HF HP M NP.
      pose proof (headers_payload_wire flags b mode t [] 0 d 15 fragment eq_refl eq_refl HD X) as W.
      assert (A : asked f flags s (CHeaders (if has_priority flags then Some (0, d, 15) else None) fragment [])).
      { pose proof (asked_headers flags s b mode t [] 0 d 15 fragment f ltac:(cbn; lia) eq_refl HD eq_refl X M) as Q.
        rewrite HP in Q. exact Q. }
      unfold mk_headers in M. rewrite W in M. cbn [bind] in M. injection M as <-.
      match type of A with asked ?f' _ _ _ => destruct (made_sent host f' _ eq_refl) as (raw & S & B) end.
      - unfold headers_octets. rewrite HP. unfold padded_payload. rewrite size_app.
        assert (size (if has_priority flags then priority_fields 0 d 15 else []) <= 5).
        { destruct (has_priority flags); [|cbn; lia]. unfold priority_fields. rewrite size_app, be_octets_size. cbn. lia. }
        clear - H L. change (2 ^ 23) with 8388608 in L. change (2 ^ 24) with 16777216. lia.
      - exact (forbidden_sent host _ flags s _ raw A HF HS S B NP). }
    split; [|split; [|split]].
    + eexists. refine (G 0 0 0 _ Z31 Z31 Z8 eq_refl _ _).
      * unfold mk_headers. rewrite (headers_payload_wire 0 b mode t [] 0 0 15 fragment eq_refl eq_refl Z31 X). reflexivity.
      * intros (H & _). apply H. reflexivity.
    + assert (M : mk_continuation 0 0 b mode t = Ok (ContinuationFrame fragment (FH (cast_to_fh_length (size fragment)) T_CONTINUATION 0 0 0) b)).
      { unfold mk_continuation. rewrite X. reflexivity. }
      eexists. destruct (made_sent host (ContinuationFrame fragment (FH (cast_to_fh_length (size fragment)) T_CONTINUATION 0 0 0) b) fragment eq_refl L') as (raw & S & B).
      apply (forbidden_sent host _ 0 0 _ raw (asked_continuation 0 0 b mode t fragment _ X M)); try assumption.
      intros H. apply H. reflexivity.
    + eexists. refine (G 32 sid sid _ I I eq_refl eq_refl _ _).
      * unfold mk_headers. rewrite (headers_payload_wire 32 b mode t [] 0 sid 15 fragment eq_refl eq_refl I X). reflexivity.
      * intros (_ & H). exact (H 0 sid 15 eq_refl eq_refl).
    + intros promised P O.
      pose proof (push_payload_wire host 0 0 promised b [] mode t fragment eq_refl eq_refl P X) as W.
      assert (M : mk_push_promise host 0 sid (PushPromise 0 promised b []) mode t =
        Ok (PushPromiseFrame (push_promise_octets 0 0 promised fragment [])
             (FH (cast_to_fh_length (size (push_promise_octets 0 0 promised fragment []))) T_PUSH_PROMISE 0 0 sid) (PushPromise 0 promised b []))).
      { unfold mk_push_promise. rewrite W. reflexivity. }
      eexists.
      match type of M with _ = Ok ?f' => destruct (made_sent host f' _ eq_refl) as (raw & S & B) end.
      * unfold push_promise_octets, padded_payload, push_promise_contents. change (has_padded 0) with false. cbn iota.
        rewrite size_app, be_octets_size. clear - L. change (2 ^ 23) with 8388608 in L. change (2 ^ 24) with 16777216. lia.
      * apply (forbidden_sent host _ 0 sid _ raw
          (asked_push host 0 sid 0 promised b [] mode t fragment _ ltac:(cbn; lia) eq_refl P X M)); try assumption.
        intros (_ & _ & E). rewrite <- N.bit0_mod, N.bit0_odd, O in E. discriminate E.
  - destruct (C36_priority_roundtrip host Strict default_table sid 0 sid 15 I eq_refl I eq_refl) as (f & M & W & _).
    exists f. apply (forbidden_sent host f 0 sid _ _ (asked_priority sid 0 sid 15 f eq_refl M) Z8 I W).
    + rewrite sent_size. unfold priority_fields. rewrite size_app, be_octets_size. reflexivity.
    + intros (_ & H). apply H. reflexivity.
  - intros params N P. destruct (C38_make_sf_payload params P) as (D & K).
    destruct (C38_settings_roundtrip host Strict default_table 1 sid (make_sf_payload params) eq_refl I D) as (W & _).
    apply (forbidden_sent host _ 1 sid _ _ (asked_settings 1 sid params P) eq_refl I W).
    + rewrite sent_size. rewrite PropAccess.settings_octets_size. pose proof (settings_map_size (make_sf_payload params) (proj1 D) (proj2 D)) as Q.
      clear - Q. change (2 ^ 16) with 65536 in Q. change (2 ^ 24) with 16777216. lia.
    + intros (H0 & H & _). destruct N as [N | N]; [exact (N H0)|]. specialize (H eq_refl). destruct params as [|p params]; [apply N; reflexivity|].
      specialize (K (fst p)). rewrite H in K. apply (proj2 K). left. reflexivity.
  - intros id value A B N.
    assert (P : Forall (fun p => fst p < 2 ^ 16 /\ snd p < 2 ^ 32) [(id, value)]) by (constructor; [split; assumption|constructor]).
    destruct (C38_make_sf_payload [(id, value)] P) as (D & _). change (make_sf_payload [(id, value)]) with [(id, value)] in *.
    destruct (C38_settings_roundtrip host Strict default_table 0 0 [(id, value)] Z8 Z31 D) as (W & _).
    apply (forbidden_sent host _ 0 0 _ _ (asked_settings 0 0 [(id, value)] P) Z8 Z31 W).
    + rewrite sent_size, PropAccess.settings_octets_size. reflexivity.
    + intros (_ & _ & H). exact (N (Forall_inv H)).
  - destruct (C37_window_update_roundtrip host Strict default_table sid 0 0 I eq_refl eq_refl) as (f & M & W & _).
    exists f. apply (forbidden_sent host f 0 sid _ _ (asked_window sid 0 0 f eq_refl M) Z8 I W).
    + rewrite sent_size. unfold window_update_octets. rewrite be_octets_size. reflexivity.
    + intros H. apply H. reflexivity.
Qed.

(* A POST as the example client would send it: what is asked for is permitted. *)
Example C92_case : exists f c fragment, asked f 36 1 c /\ permitted 36 1 c /\
  c = CHeaders (Some (0, 3, 200)) fragment [] /\ fragment = [131; 132] /\
  serialize LittleEndian f = Ok (wire_frame HEADERS 36 0 1 ([0; 0; 0; 3; 200] ++ fragment)).
Proof.
  pose (b := [HEntry WithoutIndexing (EHeader (bytes_of_string ":method", bytes_of_string "POST")); HEntry WithoutIndexing (EHeader (bytes_of_string ":path", bytes_of_string "/"))]).
  exists (HeadersFrame [0; 0; 0; 3; 200; 131; 132] (FH 7 1 36 0 1) [] (Prio 0 3 200) b), (CHeaders (Some (0, 3, 200)) [131; 132] []), [131; 132].
  split; [|split; [|split; [reflexivity|split; [reflexivity|vm_compute; reflexivity]]]].
  - refine (asked_headers 36 1 b ModeNone default_table [] 0 3 200 [131; 132] _ _ eq_refl eq_refl eq_refl _ _); [cbn; lia| |]; vm_compute; reflexivity.
  - split; [discriminate|]. intros e d w E. injection E as <- <- <-. discriminate.
Qed.

Print Assumptions C92_format_partial.
Print Assumptions C92_connection_partial.
Print Assumptions C92_data_format_refuted.
Print Assumptions C92_forbidden_refuted.
