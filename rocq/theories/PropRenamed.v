(* Property C128: all streams are treated alike. *)
From Coq Require Import String.
From Coq Require Import ZArith NArith List Bool Lia ZifyBool ZifyNat ZifyN.
From Verif Require Import Base Arith Util HeaderType DynTable HeaderDec FrameHeader Frames FrameBuilder Ssl Client
  SpecBits SpecHpack SpecFrame UtilProofs DynTableProofs FrameProofs HeaderProofs BlockProofs PropFrame PropSsl PropClient PropHistory.
Import ListNotations.
Local Open Scope string_scope.
Local Open Scope list_scope.
Local Open Scope N_scope.
Ltac Zify.zify_post_hook ::= Z.div_mod_to_equations.

(* ---- specification ---- *)

(* The same frame on another stream. *)
Definition moved (to : N -> N) (w : wframe) : wframe := WFrame (w_type w) (w_flags w) (w_reserved w) (to (w_stream w)) (w_payload w).

Definition moved_header (to : N -> N) (h : frame_header) : frame_header := FH (fh_length h) (fh_type h) (fh_flags h) (fh_reserved h) (to (fh_stream_id h)).

(* The same frame object but for the stream in its header. *)
Definition moved_frame (to : N -> N) (f : frame) : frame :=
  match f with
  | RawFrame h p => RawFrame (moved_header to h) p
  | DataFrame h p => DataFrame (moved_header to h) p
  | HeadersFrame e h pad pr b => HeadersFrame e (moved_header to h) pad pr b
  | PriorityFrame h p => PriorityFrame (moved_header to h) p
  | RstStreamFrame h c => RstStreamFrame (moved_header to h) c
  | SettingsFrame h s => SettingsFrame (moved_header to h) s
  | PushPromiseFrame e h p => PushPromiseFrame e (moved_header to h) p
  | PingFrame h o => PingFrame (moved_header to h) o
  | GoawayFrame h p => GoawayFrame (moved_header to h) p
  | WindowUpdateFrame h r i => WindowUpdateFrame (moved_header to h) r i
  | ContinuationFrame e h b => ContinuationFrame e (moved_header to h) b
  end.

(* The same outcome but for the stream in the header of a frame that is returned. *)
Definition moved_outcome (to : N -> N) (r : res frame) : res frame :=
  match r with
  | Ok f => Ok (moved_frame to f)
  | other => other
  end.

(* ---- proofs ---- *)

Lemma build_moved : forall to m h raw T, build_frame m (moved_header to h) raw T = moved_outcome to (build_frame m h raw T).
Proof.
  intros to m [len ty fl r sid] raw T. unfold build_frame, moved_header. cbn [fh_type fh_length fh_flags fh_reserved fh_stream_id].
  repeat match goal with |- context [if ty =? ?k then _ else _] => destruct (ty =? k) end; try reflexivity.
  - unfold build_headers_frame, parse_headers, headers_decode_payload. cbn [fh_flags].
    destruct (if is_flag_set fl F_PADDED then _ else _) as [[pad d]| | |]; cbn [bind]; try reflexivity.
    destruct (if is_flag_set fl F_PRIORITY then _ else _) as [[pr d']| | |]; cbn [bind]; try reflexivity. destruct (decode_block m d' T); reflexivity.
  - unfold parse_priority. destruct (priority_construct_payload raw); cbn [bind]; try reflexivity. destruct (validate_priority _); reflexivity.
  - unfold parse_rst_stream. destruct (size raw <? 4); [reflexivity|]. destruct (bytes2integral 4 raw 0); reflexivity.
  - unfold build_settings_frame. destruct (settings_loop _ raw []); reflexivity.
  - unfold parse_push_promise, push_promise_decode_payload. cbn [fh_flags]. destruct (if is_flag_set fl F_PADDED then _ else _) as [[pad d]| | |]; cbn [bind]; try reflexivity.
    destruct (vget d 0); cbn [bind]; try reflexivity. destruct (bytes2integral 4 d 0); cbn [bind]; try reflexivity. destruct (verase_front d 4); cbn [bind]; try reflexivity.
    destruct (decode_block m _ T); reflexivity.
  - unfold parse_goaway. destruct (goaway_construct_payload raw); reflexivity.
  - unfold parse_window_update. destruct raw; [reflexivity|]. cbn [bind]. destruct (negb _); [reflexivity|]. destruct (bytes2integral 4 _ 0); cbn [bind]; try reflexivity.
    destruct (validate_window_size _); reflexivity.
  - unfold parse_continuation. destruct (decode_block m raw T); reflexivity.
Qed.

Lemma update_moved : forall to T f, update_frame T (moved_frame to f) = update_frame T f.
Proof. intros to T []; reflexivity. Qed.

Lemma handled_moved : forall to m T w, handled m T (moved to w) = (moved_outcome to (fst (handled m T w)), snd (handled m T w)).
Proof.
  intros to m T w. unfold handled. change (header_of (moved to w)) with (moved_header to (header_of w)). change (w_payload (moved to w)) with (w_payload w). rewrite build_moved.
  destruct (build_frame m (header_of w) (w_payload w) T); try reflexivity. cbn [moved_outcome]. rewrite update_moved. destruct (update_frame T a) as [[[]| | |] T']; reflexivity.
Qed.

(* If every frame comes on another stream, the calls have the same outcomes but for the
   stream in the headers of the frames returned, and the table becomes the same. *)
Theorem C128_streams_alike : forall to m ws c c' rest rest', Forall wframe_ok ws -> (forall s, to s < 2 ^ 31) -> c_resp c = c_resp c' ->
  tls_in (c_tls c) = concat (map wire ws) ++ rest -> delivers (size (concat (map wire ws))) (c_tls c) ->
  tls_in (c_tls c') = concat (map wire (map (moved to) ws)) ++ rest' -> delivers (size (concat (map wire (map (moved to) ws)))) (c_tls c') ->
  fst (receive_n m (length ws) c') = map (moved_outcome to) (fst (receive_n m (length ws) c)) /\
  c_resp (snd (receive_n m (length ws) c')) = c_resp (snd (receive_n m (length ws) c)).
Proof.
  intros to m ws. induction ws as [|w ws IH]; intros c c' rest rest' F B Q E D E' D'; [cbn; auto|].
  apply Forall_cons_iff in F. destruct F as [W F]. cbn [map concat length receive_n] in *.
  assert (W' : wframe_ok (moved to w)) by (destruct W as (A1 & A2 & A3 & A4 & A5 & A6); repeat split; auto; apply B).
  rewrite <- app_assoc in E, E'. rewrite size_app in D, D'.
  destruct (receive_complete m c w _ _ W E D) as (s1 & I1 & _ & D1 & R1). destruct (receive_complete m c' _ _ _ W' E' D') as (s2 & I2 & _ & D2 & R2).
  rewrite R1, R2, handled_moved, <- Q. cbn [fst snd].
  specialize (IH (Client s1 (c_req c) (snd (handled m (c_resp c) w))) (Client s2 (c_req c') (snd (handled m (c_resp c) w))) rest rest' F B eq_refl I1 D1 I2 D2).
  destruct (receive_n m (length ws) _) as [rs k], (receive_n m (length ws) _) as [rs' k']. cbn [fst snd map] in *. destruct IH as [IH1 IH2]. rewrite IH1. auto.
Qed.

(* A response on stream 1 that becomes one on stream 0, on which RFC 7540 forbids it, and
   frames for the connection that come on a stream. *)
Example C128_case : forall m,
  let to := fun s => if s =? 0 then 5 else 0 in
  let ws := [WFrame SETTINGS 0 0 0 [0; 1; 0; 0; 0; 99]; WFrame HEADERS 4 0 1 [0x88; 0x40; 1; 97; 1; 98]; WFrame PING 0 0 0 [1; 2; 3; 4; 5; 6; 7; 8]; WFrame DATA 1 0 1 [7]] in
  Forall wframe_ok ws /\ (forall s, to s < 2 ^ 31) /\ map w_stream (map (moved to) ws) = [5; 0; 5; 0] /\
  (exists f, fst (handled m default_table (hd (WFrame 0 0 0 0 []) ws)) = Ok f /\ fh_stream_id (frame_fh f) = 0 /\ fh_stream_id (frame_fh (moved_frame to f)) = 5).
Proof.
  intros m to ws. split; [|split; [|split; [reflexivity|]]].
  - repeat constructor; apply wframe_check; reflexivity.
  - intros s. unfold to. destruct (s =? 0); reflexivity.
  - eexists. split; [vm_compute; reflexivity|]. split; reflexivity.
Qed.

Print Assumptions C128_streams_alike.
