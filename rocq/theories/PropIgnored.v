(* Property C126: what a receiver has to ignore changes nothing. *)
From Coq Require Import String.
From Coq Require Import ZArith NArith List Bool Lia ZifyBool ZifyNat ZifyN.
From Verif Require Import Base Arith Util HeaderType DynTable HeaderDec FrameHeader Frames FrameBuilder Ssl Client
  SpecBits SpecHpack SpecFrame UtilProofs DynTableProofs FrameProofs HeaderProofs BlockProofs PropFrame PropSsl PropClient PropHistory.
Import ListNotations.
Local Open Scope string_scope.
Local Open Scope list_scope.
Local Open Scope N_scope.
Ltac Zify.zify_post_hook ::= Z.div_mod_to_equations.

(* ---- specification ---- *)

(* RFC 7540 section 6: the bits of the flags that have a meaning for a type. *)
Definition defined_flags (ty : N) : list N :=
  if ty =? DATA then [0; 3] else if ty =? HEADERS then [0; 2; 3; 5] else if ty =? SETTINGS then [0]
  else if ty =? PUSH_PROMISE then [2; 3] else if ty =? PING then [0] else if ty =? CONTINUATION then [2] else [].

(* RFC 7540 4.1: frames that differ only in the reserved bit and in flags that have no
   meaning for their type. *)
Definition same_but_ignored (w w' : wframe) : Prop :=
  w_type w = w_type w' /\ w_stream w = w_stream w' /\ w_payload w = w_payload w' /\
  forall i, In i (defined_flags (w_type w)) -> N.testbit (w_flags w) i = N.testbit (w_flags w') i.

(* A frame object without the flags and the reserved bit of its header. *)
Definition quiet_header (h : frame_header) : frame_header := FH (fh_length h) (fh_type h) 0 0 (fh_stream_id h).

Definition quiet (f : frame) : frame :=
  match f with
  | RawFrame h p => RawFrame (quiet_header h) p
  | DataFrame h p => DataFrame (quiet_header h) p
  | HeadersFrame e h pad pr b => HeadersFrame e (quiet_header h) pad pr b
  | PriorityFrame h p => PriorityFrame (quiet_header h) p
  | RstStreamFrame h c => RstStreamFrame (quiet_header h) c
  | SettingsFrame h s => SettingsFrame (quiet_header h) s
  | PushPromiseFrame e h p => PushPromiseFrame e (quiet_header h) p
  | PingFrame h o => PingFrame (quiet_header h) o
  | GoawayFrame h p => GoawayFrame (quiet_header h) p
  | WindowUpdateFrame h r i => WindowUpdateFrame (quiet_header h) r i
  | ContinuationFrame e h b => ContinuationFrame e (quiet_header h) b
  end.

(* The same outcome, up to these. *)
Definition alike (a b : res frame) : Prop :=
  match a, b with
  | Ok f, Ok g => quiet f = quiet g
  | Throw x, Throw y => x = y
  | UB u, UB v => u = v
  | NoFuel, NoFuel => True
  | _, _ => False
  end.

(* The payloads that differ only in a reserved bit (RFC 7540 6.6, 6.8, 6.9): the first bit
   of GOAWAY and WINDOW_UPDATE, and of PUSH_PROMISE behind the length of the padding. *)
Inductive same_but_reserved : wframe -> wframe -> Prop :=
| reserved_first : forall ty flags r stream b b' q, ty = GOAWAY \/ ty = WINDOW_UPDATE \/ (ty = PUSH_PROMISE /\ has_padded flags = false) ->
    b mod 128 = b' mod 128 -> same_but_reserved (WFrame ty flags r stream (b :: q)) (WFrame ty flags r stream (b' :: q))
| reserved_second : forall flags r stream n b b' q, has_padded flags = true -> b mod 128 = b' mod 128 ->
    same_but_reserved (WFrame PUSH_PROMISE flags r stream (n :: b :: q)) (WFrame PUSH_PROMISE flags r stream (n :: b' :: q)).

(* A frame object without these bits. *)
Definition unreserved (f : frame) : frame :=
  match f with
  | GoawayFrame h p => GoawayFrame h (Goaway 0 (g_last_stream_id p) (g_error_code p) (g_debug p))
  | WindowUpdateFrame h _ i => WindowUpdateFrame h 0 i
  | PushPromiseFrame _ h p => PushPromiseFrame [] h (PushPromise 0 (pp_promised p) (pp_block p) (pp_padding p))
  | _ => f
  end.

Definition alike_unreserved (a b : res frame) : Prop :=
  match a, b with
  | Ok f, Ok g => unreserved f = unreserved g
  | Throw x, Throw y => x = y
  | UB u, UB v => u = v
  | NoFuel, NoFuel => True
  | _, _ => False
  end.

(* Frames that differ only in the octets of the padding (RFC 7540 6.2, 6.6). *)
Definition same_but_padding (w w' : wframe) : Prop := exists n data pad pad',
  (w_type w = HEADERS \/ w_type w = PUSH_PROMISE) /\ has_padded (w_flags w) = true /\
  length pad = length pad' /\ N.of_nat (length pad) = n /\ w_payload w = n :: data ++ pad /\
  w' = WFrame (w_type w) (w_flags w) (w_reserved w) (w_stream w) (n :: data ++ pad').

(* A frame object without the padding, and without the octets it would be sent on with.  A
   frame whose block cannot be decoded is handed over as its octets, the padding last. *)
Definition unpadded (f : frame) : frame :=
  match f with
  | RawFrame h p => RawFrame h (firstn (length p - N.to_nat (hd 0 p)) p)
  | HeadersFrame _ h _ pr b => HeadersFrame [] h [] pr b
  | PushPromiseFrame _ h p => PushPromiseFrame [] h (PushPromise (pp_reserved p) (pp_promised p) (pp_block p) [])
  | _ => f
  end.

Definition alike_unpadded (a b : res frame) : Prop :=
  match a, b with
  | Ok f, Ok g => unpadded f = unpadded g
  | Throw x, Throw y => x = y
  | UB u, UB v => u = v
  | NoFuel, NoFuel => True
  | _, _ => False
  end.

(* ---- proofs ---- *)

Lemma padded_bit : forall flags, is_flag_set flags F_PADDED = N.testbit flags 3.
Proof. intros. exact (is_flag_set_bit flags 3). Qed.

Lemma priority_bit : forall flags, is_flag_set flags F_PRIORITY = N.testbit flags 5.
Proof. intros. exact (is_flag_set_bit flags 5). Qed.

Lemma quiet_type : forall f, fh_type (frame_fh (quiet f)) = fh_type (frame_fh f).
Proof. intros []; reflexivity. Qed.

Lemma update_quiet : forall t f, update_frame t (quiet f) = update_frame t f.
Proof. intros t f. unfold update_frame. rewrite quiet_type. destruct f; reflexivity. Qed.

Lemma alike_bind : forall A (r : res A) (k k' : A -> res frame), (forall a, alike (k a) (k' a)) -> alike (let* a := r in k a) (let* a := r in k' a).
Proof. intros A [a|x|u|] k k' H; cbn; [apply H|reflexivity|reflexivity|exact I]. Qed.

Lemma alike_refl : forall r, alike r r.
Proof. intros []; cbn; auto. Qed.

Lemma build_alike : forall m T w w', same_but_ignored w w' -> alike (build_frame m (header_of w) (w_payload w) T) (build_frame m (header_of w') (w_payload w') T).
Proof.
  intros m T [ty fl r sid p] [ty' fl' r' sid' p'] (E1 & E2 & E3 & B). cbn [w_type w_stream w_payload w_flags] in *. subst ty' sid' p'.
  unfold build_frame, header_of. cbn [fh_type w_type w_payload w_flags w_reserved w_stream].
  destruct (N.eqb_spec ty T_DATA) as [->|_]; [reflexivity|].
  destruct (N.eqb_spec ty T_HEADERS) as [->|_].
  { assert (H : alike (parse_headers m (FH (size p) T_HEADERS fl r sid) p T) (parse_headers m (FH (size p) T_HEADERS fl' r' sid) p T)).
    { unfold parse_headers, headers_decode_payload. cbn [fh_flags]. rewrite !padded_bit, !priority_bit.
      rewrite (B 3), (B 5) by (cbn; auto). apply alike_bind. intros [[pad pr] b]. reflexivity. }
    unfold build_headers_frame. destruct (parse_headers m (FH _ _ fl _ _) p T), (parse_headers m (FH _ _ fl' _ _) p T); cbn in H; try contradiction; try exact H. reflexivity. }
  destruct (N.eqb_spec ty T_PRIORITY) as [->|_]; [unfold parse_priority; apply alike_bind; intros q; apply alike_bind; reflexivity|].
  destruct (N.eqb_spec ty T_RST_STREAM) as [->|_]; [unfold parse_rst_stream; destruct (size p <? 4); [reflexivity|apply alike_bind; reflexivity]|].
  destruct (N.eqb_spec ty T_SETTINGS) as [->|_]; [unfold build_settings_frame; apply alike_bind; reflexivity|].
  destruct (N.eqb_spec ty T_PUSH_PROMISE) as [->|_].
  { unfold parse_push_promise, push_promise_decode_payload. cbn [fh_flags]. rewrite !padded_bit, (B 3) by (cbn; auto). apply alike_bind. intros q. reflexivity. }
  destruct (N.eqb_spec ty T_PING) as [->|_]; [reflexivity|].
  destruct (N.eqb_spec ty T_GOAWAY) as [->|_]; [unfold parse_goaway; apply alike_bind; reflexivity|].
  destruct (N.eqb_spec ty T_WINDOW_UPDATE) as [->|_]; [unfold parse_window_update; apply alike_bind; intros q; apply alike_bind; intros v; apply alike_bind; reflexivity|].
  destruct (N.eqb_spec ty T_CONTINUATION) as [->|_]; [unfold parse_continuation; apply alike_bind; reflexivity|]. reflexivity.
Qed.

Lemma handled_alike : forall m T w w', same_but_ignored w w' ->
  alike (fst (handled m T w)) (fst (handled m T w')) /\ snd (handled m T w) = snd (handled m T w').
Proof.
  intros m T w w' S. pose proof (build_alike m T w w' S) as A. unfold handled.
  destruct (build_frame m (header_of w) (w_payload w) T) as [f|x|u|], (build_frame m (header_of w') (w_payload w') T) as [g|y|v|]; cbn in A; try contradiction; try (split; [exact A|reflexivity]).
  - rewrite <- (update_quiet T f), A, (update_quiet T g). destruct (update_frame T g) as [[[]|x|u|] T1]; cbn; auto.
Qed.

(* Two clients with the same table, one receives the frames ws, the other one frames that
   differ from them only in what is to be ignored: valid or not, the calls have the same
   outcomes and the tables stay equal. *)
Theorem C126_ignored : forall m ws ws' c c' rest rest', Forall2 same_but_ignored ws ws' -> Forall wframe_ok ws -> Forall wframe_ok ws' ->
  c_resp c = c_resp c' ->
  tls_in (c_tls c) = concat (map wire ws) ++ rest -> delivers (size (concat (map wire ws))) (c_tls c) ->
  tls_in (c_tls c') = concat (map wire ws') ++ rest' -> delivers (size (concat (map wire ws'))) (c_tls c') ->
  Forall2 alike (fst (receive_n m (length ws) c)) (fst (receive_n m (length ws') c')) /\
  c_resp (snd (receive_n m (length ws) c)) = c_resp (snd (receive_n m (length ws') c')).
Proof.
  intros m ws ws' c c' rest rest' S. revert c c'. induction S as [|w w' ws ws' S SS IH]; intros c c' F F' Q E D E' D'; [split; [constructor|exact Q]|].
  apply Forall_cons_iff in F, F'. destruct F as [W F], F' as [W' F']. cbn [map concat length receive_n] in *.
  rewrite <- app_assoc in E, E'. rewrite size_app in D, D'.
  destruct (receive_complete m c w _ _ W E D) as (s1 & I1 & _ & D1 & R1). destruct (receive_complete m c' w' _ _ W' E' D') as (s2 & I2 & _ & D2 & R2).
  rewrite R1, R2. destruct (handled_alike m (c_resp c) w w' S) as [A T]. rewrite <- Q.
  specialize (IH (Client s1 (c_req c) (snd (handled m (c_resp c) w))) (Client s2 (c_req c') (snd (handled m (c_resp c) w'))) F F' T I1 D1 I2 D2).
  destruct (receive_n m (length ws) _) as [rs k], (receive_n m (length ws') _) as [rs' k']. cbn [fst snd] in *. destruct IH as [IH1 IH2].
  split; [constructor; assumption|exact IH2].
Qed.

Lemma first_four : forall b q, wf_bytes (b :: q) -> (size q < 3 /\ bytes2integral 4 (b :: q) 0 = UB BadRange) \/
  exists c d e r, q = c :: d :: e :: r /\ bytes2integral 4 (b :: q) 0 = Ok (be_value [b; c; d; e]).
Proof.
  intros b q W. destruct q as [|c [|d [|e r]]]; try (left; split; [unfold size; cbn; lia|reflexivity]). right. exists c, d, e, r. split; [reflexivity|].
  change (b :: c :: d :: e :: r) with ([b; c; d; e] ++ r) in *. apply b2i4; [apply wf_bytes_app in W; apply W|reflexivity].
Qed.

Lemma low_same : forall b b' c d e, b mod 128 = b' mod 128 -> extract_low_bit 31 (be_value [b; c; d; e]) = extract_low_bit 31 (be_value [b'; c; d; e]).
Proof.
  intros b b' c d e E. unfold extract_low_bit. rewrite !land_mod. cbn [be_value fold_left]. change (2 ^ 31) with 2147483648. lia.
Qed.

Lemma unreserved_bind : forall A (r : res A) (k k' : A -> res frame), (forall a, alike_unreserved (k a) (k' a)) ->
  alike_unreserved (let* a := r in k a) (let* a := r in k' a).
Proof. intros A [a|x|u|] k k' H; cbn; [apply H|reflexivity|reflexivity|exact I]. Qed.

(* push_promise_decode_payload behind the padding *)
Lemma promise_unreserved : forall m T raw raw' h padding b b' q, wf_bytes (b :: q) -> wf_bytes (b' :: q) -> b mod 128 = b' mod 128 ->
  let rest data := let* b0 := vget data 0 in let* x := bytes2integral 4 data 0 in let* data' := verase_front data 4 in let* bl := decode_block m data' T in
    Ok (PushPromise (extract_high_bit RESERVED_BITS 8 b0) (extract_low_bit STREAM_ID_BITS x) bl padding) in
  alike_unreserved (let* p := rest (b :: q) in Ok (PushPromiseFrame raw h p)) (let* p := rest (b' :: q) in Ok (PushPromiseFrame raw' h p)).
Proof.
  intros m T raw raw' h padding b b' q W W' E rest. unfold rest. change (vget (b :: q) 0) with (vget (b :: q) 0).
  assert (V : forall a, vget (a :: q) 0 = Ok a).
  { intros a. unfold vget. rewrite size_cons. destruct (N.ltb_spec 0 (size q + 1)); [reflexivity|lia]. }
  rewrite !V. cbn [bind]. destruct (first_four b q W) as [[L X]|(c & d & e & r & -> & X)].
  - destruct (first_four b' q W') as [[_ X']|(c & d & e & r & -> & _)]; [|unfold size in L; cbn in L; lia]. rewrite X, X'. reflexivity.
  - destruct (first_four b' _ W') as [[L _]|(c' & d' & e' & r' & Q & X')]; [unfold size in L; cbn in L; lia|]. injection Q as <- <- <- <-. rewrite X, X'. cbn [bind].
    change (verase_front (b' :: c :: d :: e :: r) 4) with (verase_front (b :: c :: d :: e :: r) 4).
    destruct (verase_front (b :: c :: d :: e :: r) 4) as [data'| | |]; cbn [bind alike_unreserved]; auto. destruct (decode_block m data' T) as [bl| | |]; cbn [bind alike_unreserved]; auto.
    cbn [unreserved pp_promised pp_block pp_padding]. unfold STREAM_ID_BITS. rewrite (low_same b b' c d e E). reflexivity.
Qed.

Lemma build_unreserved : forall m T w w', same_but_reserved w w' -> wframe_ok w -> wframe_ok w' ->
  alike_unreserved (build_frame m (header_of w) (w_payload w) T) (build_frame m (header_of w') (w_payload w') T).
Proof.
  intros m T w w' S K K'. assert (O : wf_bytes (w_payload w) /\ wf_bytes (w_payload w')) by (split; apply octets_wf; [apply K|apply K']). clear K K'.
  destruct S as [ty fl r sid b b' q TY E|fl r sid n b b' q HP E]; cbn [w_payload] in O; destruct O as [W W'].
  - unfold header_of. cbn [w_type w_payload w_flags w_reserved w_stream]. change (size (b' :: q)) with (size (b :: q)). destruct TY as [->|[->|[-> NP]]].
    + unfold build_frame. cbn [fh_type]. change (GOAWAY =? T_DATA) with false. cbv beta iota zeta.
      change (alike_unreserved (parse_goaway (FH (size (b :: q)) GOAWAY fl r sid) (b :: q)) (parse_goaway (FH (size (b :: q)) GOAWAY fl r sid) (b' :: q))).
      unfold parse_goaway, goaway_construct_payload. change (size (b' :: q)) with (size (b :: q)).
      change (bytes2integral 4 (b' :: q) 4) with (bytes2integral 4 (b :: q) 4). change (skipn 8 (b' :: q)) with (skipn 8 (b :: q)).
      destruct (size (b :: q) <? 8) eqn:L; [reflexivity|]. destruct (first_four b q W) as [[Z _]|(c & d & e & s & -> & X)]; [rewrite size_cons in L; lia|].
      destruct (first_four b' _ W') as [[Z _]|(c' & d' & e' & s' & Q & X')]; [unfold size in Z; cbn in Z; lia|]. injection Q as <- <- <- <-. rewrite X, X'. cbn [bind].
      destruct (bytes2integral 4 _ 4) as [ec| | |]; cbn [bind alike_unreserved]; auto. cbn [unreserved g_last_stream_id g_error_code g_debug]. unfold STREAM_ID_BITS.
      rewrite (low_same b b' c d e E). reflexivity.
    + change (alike_unreserved (parse_window_update (FH (size (b :: q)) WINDOW_UPDATE fl r sid) (b :: q)) (parse_window_update (FH (size (b :: q)) WINDOW_UPDATE fl r sid) (b' :: q))).
      unfold parse_window_update. cbn [bind]. change (size (b' :: q)) with (size (b :: q)). destruct (negb (size (b :: q) =? 4)) eqn:L; [reflexivity|].
      destruct (first_four b q W) as [[Z _]|(c & d & e & s & -> & X)]; [rewrite size_cons in L; lia|].
      destruct (first_four b' _ W') as [[Z _]|(c' & d' & e' & s' & Q & X')]; [unfold size in Z; cbn in Z; lia|]. injection Q as <- <- <- <-. rewrite X, X'. cbn [bind].
      rewrite (low_same b b' c d e E). destruct (validate_window_size _) as [[]| | |]; cbn; auto.
    + change (alike_unreserved (parse_push_promise m (FH (size (b :: q)) PUSH_PROMISE fl r sid) (b :: q) T) (parse_push_promise m (FH (size (b :: q)) PUSH_PROMISE fl r sid) (b' :: q) T)).
      unfold parse_push_promise, push_promise_decode_payload. cbn [fh_flags]. rewrite !padded_bit. unfold has_padded in NP. rewrite NP. cbn [bind].
      exact (promise_unreserved m T (b :: q) (b' :: q) _ [] b b' q W W' E).
  - unfold header_of. cbn [w_type w_payload w_flags w_reserved w_stream]. change (size (n :: b' :: q)) with (size (n :: b :: q)).
    change (alike_unreserved (parse_push_promise m (FH (size (n :: b :: q)) PUSH_PROMISE fl r sid) (n :: b :: q) T) (parse_push_promise m (FH (size (n :: b :: q)) PUSH_PROMISE fl r sid) (n :: b' :: q) T)).
    unfold parse_push_promise, push_promise_decode_payload. cbn [fh_flags]. rewrite !padded_bit. unfold has_padded in HP. rewrite HP.
    unfold split_padding. change (size (n :: b' :: q)) with (size (n :: b :: q)). destruct (size (n :: b :: q) <? n) eqn:L; [reflexivity|].
    destruct (N.to_nat (size (n :: b :: q) - n)) as [|[|k]] eqn:K; cbn [firstn skipn bind]; [reflexivity|reflexivity|].
    assert (WB : forall a, wf_bytes (n :: a :: q) -> wf_bytes (a :: firstn k q)).
    { intros a H. apply Forall_inv_tail in H. constructor; [exact (Forall_inv H)|]. apply Forall_inv_tail in H. rewrite <- (firstn_skipn k q) in H. apply Forall_app in H. apply H. }
    exact (promise_unreserved m T (n :: b :: q) (n :: b' :: q) _ (skipn k q) b b' (firstn k q) (WB b W) (WB b' W') E).
Qed.

(* The same for the reserved bits in payloads: the outcomes differ only in what the
   accessors of these bits return. *)
Theorem C126_reserved : forall m w w' c c' rest rest', same_but_reserved w w' -> wframe_ok w -> wframe_ok w' -> c_resp c = c_resp c' ->
  tls_in (c_tls c) = wire w ++ rest -> delivers (size (wire w)) (c_tls c) -> tls_in (c_tls c') = wire w' ++ rest' -> delivers (size (wire w')) (c_tls c') ->
  alike_unreserved (fst (receive_frame m c)) (fst (receive_frame m c')) /\ c_resp (snd (receive_frame m c)) = c_resp (snd (receive_frame m c')).
Proof.
  intros m w w' c c' rest rest' S W W' Q E D E' D'.
  destruct (receive_complete m c w rest 0 W E) as (s1 & _ & _ & _ & R1); [rewrite N.add_0_r; exact D|].
  destruct (receive_complete m c' w' rest' 0 W' E') as (s2 & _ & _ & _ & R2); [rewrite N.add_0_r; exact D'|].
  rewrite R1, R2, <- Q. cbn [fst snd c_resp]. pose proof (build_unreserved m (c_resp c) w w' S W W') as A. unfold handled.
  assert (U : forall t f, update_frame t (unreserved f) = update_frame t f) by (intros t []; reflexivity).
  destruct (build_frame m (header_of w) (w_payload w) (c_resp c)) as [f|x|u|], (build_frame m (header_of w') (w_payload w') (c_resp c)) as [g|y|v|]; cbn in A; try contradiction;
    try (split; [exact A|reflexivity]).
  rewrite <- (U (c_resp c) f), A, (U (c_resp c) g). destruct (update_frame (c_resp c) g) as [[[]|x|u|] T1]; cbn; auto.
Qed.

Lemma padding_split : forall n data pad, N.of_nat (length pad) = n -> split_padding (n :: data ++ pad) = Ok (pad, data).
Proof.
  intros n data pad L. unfold split_padding. rewrite size_cons, size_app. fold (size pad) in L. destruct (N.ltb_spec (size data + size pad + 1) n); [lia|].
  replace (N.to_nat (size data + size pad + 1 - n)) with (S (length data)) by (unfold size in *; lia). cbn [firstn skipn].
  rewrite firstn_app, Nat.sub_diag, firstn_all, skipn_app, Nat.sub_diag, skipn_all. cbn [firstn skipn]. rewrite app_nil_r. reflexivity.
Qed.

Lemma octets_unpadded : forall (n : N) (data pad pad' : bytes), length pad = length pad' -> N.of_nat (length pad) = n ->
  firstn (length (n :: data ++ pad) - N.to_nat (hd 0 (n :: data ++ pad))) (n :: data ++ pad) =
  firstn (length (n :: data ++ pad') - N.to_nat (hd 0 (n :: data ++ pad'))) (n :: data ++ pad').
Proof.
  intros n data pad pad' LE LN. cbn [hd length]. rewrite !app_length.
  replace (S (length data + length pad) - N.to_nat n)%nat with (S (length data)) by lia. replace (S (length data + length pad') - N.to_nat n)%nat with (S (length data)) by lia.
  cbn [firstn]. rewrite !firstn_app, Nat.sub_diag, !firstn_O. reflexivity.
Qed.

Lemma build_unpadded : forall m T w w', same_but_padding w w' ->
  alike_unpadded (build_frame m (header_of w) (w_payload w) T) (build_frame m (header_of w') (w_payload w') T).
Proof.
  intros m T [ty fl r sid p] w' (n & data & pad & pad' & TY & HP & LE & LN & E & ->). cbn [w_type w_flags w_reserved w_stream w_payload] in *. subst p.
  unfold header_of. cbn [w_type w_payload w_flags w_reserved w_stream].
  replace (size (n :: data ++ pad')) with (size (n :: data ++ pad)) by (rewrite !size_cons, !size_app; unfold size; rewrite LE; reflexivity).
  assert (S1 := padding_split n data pad LN). assert (S2 : split_padding (n :: data ++ pad') = Ok (pad', data)) by (apply padding_split; congruence).
  generalize (size (n :: data ++ pad)). intros len. unfold has_padded in HP. destruct TY as [E1 | E1]; rewrite E1.
  - change (alike_unpadded (build_headers_frame m (FH len HEADERS fl r sid) (n :: data ++ pad) T) (build_headers_frame m (FH len HEADERS fl r sid) (n :: data ++ pad') T)).
    unfold build_headers_frame, parse_headers, headers_decode_payload. cbn [fh_flags]. rewrite !padded_bit, HP, S1, S2. cbn [bind].
    destruct (if is_flag_set fl F_PRIORITY then headers_split_priority data else Ok (Prio 0 0 0, data)) as [[pr d]| | |]; cbn [bind alike_unpadded]; auto;
      [destruct (decode_block m d T); cbn [bind alike_unpadded]; auto|]; unfold unpadded; f_equal; apply octets_unpadded; assumption.
  - change (alike_unpadded (parse_push_promise m (FH len PUSH_PROMISE fl r sid) (n :: data ++ pad) T) (parse_push_promise m (FH len PUSH_PROMISE fl r sid) (n :: data ++ pad') T)).
    unfold parse_push_promise, push_promise_decode_payload. cbn [fh_flags]. rewrite !padded_bit, HP, S1, S2. cbn [bind].
    destruct (vget data 0); cbn; auto. destruct (bytes2integral 4 data 0); cbn; auto. destruct (verase_front data 4); cbn; auto. destruct (decode_block m _ T); cbn; auto.
Qed.

(* The octets of the padding change only what the accessor of the padding returns. *)
Theorem C126_padding : forall m w w' c c' rest rest', same_but_padding w w' -> wframe_ok w -> wframe_ok w' -> c_resp c = c_resp c' ->
  tls_in (c_tls c) = wire w ++ rest -> delivers (size (wire w)) (c_tls c) -> tls_in (c_tls c') = wire w' ++ rest' -> delivers (size (wire w')) (c_tls c') ->
  alike_unpadded (fst (receive_frame m c)) (fst (receive_frame m c')) /\ c_resp (snd (receive_frame m c)) = c_resp (snd (receive_frame m c')).
Proof.
  intros m w w' c c' rest rest' S W W' Q E D E' D'.
  destruct (receive_complete m c w rest 0 W E) as (s1 & _ & _ & _ & R1); [rewrite N.add_0_r; exact D|].
  destruct (receive_complete m c' w' rest' 0 W' E') as (s2 & _ & _ & _ & R2); [rewrite N.add_0_r; exact D'|].
  rewrite R1, R2, <- Q. cbn [fst snd c_resp]. pose proof (build_unpadded m (c_resp c) w w' S) as A. unfold handled.
  assert (U : forall t f, update_frame t (unpadded f) = update_frame t f) by (intros t []; reflexivity).
  destruct (build_frame m (header_of w) (w_payload w) (c_resp c)) as [f|x|u|], (build_frame m (header_of w') (w_payload w') (c_resp c)) as [g|y|v|]; cbn in A; try contradiction;
    try (split; [exact A|reflexivity]).
  rewrite <- (U (c_resp c) f), A, (U (c_resp c) g). destruct (update_frame (c_resp c) g) as [[[]|x|u|] T1]; cbn; auto.
Qed.

(* A HEADERS frame with all the flags that mean nothing and the reserved bit, followed by a
   PING frame that is too short; a PUSH_PROMISE frame with padding. *)
Example C126_case : forall m,
  let ws := [WFrame HEADERS 4 0 1 [0x88; 0x40; 1; 97; 1; 98]; WFrame PING 1 0 0 [1; 2]] in
  let ws' := [WFrame HEADERS 0xd6 1 1 [0x88; 0x40; 1; 97; 1; 98]; WFrame PING 0xff 1 0 [1; 2]] in
  let p := WFrame PUSH_PROMISE 12 0 1 [1; 0; 0; 0; 2; 0x82; 0] in
  let p' := WFrame PUSH_PROMISE 12 0 1 [1; 128; 0; 0; 2; 0x82; 0] in
  Forall2 same_but_ignored ws ws' /\ Forall wframe_ok ws /\ Forall wframe_ok ws' /\ same_but_reserved p p' /\ same_but_padding p (WFrame PUSH_PROMISE 12 0 1 [1; 0; 0; 0; 2; 0x82; 77]) /\ wframe_ok p /\ wframe_ok p' /\
  (exists f, fst (handled m default_table (hd p ws)) = Ok f) /\ exists f, fst (handled m default_table p) = Ok f.
Proof.
  intros m ws ws' p p'. split; [|split; [|split; [|split; [|split; [|split; [|split; [|split]]]]]]].
  - constructor; [|constructor; [|constructor]]; (split; [reflexivity|split; [reflexivity|split; [reflexivity|]]]); intros i I; cbn in I;
      repeat (destruct I as [<-|I]; [reflexivity|]); contradiction I.
  - repeat constructor; apply wframe_check; reflexivity.
  - repeat constructor; apply wframe_check; reflexivity.
  - apply reserved_second; reflexivity.
  - exists 1, [0; 0; 0; 2; 0x82], [0], [77]. repeat split. right. reflexivity.
  - apply wframe_check; reflexivity.
  - apply wframe_check; reflexivity.
  - destruct m; eexists; vm_compute; reflexivity.
  - destruct m; eexists; vm_compute; reflexivity.
Qed.

Print Assumptions C126_ignored.
Print Assumptions C126_reserved.
Print Assumptions C126_padding.
