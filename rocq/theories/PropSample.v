(* Properties C62 and C63: the sample program sample/h2_get. *)
From Coq Require Import String.
From Coq Require Import ZArith NArith List Bool Lia ZifyBool ZifyNat ZifyN.
From Verif Require Import Base Arith Util StaticTable HeaderType DynTable HeaderEnc FrameHeader Frames FrameBuilder Ssl Client Dump Sample
  SpecBits SpecInt SpecHpack SpecFrame UtilProofs StaticProofs DynTableProofs HeaderProofs FrameProofs HistoryProofs
  PropHeader PropFrame PropSsl PropClient PropHistory PropRequest.
Import ListNotations.
Local Open Scope string_scope.
Local Open Scope list_scope.
Local Open Scope N_scope.
Ltac Zify.zify_post_hook ::= Z.div_mod_to_equations.

(* ---------------------------------------------------------------- C63 *)

(* RFC 7540 sections 6.1 and 6.8: the frames after which nothing more is
   awaited, DATA carrying END_STREAM (0x1) and GOAWAY. *)
Definition final_frame (w : wframe) : Prop :=
  (w_type w = DATA /\ N.testbit (w_flags w) 0 = true) \/ w_type w = GOAWAY.

(* Frames received one after the other from response table t and printed on a
   stream in format hex: the text, the table and the format afterwards. *)
Inductive shown (m : ub_mode) : dyn_table -> bool -> list wframe -> list N -> dyn_table -> bool -> Prop :=
| shown_nil : forall t hex, shown m t hex [] [] t hex
| shown_cons : forall t hex w ws f t1 x hex1 xs t2 hex2,
    build_frame m (header_of w) (w_payload w) t = Ok f -> update_frame t f = (Ok tt, t1) ->
    dump m hex f = Ok (x, hex1) -> shown m t1 hex1 ws xs t2 hex2 ->
    shown m t hex (w :: ws) (x ++ xs) t2 hex2.

Lemma shown_first : forall m t hex w ws text t2 hex2, shown m t hex (w :: ws) text t2 hex2 ->
  exists f t1 x hex1 xs, build_frame m (header_of w) (w_payload w) t = Ok f /\ update_frame t f = (Ok tt, t1) /\
    dump m hex f = Ok (x, hex1) /\ shown m t1 hex1 ws xs t2 hex2 /\ text = x ++ xs.
Proof. intros m t hex w ws text t2 hex2 H. inversion H; subst. do 5 eexists. repeat split; eassumption. Qed.

Lemma shown_end : forall m t hex text t2 hex2, shown m t hex [] text t2 hex2 -> text = [] /\ t = t2 /\ hex = hex2.
Proof. intros m t hex text t2 hex2 H. inversion H; subst. auto. Qed.

Lemma handled_split : forall m t w f t', handled m t w = (Ok f, t') ->
  build_frame m (header_of w) (w_payload w) t = Ok f /\ update_frame t f = (Ok tt, t').
Proof.
  intros m t w f t' H. unfold handled in H. destruct (build_frame _ _ _ _) as [g|x|u|]; try discriminate H.
  destruct (update_frame t g) as [r t1] eqn:U. destruct r as [[]|x|u|]; cbn [bind] in H; try discriminate H.
  injection H as <- <-. auto.
Qed.

Lemma handled_join : forall m t w f t', build_frame m (header_of w) (w_payload w) t = Ok f ->
  update_frame t f = (Ok tt, t') -> handled m t w = (Ok f, t').
Proof. intros m t w f t' B U. unfold handled. rewrite B, U. reflexivity. Qed.

Lemma more_data_final : forall m t w f, build_frame m (header_of w) (w_payload w) t = Ok f ->
  fh_type (frame_fh f) = w_type w /\ (is_more_data (frame_fh f) = false <-> final_frame w).
Proof.
  intros m t w f B. destruct (C46_dispatch _ _ _ _ _ B) as (_ & _ & T & F & _).
  cbn [header_of fh_type fh_flags] in T, F. split; [exact T|]. unfold is_more_data. rewrite T, F. unfold final_frame.
  change F_END_STREAM with (2 ^ 0). rewrite is_flag_set_bit. change T_DATA with DATA. change T_GOAWAY with GOAWAY.
  destruct (N.eqb_spec (w_type w) DATA) as [->|ND].
  - destruct (N.testbit (w_flags w) 0); cbn [negb].
    + split; [intros _; left; auto|reflexivity].
    + split; [discriminate|]. intros [[_ X]|X]; discriminate X.
  - destruct (N.eqb_spec (w_type w) GOAWAY) as [->|NG].
    + split; [intros _; right; reflexivity|reflexivity].
    + split; [discriminate|]. intros [[X _]|X]; contradiction.
Qed.

(* Receiving, whatever the TLS layer does. *)
Lemma receive_any : forall m c w rest, wframe_ok w -> tls_in (c_tls c) = wire w ++ rest ->
  exists p, receive_frame m c = p /\
  ((exists s', p = (Throw RuntimeError, Client s' (c_req c) (c_resp c)) /\ tls_out s' = tls_out (c_tls c)) \/
   (exists s', p = (fst (handled m (c_resp c) w), Client s' (c_req c) (snd (handled m (c_resp c) w))) /\
     tls_in s' = rest /\ tls_out s' = tls_out (c_tls c))).
Proof.
  intros m c w rest W E. destruct (wire_split w W) as (head & WE & HS & HB).
  rewrite WE, <- app_assoc in E.
  unfold receive_frame, receive_raw_data at 1, FRAME_HEADER_BYTES.
  destruct (C48_read_exact (c_tls c) 9) as (k & K). destruct (ssl_read (c_tls c) 9) as [r1 s1].
  destruct K as (_ & I1 & O1 & [[-> KE]|[-> KE]]); [|eexists; split; [reflexivity|]; left; exists s1; split; [reflexivity|exact O1]].
  assert (k = length head) by (unfold size in HS; lia). subst k.
  rewrite E in I1 |- *. rewrite skipn_len_app in I1 by reflexivity. rewrite firstn_len_app by reflexivity.
  cbn [bind]. rewrite HB. change (fh_length (header_of w)) with (size (w_payload w)).
  set (q := if 0 <? size (w_payload w) then _ else _).
  assert (Q : exists s2, tls_out s2 = tls_out (c_tls c) /\
    ((q = (Ok (w_payload w), set_tls c s2) /\ tls_in s2 = rest) \/ q = (Throw RuntimeError, set_tls c s2))).
  { unfold q. destruct (N.ltb_spec 0 (size (w_payload w))) as [P|P].
    - unfold receive_raw_data. cbn [set_tls c_tls]. destruct (C48_read_exact s1 (size (w_payload w))) as (j & J).
      destruct (ssl_read s1 (size (w_payload w))) as [r2 s2]. destruct J as (_ & I2 & O2 & [[-> JE]|[-> JE]]).
      + exists s2. split; [congruence|]. left. assert (j = length (w_payload w)) by (unfold size in JE; lia). subst j.
        rewrite I1 in *. rewrite firstn_len_app by reflexivity. rewrite skipn_len_app in I2 by reflexivity. auto.
      + exists s2. split; [congruence|]. right. reflexivity.
    - exists s1. split; [exact O1|]. left. destruct (w_payload w); [auto|]. rewrite size_cons in P. lia. }
  destruct Q as (s2 & O2 & [[Q I2]|Q]); rewrite Q; cbn [bind set_tls c_resp c_req c_tls].
  - eexists. split; [reflexivity|]. right. exists s2. split; [|auto]. unfold handled.
    destruct (build_frame m (header_of w) (w_payload w) (c_resp c)) as [f|x|u|]; try reflexivity.
    destruct (update_frame (c_resp c) f) as [r3 t]. reflexivity.
  - eexists. split; [reflexivity|]. left. exists s2. auto.
Qed.

Lemma receive_keeps : forall m c r c', receive_frame m c = (r, c') ->
  tls_out (c_tls c') = tls_out (c_tls c) /\ c_req c' = c_req c.
Proof.
  intros m c r c' H. unfold receive_frame in H.
  destruct (receive_raw_data c FRAME_HEADER_BYTES) as [r1 c1] eqn:R1.
  assert (K : forall a n b d, receive_raw_data a n = (b, d) -> tls_out (c_tls d) = tls_out (c_tls a) /\ c_req d = c_req a).
  { intros a n b d R. unfold receive_raw_data in R. destruct (C48_read_exact (c_tls a) n) as (k & X).
    destruct (ssl_read (c_tls a) n) as [r' s']. injection R as <- <-. cbn. split; [apply X|reflexivity]. }
  destruct (K _ _ _ _ R1) as [O1 Q1].
  destruct (let* raw_fh := r1 in build_frame_header raw_fh) as [fh|x|u|]; try (injection H as <- <-; auto; fail).
  destruct (if 0 <? fh_length fh then receive_raw_data c1 (fh_length fh) else (Ok [], c1)) as [r2 c2] eqn:R2.
  assert (X : tls_out (c_tls c2) = tls_out (c_tls c) /\ c_req c2 = c_req c).
  { destruct (0 <? fh_length fh).
    - destruct (K _ _ _ _ R2) as [O2 Q2]. split; congruence.
    - injection R2 as _ <-. auto. }
  destruct (let* raw := r2 in build_frame m fh raw (c_resp c2)) as [f|x|u|]; try (injection H as <- <-; exact X).
  destruct (update_frame (c_resp c2) f) as [r3 t]. injection H as <- <-. exact X.
Qed.

Lemma wire_length : forall w, wframe_ok w -> (9 <= length (wire w))%nat.
Proof. intros w W. pose proof (wire_size w W) as S. unfold size in S. lia. Qed.

Lemma stops_more : forall m s ws w rest text t hex n,
  Forall wframe_ok ws -> wframe_ok w -> Forall (fun v => ~ final_frame v) ws -> final_frame w ->
  tls_in (c_tls (mc_client s)) = concat (map wire (ws ++ [w])) ++ rest ->
  delivers (size (concat (map wire (ws ++ [w]))) + n) (c_tls (mc_client s)) ->
  shown m (c_resp (mc_client s)) (mc_hex s) (ws ++ [w]) text t hex ->
  exists s', receive_frames m s = (Ok (w_type w), s') /\
    tls_in (c_tls (mc_client s')) = rest /\ tls_out (c_tls (mc_client s')) = tls_out (c_tls (mc_client s)) /\
    mc_text s' = mc_text s ++ text /\ c_resp (mc_client s') = t /\ c_req (mc_client s') = c_req (mc_client s) /\
    delivers n (c_tls (mc_client s')).
Proof.
  intros m s ws w rest text t hex n OKS OK NF FW E D S.
  assert (G : forall fuel, (length ws < fuel)%nat -> exists s', receive_loop m fuel s = (Ok (w_type w), s') /\
    tls_in (c_tls (mc_client s')) = rest /\ tls_out (c_tls (mc_client s')) = tls_out (c_tls (mc_client s)) /\
    mc_text s' = mc_text s ++ text /\ c_resp (mc_client s') = t /\ c_req (mc_client s') = c_req (mc_client s) /\
    delivers n (c_tls (mc_client s'))).
  { revert s text E D S. induction ws as [|v ws IH]; intros s text E D S fuel L.
    - destruct fuel as [|fuel]; [lia|]. cbn [app map concat] in *. rewrite app_nil_r in *.
      apply shown_first in S. destruct S as (f & t1 & x & hex1 & xs & B & U & DP & S & ->).
      apply shown_end in S. destruct S as (-> & <- & <-). rewrite app_nil_r.
      destruct (receive_complete m (mc_client s) w rest n OK E D) as (s' & I & O & D' & R).
      rewrite (handled_join _ _ _ _ _ B U) in R. cbn [fst snd] in R.
      destruct (more_data_final _ _ _ _ B) as [T [_ M]]. specialize (M FW).
      eexists. split.
      { cbn [receive_loop]. unfold seqp, on_client. rewrite R. unfold print. cbn [mc_hex mc_client mc_text]. rewrite DP.
        rewrite M, T. reflexivity. }
      cbn [mc_client mc_text c_tls c_req c_resp]. auto 7.
    - destruct fuel as [|fuel]; [lia|]. cbn [app map concat length] in *.
      apply shown_first in S. destruct S as (f & t1 & x & hex1 & xs & B & U & DP & S & ->).
      rewrite <- app_assoc in E. rewrite size_app, <- N.add_assoc in D.
      destruct (receive_complete m (mc_client s) v _ _ (Forall_inv OKS) E D) as (s' & I & O & D' & R).
      rewrite (handled_join _ _ _ _ _ B U) in R. cbn [fst snd] in R.
      destruct (more_data_final _ _ _ _ B) as [T M].
      assert (MT : is_more_data (frame_fh f) = true).
      { destruct (is_more_data (frame_fh f)); [reflexivity|]. destruct (Forall_inv NF). apply M. reflexivity. }
      destruct (IH (Forall_inv_tail OKS) (Forall_inv_tail NF) (Machine (Client s' (c_req (mc_client s)) t1) (mc_text s ++ x) hex1)
        xs I D' S fuel ltac:(lia)) as (s2 & L2 & I2 & O2 & X2 & T2 & Q2 & D2).
      exists s2. split.
      { cbn [receive_loop]. unfold seqp, on_client. rewrite R. unfold print. cbn [mc_hex mc_client mc_text]. rewrite DP.
        rewrite MT. exact L2. }
      cbn [mc_client mc_text c_tls c_req] in *. split; [exact I2|]. split; [congruence|]. split.
      { rewrite X2, <- app_assoc. reflexivity. }
      auto. }
  apply G. rewrite E.
  assert (X : forall l, Forall wframe_ok l -> (length l <= length (concat (map wire l)))%nat).
  { intros l F. induction F as [|v l V F IH]; [cbn; lia|]. cbn [map concat length]. rewrite app_length.
    pose proof (wire_length v V). lia. }
  rewrite map_app, concat_app, !app_length. specialize (X ws OKS). lia.
Qed.

(* The stream carries ws, the first final frame w, then anything: the loop
   returns the type of w having received and printed ws and w and nothing else,
   and having sent nothing. *)
Theorem C63_stops_at_final_partial : forall m s ws w rest text t hex,
  Forall wframe_ok ws -> wframe_ok w -> Forall (fun v => ~ final_frame v) ws -> final_frame w ->
  tls_in (c_tls (mc_client s)) = concat (map wire (ws ++ [w])) ++ rest ->
  delivers (size (concat (map wire (ws ++ [w])))) (c_tls (mc_client s)) ->
  shown m (c_resp (mc_client s)) (mc_hex s) (ws ++ [w]) text t hex ->
  exists s', receive_frames m s = (Ok (w_type w), s') /\
    tls_in (c_tls (mc_client s')) = rest /\ tls_out (c_tls (mc_client s')) = tls_out (c_tls (mc_client s)) /\
    mc_text s' = mc_text s ++ text /\ c_resp (mc_client s') = t /\ c_req (mc_client s') = c_req (mc_client s).
Proof.
  intros m s ws w rest text t hex OKS OK NF FW E D S.
  destruct (stops_more m s ws w rest text t hex 0 OKS OK NF FW E) as (s' & R & I & O & X & T & Q & _);
    [rewrite N.add_0_r; exact D|exact S|]. exists s'. auto 7.
Qed.

(* Every stream of octets is a sequence of frames and an incomplete one; for
   every such stream and every behaviour of the TLS layer: if the loop returns,
   the stream holds a final frame, the loop stopped at the first one, and it has
   received and printed exactly the frames up to it. *)
Theorem C63_returns_only_at_final_partial : forall m s ws v k ty s',
  Forall wframe_ok ws -> wframe_ok v -> (k < length (wire v))%nat ->
  tls_in (c_tls (mc_client s)) = concat (map wire ws) ++ firstn k (wire v) ->
  receive_frames m s = (Ok ty, s') ->
  exists ws1 w ws2 text, ws = ws1 ++ w :: ws2 /\ Forall (fun u => ~ final_frame u) ws1 /\ final_frame w /\ ty = w_type w /\
    tls_in (c_tls (mc_client s')) = concat (map wire ws2) ++ firstn k (wire v) /\
    tls_out (c_tls (mc_client s')) = tls_out (c_tls (mc_client s)) /\ c_req (mc_client s') = c_req (mc_client s) /\
    shown m (c_resp (mc_client s)) (mc_hex s) (ws1 ++ [w]) text (c_resp (mc_client s')) (mc_hex s') /\
    mc_text s' = mc_text s ++ text.
Proof.
  intros m s ws v k ty s' OKS V K E H. unfold receive_frames in H.
  set (fuel := Datatypes.S _) in H. clearbody fuel. revert s ws OKS E H.
  induction fuel as [|fuel IH]; intros s ws OKS E H; [discriminate H|].
  cbn [receive_loop] in H. unfold seqp at 1, on_client in H.
  destruct ws as [|w ws].
  { cbn [map concat app] in E. destruct (C49_truncated m (mc_client s) v k V K E) as (c' & R & _). rewrite R in H. discriminate H. }
  cbn [map concat] in E. rewrite <- app_assoc in E.
  destruct (receive_any m (mc_client s) w _ (Forall_inv OKS) E) as (p & R & [(s1 & -> & _)|(s1 & -> & I & O)]); rewrite R in H; [discriminate H|].
  destruct (handled m (c_resp (mc_client s)) w) as [r t1] eqn:HD. cbn [fst snd] in *.
  destruct r as [f|x|u|]; try discriminate H.
  apply handled_split in HD. destruct HD as [B U].
  unfold seqp, print in H. cbn [mc_hex mc_client mc_text] in H.
  destruct (dump m (mc_hex s) f) as [[x hex1]|x|u|] eqn:DP; try discriminate H.
  destruct (more_data_final _ _ _ _ B) as [T M].
  destruct (is_more_data (frame_fh f)).
  - destruct (IH (Machine (Client s1 (c_req (mc_client s)) t1) (mc_text s ++ x) hex1) ws (Forall_inv_tail OKS) I H) as (ws1 & w1 & ws2 & text & -> & NF & FW & TY & I2 & O2 & Q2 & S2 & X2).
    cbn [mc_client mc_text mc_hex c_tls c_req c_resp] in *.
    exists (w :: ws1), w1, ws2, (x ++ text). split; [reflexivity|]. split.
    { constructor; [|exact NF]. intros F. apply M in F. discriminate F. }
    split; [exact FW|]. split; [exact TY|]. split; [exact I2|]. split; [congruence|]. split; [exact Q2|]. split.
    + cbn [app]. econstructor; eassumption.
    + rewrite X2, <- app_assoc. reflexivity.
  - unfold ret in H. injection H as <- <-. cbn [mc_client mc_text mc_hex c_tls c_req c_resp].
    exists [], w, ws, x. split; [reflexivity|]. split; [constructor|]. split; [apply M; reflexivity|]. split; [exact T|].
    split; [exact I|]. split; [exact O|]. split; [reflexivity|]. split; [|reflexivity].
    cbn [app]. rewrite <- (app_nil_r x). econstructor; try eassumption. constructor.
Qed.

(* RFC 7540 section 8.1: a response without a body ends with END_STREAM on its
   HEADERS frame.  The loop does not take that for the end: for every such
   response and every later traffic without a final frame it does not return. *)
Theorem C63_headers_only_response_refuted : forall m s w ws v k ty s',
  wframe_ok w -> w_type w = HEADERS -> N.testbit (w_flags w) 0 = true ->
  Forall wframe_ok ws -> Forall (fun u => ~ final_frame u) ws -> wframe_ok v -> (k < length (wire v))%nat ->
  tls_in (c_tls (mc_client s)) = wire w ++ concat (map wire ws) ++ firstn k (wire v) ->
  receive_frames m s <> (Ok ty, s').
Proof.
  intros m s w ws v k ty s' W T _ OKS NF V K E H.
  destruct (C63_returns_only_at_final_partial m s (w :: ws) v k ty s') as (ws1 & w1 & ws2 & text & L & _ & FW & _);
    [constructor; assumption|assumption|assumption| |assumption|].
  { cbn [map concat]. rewrite <- app_assoc. exact E. }
  assert (A : Forall (fun u => ~ final_frame u) (w :: ws)).
  { constructor; [|exact NF]. intros [[X _]|X]; rewrite T in X; discriminate X. }
  rewrite L in A. apply Forall_app in A. destruct A as [_ A]. exact (Forall_inv A FW).
Qed.

Definition example_response : list wframe :=
  [WFrame HEADERS 4 0 1 [0x88]; WFrame WINDOW_UPDATE 0 0 0 [0; 0; 1; 0]; WFrame DATA 1 0 1 [104; 105]].

Example C63_case :
  let s := Machine (new_client (Tls (concat (map wire example_response) ++ [1; 2]) [] (repeat (Chunk 3) 40))) [] false in
  Forall wframe_ok example_response /\ final_frame (WFrame DATA 1 0 1 [104; 105]) /\
  ~ final_frame (WFrame HEADERS 5 0 1 [0x88]) /\
  exists text t hex s', shown Strict default_table false example_response text t hex /\
    receive_frames Strict s = (Ok DATA, s') /\ tls_in (c_tls (mc_client s')) = [1; 2] /\ (0 < length text)%nat.
Proof.
  cbv zeta. split.
  { repeat constructor; try reflexivity; apply octets_dec; reflexivity. }
  split; [left; split; reflexivity|]. split; [intros [[X _]|X]; discriminate X|].
  eexists _, _, _, _. split; [|split; [vm_compute; reflexivity|split; [reflexivity|]]].
  - econstructor; [vm_compute; reflexivity|vm_compute; reflexivity|vm_compute; reflexivity|].
    econstructor; [vm_compute; reflexivity|vm_compute; reflexivity|vm_compute; reflexivity|].
    econstructor; [vm_compute; reflexivity|vm_compute; reflexivity|vm_compute; reflexivity|]. constructor.
  - vm_compute. lia.
Qed.

(* ---------------------------------------------------------------- C62 *)

(* What the sample is to send.  Its header block (RFC 7541): indexed 2; never
   indexed, literal name; indexed 7; never indexed, name 1; Huffman strings. *)
Definition get_block : list N :=
  [0x82;
   0x10; 0x84; 0xb9; 0x58; 0xd3; 0x3f; 0x8c; 0x62; 0x74; 0xa6; 0xb8; 0xcd; 0x53; 0x13; 0x94; 0x72; 0x16; 0xc4; 0x7f;
   0x87;
   0x11; 0x88; 0xaa; 0x69; 0xd2; 0x9a; 0xc4; 0xb9; 0xec; 0x9b].

Definition get_fields : list field :=
  [(octets ":method", octets "GET"); (octets ":path", octets "/httpbin/headers");
   (octets ":scheme", octets "https"); (octets ":authority", octets "nghttp2.org")].

(* Client connection preface (RFC 7540 section 3.5): the magic and SETTINGS with
   HEADER_TABLE_SIZE (1), ENABLE_PUSH (2), INITIAL_WINDOW_SIZE (4). *)
Definition opening : list N :=
  preface_octets ++ wire_frame SETTINGS 0 0 0 (settings_octets [(1, 8192); (2, 0); (4, 65535)]).
(* SETTINGS ACK, then HEADERS with END_STREAM and END_HEADERS on stream 1. *)
Definition asking : list N :=
  wire_frame SETTINGS 1 0 0 [] ++ wire_frame HEADERS 5 0 1 get_block.
(* GOAWAY, last stream 1, NO_ERROR *)
Definition closing : list N := wire_frame GOAWAY 0 0 0 (goaway_octets 0 1 0 []).

(* A server reads the header block as the four fields, from the empty table a
   connection starts with, whatever its size limits, and its table stays empty. *)
Theorem C62_request_meaning : forall limit n, rfc_block limit (Table n []) get_block get_fields (Table n []).
Proof.
  intros limit n.
  pose (b := [HEntry Indexed (EHeader (octets ":method", octets "GET"));
    HEntry NeverIndexed (EHeader (octets ":path", octets "/httpbin/headers"));
    HEntry Indexed (EHeader (octets ":scheme", octets "https"));
    HEntry NeverIndexed (EHeader (octets ":authority", octets "nghttp2.org"))]).
  destruct (block_means limit (DynTable [] 0 n) ModeHuffman b (Table n []) false) as (raw & E & B).
  - assert (IS : forall h, existsb (header_eqb h) (map snd static_table_entries) && negb (bytes_eqb (snd h) []) = true ->
      in_static_valued h).
    { intros h H. apply andb_true_iff in H. destruct H as [H1 H2]. split.
      - apply existsb_exists in H1. destruct H1 as (e & J & Q). apply header_eqb_eq in Q. subst e. exact J.
      - intros Z. rewrite Z in H2. discriminate H2. }
    assert (FR : forall h, in_tablesb (DynTable [] 0 n) h = false -> negb (bytes_eqb (fst h) misspelt) = true ->
      forallb (fun x => x <? 256) (fst h ++ snd h) = true -> fresh (DynTable [] 0 n) h).
    { intros h H1 H2 H3. split; [apply in_tablesb_false; exact H1|]. split.
      - intros Z. apply negb_true_iff in H2. apply bytes_eqb_eq in Z. congruence.
      - rewrite forallb_forall in H3. split; intros x J; apply N.ltb_lt, H3, in_or_app; auto. }
    cbn [b plain_block]. split; [left; apply IS; vm_compute; reflexivity|].
    split; [right; apply FR; vm_compute; reflexivity|]. split; [left; apply IS; vm_compute; reflexivity|].
    split; [right; apply FR; vm_compute; reflexivity|exact I].
  - reflexivity.
  - assert (X : encode_block b ModeHuffman (DynTable [] 0 n) = Ok get_block) by (vm_compute; reflexivity).
    rewrite X in E. apply Ok_inj in E. subst raw. exact B.
Qed.

Lemma serialize_opening : forall host, serialize host (mk_settings 0 0 sample_settings) =
  Ok (wire_frame SETTINGS 0 0 0 (settings_octets [(1, 8192); (2, 0); (4, 65535)])).
Proof. intros []; vm_compute; reflexivity. Qed.

Lemma serialize_ack : forall host, serialize host (mk_settings (make_frame_header_flags F_ACK []) 0 []) =
  Ok (wire_frame SETTINGS 1 0 0 []).
Proof. intros []; vm_compute; reflexivity. Qed.

Lemma serialize_closing : forall host, serialize host (mk_goaway (Goaway 0 1 0 [])) = Ok closing.
Proof. intros []; vm_compute; reflexivity. Qed.

Definition sample_block : header_block :=
  match make_header_block NeverIndexed sample_headers with Ok b => b | _ => [] end.

Lemma sample_block_eq : make_header_block NeverIndexed sample_headers = Ok sample_block.
Proof. vm_compute. reflexivity. Qed.

Lemma sample_frame : exists hf,
  mk_headers (make_frame_header_flags F_END_STREAM [F_END_HEADERS]) 1 sample_block ModeHuffman (DynTable [] 0 8192) [] (Prio 0 0 0)
    = Ok hf /\ forall host, serialize host hf = Ok (wire_frame HEADERS 5 0 1 get_block).
Proof. eexists. split; [vm_compute; reflexivity|]. intros []; vm_compute; reflexivity. Qed.

Lemma sample_update : update_block (DynTable [] 0 8192) sample_block = (Ok tt, DynTable [] 0 8192).
Proof. vm_compute. reflexivity. Qed.

(* A step that sends. *)
Lemma send_step : forall A host f d (q : unit -> prog A) s r s', serialize host f = Ok d ->
  (do x <- on_client (fun c => send_frame host c f); q x) s = (r, s') ->
  (exists k, r = Throw RuntimeError /\ (k < length d)%nat /\
     tls_out (c_tls (mc_client s')) = tls_out (c_tls (mc_client s)) ++ firstn k d) \/
  (exists c, q tt (Machine c (mc_text s) (mc_hex s)) = (r, s') /\ tls_out (c_tls c) = tls_out (c_tls (mc_client s)) ++ d /\
     tls_in (c_tls c) = tls_in (c_tls (mc_client s)) /\ c_req c = c_req (mc_client s) /\ c_resp c = c_resp (mc_client s)).
Proof.
  intros A host f d q s r s' E H. unfold seqp, on_client, send_frame in H. rewrite E in H.
  destruct (send_raw_exact (mc_client s) d) as (k & X). destruct (send_raw_data (mc_client s) d) as [r1 c1].
  destruct X as (O & I & Q & P & [[-> F]|[-> F]]).
  - right. exists c1. rewrite F in O. auto.
  - left. exists k. injection H as <- <-. auto.
Qed.

Lemma preface_step : forall A (q : unit -> prog A) s r s',
  (do x <- on_client send_connection_preface; q x) s = (r, s') ->
  (exists k, r = Throw RuntimeError /\ (k < length preface_octets)%nat /\
     tls_out (c_tls (mc_client s')) = tls_out (c_tls (mc_client s)) ++ firstn k preface_octets) \/
  (exists c, q tt (Machine c (mc_text s) (mc_hex s)) = (r, s') /\
     tls_out (c_tls c) = tls_out (c_tls (mc_client s)) ++ preface_octets /\
     tls_in (c_tls c) = tls_in (c_tls (mc_client s)) /\ c_req c = c_req (mc_client s) /\ c_resp c = c_resp (mc_client s)).
Proof.
  intros A q s r s' H. unfold seqp, on_client, send_connection_preface in H. change connection_preface with preface_octets in H.
  destruct (send_raw_exact (mc_client s) preface_octets) as (k & X). destruct (send_raw_data (mc_client s) preface_octets) as [r1 c1].
  destruct X as (O & I & Q & P & [[-> F]|[-> F]]).
  - right. exists c1. rewrite F in O. auto.
  - left. exists k. injection H as <- <-. auto.
Qed.

Lemma firstn_prefix : forall A k (a b : list A), (k < length a)%nat -> firstn k a = firstn k (a ++ b).
Proof. intros A k a b L. rewrite firstn_app. replace (k - length a)%nat with 0%nat by lia. rewrite firstn_O, app_nil_r. reflexivity. Qed.

Lemma firstn_more : forall A k (a b : list A), a ++ firstn k b = firstn (length a + k) (a ++ b).
Proof.
  intros A k a b. rewrite firstn_app. rewrite (firstn_all2 a) by lia. f_equal. f_equal. lia.
Qed.

Lemma receive_loop_keeps : forall m fuel s r s', receive_loop m fuel s = (r, s') ->
  tls_out (c_tls (mc_client s')) = tls_out (c_tls (mc_client s)) /\ c_req (mc_client s') = c_req (mc_client s).
Proof.
  intros m. induction fuel as [|fuel IH]; intros s r s' H; [injection H as _ <-; auto|].
  cbn [receive_loop] in H. unfold seqp at 1, on_client in H.
  destruct (receive_frame m (mc_client s)) as [r1 c1] eqn:R. destruct (receive_keeps _ _ _ _ R) as [O Q].
  destruct r1 as [f|x|u|]; try (injection H as _ <-; auto; fail).
  unfold seqp, print in H. cbn [mc_hex mc_client mc_text] in H.
  destruct (dump m (mc_hex s) f) as [[x hex1]|x|u|]; try (injection H as _ <-; auto; fail).
  destruct (is_more_data (frame_fh f)).
  - destruct (IH _ _ _ H) as [O2 Q2]. cbn [mc_client] in *. split; congruence.
  - injection H as _ <-. auto.
Qed.

(* The program from a fresh connection, every server and every behaviour of the
   TLS layer: what has been sent when it ends, however it ends, is a prefix of
   the opening, the request and the closing, in this order. *)
Theorem C62_sends_nothing_else : forall host m s text hex r s',
  sample_main host m (Machine (new_client s) text hex) = (r, s') ->
  exists k, tls_out (c_tls (mc_client s')) = tls_out s ++ firstn k (opening ++ asking ++ closing).
Proof.
  intros host m s text hex r s' H. unfold sample_main in H.
  apply preface_step in H. cbn [mc_client mc_text mc_hex new_client c_tls c_req c_resp] in H.
  destruct H as [(k & _ & L & O)|(c1 & H & O1 & I1 & Q1 & P1)].
  { exists k. rewrite O. unfold opening. rewrite <- !app_assoc, <- firstn_prefix by exact L. reflexivity. }
  apply (send_step _ _ _ _ _ _ _ _ (serialize_opening host)) in H. cbn [mc_client mc_text mc_hex] in H.
  destruct H as [(k & _ & L & O)|(c2 & H & O2 & I2 & Q2 & P2)].
  { exists (length preface_octets + k)%nat. rewrite O, O1, <- app_assoc. f_equal. unfold opening. rewrite <- !app_assoc, <- firstn_more.
    f_equal. apply firstn_prefix. exact L. }
  rewrite O1, <- app_assoc in O2. fold opening in O2.
  assert (A2 : exists k, tls_out (c_tls c2) = tls_out s ++ firstn k (opening ++ asking ++ closing)).
  { exists (length opening + 0)%nat. rewrite O2, <- firstn_more, firstn_O, app_nil_r. reflexivity. }
  unfold seqp at 1, on_client, update_request_table_size in H. cbn [mc_client mc_text mc_hex] in H. rewrite Q2, Q1 in H.
  change (dt_update_size default_table sample_table_size) with (Ok (DynTable [] 0 8192)) in H. cbv iota beta in H.
  unfold seqp at 1, on_client in H. cbn [mc_client mc_text mc_hex] in H.
  destruct (receive_frame m _) as [r3 c3] eqn:R3. apply receive_keeps in R3. cbn [c_tls c_req] in R3. destruct R3 as [O3 Q3].
  destruct r3 as [f|x|u|]; try (injection H as _ <-; cbn [mc_client]; rewrite O3; exact A2).
  unfold seqp at 1, print in H. cbn [mc_client mc_text mc_hex] in H.
  destruct (dump m hex f) as [[x hex1]|x|u|]; try (injection H as _ <-; cbn [mc_client]; rewrite O3; exact A2).
  apply (send_step _ _ _ _ _ _ _ _ (serialize_ack host)) in H. cbn [mc_client mc_text mc_hex] in H.
  destruct H as [(k & _ & L & O)|(c4 & H & O4 & I4 & Q4 & P4)].
  { exists (length opening + k)%nat. rewrite O, O3, O2, <- app_assoc, <- firstn_more. do 2 f_equal. unfold asking.
    rewrite <- !app_assoc. apply firstn_prefix. exact L. }
  rewrite sample_block_eq in H. unfold seqp at 1, lift in H.
  destruct sample_frame as (hf & MK & SER). unfold seqp at 1 in H. cbn [mc_client] in H.
  unfold get_request_dynamic_table in H. rewrite Q4, Q3, MK in H.
  apply (send_step _ _ _ _ _ _ _ _ (SER host)) in H. cbn [mc_client mc_text mc_hex] in H.
  rewrite O3, O2, <- app_assoc in O4.
  destruct H as [(k & _ & L & O)|(c5 & H & O5 & I5 & Q5 & P5)].
  { exists (length (opening ++ wire_frame SETTINGS 1 0 0 []) + k)%nat. rewrite O, O4.
    replace (opening ++ asking ++ closing) with ((opening ++ wire_frame SETTINGS 1 0 0 []) ++ wire_frame HEADERS 5 0 1 get_block ++ closing)
      by (unfold asking; rewrite <- !app_assoc; reflexivity).
    rewrite <- firstn_more, <- !app_assoc. do 3 f_equal. apply firstn_prefix. exact L. }
  rewrite O4, <- !app_assoc in O5. fold asking in O5.
  assert (A5 : exists k, tls_out (c_tls c5) = tls_out s ++ firstn k (opening ++ asking ++ closing)).
  { exists (length (opening ++ asking) + 0)%nat.
    rewrite O5, (app_assoc opening), <- firstn_more, firstn_O, app_nil_r, app_assoc. reflexivity. }
  unfold seqp at 1, on_client, update_request_dynamic_table in H. cbn [mc_client mc_text mc_hex] in H.
  rewrite Q5, Q4, Q3, sample_update in H.
  unfold seqp at 1 in H. destruct (receive_frames m _) as [r6 s6] eqn:R6.
  apply receive_loop_keeps in R6. cbn [mc_client c_tls] in R6. destruct R6 as [O6 _]. rewrite <- O6 in A5.
  destruct r6 as [ty|x6|u|]; try (injection H as _ <-; exact A5).
  destruct (negb (ty =? T_GOAWAY)).
  - unfold on_client, send_frame in H. rewrite serialize_closing in H.
    destruct (send_raw_exact (mc_client s6) closing) as (k & X). destruct (send_raw_data (mc_client s6) closing) as [r7 c7].
    destruct X as (O7 & _). injection H as _ <-. cbn [mc_client]. exists (length (opening ++ asking) + k)%nat.
    rewrite (app_assoc opening asking closing), <- firstn_more. rewrite O7, O6, O5, <- !app_assoc. reflexivity.
  - injection H as _ <-. exact A5.
Qed.

(* If the program ends normally it has sent all of it, without the closing iff
   the last frame received was GOAWAY; it has received one frame before the
   request and the frames up to the first final one after it. *)
Theorem C62_normal_end : forall host m s text hex ws v k s',
  Forall wframe_ok ws -> wframe_ok v -> (k < length (wire v))%nat ->
  tls_in s = concat (map wire ws) ++ firstn k (wire v) ->
  sample_main host m (Machine (new_client s) text hex) = (Ok tt, s') ->
  exists w0 ws1 w ws2, ws = w0 :: ws1 ++ w :: ws2 /\ Forall (fun u => ~ final_frame u) ws1 /\ final_frame w /\
    ((w_type w = GOAWAY /\ tls_out (c_tls (mc_client s')) = tls_out s ++ opening ++ asking) \/
     (w_type w <> GOAWAY /\ tls_out (c_tls (mc_client s')) = tls_out s ++ opening ++ asking ++ closing)) /\
    tls_in (c_tls (mc_client s')) = concat (map wire ws2) ++ firstn k (wire v) /\
    exists shown_text, mc_text s' = text ++ shown_text /\
      shown m default_table hex (w0 :: ws1 ++ [w]) shown_text (c_resp (mc_client s')) (mc_hex s').
Proof.
  intros host m s text hex ws v k s' OKS V K E H. unfold sample_main in H.
  apply preface_step in H. cbn [mc_client mc_text mc_hex new_client c_tls c_req c_resp] in H.
  destruct H as [(? & X & _)|(c1 & H & O1 & I1 & Q1 & P1)]; [discriminate X|].
  apply (send_step _ _ _ _ _ _ _ _ (serialize_opening host)) in H. cbn [mc_client mc_text mc_hex] in H.
  destruct H as [(? & X & _)|(c2 & H & O2 & I2 & Q2 & P2)]; [discriminate X|].
  unfold seqp at 1, on_client, update_request_table_size in H. cbn [mc_client mc_text mc_hex] in H. rewrite Q2, Q1 in H.
  change (dt_update_size default_table sample_table_size) with (Ok (DynTable [] 0 8192)) in H. cbv iota beta in H.
  unfold seqp at 1, on_client in H. cbn [mc_client mc_text mc_hex] in H.
  set (cx := Client (c_tls c2) (DynTable [] 0 8192) (c_resp c2)) in H.
  assert (EX : tls_in (c_tls cx) = concat (map wire ws) ++ firstn k (wire v)) by (cbn [cx c_tls]; congruence).
  assert (RX : c_resp cx = default_table) by (cbn [cx c_resp]; congruence).
  destruct ws as [|w0 ws].
  { destruct (C49_truncated m cx v k V K EX) as (c' & R & _). rewrite R in H. discriminate H. }
  cbn [map concat] in EX. rewrite <- app_assoc in EX.
  destruct (receive_any m cx w0 _ (Forall_inv OKS) EX) as (p & R & [(s1 & -> & _)|(s1 & -> & I3 & O3)]); rewrite R in H; [discriminate H|].
  rewrite RX in H. destruct (handled m default_table w0) as [r t1] eqn:HD. cbn [fst snd] in H.
  destruct r as [f|x|u|]; try discriminate H. apply handled_split in HD. destruct HD as [B U].
  unfold seqp at 1, print in H. cbn [mc_client mc_text mc_hex] in H.
  destruct (dump m hex f) as [[x hex1]|x|u|] eqn:DP; try discriminate H.
  apply (send_step _ _ _ _ _ _ _ _ (serialize_ack host)) in H. cbn [mc_client mc_text mc_hex] in H.
  destruct H as [(? & X & _)|(c4 & H & O4 & I4 & Q4 & P4)]; [discriminate X|].
  rewrite sample_block_eq in H. unfold seqp at 1, lift in H.
  destruct sample_frame as (hf & MK & SER). unfold seqp at 1 in H. cbn [mc_client] in H.
  unfold get_request_dynamic_table in H. cbn [cx c_req c_tls c_resp] in Q4, O4, I4, P4, O3. rewrite Q4, MK in H.
  apply (send_step _ _ _ _ _ _ _ _ (SER host)) in H. cbn [mc_client mc_text mc_hex] in H.
  destruct H as [(? & X & _)|(c5 & H & O5 & I5 & Q5 & P5)]; [discriminate X|].
  unfold seqp at 1, on_client, update_request_dynamic_table in H. cbn [mc_client mc_text mc_hex] in H.
  rewrite Q5, Q4, sample_update in H.
  unfold seqp at 1 in H. destruct (receive_frames m _) as [r6 s6] eqn:R6.
  destruct r6 as [ty|x6|u|]; try discriminate H.
  apply (C63_returns_only_at_final_partial m _ ws v k ty s6 (Forall_inv_tail OKS) V K) in R6;
    [|cbn [mc_client c_tls]; congruence].
  destruct R6 as (ws1 & w & ws2 & tx & -> & NF & FW & -> & I6 & O6 & _ & S6 & X6).
  cbn [mc_client mc_text mc_hex c_tls c_resp] in I6, O6, S6, X6.
  rewrite P5, P4 in S6.
  assert (OUT : tls_out (c_tls (mc_client s6)) = tls_out s ++ opening ++ asking).
  { rewrite O6, O5, O4, O3, O2, O1. unfold opening, asking. rewrite <- !app_assoc. reflexivity. }
  exists w0, ws1, w, ws2. split; [reflexivity|]. split; [exact NF|]. split; [exact FW|].
  change T_GOAWAY with GOAWAY in H. destruct (N.eqb_spec (w_type w) GOAWAY) as [G|G]; cbn [negb] in H.
  - injection H as <-. split; [left; auto|]. split; [exact I6|]. exists (x ++ tx). split.
    + rewrite X6, <- app_assoc. reflexivity.
    + econstructor; eassumption.
  - unfold on_client, send_frame in H. rewrite serialize_closing in H.
    destruct (send_raw_exact (mc_client s6) closing) as (j & X). destruct (send_raw_data (mc_client s6) closing) as [r7 c7].
    injection H as -> <-. destruct X as (O7 & I7 & Q7 & P7 & [[_ F]|[X _]]); [|discriminate X].
    rewrite F in O7. cbn [mc_client mc_text mc_hex]. split.
    { right. split; [exact G|]. rewrite O7, OUT, <- !app_assoc. reflexivity. }
    split; [congruence|]. exists (x ++ tx). split.
    + rewrite X6, <- app_assoc. reflexivity.
    + rewrite P7. econstructor; eassumption.
Qed.

Lemma seqp_ok : forall A B (p : prog A) (q : A -> prog B) s a s1, p s = (Ok a, s1) -> (do x <- p; q x) s = q a s1.
Proof. intros A B p q s a s1 H. unfold seqp. rewrite H. reflexivity. Qed.

Lemma send_go : forall host f d c text hex n, serialize host f = Ok d -> size d < 2 ^ 31 -> delivers (size d + n) (c_tls c) ->
  exists c', on_client (fun c => send_frame host c f) (Machine c text hex) = (Ok tt, Machine c' text hex) /\
    tls_in (c_tls c') = tls_in (c_tls c) /\ c_req c' = c_req c /\ c_resp c' = c_resp c /\ delivers n (c_tls c').
Proof.
  intros host f d c text hex n E L D. destruct (send_raw_more c d n L D) as (c' & S & D' & _).
  exists c'. unfold on_client, send_frame. cbn [mc_client mc_text mc_hex]. rewrite E, S. split; [reflexivity|].
  destruct (send_raw_exact c d) as (k & X). rewrite S in X. intuition.
Qed.

(* It does end normally when the TLS layer does not fail, the server sends a
   frame, further frames and a final one, and all of them can be received and
   printed. *)
Theorem C62_completes : forall host m s text hex w0 ws w rest shown_text t hex',
  Forall wframe_ok (w0 :: ws ++ [w]) -> Forall (fun v => ~ final_frame v) ws -> final_frame w ->
  tls_in s = concat (map wire (w0 :: ws ++ [w])) ++ rest ->
  delivers (size (opening ++ asking ++ closing) + size (concat (map wire (w0 :: ws ++ [w])))) s ->
  shown m default_table hex (w0 :: ws ++ [w]) shown_text t hex' ->
  exists s', sample_main host m (Machine (new_client s) text hex) = (Ok tt, s').
Proof.
  intros host m s text hex w0 ws w rest xs t hex' OKS NF FW E D S.
  assert (OK0 : wframe_ok w0) by exact (Forall_inv OKS).
  assert (OKT := Forall_inv_tail OKS). apply Forall_app in OKT. destruct OKT as [OKW OK1]. apply Forall_inv in OK1.
  unfold opening, asking in D. rewrite !size_app in D. cbn [map concat] in D, E. rewrite size_app in D.
  rewrite <- app_assoc in E.
  set (set1 := wire_frame SETTINGS 0 0 0 (settings_octets [(1, 8192); (2, 0); (4, 65535)])) in *.
  set (set2 := wire_frame SETTINGS 1 0 0 []) in *. set (hd := wire_frame HEADERS 5 0 1 get_block) in *.
  set (tail := concat (map wire (ws ++ [w]))) in *.
  destruct (send_raw_more (new_client s) preface_octets
    (size set1 + (size (wire w0) + (size set2 + (size hd + (size tail + size closing)))))) as (c1 & S1 & D1 & O1 & Q1).
  { reflexivity. }
  { eapply delivers_mono; [|exact D]. clear. lia. }
  destruct (send_raw_exact (new_client s) preface_octets) as (k1 & X1). rewrite S1 in X1. destruct X1 as (_ & I1 & _ & P1 & _).
  destruct (send_go host _ _ c1 text hex _ (serialize_opening host) ltac:(reflexivity) D1) as (c2 & S2 & I2 & Q2 & P2 & D2).
  apply shown_first in S. destruct S as (f & t1 & x & hex1 & xs' & B & U & DP & S & ->).
  set (cx := Client (c_tls c2) (DynTable [] 0 8192) (c_resp c2)).
  assert (EX : tls_in (c_tls cx) = wire w0 ++ tail ++ rest) by (cbn [cx c_tls]; rewrite I2, I1; exact E).
  assert (RX : c_resp cx = default_table) by (cbn [cx c_resp]; rewrite P2, P1; reflexivity).
  destruct (receive_complete m cx w0 _ _ OK0 EX D2) as (s3 & I3 & O3 & D3 & R3).
  rewrite RX, (handled_join _ _ _ _ _ B U) in R3. cbn [fst snd cx c_req] in R3. fold cx in R3.
  destruct (send_go host _ _ (Client s3 (DynTable [] 0 8192) t1) (text ++ x) hex1 _ (serialize_ack host) ltac:(reflexivity) D3)
    as (c4 & S4 & I4 & Q4 & P4 & D4). cbn [c_tls c_req c_resp] in I4, Q4, P4.
  destruct sample_frame as (hf & MK & SER).
  destruct (send_go host _ _ c4 (text ++ x) hex1 _ (SER host) ltac:(reflexivity) D4) as (c5 & S5 & I5 & Q5 & P5 & D5).
  set (m6 := Machine (Client (c_tls c5) (DynTable [] 0 8192) (c_resp c5)) (text ++ x) hex1).
  assert (S6 : exists s6, receive_frames m m6 = (Ok (w_type w), s6) /\ delivers (size closing) (c_tls (mc_client s6))).
  { destruct (stops_more m m6 ws w rest xs' t hex' (size closing) OKW OK1 NF FW) as (s6 & R6 & _ & _ & _ & _ & _ & D6).
    - cbn [m6 mc_client c_tls]. rewrite I5, I4. exact I3.
    - exact D5.
    - cbn [m6 mc_client c_resp mc_hex]. rewrite P5, P4. exact S.
    - exists s6. auto. }
  destruct S6 as (s6 & R6 & D6).
  unfold sample_main.
  rewrite (seqp_ok _ _ _ _ _ tt (Machine c1 text hex)).
  2:{ unfold on_client, send_connection_preface. change connection_preface with preface_octets. cbn [mc_client mc_text mc_hex].
      rewrite S1. reflexivity. }
  rewrite (seqp_ok _ _ _ _ _ _ _ S2).
  rewrite (seqp_ok _ _ _ _ _ tt (Machine cx text hex)).
  2:{ unfold on_client, update_request_table_size. cbn [mc_client mc_text mc_hex]. rewrite Q2, Q1. reflexivity. }
  rewrite (seqp_ok _ _ _ _ _ f (Machine (Client s3 (DynTable [] 0 8192) t1) text hex)).
  2:{ unfold on_client. cbn [mc_client mc_text mc_hex]. rewrite R3. reflexivity. }
  rewrite (seqp_ok _ _ _ _ _ tt (Machine (Client s3 (DynTable [] 0 8192) t1) (text ++ x) hex1)).
  2:{ unfold print. cbn [mc_client mc_text mc_hex]. rewrite DP. reflexivity. }
  rewrite (seqp_ok _ _ _ _ _ _ _ S4).
  rewrite (seqp_ok _ _ _ _ _ sample_block (Machine c4 (text ++ x) hex1)) by (unfold lift; rewrite sample_block_eq; reflexivity).
  rewrite (seqp_ok _ _ _ _ _ hf (Machine c4 (text ++ x) hex1)).
  2:{ cbn [mc_client]. unfold get_request_dynamic_table. rewrite Q4, MK. reflexivity. }
  rewrite (seqp_ok _ _ _ _ _ _ _ S5).
  rewrite (seqp_ok _ _ _ _ _ tt m6).
  2:{ unfold on_client, update_request_dynamic_table. cbn [mc_client mc_text mc_hex]. rewrite Q5, Q4, sample_update. reflexivity. }
  rewrite (seqp_ok _ _ _ _ _ _ _ R6).
  destruct (negb (w_type w =? T_GOAWAY)); [|eexists; reflexivity].
  destruct s6 as [c6 tx6 hx6]. cbn [mc_client] in D6.
  destruct (send_go host _ _ c6 tx6 hx6 0 (serialize_closing host) ltac:(reflexivity)) as (c7 & S7 & _).
  { rewrite N.add_0_r. exact D6. }
  eexists. exact S7.
Qed.

Example C62_case :
  let ws := [WFrame SETTINGS 0 0 0 [0; 3; 0; 0; 0; 100]] ++ example_response in
  let s := Tls (concat (map wire ws)) [] (repeat (Chunk 5) 400) in
  Forall wframe_ok ws /\ delivers (size (opening ++ asking ++ closing) + size (concat (map wire ws))) s /\
  exists s', sample_main LittleEndian Strict (Machine (new_client s) [] false) = (Ok tt, s') /\
    tls_out (c_tls (mc_client s')) = opening ++ asking ++ closing.
Proof.
  cbv zeta. split.
  { repeat constructor; try reflexivity; apply octets_dec; reflexivity. }
  split.
  { exists (repeat (Chunk 5) 400), []. split; [reflexivity|]. split; [|discriminate].
    apply Forall_forall. intros e I. apply repeat_spec in I. subst. discriminate. }
  eexists. split; vm_compute; reflexivity.
Qed.

Print Assumptions C63_stops_at_final_partial.
Print Assumptions C63_returns_only_at_final_partial.
Print Assumptions C63_headers_only_response_refuted.
Print Assumptions C62_request_meaning.
Print Assumptions C62_sends_nothing_else.
Print Assumptions C62_normal_end.
Print Assumptions C62_completes.
