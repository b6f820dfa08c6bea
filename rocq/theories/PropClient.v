(* Properties C49, C50, C53, C54: receiving and sending through the client. *)
From Coq Require Import ZArith NArith List Bool Lia ZifyBool ZifyNat ZifyN.
From Verif Require Import Base Arith Util IntRep HeaderType DynTable HeaderEnc HeaderDec FrameHeader Frames FrameBuilder
  Ssl Client SpecBits SpecInt SpecHpack SpecFrame HeaderProofs FrameProofs PropHeader PropSsl.
Import ListNotations.
Open Scope N_scope.
Ltac Zify.zify_post_hook ::= Z.div_mod_to_equations.

(* A frame on the wire. *)
Record wframe := WFrame { w_type : N; w_flags : N; w_reserved : N; w_stream : N; w_payload : list N }.

Definition wframe_ok (w : wframe) : Prop :=
  w_type w < 256 /\ w_flags w < 256 /\ w_reserved w < 2 /\ w_stream w < 2 ^ 31 /\
  is_octets (w_payload w) /\ size (w_payload w) < 2 ^ 24.

Definition wire (w : wframe) : list N :=
  wire_frame (w_type w) (w_flags w) (w_reserved w) (w_stream w) (w_payload w).

(* The header it carries. *)
Definition header_of (w : wframe) : frame_header :=
  FH (size (w_payload w)) (w_type w) (w_flags w) (w_reserved w) (w_stream w).

(* ---- reading ---- *)

Lemma read_delivers : forall s a b n, tls_in s = a ++ b -> size a < 2 ^ 31 -> delivers (size a + n) s ->
  exists s', ssl_read s (size a) = (Ok a, s') /\ tls_in s' = b /\ tls_out s' = tls_out s /\ delivers n s'.
Proof.
  intros s a b n E B D.
  destruct (C48_read_completes_partial s a b E B) as (s' & R & I & O).
  { eapply delivers_mono; [|exact D]. clear; lia. }
  exists s'. split; [exact R|]. split; [exact I|]. split; [exact O|].
  destruct (read_loop_exact (N.to_nat (size a)) s (size a) (Nat.le_refl _)) as (k & H).
  unfold ssl_read in R. rewrite R in H. destruct H as (_ & _ & _ & (used & U & L) & _).
  destruct D as (g & r & G & F & S). rewrite G in U.
  exists (skipn (length used) g), r. split.
  - assert (X : skipn (length used) (g ++ r) = skipn (length used) (used ++ tls_sched s')) by (f_equal; exact U).
    rewrite (skipn_app (length used) used), skipn_all, Nat.sub_diag in X. cbn [app skipn] in X. rewrite <- X, skipn_app.
    replace (length used - length g)%nat with 0%nat by (unfold size in *; clear B; lia). reflexivity.
  - split; [|unfold size in *; rewrite skipn_length; clear B; lia].
    rewrite <- (firstn_skipn (length used) g) in F. apply Forall_app in F. apply F.
Qed.

(* What the client makes of one complete frame, as a function of its response
   table. *)
Definition handled (m : ub_mode) (t : dyn_table) (w : wframe) : res frame * dyn_table :=
  match build_frame m (header_of w) (w_payload w) t with
  | Ok f => let '(r, t') := update_frame t f in (let* _ := r in Ok f, t')
  | Throw x => (Throw x, t)
  | UB u => (UB u, t)
  | NoFuel => (NoFuel, t)
  end.

Lemma wire_split : forall w, wframe_ok w -> exists head, wire w = head ++ w_payload w /\ size head = 9 /\
  build_frame_header head = Ok (header_of w).
Proof.
  intros w (T & F & R & S & _ & L). exists (wire_header (size (w_payload w)) (w_type w) (w_flags w) (w_reserved w) (w_stream w)).
  split; [reflexivity|]. split; [apply wire_header_size|].
  pose proof (build_serialize_fh (header_of w) [] L T F R S) as B. rewrite app_nil_r in B. exact B.
Qed.

Lemma wire_size : forall w, wframe_ok w -> size (wire w) = 9 + size (w_payload w).
Proof. intros w W. destruct (wire_split w W) as (h & -> & S & _). rewrite size_app, S. reflexivity. Qed.

Lemma receive_complete : forall m c w rest n, wframe_ok w -> tls_in (c_tls c) = wire w ++ rest ->
  delivers (size (wire w) + n) (c_tls c) ->
  exists s', tls_in s' = rest /\ tls_out s' = tls_out (c_tls c) /\ delivers n s' /\
  receive_frame m c = (fst (handled m (c_resp c) w), Client s' (c_req c) (snd (handled m (c_resp c) w))).
Proof.
  intros m c w rest n W E D. pose proof (wire_size w W) as WS.
  destruct (wire_split w W) as (head & WE & HS & HB). destruct W as (_ & _ & _ & _ & _ & L).
  rewrite WE, <- app_assoc in E. rewrite WS in D.
  destruct (read_delivers (c_tls c) head (w_payload w ++ rest) (size (w_payload w) + n) E) as (s1 & R1 & I1 & O1 & D1).
  { rewrite HS. reflexivity. }
  { rewrite HS. replace (9 + (size (w_payload w) + n)) with (9 + size (w_payload w) + n) by (clear; lia). exact D. }
  rewrite HS in R1.
  assert (R2 : exists s2, (if 0 <? size (w_payload w) then receive_raw_data (set_tls c s1) (size (w_payload w))
                else (Ok [], set_tls c s1)) = (Ok (w_payload w), set_tls c s2) /\
              tls_in s2 = rest /\ tls_out s2 = tls_out (c_tls c) /\ delivers n s2).
  { destruct (N.ltb_spec 0 (size (w_payload w))) as [P|P].
    - destruct (read_delivers s1 (w_payload w) rest n I1) as (s2 & R2 & I2 & O2 & D2).
      { eapply N.lt_trans; [exact L|reflexivity]. }
      { exact D1. }
      exists s2. unfold receive_raw_data. cbn [set_tls c_tls c_req c_resp]. rewrite R2.
      split; [reflexivity|]. split; [exact I2|]. split; [congruence|exact D2].
    - assert (w_payload w = []) as Z.
      { destruct (w_payload w); [reflexivity|]. rewrite size_cons in P. clear L. lia. }
      rewrite Z in *. exists s1. split; [reflexivity|]. split; [exact I1|]. split; [exact O1|].
      eapply delivers_mono; [|exact D1]. clear; lia. }
  destruct R2 as (s2 & R2 & I2 & O2 & D2). exists s2. split; [exact I2|]. split; [exact O2|]. split; [exact D2|].
  unfold receive_frame, receive_raw_data at 1, FRAME_HEADER_BYTES. rewrite R1. cbn [bind]. rewrite HB.
  cbn [bind header_of fh_length]. fold (header_of w).
  change (fh_length (header_of w)) with (size (w_payload w)). rewrite R2. cbn [bind set_tls c_resp c_req c_tls].
  unfold handled. destruct (build_frame m (header_of w) (w_payload w) (c_resp c)) as [f|x|u|]; try reflexivity.
  destruct (update_frame (c_resp c) f) as [r t]. reflexivity.
Qed.

(* ---------------------------------------------------------------- C49 *)

Lemma handled_ok : forall m t w f, fst (handled m t w) = Ok f ->
  build_frame m (header_of w) (w_payload w) t = Ok f.
Proof.
  intros m t w f H. unfold handled in H. destruct (build_frame _ _ _ _) as [g|x|u|]; try discriminate H.
  destruct (update_frame t g) as [[[]|x|u|] t']; cbn in H; try discriminate H. exact H.
Qed.

(* One call consumes exactly one frame; what it returns is built from that
   frame's header and payload and from nothing else. *)
Theorem C49_one_frame : forall m c w rest, wframe_ok w -> tls_in (c_tls c) = wire w ++ rest ->
  delivers (size (wire w)) (c_tls c) ->
  exists r c', receive_frame m c = (r, c') /\ tls_in (c_tls c') = rest /\ tls_out (c_tls c') = tls_out (c_tls c) /\
  c_req c' = c_req c /\
  (forall f, r = Ok f -> build_frame m (header_of w) (w_payload w) (c_resp c) = Ok f).
Proof.
  intros m c w rest W E D. destruct (receive_complete m c w rest 0 W E) as (s' & I & O & _ & R).
  { rewrite N.add_0_r. exact D. }
  eexists _, _. split; [exact R|]. cbn [c_tls c_req]. split; [exact I|]. split; [exact O|]. split; [reflexivity|].
  apply handled_ok.
Qed.

(* The result and the tables do not depend on the chunking, nor on what follows
   the frame. *)
Theorem C49_chunking_irrelevant : forall m c1 c2 w rest1 rest2, wframe_ok w ->
  tls_in (c_tls c1) = wire w ++ rest1 -> tls_in (c_tls c2) = wire w ++ rest2 ->
  delivers (size (wire w)) (c_tls c1) -> delivers (size (wire w)) (c_tls c2) -> c_resp c1 = c_resp c2 ->
  fst (receive_frame m c1) = fst (receive_frame m c2) /\
  c_resp (snd (receive_frame m c1)) = c_resp (snd (receive_frame m c2)).
Proof.
  intros m c1 c2 w r1 r2 W E1 E2 D1 D2 T.
  destruct (receive_complete m c1 w r1 0 W E1) as (s1 & _ & _ & _ & R1); [rewrite N.add_0_r; exact D1|].
  destruct (receive_complete m c2 w r2 0 W E2) as (s2 & _ & _ & _ & R2); [rewrite N.add_0_r; exact D2|].
  rewrite R1, R2, T. split; reflexivity.
Qed.

(* n calls in a row *)
Fixpoint receive_n (m : ub_mode) (n : nat) (c : client) : list (res frame) * client :=
  match n with
  | O => ([], c)
  | Datatypes.S n' =>
      let '(r, c1) := receive_frame m c in
      let '(rs, c2) := receive_n m n' c1 in (r :: rs, c2)
  end.

(* The results for a sequence of frames, the table threaded through. *)
Inductive in_order (m : ub_mode) : dyn_table -> list wframe -> list (res frame) -> dyn_table -> Prop :=
| in_order_nil : forall t, in_order m t [] [] t
| in_order_cons : forall t w ws r t1 rs t2,
    (forall f, r = Ok f -> build_frame m (header_of w) (w_payload w) t = Ok f) ->
    in_order m t1 ws rs t2 -> in_order m t (w :: ws) (r :: rs) t2.

Theorem C49_frames_in_order : forall m ws c rest, Forall wframe_ok ws ->
  tls_in (c_tls c) = concat (map wire ws) ++ rest -> delivers (size (concat (map wire ws))) (c_tls c) ->
  exists rs c', receive_n m (length ws) c = (rs, c') /\ tls_in (c_tls c') = rest /\
    tls_out (c_tls c') = tls_out (c_tls c) /\ c_req c' = c_req c /\
    in_order m (c_resp c) ws rs (c_resp c').
Proof.
  intros m ws. induction ws as [|w ws IH]; intros c rest F E D.
  - exists [], c. cbn in *. repeat split; auto. constructor.
  - cbn [map concat length receive_n] in *. pose proof (Forall_inv F) as W.
    rewrite <- app_assoc in E. rewrite size_app in D.
    destruct (receive_complete m c w _ _ W E D) as (s1 & I1 & O1 & D1 & R1). rewrite R1.
    destruct (IH (Client s1 (c_req c) (snd (handled m (c_resp c) w))) rest (Forall_inv_tail F) I1 D1)
      as (rs & c' & R & I & O & Q & T).
    cbn [c_tls c_req c_resp] in O, Q, T.
    rewrite R. eexists _, c'. split; [reflexivity|]. split; [exact I|]. split; [congruence|]. split; [exact Q|].
    econstructor; [|exact T]. apply handled_ok.
Qed.

(* Whatever the TLS layer does (failures included): a call either consumes the
   frame at the head of the stream as above, or throws with both tables
   unchanged. *)
Theorem C49_any_schedule : forall m c w rest, wframe_ok w -> tls_in (c_tls c) = wire w ++ rest ->
  exists r c', receive_frame m c = (r, c') /\ c_req c' = c_req c /\
  ((tls_in (c_tls c') = rest /\ (forall f, r = Ok f -> build_frame m (header_of w) (w_payload w) (c_resp c) = Ok f)) \/
   (r = Throw RuntimeError /\ c_resp c' = c_resp c)).
Proof.
  intros m c w rest W E. destruct (wire_split w W) as (head & WE & HS & HB).
  rewrite WE, <- app_assoc in E.
  unfold receive_frame, receive_raw_data at 1, FRAME_HEADER_BYTES.
  destruct (C48_read_exact (c_tls c) 9) as (k & K). destruct (ssl_read (c_tls c) 9) as [r1 s1].
  destruct K as (_ & I1 & O1 & [[-> KE]|[-> KE]]); [|eexists _, _; cbn [bind]; split; [reflexivity|]; split; [reflexivity|]; right; split; reflexivity].
  assert (k = length head) by (unfold size in HS; lia). subst k.
  rewrite E in I1 |- *. rewrite skipn_len_app in I1 by reflexivity. rewrite firstn_len_app by reflexivity.
  cbn [bind]. rewrite HB. change (fh_length (header_of w)) with (size (w_payload w)).
  set (q := if 0 <? size (w_payload w) then _ else _).
  assert (Q : exists s2, (q = (Ok (w_payload w), set_tls c s2) /\ tls_in s2 = rest) \/ q = (Throw RuntimeError, set_tls c s2)).
  { unfold q. destruct (N.ltb_spec 0 (size (w_payload w))) as [P|P].
    - unfold receive_raw_data. cbn [set_tls c_tls]. destruct (C48_read_exact s1 (size (w_payload w))) as (j & J).
      destruct (ssl_read s1 (size (w_payload w))) as [r2 s2]. destruct J as (_ & I2 & _ & [[-> JE]|[-> JE]]).
      + exists s2. left. assert (j = length (w_payload w)) by (unfold size in JE; lia). subst j.
        rewrite I1 in *. rewrite firstn_len_app by reflexivity. rewrite skipn_len_app in I2 by reflexivity. auto.
      + exists s2. right. reflexivity.
    - exists s1. left. destruct (w_payload w); [auto|]. rewrite size_cons in P. lia. }
  destruct Q as (s2 & [[Q I2]|Q]); rewrite Q; cbn [bind set_tls c_resp c_req c_tls].
  - destruct (build_frame m (header_of w) (w_payload w) (c_resp c)) as [f|x|u|] eqn:B.
    + destruct (update_frame (c_resp c) f) as [r3 t]. eexists _, _. split; [reflexivity|]. split; [reflexivity|].
      left. split; [exact I2|]. intros g G. destruct r3 as [[]|x|u|]; cbn in G; try discriminate G. exact G.
    + eexists _, _. split; [reflexivity|]. split; [reflexivity|]. left. split; [exact I2|]. intros; discriminate.
    + eexists _, _. split; [reflexivity|]. split; [reflexivity|]. left. split; [exact I2|]. intros; discriminate.
    + eexists _, _. split; [reflexivity|]. split; [reflexivity|]. left. split; [exact I2|]. intros; discriminate.
  - eexists _, _. split; [reflexivity|]. split; [reflexivity|]. right. split; reflexivity.
Qed.

(* A stream that ends inside a frame: the call throws, the tables are kept. *)
Theorem C49_truncated : forall m c w k, wframe_ok w -> (k < length (wire w))%nat ->
  tls_in (c_tls c) = firstn k (wire w) ->
  exists c', receive_frame m c = (Throw RuntimeError, c') /\ c_req c' = c_req c /\ c_resp c' = c_resp c.
Proof.
  intros m c w k W KL E. destruct (wire_split w W) as (head & WE & HS & HB). rewrite WE in E, KL.
  unfold receive_frame, receive_raw_data at 1, FRAME_HEADER_BYTES.
  destruct (C48_read_exact (c_tls c) 9) as (i & K). destruct (ssl_read (c_tls c) 9) as [r1 s1].
  destruct K as (KI & I1 & O1 & [[-> KE]|[-> KE]]); [|eexists; cbn [bind]; split; [reflexivity|]; split; reflexivity].
  assert (i = length head) by (unfold size in HS; lia). subst i.
  rewrite E in KI, I1 |- *. rewrite firstn_app in KI, I1 |- *. unfold size in HS, KI.
  rewrite app_length, !firstn_length in KI. rewrite app_length in KL.
  assert (KG : (length head <= k)%nat).
  { destruct (Nat.le_gt_cases (length head) k) as [G|G]; [exact G|].
    replace (k - length head)%nat with 0%nat in KI by lia. lia. }
  rewrite (firstn_all2 head) in I1 |- * by exact KG.
  rewrite skipn_len_app in I1 by reflexivity. rewrite firstn_len_app by reflexivity.
  cbn [bind]. rewrite HB. change (fh_length (header_of w)) with (size (w_payload w)).
  destruct (N.ltb_spec 0 (size (w_payload w))) as [P|P]; [|unfold size in P; lia].
  unfold receive_raw_data. cbn [set_tls c_tls]. destruct (C48_read_exact s1 (size (w_payload w))) as (j & J).
  destruct (ssl_read s1 (size (w_payload w))) as [r2 s2]. destruct J as (JL & _ & _ & [[-> JE]|[-> JE]]).
  - exfalso. rewrite I1 in JL. unfold size in *. rewrite firstn_length in JL. lia.
  - eexists. cbn [bind]. split; [reflexivity|]. split; reflexivity.
Qed.

(* Two frames in 1- and 3-octet chunks, then the end of the stream. *)
Example C49_case :
  let w1 := WFrame 8 0 0 0 [0; 0; 1; 0] in           (* WINDOW_UPDATE 256 *)
  let w2 := WFrame 0 1 0 5 [104; 105] in             (* DATA "hi", END_STREAM *)
  let c := new_client (Tls (wire w1 ++ wire w2 ++ [0; 0]) [] (Chunk 2 :: repeat (Chunk 0) 30)) in
  wframe_ok w1 /\ wframe_ok w2 /\
  delivers (size (concat (map wire [w1; w2]))) (c_tls c) /\
  (exists c', receive_n Strict 3 c =
    ([Ok (WindowUpdateFrame (header_of w1) 0 256); Ok (DataFrame (header_of w2) [104; 105]); Throw RuntimeError], c')).
Proof.
  cbv zeta. split; [|split; [|split]].
  - repeat split; try reflexivity. intros b H; cbn in H; intuition (subst; reflexivity).
  - repeat split; try reflexivity. intros b H; cbn in H; intuition (subst; reflexivity).
  - exists (Chunk 2 :: repeat (Chunk 0) 30), []. split; [reflexivity|]. split; [|discriminate].
    constructor; [discriminate|]. apply Forall_forall. intros e I. apply repeat_spec in I. subst. discriminate.
  - eexists. vm_compute. reflexivity.
Qed.

(* ---------------------------------------------------------------- C50 *)

(* Entries whose content fits their prefix: updating a table with them never
   throws. *)
Definition coherent (e : hentry) : Prop :=
  match e_prefix e, e_content e with
  | SizeUpdate, EHeader _ => False
  | SizeUpdate, ESize _ => True
  | _, ESize _ => False
  | _, EHeader _ => True
  end.

Lemma decode_coherent : forall m v t e n, is_octets v -> decode_header m v t = Ok (e, n) -> coherent e.
Proof.
  intros m v t e n O H. destruct v as [|b v].
  - exfalso. revert H. unfold decode_header. cbn. discriminate.
  - destruct (C23_reported_prefix m b v t e n O H) as (A1 & A2 & A3 & A4 & A5 & A6).
    destruct e as [p [h|k]]; unfold coherent; cbn [e_prefix e_content] in *.
    + destruct p; try exact I. destruct A3 as [A3 _]. apply A6 in A3; [|reflexivity]. destruct A3 as [s S]. discriminate S.
    + assert (S : 32 <= b < 64) by (apply A6; eauto). apply A3 in S. subst p. exact I.
Qed.

Lemma block_coherent : forall m fuel v t b, is_octets v -> decode_block_loop m fuel v t = Ok b -> Forall coherent b.
Proof.
  induction fuel as [|fuel IH]; intros v t b O H; cbn [decode_block_loop] in H.
  - destruct (0 <? size v); [discriminate|]. injection H as <-. constructor.
  - destruct (0 <? size v); [|injection H as <-; constructor].
    destruct (decode_header m v t) as [[e n]|x|u|] eqn:D; try discriminate H. cbn [bind] in H.
    destruct (verase_front v n) as [v'|x|u|] eqn:V; try discriminate H. cbn [bind] in H.
    destruct (decode_block_loop m fuel v' t) as [b'|x|u|] eqn:R; try discriminate H. injection H as <-.
    constructor; [eapply decode_coherent; eassumption|]. eapply IH; [|exact R].
    unfold verase_front in V. destruct (_ <=? _); [|discriminate]. injection V as <-.
    intros x X. apply O. rewrite <- (firstn_skipn (N.to_nat n) v). apply in_or_app. right. exact X.
Qed.

Lemma resize_no_throw : forall l c m x, resize_loop l c m <> Throw x.
Proof. induction l as [|h l IH]; intros c m x; cbn; destruct (m <? c); try discriminate. apply IH. Qed.

Lemma push_no_throw : forall t h x, dt_push t h <> Throw x.
Proof.
  intros t h x. unfold dt_push, resize_table. pose proof (resize_no_throw (rev (dt_entries t)) (dt_size t + entry_size h) (dt_max t)) as R.
  destruct (resize_loop _ _ _) as [[a b]|y|u|]; cbn; try discriminate. intros E. eapply R. reflexivity.
Qed.

Lemma update_no_throw : forall t n x, dt_update_size t n <> Throw x.
Proof.
  intros t n x. unfold dt_update_size, resize_table. pose proof (resize_no_throw (rev (dt_entries t)) (dt_size t) n) as R.
  destruct (resize_loop _ _ _) as [[a b]|y|u|]; cbn; try discriminate. intros E. eapply R. reflexivity.
Qed.

Lemma update_block_no_throw : forall b t, Forall coherent b -> forall x, fst (update_block t b) <> Throw x.
Proof.
  induction b as [|e b IH]; intros t F x; cbn [update_block]; [discriminate|].
  assert (N : forall y, update_entry t e <> Throw y).
  { intros y. pose proof (Forall_inv F) as C. destruct e as [p [h|k]]; unfold coherent in C; cbn [e_prefix e_content] in C;
      destruct p; try contradiction; unfold update_entry, get_header, get_max_size; cbn [e_prefix e_content bind];
      try discriminate; [apply push_no_throw|apply update_no_throw]. }
  destruct (update_entry t e) as [t'|y|u|]; cbn [fst]; try discriminate.
  - apply IH. exact (Forall_inv_tail F).
  - destruct (N y). reflexivity.
Qed.

Lemma octets_app_l : forall a b : list N, is_octets (a ++ b) -> is_octets a.
Proof. intros a b O x X. apply O, in_or_app. auto. Qed.
Lemma octets_app_r : forall a b : list N, is_octets (a ++ b) -> is_octets b.
Proof. intros a b O x X. apply O, in_or_app. auto. Qed.

Lemma octets_skipn : forall n (l : list N), is_octets l -> is_octets (skipn n l).
Proof. intros n l O. rewrite <- (firstn_skipn n l) in O. eapply octets_app_r. exact O. Qed.

Lemma octets_erase : forall v n v', is_octets v -> verase_front v n = Ok v' -> is_octets v'.
Proof. intros v n v' O H. unfold verase_front in H. destruct (_ <=? _); [|discriminate]. injection H as <-. apply octets_skipn, O. Qed.

Lemma padding_octets : forall raw p d, is_octets raw -> split_padding raw = Ok (p, d) -> is_octets d.
Proof.
  intros raw p d O H. unfold split_padding in H. destruct raw as [|n raw]; [discriminate|].
  destruct (_ <? _); [discriminate|]. set (k := N.to_nat _) in H. destruct (firstn k (n :: raw)) as [|y l] eqn:F; [discriminate|].
  injection H as _ <-. intros x X. apply O. rewrite <- (firstn_skipn k (n :: raw)), F. apply in_or_app. left. right. exact X.
Qed.

Lemma priority_octets : forall raw p d, is_octets raw -> headers_split_priority raw = Ok (p, d) -> is_octets d.
Proof.
  intros raw p d O H. unfold headers_split_priority in H.
  destruct (vrange raw 0 4) as [dep|x|u|]; try discriminate H. cbn [bind] in H.
  destruct (vget dep 0) as [b0|x|u|]; try discriminate H. cbn [bind] in H.
  destruct (bytes2integral 4 dep 0) as [x|x|u|]; try discriminate H. cbn [bind] in H.
  destruct (verase_front raw 4) as [raw'|y|u|] eqn:V; try discriminate H. cbn [bind] in H.
  destruct raw' as [|w data]; [discriminate|]. injection H as _ <-. apply octets_erase in V; [|exact O].
  intros z Z. apply V. right. exact Z.
Qed.

(* What build_frame delivers never makes the table update throw. *)
Lemma built_no_throw : forall m h raw t f t', is_octets raw -> build_frame m h raw t = Ok f ->
  forall x, fst (update_frame t' f) <> Throw x.
Proof.
  intros m h raw t f t' O H x. unfold build_frame in H.
  unfold update_frame.
  destruct (fh_type (frame_fh f) =? T_HEADERS).
  { destruct f; try discriminate. cbn [fst].
    assert (C : Forall coherent block).
    { revert H. repeat match goal with |- context [if ?b then _ else _] => destruct b end;
      unfold build_data_frame, build_settings_frame, parse_priority, parse_rst_stream, parse_push_promise, parse_ping,
        parse_goaway, parse_window_update, parse_continuation, mk_data, mk_settings;
      intros H; try discriminate H.
      all: try (match type of H with bind ?r _ = _ => destruct r; cbn [bind] in H; try discriminate H end).
      all: try (match type of H with bind ?r _ = _ => destruct r; cbn [bind] in H; try discriminate H end).
      all: try (match type of H with bind ?r _ = _ => destruct r; cbn [bind] in H; try discriminate H end).
      all: try (match type of H with (if ?b then _ else _) = _ => destruct b; try discriminate H end).
      all: try (match type of H with bind ?r _ = _ => destruct r; cbn [bind] in H; try discriminate H end).
      unfold build_headers_frame in H.
      destruct (parse_headers m h raw t) as [g|y|u|] eqn:P; try discriminate H. injection H as ->.
      unfold parse_headers, headers_decode_payload in P.
      destruct (if is_flag_set (fh_flags h) F_PADDED then split_padding raw else Ok ([], raw)) as [[pad d1]|y|u|] eqn:E1;
        try discriminate P. cbn [bind] in P.
      assert (O1 : is_octets d1).
      { destruct (is_flag_set (fh_flags h) F_PADDED); [eapply padding_octets; eassumption|]. injection E1 as _ <-. exact O. }
      destruct (if is_flag_set (fh_flags h) F_PRIORITY then headers_split_priority d1 else Ok (Prio 0 0 0, d1)) as [[pr d2]|y|u|] eqn:E2;
        try discriminate P. cbn [bind] in P.
      assert (O2 : is_octets d2).
      { destruct (is_flag_set (fh_flags h) F_PRIORITY); [eapply priority_octets; eassumption|]. injection E2 as _ <-. exact O1. }
      destruct (decode_block m d2 t) as [b|y|u|] eqn:E3; try discriminate P. cbn [bind] in P. injection P as _ _ _ _ <-.
      eapply block_coherent; [exact O2|exact E3]. }
    apply update_block_no_throw. exact C. }
  destruct (fh_type (frame_fh f) =? T_PUSH_PROMISE).
  { destruct f; try discriminate.
    assert (C : Forall coherent (pp_block p)).
    { revert H. repeat match goal with |- context [if ?b then _ else _] => destruct b end;
      unfold build_data_frame, build_headers_frame, build_settings_frame, parse_headers, parse_priority, parse_rst_stream, parse_push_promise, parse_ping,
        parse_goaway, parse_window_update, parse_continuation, mk_data, mk_settings;
      intros H; try discriminate H.
      all: try (destruct (headers_decode_payload m h raw t) as [[[? ?] ?]|y|u|]; cbn [bind] in H; discriminate H).
      all: try (match type of H with bind ?r _ = _ => destruct r eqn:P; cbn [bind] in H; try discriminate H end).
      all: try (match type of H with bind ?r _ = _ => destruct r; cbn [bind] in H; try discriminate H end).
      all: try (match type of H with bind ?r _ = _ => destruct r; cbn [bind] in H; try discriminate H end).
      all: try (match type of H with (if ?b then _ else _) = _ => destruct b; try discriminate H end).
      all: try (match type of H with bind ?r _ = _ => destruct r; cbn [bind] in H; try discriminate H end).
      injection H as _ _ ->. unfold push_promise_decode_payload in P.
      destruct (if is_flag_set (fh_flags h) F_PADDED then split_padding raw else Ok ([], raw)) as [[pad d1]|y|u|] eqn:E1;
        try discriminate P. cbn [bind] in P.
      assert (O1 : is_octets d1).
      { destruct (is_flag_set (fh_flags h) F_PADDED); [eapply padding_octets; eassumption|]. injection E1 as _ <-. exact O. }
      destruct (vget d1 0) as [b0|y|u|]; try discriminate P. cbn [bind] in P.
      destruct (bytes2integral 4 d1 0) as [z|y|u|]; try discriminate P. cbn [bind] in P.
      destruct (verase_front d1 4) as [d2|y|u|] eqn:E2; try discriminate P. cbn [bind] in P.
      destruct (decode_block m d2 t) as [b|y|u|] eqn:E3; try discriminate P. cbn [bind] in P. injection P as <-.
      cbn [pp_block]. eapply block_coherent; [|exact E3]. eapply octets_erase; eassumption. }
    apply update_block_no_throw. exact C. }
  destruct (fh_type (frame_fh f) =? T_CONTINUATION).
  { destruct f; try discriminate.
    assert (C : Forall coherent block).
    { revert H. repeat match goal with |- context [if ?b then _ else _] => destruct b end;
      unfold build_data_frame, build_headers_frame, build_settings_frame, parse_headers, parse_priority, parse_rst_stream, parse_push_promise, parse_ping,
        parse_goaway, parse_window_update, parse_continuation, mk_data, mk_settings;
      intros H; try discriminate H.
      all: try (destruct (headers_decode_payload m h raw t) as [[[? ?] ?]|y|u|]; cbn [bind] in H; discriminate H).
      all: try (match type of H with bind ?r _ = _ => destruct r eqn:P; cbn [bind] in H; try discriminate H end).
      all: try (match type of H with bind ?r _ = _ => destruct r; cbn [bind] in H; try discriminate H end).
      all: try (match type of H with bind ?r _ = _ => destruct r; cbn [bind] in H; try discriminate H end).
      all: try (match type of H with (if ?b then _ else _) = _ => destruct b; try discriminate H end).
      all: try (match type of H with bind ?r _ = _ => destruct r; cbn [bind] in H; try discriminate H end).
      injection H as _ _ ->. eapply block_coherent; [exact O|exact P]. }
    apply update_block_no_throw. exact C. }
  destruct (fh_type (frame_fh f) =? T_SETTINGS); [|discriminate].
  destruct f; try discriminate. destruct (sm_find m0 1) as [n|]; [|discriminate].
  pose proof (update_no_throw t' n) as NT. destruct (dt_update_size t' n) as [?|y|?|]; try discriminate.
  cbn [fst]. intros E. exact (NT y eq_refl).
Qed.

Lemma handled_throw : forall m t w x, wframe_ok w -> fst (handled m t w) = Throw x ->
  snd (handled m t w) = t /\ build_frame m (header_of w) (w_payload w) t = Throw x.
Proof.
  intros m t w x (_ & _ & _ & _ & O & _) H. unfold handled in *.
  destruct (build_frame m (header_of w) (w_payload w) t) as [f|y|u|] eqn:B; try discriminate H.
  - pose proof (built_no_throw _ _ _ _ _ t O B) as NT. destruct (update_frame t f) as [[[]|y|u|] t']; cbn in H; try discriminate H.
    destruct (NT y). reflexivity.
  - injection H as ->. split; reflexivity.
Qed.

Theorem C50_rejected_frame : forall m c w rest x c', wframe_ok w -> tls_in (c_tls c) = wire w ++ rest ->
  delivers (size (wire w)) (c_tls c) -> receive_frame m c = (Throw x, c') ->
  tls_in (c_tls c') = rest /\ tls_out (c_tls c') = tls_out (c_tls c) /\ c_req c' = c_req c /\ c_resp c' = c_resp c.
Proof.
  intros m c w rest x c' W E D H. destruct (receive_complete m c w rest 0 W E) as (s' & I & O & _ & R).
  { rewrite N.add_0_r. exact D. }
  rewrite R in H. apply pair_equal_spec in H. destruct H as [H <-]. cbn [c_tls c_req c_resp].
  destruct (handled_throw m (c_resp c) w x W H) as [T _]. auto.
Qed.

(* The frame after a rejected one is handled as if the rejected one had never
   been sent. *)
Theorem C50_next_frame : forall m c w1 w2 rest x c1 c2, wframe_ok w1 -> wframe_ok w2 ->
  tls_in (c_tls c) = wire w1 ++ wire w2 ++ rest -> delivers (size (wire w1) + size (wire w2)) (c_tls c) ->
  receive_frame m c = (Throw x, c1) ->
  tls_in (c_tls c2) = wire w2 ++ rest -> delivers (size (wire w2)) (c_tls c2) -> c_resp c2 = c_resp c ->
  fst (receive_frame m c1) = fst (receive_frame m c2) /\
  c_resp (snd (receive_frame m c1)) = c_resp (snd (receive_frame m c2)).
Proof.
  intros m c w1 w2 rest x c1 c2 W1 W2 E D H E2 D2 T2.
  destruct (receive_complete m c w1 _ _ W1 E D) as (s' & I & O & D' & R).
  rewrite R in H. apply pair_equal_spec in H. destruct H as [H <-].
  destruct (handled_throw m (c_resp c) w1 x W1 H) as [T _]. rewrite T in *.
  eapply C49_chunking_irrelevant; [exact W2|exact I|exact E2|exact D'|exact D2|symmetry; exact T2].
Qed.

(* Unknown types are always rejected that way, and so are frames whose fixed
   fields are missing. *)
Theorem C50_unknown_type : forall m c w rest, wframe_ok w -> tls_in (c_tls c) = wire w ++ rest ->
  delivers (size (wire w)) (c_tls c) -> 9 < w_type w ->
  exists c', receive_frame m c = (Throw OutOfRange, c').
Proof.
  intros m c w rest W E D K. destruct (receive_complete m c w rest 0 W E) as (s' & I & O & _ & R).
  { rewrite N.add_0_r. exact D. }
  exists (Client s' (c_req c) (c_resp c)). rewrite R.
  assert (B : build_frame m (header_of w) (w_payload w) (c_resp c) = Throw OutOfRange).
  { unfold build_frame. change (fh_type (header_of w)) with (w_type w).
    assert (NE : forall k, k <= 9 -> (w_type w =? k) = false) by (intros k L; apply N.eqb_neq; clear W; lia).
    rewrite (NE T_DATA), (NE T_HEADERS), (NE T_PRIORITY), (NE T_RST_STREAM), (NE T_SETTINGS), (NE T_PUSH_PROMISE),
      (NE T_PING), (NE T_GOAWAY), (NE T_WINDOW_UPDATE), (NE T_CONTINUATION) by discriminate.
    reflexivity. }
  unfold handled. rewrite B. reflexivity.
Qed.

Example C50_case :
  let bad := WFrame 0x42 7 1 9 [1; 2; 3] in        (* unknown type *)
  let short := WFrame 7 0 0 0 [0; 0; 0] in         (* GOAWAY without its fields *)
  let good := WFrame 0 1 0 5 [104; 105] in
  let c := new_client (Tls (wire bad ++ wire short ++ wire good) [] (repeat (Chunk 4) 40)) in
  wframe_ok bad /\ wframe_ok short /\ delivers (size (wire bad)) (c_tls c) /\
  (exists c', receive_n Strict 3 c =
    ([Throw OutOfRange; Throw InvalidArgument; Ok (DataFrame (header_of good) [104; 105])], c')).
Proof.
  cbv zeta. split; [|split; [|split]].
  - repeat split; try reflexivity. intros b H; cbn in H; intuition (subst; reflexivity).
  - repeat split; try reflexivity. intros b H; cbn in H; intuition (subst; reflexivity).
  - exists (repeat (Chunk 4) 40), []. split; [reflexivity|]. split; [|discriminate].
    apply Forall_forall. intros e I. apply repeat_spec in I. subst. discriminate.
  - eexists. vm_compute. reflexivity.
Qed.

(* ---------------------------------------------------------------- C53 *)

(* build_frame delivers the raw frame... *)
Theorem C53_raw_frame_partial : forall m h raw t x, fh_type h = HEADERS ->
  parse_headers m h raw t = Throw x -> build_frame m h raw t = Ok (RawFrame h raw).
Proof.
  intros m h raw t x T P. unfold build_frame. rewrite T. cbn. unfold build_headers_frame. rewrite P. reflexivity.
Qed.

(* ... but receive_frame then looks for a header block in it: a null pointer is
   dereferenced for every such frame. *)
Theorem C53_null_dereference_refuted : forall m c w rest x, wframe_ok w -> tls_in (c_tls c) = wire w ++ rest ->
  delivers (size (wire w)) (c_tls c) -> w_type w = HEADERS ->
  parse_headers m (header_of w) (w_payload w) (c_resp c) = Throw x ->
  exists c', receive_frame m c = (UB NullDeref, c').
Proof.
  intros m c w rest x W E D T P. destruct (receive_complete m c w rest 0 W E) as (s' & I & O & _ & R).
  { rewrite N.add_0_r. exact D. }
  exists (Client s' (c_req c) (c_resp c)). rewrite R.
  assert (B : build_frame m (header_of w) (w_payload w) (c_resp c) = Ok (RawFrame (header_of w) (w_payload w))).
  { eapply C53_raw_frame_partial; [exact T|exact P]. }
  unfold handled. rewrite B. unfold update_frame. cbn [frame_fh header_of fh_type]. rewrite T. reflexivity.
Qed.

(* A HEADERS frame that refers to entry 62 of an empty dynamic table. *)
Example C53_case :
  let w := WFrame 1 5 0 1 [0xbe] in
  let c := new_client (Tls (wire w) [] (repeat (Chunk 8) 12)) in
  wframe_ok w /\ delivers (size (wire w)) (c_tls c) /\
  parse_headers Lenient (header_of w) (w_payload w) (c_resp c) = Throw OutOfRange.
Proof.
  cbv zeta. split; [|split].
  - repeat split; try reflexivity. intros b H; cbn in H; intuition (subst; reflexivity).
  - exists (repeat (Chunk 8) 12), []. split; [reflexivity|]. split; [|discriminate].
    apply Forall_forall. intros e I. apply repeat_spec in I. subst. discriminate.
  - vm_compute. reflexivity.
Qed.

(* ---------------------------------------------------------------- C54 *)

Inductive send_op := SendFrame (f : frame) | SendRaw (d : bytes) | SendPreface.

Definition send (host : endian) (c : client) (o : send_op) : res unit * client :=
  match o with
  | SendFrame f => send_frame host c f
  | SendRaw d => send_raw_data c d
  | SendPreface => send_connection_preface c
  end.

(* RFC 7540 section 3.5 *)
Definition preface_octets : list N :=
  [0x50; 0x52; 0x49; 0x20; 0x2a; 0x20; 0x48; 0x54; 0x54; 0x50; 0x2f; 0x32; 0x2e; 0x30; 0x0d; 0x0a; 0x0d; 0x0a;
   0x53; 0x4d; 0x0d; 0x0a; 0x0d; 0x0a].

(* The octets a send call is asked to transmit. *)
Definition to_send (host : endian) (o : send_op) (d : bytes) : Prop :=
  match o with
  | SendFrame f => serialize host f = Ok d
  | SendRaw d' => d = d'
  | SendPreface => d = preface_octets
  end.

Lemma send_raw_exact : forall c data, exists k,
  let '(r, c') := send_raw_data c data in
  tls_out (c_tls c') = tls_out (c_tls c) ++ firstn k data /\ tls_in (c_tls c') = tls_in (c_tls c) /\
  c_req c' = c_req c /\ c_resp c' = c_resp c /\
  ((r = Ok tt /\ firstn k data = data) \/ (r = Throw RuntimeError /\ (k < length data)%nat)).
Proof.
  intros c data. destruct (C48_write_exact (c_tls c) data) as (k & H). exists k. unfold send_raw_data.
  destruct (ssl_write (c_tls c) data) as [r s]. destruct H as (O & I & R). cbn [set_tls c_tls c_req c_resp]. auto.
Qed.

(* For every call and every behaviour of the TLS layer. *)
Theorem C54_send_exact : forall host c o r c', send host c o = (r, c') ->
  tls_in (c_tls c') = tls_in (c_tls c) /\ c_req c' = c_req c /\ c_resp c' = c_resp c /\
  ((exists d, to_send host o d /\ r = Ok tt /\ tls_out (c_tls c') = tls_out (c_tls c) ++ d) \/
   (exists d k, to_send host o d /\ r = Throw RuntimeError /\ (k < length d)%nat /\
      tls_out (c_tls c') = tls_out (c_tls c) ++ firstn k d) \/
   ((forall d, ~ to_send host o d) /\ r <> Ok tt /\ tls_out (c_tls c') = tls_out (c_tls c))).
Proof.
  intros host c o r c' H.
  assert (G : forall data, send_raw_data c data = (r, c') -> to_send host o data ->
    tls_in (c_tls c') = tls_in (c_tls c) /\ c_req c' = c_req c /\ c_resp c' = c_resp c /\
    ((exists d, to_send host o d /\ r = Ok tt /\ tls_out (c_tls c') = tls_out (c_tls c) ++ d) \/
     (exists d k, to_send host o d /\ r = Throw RuntimeError /\ (k < length d)%nat /\
        tls_out (c_tls c') = tls_out (c_tls c) ++ firstn k d) \/
     ((forall d, ~ to_send host o d) /\ r <> Ok tt /\ tls_out (c_tls c') = tls_out (c_tls c)))).
  { intros data S T. destruct (send_raw_exact c data) as (k & K). rewrite S in K.
    destruct K as (O & I & Q & P & [[-> F]|[-> F]]); (split; [exact I|]; split; [exact Q|]; split; [exact P|]).
    - left. exists data. rewrite F in O. auto.
    - right. left. exists data, k. auto. }
  destruct o as [f|d|]; cbn [send] in H.
  - unfold send_frame in H. destruct (serialize host f) as [raw|x|u|] eqn:S.
    + apply (G raw H). exact S.
    + injection H as <- <-. split; [reflexivity|]. split; [reflexivity|]. split; [reflexivity|]. right. right.
      split; [intros d; cbn; congruence|]. split; [discriminate|reflexivity].
    + injection H as <- <-. split; [reflexivity|]. split; [reflexivity|]. split; [reflexivity|]. right. right.
      split; [intros d; cbn; congruence|]. split; [discriminate|reflexivity].
    + injection H as <- <-. split; [reflexivity|]. split; [reflexivity|]. split; [reflexivity|]. right. right.
      split; [intros d; cbn; congruence|]. split; [discriminate|reflexivity].
  - apply (G d H). reflexivity.
  - apply (G preface_octets H). reflexivity.
Qed.

(* A sequence of calls, stopping at the first that does not return. *)
Fixpoint send_all (host : endian) (c : client) (os : list send_op) : res unit * client :=
  match os with
  | [] => (Ok tt, c)
  | o :: os' =>
      let '(r, c') := send host c o in
      match r with Ok _ => send_all host c' os' | _ => (r, c') end
  end.

Theorem C54_call_order : forall host os c c', send_all host c os = (Ok tt, c') ->
  exists ds, Forall2 (to_send host) os ds /\ tls_out (c_tls c') = tls_out (c_tls c) ++ concat ds /\
  tls_in (c_tls c') = tls_in (c_tls c) /\ c_req c' = c_req c /\ c_resp c' = c_resp c.
Proof.
  intros host os. induction os as [|o os IH]; intros c c' H; cbn [send_all] in H.
  - injection H as <-. exists []. cbn. rewrite app_nil_r. auto.
  - destruct (send host c o) as [r c1] eqn:S. destruct (C54_send_exact host c o r c1 S) as (I & Q & P & X).
    destruct X as [(d & T & -> & O)|[(d & k & _ & -> & _)|(_ & NO & _)]].
    + destruct (IH c1 c' H) as (ds & F & O2 & I2 & Q2 & P2). exists (d :: ds).
      split; [constructor; assumption|]. cbn [concat]. rewrite O2, O, <- app_assoc.
      split; [reflexivity|]. split; [congruence|]. split; congruence.
    + discriminate H.
    + destruct r as [[]|x|u|]; try discriminate H. destruct NO. reflexivity.
Qed.

(* The calls return when the TLS layer does not fail (data below 2 GiB). *)
Theorem C54_send_completes : forall host c o d, to_send host o d -> size d < 2 ^ 31 -> delivers (size d) (c_tls c) ->
  exists c', send host c o = (Ok tt, c').
Proof.
  intros host c o d T L D. destruct (C48_write_completes_partial (c_tls c) d L D) as (s & W & _).
  assert (S : send_raw_data c d = (Ok tt, set_tls c s)) by (unfold send_raw_data; rewrite W; reflexivity).
  exists (set_tls c s). destruct o as [f|d'|]; cbn [send] in *.
  - unfold send_frame. cbn in T. rewrite T. exact S.
  - cbn in T. subst d'. exact S.
  - cbn in T. subst d. exact S.
Qed.

Example C54_case :
  let c := new_client (Tls [7] [] (repeat (Chunk 6) 40)) in
  let ping := PingFrame (FH 8 6 0 0 0) [1; 2; 3; 4; 5; 6; 7; 8] in
  to_send LittleEndian (SendFrame ping) [0; 0; 8; 6; 0; 0; 0; 0; 0; 1; 2; 3; 4; 5; 6; 7; 8] /\
  delivers 17 (c_tls c) /\
  tls_out (c_tls (snd (send_all LittleEndian c [SendPreface; SendFrame ping]))) =
    preface_octets ++ [0; 0; 8; 6; 0; 0; 0; 0; 0; 1; 2; 3; 4; 5; 6; 7; 8].
Proof.
  cbv zeta. split; [reflexivity|]. split; [|vm_compute; reflexivity].
  exists (repeat (Chunk 6) 40), []. split; [reflexivity|]. split; [|discriminate].
  apply Forall_forall. intros e I. apply repeat_spec in I. subst. discriminate.
Qed.

Print Assumptions C49_one_frame.
Print Assumptions C49_chunking_irrelevant.
Print Assumptions C49_frames_in_order.
Print Assumptions C49_any_schedule.
Print Assumptions C49_truncated.
Print Assumptions C50_rejected_frame.
Print Assumptions C50_next_frame.
Print Assumptions C50_unknown_type.
Print Assumptions C53_raw_frame_partial.
Print Assumptions C53_null_dereference_refuted.
Print Assumptions C54_send_exact.
Print Assumptions C54_call_order.
Print Assumptions C54_send_completes.
