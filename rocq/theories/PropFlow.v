(* Property C104: flow-control windows can be kept from the frame objects. *)
From Coq Require Import String.
From Coq Require Import ZArith NArith List Bool Lia ZifyBool ZifyNat ZifyN.
From Verif Require Import Base Arith Util HeaderType DynTable HeaderEnc FrameHeader Frames FrameBuilder Ssl Client
  SpecBits SpecHpack SpecFrame SpecValid UtilProofs DynTableProofs FrameProofs HeaderProofs BlockProofs
  PropFrame PropBlock PropSsl PropClient PropValid PropThrow PropDefined PropMade PropDuplex PropHistory.
From Verif Require Access.
Import ListNotations.
Local Open Scope string_scope.
Local Open Scope list_scope.
Local Open Scope N_scope.
Ltac Zify.zify_post_hook ::= Z.div_mod_to_equations.

(* ---- specification: RFC 7540, section 6.9 ---- *)

(* Stream 0 stands for the connection: its window counts the DATA frames of all
   streams.  Of a DATA frame the whole payload counts, padding included. *)
Definition spent (sid : N) (w : wframe) : N :=
  if (w_type w =? DATA) && ((sid =? 0) || (w_stream w =? sid)) then N.of_nat (length (w_payload w)) else 0.

(* A WINDOW_UPDATE frame has four octets, the first bit is reserved. *)
Definition granted (sid : N) (w : wframe) : N :=
  if (w_type w =? WINDOW_UPDATE) && (w_stream w =? sid) then
    if (length (w_payload w) =? 4)%nat then be_value (w_payload w) mod 2 ^ 31 else 0
  else 0.

(* SETTINGS_INITIAL_WINDOW_SIZE is parameter 4; the last value counts (6.5.3). *)
Fixpoint parameters (payload : list N) : list (N * N) :=
  match payload with
  | a :: b :: c :: d :: e :: f :: rest => (be_value [a; b], be_value [c; d; e; f]) :: parameters rest
  | _ => []
  end.
Definition announced (w : wframe) : option N :=
  if w_type w =? SETTINGS then last_value (parameters (w_payload w)) 4 else None.

Definition total {A} (count : A -> N) (l : list A) : Z := Z.of_N (fold_right N.add 0 (map count l)).
Definition latest {A} (value : A -> option N) (l : list A) : N :=
  fold_left (fun n x => match value x with Some v => v | None => n end) l 65535.

(* The window of an endpoint for what it sends, from the frames it has sent and
   the frames it got from its peer.  6.9.2: a change of the initial size changes
   the windows of all streams by the difference, not that of the connection. *)
Definition window (sid : N) (from_peer own : list wframe) : Z :=
  (Z.of_N (if (sid =? 0)%N then 65535 else latest announced from_peer) +
   total (granted sid) from_peer - total (spent sid) own)%Z.

(* ---- the same account from frame objects: get_header() and get_payload() ---- *)

Definition used (sid : N) (f : frame) : N :=
  match Access.get_payload f with
  | Access.VBytes p =>
      if (fh_type (Access.get_header f) =? DATA) && ((sid =? 0) || (fh_stream_id (Access.get_header f) =? sid)) then size p else 0
  | _ => 0
  end.
(* get_payload() of window_update_frame has the reserved bit on top. *)
Definition given (sid : N) (f : frame) : N :=
  match Access.get_payload f with
  | Access.VWindow v => if fh_stream_id (Access.get_header f) =? sid then v mod 2 ^ 31 else 0
  | _ => 0
  end.
Definition chosen (f : frame) : option N :=
  match Access.get_payload f with Access.VSettings m => sm_find m 4 | _ => None end.
Definition account (sid : N) (from_peer own : list frame) : Z :=
  (Z.of_N (if (sid =? 0)%N then 65535 else latest chosen from_peer) +
   total (given sid) from_peer - total (used sid) own)%Z.

(* Frames as they are made by the constructors, not longer than a frame can be. *)
Definition sendable_frame (host : endian) (f : frame) : Prop :=
  exists flags sid c raw, asked f flags sid c /\ flags < 2 ^ 8 /\ sid < 2 ^ 31 /\
    serialize host f = Ok raw /\ size raw < 9 + 2 ^ 24 /\ is_octets raw.

(* Calls of a session after the preface; a request is send_frame followed by
   update_request_dynamic_table. *)
Definition session_call (host : endian) (k : call) : Prop :=
  match k with
  | CallSend f => sendable_frame host f
  | CallReceive | CallUpdate _ | CallResize _ => True
  | _ => False
  end.

Definition frames_sent (ks : list call) : list frame := flat_map (fun k => match k with CallSend f => [f] | _ => [] end) ks.
Definition frames_got (rs : list returned) : list frame :=
  flat_map (fun r => match r with Received (Ok f) => [f] | _ => [] end) rs.

(* SETTINGS as RFC 7540 lays them out, parameter 4 not given twice with two values. *)
Definition clear_settings (w : wframe) : Prop :=
  w_type w = SETTINGS -> exists params, w_payload w = settings_octets params /\
    Forall (fun p => fst p < 2 ^ 16 /\ snd p < 2 ^ 32) params /\ first_value params 4 = last_value params 4.

(* ---- one frame ---- *)

Lemma parameters_octets : forall params, Forall (fun p => fst p < 2 ^ 16 /\ snd p < 2 ^ 32) params ->
  parameters (settings_octets params) = params.
Proof.
  intros params P. induction P as [|[k v] params [K V] P IH]; [reflexivity|]. cbn [fst snd] in K, V.
  unfold settings_octets in *. cbn [flat_map fst snd]. rewrite <- app_assoc.
  pose proof (be_octets_value 2 k) as B2. pose proof (be_octets_value 4 v) as B4.
  pose proof (be_octets_size 2 k) as S2. pose proof (be_octets_size 4 v) as S4.
  destruct (be_octets 2 k) as [|a [|b [|x l]]]; try discriminate S2; [|cbn in S2; unfold size in S2; cbn [length] in S2; lia].
  destruct (be_octets 4 v) as [|c [|d [|e [|f [|x l]]]]]; try discriminate S4; [|unfold size in S4; cbn [length] in S4; lia].
  cbn [app parameters]. rewrite B2, B4, IH. rewrite !N.mod_small; [reflexivity|exact V|exact K].
Qed.

Lemma window_low : forall r inc, inc < 2 ^ 31 -> window_update_get_payload r inc mod 2 ^ 31 = inc.
Proof.
  intros r inc H. unfold window_update_get_payload, RESERVED_BITS. rewrite low31, low1, (N.mod_small inc) by exact H.
  rewrite join31 by exact H. apply join_low. exact H.
Qed.

Definition one (r : res frame) : list frame := match r with Ok f => [f] | _ => [] end.

Lemma resize_defined : forall l c mx, (forall x, resize_loop l c mx <> Throw x) /\ resize_loop l c mx <> NoFuel.
Proof.
  induction l as [|h l IH]; intros c mx; cbn [resize_loop]; destruct (mx <? c); try (split; [intros x|]; discriminate). apply IH.
Qed.

(* What the client makes of a frame counts for what the frame counts. *)
Lemma handled_flow : forall m t w, wframe_ok w -> clear_settings w -> (forall u, fst (handled m t w) <> UB u) ->
  (forall sid, total (used sid) (one (fst (handled m t w))) = Z.of_N (spent sid w) /\
               total (given sid) (one (fst (handled m t w))) = Z.of_N (granted sid w)) /\
  forall n, fold_left (fun n f => match chosen f with Some v => v | None => n end) (one (fst (handled m t w))) n =
            match announced w with Some v => v | None => n end.
Proof.
  intros m t w W C NU.
  destruct (N.eq_dec (w_type w) DATA) as [TY|ND].
  { assert (HA : handled m t w = (Ok (mk_data (w_flags w) (w_stream w) (w_payload w)), t)).
    { destruct w as [ty flags r sid payload]. cbn [w_type] in TY. subst ty. reflexivity. }
    rewrite HA. cbn [fst one]. unfold spent, granted, announced. rewrite TY. cbn. split; [|reflexivity]. intros sid.
    split; [|reflexivity]. unfold total. cbn. destruct ((sid =? 0) || (w_stream w =? sid)); rewrite ?N.add_0_r; reflexivity. }
  destruct (N.eq_dec (w_type w) WINDOW_UPDATE) as [TY|NW].
  { destruct w as [ty flags r sid payload]. cbn [w_type w_payload w_flags w_reserved w_stream] in *. subst ty.
    destruct W as (_ & _ & _ & _ & O & _). cbn [w_payload] in O.
    unfold handled. cbn [w_payload]. unfold header_of. cbn [w_type w_payload w_flags w_reserved w_stream].
    set (h := FH _ _ _ _ _). change (build_frame m h payload t) with (parse_window_update h payload).
    assert (Y : (length payload =? 4)%nat = true \/ (length payload =? 4)%nat = false) by (destruct (length payload =? 4)%nat; auto).
    unfold spent, granted, announced. cbn [w_type w_stream w_payload]. cbn [N.eqb Pos.eqb DATA WINDOW_UPDATE SETTINGS andb].
    destruct Y as [Y|Y].
    - apply Nat.eqb_eq in Y. rewrite Y. cbn [Nat.eqb].
      destruct payload as [|a [|b [|c [|d [|x l]]]]]; try discriminate Y.
      pose proof (octets_wf _ O) as WF. pose proof (b2i4 [a; b; c; d] [] WF eq_refl) as B. rewrite app_nil_r in B.
      unfold parse_window_update. rewrite B. cbn [bind]. change (negb (size [a; b; c; d] =? 4)) with false. cbn iota.
      cbn [bind]. rewrite low31. set (x := be_value [a; b; c; d]). unfold validate_window_size.
      destruct (N.ltb_spec 0x7fffffff (x mod 2 ^ 31)) as [Q|_].
      { exfalso. pose proof (mod31_lt x) as Q'. change (2 ^ 31) with 2147483648 in *. lia. }
      cbn [bind]. change (update_frame t (WindowUpdateFrame h (extract_high_bit RESERVED_BITS 8 a) (x mod 2 ^ 31))) with (@Ok unit tt, t).
      cbn [bind fst one]. split; [|reflexivity]. intros i. split; [reflexivity|]. unfold total, given. cbn [map fold_right Access.get_payload Access.get_header frame_fh h fh_stream_id].
      rewrite (window_low _ (x mod 2 ^ 31)) by apply mod31_lt.
      destruct (sid =? i); rewrite ?N.add_0_r; reflexivity.
    - rewrite Y. assert (E : parse_window_update h payload = Throw InvalidArgument).
      { unfold parse_window_update. destruct payload as [|b0 q]; [reflexivity|]. cbn [bind].
        replace (size (b0 :: q) =? 4) with false; [reflexivity|]. symmetry. apply N.eqb_neq. apply Nat.eqb_neq in Y. unfold size. lia. }
      rewrite E. cbn [fst one]. split; [|reflexivity]. intros i. split; [reflexivity|]. destruct (sid =? i); reflexivity. }
  destruct (N.eq_dec (w_type w) SETTINGS) as [TY|NS].
  { destruct (C TY) as (params & P & PO & FL).
    destruct w as [ty flags r sid payload]. cbn [w_type w_payload w_flags w_reserved w_stream] in *. subst ty payload.
    unfold handled in *. cbn [w_payload] in *. unfold header_of in *. cbn [w_type w_payload w_flags w_reserved w_stream] in *.
    set (h := FH _ _ _ _ _) in *. change (build_frame m h (settings_octets params) t) with (build_settings_frame h (settings_octets params)) in *.
    unfold build_settings_frame in *. rewrite settings_loop_spec in * by (exact PO || apply Nat.le_refl). cbn [bind] in *.
    set (mp := fold_settings params []) in *.
    assert (M4 : sm_find mp 4 = last_value params 4) by (unfold mp; rewrite sm_find_fold by constructor; exact FL).
    assert (R : one (fst (let '(r, t') := update_frame t (mk_settings (fh_flags h) (fh_stream_id h) mp) in
                (let* _ := r in Ok (mk_settings (fh_flags h) (fh_stream_id h) mp), t'))) = [mk_settings (fh_flags h) (fh_stream_id h) mp]).
    { unfold update_frame in *. cbn [mk_settings frame_fh fh_type] in *. change (T_SETTINGS =? T_HEADERS) with false in *.
      change (T_SETTINGS =? T_PUSH_PROMISE) with false in *. change (T_SETTINGS =? T_CONTINUATION) with false in *.
      change (T_SETTINGS =? T_SETTINGS) with true in *. cbv iota in *.
      destruct (sm_find mp 1) as [n|]; [|reflexivity]. unfold dt_update_size, resize_table in *.
      destruct (resize_defined (rev (dt_entries t)) (dt_size t) n) as [R1 R2].
      destruct (resize_loop (rev (dt_entries t)) (dt_size t) n) as [[l c]|x|u|]; cbn [bind] in *;
        [reflexivity|destruct (R1 x eq_refl)|destruct (NU u eq_refl)|destruct (R2 eq_refl)]. }
    rewrite R. unfold spent, granted, announced. cbn [w_type w_stream w_payload]. change (SETTINGS =? DATA) with false.
    change (SETTINGS =? WINDOW_UPDATE) with false. change (SETTINGS =? SETTINGS) with true. cbn [andb].
    rewrite parameters_octets by exact PO. split; [intros i; split; reflexivity|]. intros n. cbn [fold_left]. unfold chosen. cbn [mk_settings Access.get_payload]. rewrite M4. reflexivity. }
  assert (Z : forall f, fst (handled m t w) = Ok f -> (forall sid, used sid f = 0 /\ given sid f = 0) /\ chosen f = None).
  { intros f E. unfold handled in E. destruct (build_frame m (header_of w) (w_payload w) t) as [g|x|u|] eqn:B; try discriminate E.
    destruct (update_frame t g) as [r t']. cbn [fst] in E. destruct r; try discriminate E. cbn [bind] in E. apply Ok_inj in E. subst g.
    unfold build_frame in B. destruct w as [ty flags r sid payload]. unfold header_of in B. cbn [w_type w_payload w_flags w_reserved w_stream fh_type] in *.
    apply N.eqb_neq in ND, NW, NS. change T_DATA with DATA in B. change T_WINDOW_UPDATE with WINDOW_UPDATE in B. change T_SETTINGS with SETTINGS in B.
    rewrite ND, NW, NS in B.
    destruct (ty =? T_HEADERS).
    { unfold build_headers_frame, parse_headers in B. destruct (headers_decode_payload _ _ _ _) as [[[pd pr] b]|x|u|]; cbn [bind] in B;
        try discriminate B; apply Ok_inj in B; subst f; (split; [intros i; split; unfold used; cbn [Access.get_payload Access.get_header frame_fh fh_type]; rewrite ?ND; reflexivity|reflexivity]). }
    destruct (ty =? T_PRIORITY).
    { unfold parse_priority in B. repeat (apply bind_ok in B; destruct B as (? & ? & B)). apply Ok_inj in B. subst f. split; [intros i; split; unfold used; cbn [Access.get_payload Access.get_header frame_fh fh_type]; rewrite ?ND; reflexivity|reflexivity]. }
    destruct (ty =? T_RST_STREAM).
    { unfold parse_rst_stream in B. destruct (_ <? _); [discriminate B|]. apply bind_ok in B. destruct B as (? & ? & B). apply Ok_inj in B. subst f. split; [intros i; split; unfold used; cbn [Access.get_payload Access.get_header frame_fh fh_type]; rewrite ?ND; reflexivity|reflexivity]. }
    destruct (ty =? T_PUSH_PROMISE).
    { unfold parse_push_promise in B. apply bind_ok in B. destruct B as (? & ? & B). apply Ok_inj in B. subst f. split; [intros i; split; unfold used; cbn [Access.get_payload Access.get_header frame_fh fh_type]; rewrite ?ND; reflexivity|reflexivity]. }
    destruct (ty =? T_PING). { apply Ok_inj in B. subst f. split; [intros i; split; unfold used; cbn [Access.get_payload Access.get_header frame_fh fh_type]; rewrite ?ND; reflexivity|reflexivity]. }
    destruct (ty =? T_GOAWAY).
    { unfold parse_goaway in B. apply bind_ok in B. destruct B as (? & ? & B). apply Ok_inj in B. subst f. split; [intros i; split; unfold used; cbn [Access.get_payload Access.get_header frame_fh fh_type]; rewrite ?ND; reflexivity|reflexivity]. }
    destruct (ty =? T_CONTINUATION); [|discriminate B].
    unfold parse_continuation in B. apply bind_ok in B. destruct B as (? & ? & B). apply Ok_inj in B. subst f. split; [intros i; split; unfold used; cbn [Access.get_payload Access.get_header frame_fh fh_type]; rewrite ?ND; reflexivity|reflexivity]. }
  unfold spent, granted, announced. apply N.eqb_neq in ND, NW, NS. rewrite ND, NW, NS. cbn [andb].
  destruct (fst (handled m t w)) as [f|x|u|]; cbn [one]; try (split; [intros i; split; reflexivity|reflexivity]).
  destruct (Z f eq_refl) as [Z1 Z2]. split.
  - intros i. destruct (Z1 i) as [U G]. unfold total. cbn [map fold_right]. rewrite U, G. split; reflexivity.
  - intros n. cbn [fold_left]. rewrite Z2. reflexivity.
Qed.

(* What is sent counts for what the frame object counts. *)
Lemma sent_flow : forall host f, sendable_frame host f -> exists w, wframe_ok w /\ serialize host f = Ok (wire w) /\
  (forall sid, used sid f = spent sid w /\ given sid f = granted sid w) /\ chosen f = announced w.
Proof.
  intros host f (flags & sid & c & raw & A & F & I & S & L & O).
  destruct (C92_format_partial host f flags sid c raw A F I S L) as (payload & E & Y). subst raw.
  pose proof (sent_size (type_of c) flags 0 sid payload) as SZ. rewrite SZ in L.
  exists (WFrame (type_of c) flags 0 sid payload). split; [|split; [exact S|]].
  { assert (O' : is_octets payload). { intros x X. apply O. apply in_or_app. right. exact X. }
    assert (T : type_of c < 256) by (destruct c; reflexivity).
    split; [exact T|]. split; [exact F|]. split; [reflexivity|]. split; [exact I|]. split; [exact O'|]. cbn [w_payload]. clear - L. change (2 ^ 24) with 16777216 in *. lia. }
  assert (Q : forall ty, ty <> DATA -> ty <> WINDOW_UPDATE -> ty <> SETTINGS ->
    (forall s, spent s (WFrame ty flags 0 sid payload) = 0 /\ granted s (WFrame ty flags 0 sid payload) = 0) /\
    announced (WFrame ty flags 0 sid payload) = None).
  { intros ty N1 N2 N3. unfold spent, granted, announced. cbn [w_type]. apply N.eqb_neq in N1, N2, N3. rewrite N1, N2, N3. auto. }
  destruct A; cbn [type_of] in *.
  - split; [|reflexivity]. intros s. split; [|reflexivity]. inversion Y; subst. unfold spent, used. cbn [mk_data Access.get_payload Access.get_header frame_fh fh_type fh_stream_id w_type w_stream w_payload].
    change T_DATA with DATA. rewrite N.eqb_refl. cbn [andb]. reflexivity.
  - unfold mk_headers in H4. apply bind_ok in H4. destruct H4 as (? & _ & M). apply Ok_inj in M. subst f.
    destruct (Q HEADERS) as [Q1 Q2]; try discriminate. split; [|symmetry; exact Q2]. intros s. destruct (Q1 s) as [-> ->]. auto.
  - unfold mk_priority in H0. apply bind_ok in H0. destruct H0 as (? & _ & M). apply Ok_inj in M. subst f.
    destruct (Q PRIORITY) as [Q1 Q2]; try discriminate. split; [|symmetry; exact Q2]. intros s. destruct (Q1 s) as [-> ->]. auto.
  - destruct (Q RST_STREAM) as [Q1 Q2]; try discriminate. split; [|symmetry; exact Q2]. intros s. destruct (Q1 s) as [-> ->]. auto.
  - inversion Y as [| | | | |ps P PE| | | | |]; subst. split; [intros s; split; reflexivity|]. unfold announced. cbn [w_type w_payload].
    rewrite N.eqb_refl, parameters_octets by exact P. unfold chosen. cbn [mk_settings Access.get_payload].
    destruct (C38_make_sf_payload params H) as ((OR & _) & _). symmetry.
    rewrite <- (first_last (make_sf_payload params) 4).
    + clear - OR. induction (make_sf_payload params) as [|[k v] l IH]; [reflexivity|]. cbn [first_value sm_find]. rewrite (N.eqb_sym 4 k).
      destruct (k =? 4); [reflexivity|]. apply IH. inversion OR; assumption.
    + clear - OR. unfold map_ordered in OR. induction OR as [|k l OR IH K]; constructor; [|exact IH].
      intros X. rewrite Forall_forall in K. specialize (K k X). lia.
  - unfold mk_push_promise in H3. apply bind_ok in H3. destruct H3 as (? & _ & M). apply Ok_inj in M. subst f.
    destruct (Q PUSH_PROMISE) as [Q1 Q2]; try discriminate. split; [|symmetry; exact Q2]. intros s. destruct (Q1 s) as [-> ->]. auto.
  - unfold mk_ping in H. apply bind_ok in H. destruct H as (? & _ & M). apply Ok_inj in M. subst f.
    destruct (Q PING) as [Q1 Q2]; try discriminate. split; [|symmetry; exact Q2]. intros s. destruct (Q1 s) as [-> ->]. auto.
  - destruct (Q GOAWAY) as [Q1 Q2]; try discriminate. split; [|symmetry; exact Q2]. intros s. destruct (Q1 s) as [-> ->]. auto.
  - unfold mk_window_update in H0. apply bind_ok in H0. destruct H0 as (? & _ & M). apply Ok_inj in M. subst f.
    split; [|reflexivity]. intros s. split; [reflexivity|]. inversion Y as [| | | | | | | | |r' inc R' I' |]; subst.
    unfold granted, given. cbn [Access.get_payload Access.get_header frame_fh fh_stream_id w_type w_stream w_payload].
    rewrite window_low by assumption. rewrite N.eqb_refl. cbn [andb].
    destruct (sid =? s); [|reflexivity]. unfold window_update_octets.
    pose proof (be_octets_size 4 (r' * 2 ^ 31 + increment)) as S4. unfold size in S4.
    replace (length (be_octets 4 (r' * 2 ^ 31 + increment)) =? 4)%nat with true by (symmetry; apply Nat.eqb_eq; lia).
    rewrite be_octets_value. change (256 ^ N.of_nat 4) with (2 ^ 32). rewrite (N.mod_small _ (2 ^ 32)) by (apply join_lt; assumption).
    symmetry. apply join_low. assumption.
  - unfold mk_continuation in H0. apply bind_ok in H0. destruct H0 as (? & _ & M). apply Ok_inj in M. subst f.
    destruct (Q CONTINUATION) as [Q1 Q2]; try discriminate. split; [|symmetry; exact Q2]. intros s. destruct (Q1 s) as [-> ->]. auto.
Qed.

(* ---- sessions ---- *)

Lemma total_cons : forall A (count : A -> N) x l, total count (x :: l) = (Z.of_N (count x) + total count l)%Z.
Proof. intros A count x l. unfold total. cbn [map fold_right]. apply N2Z.inj_add. Qed.

Lemma total_app : forall A (count : A -> N) a b, total count (a ++ b) = (total count a + total count b)%Z.
Proof. intros A count a b. induction a as [|x a IH]; [reflexivity|]. cbn [app]. rewrite !total_cons, IH. lia. Qed.

Definition latest_from {A} (value : A -> option N) (n : N) (l : list A) : N :=
  fold_left (fun n x => match value x with Some v => v | None => n end) l n.

Lemma flow : forall host m ks c ws rest rs c',
  Forall (session_call host) ks -> pending ks ws -> Forall clear_settings ws ->
  tls_in (c_tls c) = concat (map wire ws) ++ rest ->
  delivers (size (concat (map wire ws)) + size (concat (all_written host (c_req c) ks))) (c_tls c) ->
  make_calls host m c ks = (rs, c') -> (forall u, ~ In (Received (UB u)) rs) ->
  exists sent, Forall wframe_ok sent /\ tls_out (c_tls c') = tls_out (c_tls c) ++ concat (map wire sent) /\ tls_in (c_tls c') = rest /\
    (forall sid, total (used sid) (frames_got rs) = total (spent sid) ws /\ total (given sid) (frames_got rs) = total (granted sid) ws /\
                 total (used sid) (frames_sent ks) = total (spent sid) sent /\ total (given sid) (frames_sent ks) = total (granted sid) sent) /\
    (forall n, latest_from chosen n (frames_got rs) = latest_from announced n ws) /\
    (forall n, latest_from chosen n (frames_sent ks) = latest_from announced n sent).
Proof.
  intros host m. induction ks as [|k ks IH]; intros c ws rest rs c' SC [LW FW] CS E D H NU.
  - cbn in H. injection H as <- <-. destruct ws; [|discriminate LW]. exists []. cbn in *. rewrite app_nil_r. auto 10.
  - pose proof (Forall_inv SC) as K. apply Forall_inv_tail in SC. cbn [make_calls] in H.
    destruct (is_receive k) eqn:KR.
    + destruct k; try discriminate KR. destruct ws as [|w ws]; [discriminate LW|]. cbn [filter is_receive length] in LW. injection LW as LW.
      pose proof (Forall_inv FW) as W. apply Forall_inv_tail in FW. pose proof (Forall_inv CS) as C. apply Forall_inv_tail in CS.
      cbn [map concat all_written written fst snd] in E, D. rewrite <- app_assoc in E. rewrite size_app, <- N.add_assoc in D.
      destruct (receive_complete m c w _ _ W E D) as (s1 & I1 & O1 & D1 & R1). cbn [make_call] in H. rewrite R1 in H. cbn [fst snd] in H.
      destruct (make_calls host m _ ks) as [rs1 c1] eqn:MC. injection H as <- <-.
      destruct (IH (Client s1 (c_req c) (snd (handled m (c_resp c) w))) ws rest rs1 c1 SC (conj LW FW) CS I1 D1 MC) as (sent & S1 & S2 & S3 & S4 & S5 & S6).
      { intros u X. apply (NU u). right. exact X. }
      destruct (handled_flow m (c_resp c) w W C) as [HF HL]. { intros u X. apply (NU u). left. rewrite X. reflexivity. }
      exists sent. split; [exact S1|]. split; [rewrite S2; cbn [c_tls]; rewrite O1; reflexivity|]. split; [exact S3|].
      assert (G : frames_got (Received (fst (handled m (c_resp c) w)) :: rs1) = one (fst (handled m (c_resp c) w)) ++ frames_got rs1).
      { unfold frames_got. cbn [flat_map]. destruct (fst (handled m (c_resp c) w)); reflexivity. }
      rewrite G. split; [|split].
      * intros sid. destruct (S4 sid) as (T1 & T2 & T3 & T4). destruct (HF sid) as [F1 F2]. rewrite !total_app, !total_cons, F1, F2, T1, T2. auto.
      * intros n. unfold latest_from in *. rewrite fold_left_app. cbn [fold_left]. rewrite HL. apply S5.
      * exact S6.
    + assert (LW' : length ws = length (filter is_receive ks)) by (cbn [filter] in LW; rewrite KR in LW; exact LW).
      cbn [all_written concat] in D. rewrite size_app in D.
      assert (SM : size (fst (written host (c_req c) k)) < 2 ^ 31 /\
        exists sent1, Forall wframe_ok sent1 /\ fst (written host (c_req c) k) = concat (map wire sent1) /\
          (forall sid, total (used sid) (frames_sent [k]) = total (spent sid) sent1 /\ total (given sid) (frames_sent [k]) = total (granted sid) sent1) /\
          forall n, latest_from chosen n (frames_sent [k]) = latest_from announced n sent1).
      { destruct k; cbn [session_call] in K; try contradiction; try discriminate KR; cbn [written fst].
        2, 3: split; [reflexivity|]; exists []; auto.
        destruct (sent_flow host f K) as (w & W & S & U & A). rewrite S. split.
        - rewrite (wire_size w W). destruct W as (_ & _ & _ & _ & _ & L). clear - L. change (2 ^ 24) with 16777216 in L. change (2 ^ 31) with 2147483648. lia.
        - exists [w]. cbn [map concat frames_sent flat_map]. rewrite !app_nil_r. split; [auto|]. split; [reflexivity|]. split.
          + intros sid. destruct (U sid) as [U1 U2]. rewrite !total_cons, U1, U2. auto.
          + intros n. unfold latest_from. cbn [fold_left]. rewrite A. reflexivity. }
      destruct SM as (SM & sent1 & A1 & A2 & A3 & A4).
      destruct (write_call host m c k (size (concat (map wire ws)) + size (concat (all_written host (snd (written host (c_req c) k)) ks))) KR SM) as (s1 & X1 & D1 & O1 & I1).
      { eapply delivers_mono; [|exact D]. lia. }
      rewrite X1 in H. destruct (make_calls host m _ ks) as [rs1 c1] eqn:MC. injection H as <- <-.
      destruct (IH (Client s1 (snd (written host (c_req c) k)) (c_resp c)) ws rest rs1 c1 SC (conj LW' FW) CS) as (sent & S1 & S2 & S3 & S4 & S5 & S6); try assumption.
      { cbn [c_tls]. rewrite I1. exact E. }
      { intros u X. apply (NU u). right. exact X. }
      exists (sent1 ++ sent). split; [apply Forall_app; auto|]. split.
      { rewrite S2. cbn [c_tls]. rewrite O1, A2, map_app, concat_app, app_assoc. reflexivity. }
      split; [exact S3|].
      assert (G : frames_sent (k :: ks) = frames_sent [k] ++ frames_sent ks).
      { unfold frames_sent. cbn [flat_map]. rewrite app_nil_r. reflexivity. }
      assert (G2 : frames_got (Returned (answer host (c_req c) k) :: rs1) = frames_got rs1) by reflexivity.
      rewrite G, G2. split; [|split].
      * intros sid. destruct (S4 sid) as (T1 & T2 & T3 & T4). destruct (A3 sid) as [F1 F2]. rewrite !total_app, F1, F2, T3, T4. auto.
      * exact S5.
      * intros n. unfold latest_from in *. rewrite !fold_left_app, A4. apply S6.
Qed.

(* Any interleaving of sending and receiving on a connection that does not fail:
   the two windows a user computes from the frame objects are the window the
   server grants the client and the window the client grants the server.  [sent]
   are the frames the server reads (they are determined by the octets). *)
Theorem C104_windows_partial : forall host m ks c ws rest rs c',
  Forall (session_call host) ks -> pending ks ws -> Forall clear_settings ws ->
  tls_in (c_tls c) = concat (map wire ws) ++ rest ->
  delivers (size (concat (map wire ws)) + size (concat (all_written host (c_req c) ks))) (c_tls c) ->
  make_calls host m c ks = (rs, c') -> (forall u, ~ In (Received (UB u)) rs) ->
  exists sent, Forall wframe_ok sent /\ tls_out (c_tls c') = tls_out (c_tls c) ++ concat (map wire sent) /\ tls_in (c_tls c') = rest /\
    forall sid, account sid (frames_got rs) (frames_sent ks) = window sid ws sent /\
                account sid (frames_sent ks) (frames_got rs) = window sid sent ws.
Proof.
  intros host m ks c ws rest rs c' SC P CS E D H NU.
  destruct (flow host m ks c ws rest rs c' SC P CS E D H NU) as (sent & S1 & S2 & S3 & S4 & S5 & S6).
  exists sent. split; [exact S1|]. split; [exact S2|]. split; [exact S3|]. intros sid. destruct (S4 sid) as (T1 & T2 & T3 & T4).
  unfold account, window, latest. unfold latest_from in *. rewrite T1, T2, T3, T4, S5, S6. auto.
Qed.

(* A SETTINGS frame that gives the initial window size twice: the user computes
   another window than the server, for every stream. *)
Theorem C104_repeated_refuted : forall m c w params first last rest,
  wframe_ok w -> w_type w = SETTINGS -> w_payload w = settings_octets params ->
  Forall (fun p => fst p < 2 ^ 16 /\ snd p < 2 ^ 32) params ->
  first_value params 4 = Some first -> last_value params 4 = Some last -> first <> last ->
  tls_in (c_tls c) = wire w ++ rest -> delivers (size (wire w)) (c_tls c) -> dt_ok (c_resp c) ->
  exists f c', receive_frame m c = (Ok f, c') /\
    forall sid, sid <> 0 -> account sid [f] [] <> window sid [w] [].
Proof.
  intros m c w params first last rest W TY P PO FI LA FL E D K.
  destruct (receive_complete m c w rest 0 W E) as (s1 & I1 & O1 & D1 & R1); [rewrite N.add_0_r; exact D|].
  rewrite R1. destruct w as [ty flags r sid payload]. cbn [w_type w_payload] in TY, P. subst ty payload.
  unfold handled, header_of. cbn [w_type w_payload w_flags w_reserved w_stream].
  set (h := FH _ _ _ _ _). change (build_frame m h (settings_octets params) (c_resp c)) with (build_settings_frame h (settings_octets params)).
  unfold build_settings_frame. rewrite settings_loop_spec by (exact PO || apply Nat.le_refl). cbn [bind].
  set (mp := fold_settings params []). assert (M4 : sm_find mp 4 = first_value params 4) by (unfold mp; rewrite sm_find_fold by constructor; reflexivity).
  unfold update_frame. cbn [mk_settings frame_fh fh_type]. change (T_SETTINGS =? T_HEADERS) with false.
  change (T_SETTINGS =? T_PUSH_PROMISE) with false. change (T_SETTINGS =? T_CONTINUATION) with false.
  change (T_SETTINGS =? T_SETTINGS) with true. cbv iota.
  assert (Y : forall len, forall i, i <> 0 -> account i [SettingsFrame len mp] [] <> window i [WFrame SETTINGS flags r sid (settings_octets params)] []).
  { intros len i NI X. unfold account, window, total, latest in X. apply N.eqb_neq in NI. rewrite NI in X. cbn [map fold_right fold_left] in X.
    unfold announced, chosen in X. cbn [Access.get_payload w_type w_payload] in X. rewrite N.eqb_refl, parameters_octets, M4 in X by exact PO.
    unfold given, used in X. cbn [Access.get_payload] in X. change (granted i (WFrame SETTINGS flags r sid (settings_octets params))) with 0 in X.
    apply FL. rewrite FI, LA in X. clear - X. cbn in X. lia. }
  destruct (sm_find mp 1) as [n|].
  - rewrite (dt_update_spec _ n K). cbn [bind fst snd]. eexists _, _. split; [reflexivity|]. apply Y.
  - eexists _, _. split; [reflexivity|]. apply Y.
Qed.

(* The library does not look at the window: whatever it is, a longer DATA frame
   is sent. *)
Theorem C104_not_enforced_refuted : forall host c flags sid payload ws sent,
  flags < 2 ^ 8 -> sid < 2 ^ 31 -> size payload < 2 ^ 24 -> is_octets payload -> delivers (9 + size payload) (c_tls c) ->
  (window sid ws sent < Z.of_N (size payload))%Z ->
  exists w c', wframe_ok w /\ send_frame host c (mk_data flags sid payload) = (Ok tt, c') /\
    tls_out (c_tls c') = tls_out (c_tls c) ++ wire w /\ (window sid ws (sent ++ [w]) < 0)%Z.
Proof.
  intros host c flags sid payload ws sent F I L O D X. exists (WFrame DATA flags 0 sid payload).
  destruct (C32_data_roundtrip host Strict default_table flags sid payload F I L) as (S & _).
  assert (W : wframe_ok (WFrame DATA flags 0 sid payload)) by (repeat split; assumption).
  unfold send_frame. rewrite S. destruct (send_raw_quiet c (wire (WFrame DATA flags 0 sid payload)) 0) as (s' & R & _ & OUT & _).
  - rewrite (wire_size _ W). cbn [w_payload]. clear - L. change (2 ^ 24) with 16777216 in L. change (2 ^ 31) with 2147483648. lia.
  - rewrite (wire_size _ W). cbn [w_payload]. eapply delivers_mono; [|exact D]. lia.
  - eexists. split; [exact W|]. split; [exact R|]. split; [exact OUT|]. unfold window in *. rewrite total_app, total_cons.
    change (total (spent sid) []) with 0%Z. unfold spent at 2. cbn [w_type w_stream w_payload]. rewrite !N.eqb_refl, orb_true_r. cbn [andb].
    unfold size in X. lia.
Qed.

(* ---- giving back what was received ---- *)

(* What a user does: n calls of receive_frame, and for each data frame with
   payload a WINDOW_UPDATE frame for its stream and one for the connection, both
   for the size of the payload. *)
Definition give_back (host : endian) (c : client) (sid n : N) : res unit * client :=
  match mk_window_update sid 0 n with
  | Ok f => send_frame host c f
  | Throw x => (Throw x, c)
  | UB u => (UB u, c)
  | NoFuel => (NoFuel, c)
  end.

Fixpoint serve (host : endian) (m : ub_mode) (n : nat) (c : client) : res unit * client :=
  match n with
  | O => (Ok tt, c)
  | S n' =>
      let '(r, c1) := receive_frame m c in
      match r with
      | UB u => (UB u, c1)
      | Ok (DataFrame h p) =>
          if 0 <? size p then
            let '(r2, c2) := give_back host c1 (fh_stream_id h) (size p) in
            match r2 with
            | Ok _ =>
                let '(r3, c3) := give_back host c2 0 (size p) in
                match r3 with Ok _ => serve host m n' c3 | _ => (r3, c3) end
            | _ => (r2, c2)
            end
          else serve host m n' c1
      | _ => serve host m n' c1
      end
  end.

Lemma give_back_sends : forall host c sid n k, sid < 2 ^ 31 -> n < 2 ^ 31 -> delivers (13 + k) (c_tls c) ->
  exists s', give_back host c sid n = (Ok tt, Client s' (c_req c) (c_resp c)) /\ delivers k s' /\
    tls_out s' = tls_out (c_tls c) ++ wire (WFrame WINDOW_UPDATE 0 0 sid (window_update_octets 0 n)) /\ tls_in s' = tls_in (c_tls c).
Proof.
  intros host c sid n k I L D.
  destruct (C37_window_update_roundtrip host Strict default_table sid 0 n I eq_refl L) as (f & M & S & _).
  unfold give_back. rewrite M. unfold send_frame. rewrite S.
  assert (Z : size (wire (WFrame WINDOW_UPDATE 0 0 sid (window_update_octets 0 n))) = 13).
  { unfold wire. cbn [w_type w_flags w_reserved w_stream w_payload]. rewrite sent_size. unfold window_update_octets. rewrite be_octets_size. reflexivity. }
  apply (send_raw_quiet c (wire (WFrame WINDOW_UPDATE 0 0 sid (window_update_octets 0 n))) k); rewrite Z; [reflexivity|exact D].
Qed.

Lemma handled_data : forall m t w h p, fst (handled m t w) = Ok (DataFrame h p) -> w_type w = DATA.
Proof.
  intros m t w h p E. unfold handled in E. destruct (build_frame m (header_of w) (w_payload w) t) as [g|x|u|] eqn:B; try discriminate E.
  destruct (update_frame t g) as [r t']. cbn [fst] in E. destruct r; try discriminate E. cbn [bind] in E. apply Ok_inj in E. subst g.
  unfold build_frame in B. destruct w as [ty flags r sid payload]. unfold header_of in B. cbn [w_type w_payload w_flags w_reserved w_stream fh_type] in *.
  destruct (N.eqb_spec ty T_DATA) as [->|_]; [reflexivity|]. exfalso.
  destruct (ty =? T_HEADERS).
  { unfold build_headers_frame, parse_headers in B. destruct (headers_decode_payload _ _ _ _) as [[[pd pr] b]|x|u|]; discriminate B. }
  destruct (ty =? T_PRIORITY).
  { unfold parse_priority in B. repeat (apply bind_ok in B; destruct B as (? & ? & B)). discriminate B. }
  destruct (ty =? T_RST_STREAM).
  { unfold parse_rst_stream in B. destruct (_ <? _); [discriminate B|]. apply bind_ok in B. destruct B as (? & ? & B). discriminate B. }
  destruct (ty =? T_SETTINGS).
  { unfold build_settings_frame in B. apply bind_ok in B. destruct B as (? & ? & B). discriminate B. }
  destruct (ty =? T_PUSH_PROMISE).
  { unfold parse_push_promise in B. apply bind_ok in B. destruct B as (? & ? & B). discriminate B. }
  destruct (ty =? T_PING); [discriminate B|].
  destruct (ty =? T_GOAWAY).
  { unfold parse_goaway in B. apply bind_ok in B. destruct B as (? & ? & B). discriminate B. }
  destruct (ty =? T_WINDOW_UPDATE).
  { unfold parse_window_update in B. repeat (apply bind_ok in B; destruct B as (? & ? & B)). discriminate B. }
  destruct (ty =? T_CONTINUATION); [|discriminate B].
  unfold parse_continuation in B. apply bind_ok in B. destruct B as (? & ? & B). discriminate B.
Qed.

(* The server's windows are as before, those of the streams and that of the
   connection, and no increment is zero. *)
Theorem C104_given_back : forall host m ws c rest r c',
  Forall wframe_ok ws -> Forall (fun w => w_type w = DATA -> w_stream w <> 0) ws ->
  tls_in (c_tls c) = concat (map wire ws) ++ rest ->
  delivers (size (concat (map wire ws)) + 26 * N.of_nat (length ws)) (c_tls c) ->
  serve host m (length ws) c = (r, c') -> (forall u, r <> UB u) ->
  r = Ok tt /\ exists sent, Forall wframe_ok sent /\ tls_out (c_tls c') = tls_out (c_tls c) ++ concat (map wire sent) /\
    tls_in (c_tls c') = rest /\
    Forall (fun w => exists increment, w_type w = WINDOW_UPDATE /\
      layout (w_flags w) (w_type w) (w_payload w) (CWindow increment) /\ permitted (w_flags w) (w_stream w) (CWindow increment)) sent /\
    forall before_sent before_ws sid, window sid (before_sent ++ sent) (before_ws ++ ws) = window sid before_sent before_ws.
Proof.
  intros host m ws. induction ws as [|w ws IH]; intros c rest r c' F ND E D H NU.
  - cbn in *. injection H as <- <-. split; [reflexivity|]. exists []. cbn. rewrite app_nil_r. repeat split; auto.
    intros a b sid. rewrite !app_nil_r. reflexivity.
  - cbn [length serve map concat] in *. pose proof (Forall_inv F) as W. apply Forall_inv_tail in F.
    pose proof (Forall_inv ND) as NW. apply Forall_inv_tail in ND. cbn beta in NW.
    rewrite <- app_assoc in E. rewrite size_app, <- N.add_assoc in D.
    destruct (receive_complete m c w _ _ W E D) as (s1 & I1 & O1 & D1 & R1). rewrite R1 in H.
    set (K := snd (handled m (c_resp c) w)) in *.
    destruct (N.eq_dec (w_type w) DATA) as [TY|NT].
    + assert (HA : handled m (c_resp c) w = (Ok (mk_data (w_flags w) (w_stream w) (w_payload w)), c_resp c)).
      { destruct w as [ty flags rr sid payload]. cbn [w_type] in TY. subst ty. reflexivity. }
      rewrite HA in H. cbn [fst mk_data] in H. cbn [fh_stream_id] in H.
      destruct (N.ltb_spec 0 (size (w_payload w))) as [P|P].
      * assert (L31 : size (w_payload w) < 2 ^ 31).
        { destruct W as (_ & _ & _ & _ & _ & L). clear - L. change (2 ^ 24) with 16777216 in L. change (2 ^ 31) with 2147483648. lia. }
        assert (SI : w_stream w < 2 ^ 31) by apply W.
        destruct (give_back_sends host (Client s1 (c_req c) K) (w_stream w) (size (w_payload w))
          (13 + (size (concat (map wire ws)) + 26 * N.of_nat (length ws))) SI L31) as (s2 & G2 & D2 & O2 & I2).
        { cbn [c_tls]. eapply delivers_mono; [|exact D1]. lia. }
        rewrite G2 in H.
        destruct (give_back_sends host (Client s2 (c_req (Client s1 (c_req c) K)) (c_resp (Client s1 (c_req c) K))) 0 (size (w_payload w))
          (size (concat (map wire ws)) + 26 * N.of_nat (length ws)) eq_refl L31) as (s3 & G3 & D3 & O3 & I3).
        { cbn [c_tls]. exact D2. }
        rewrite G3 in H. cbn [c_tls c_req c_resp] in *.
        destruct (IH (Client s3 (c_req c) K) rest r c' F ND) as (RT & sent & S1 & S2 & S3 & S4 & S5); try assumption; [cbn [c_tls]; congruence|].
        split; [exact RT|]. set (u := fun i => WFrame WINDOW_UPDATE 0 0 i (window_update_octets 0 (size (w_payload w)))) in *.
        assert (UO : forall i, i < 2 ^ 31 -> wframe_ok (u i)).
        { intros i B. unfold u. split; [reflexivity|]. split; [reflexivity|]. split; [reflexivity|]. split; [exact B|]. cbn [w_payload].
          split; [apply wf_octets, be_octets_wf|]. unfold window_update_octets. rewrite be_octets_size. reflexivity. }
        exists (u (w_stream w) :: u 0 :: sent). cbn [c_tls] in S2. split; [repeat constructor; auto; apply UO; [exact SI|reflexivity]|].
        split; [rewrite S2, O3, O2, O1; cbn [map concat]; rewrite <- !app_assoc; reflexivity|]. split; [exact S3|].
        split.
        { assert (PU : forall i, exists increment, w_type (u i) = WINDOW_UPDATE /\ layout (w_flags (u i)) (w_type (u i)) (w_payload (u i)) (CWindow increment) /\
            permitted (w_flags (u i)) (w_stream (u i)) (CWindow increment)).
          { intros i. exists (size (w_payload w)). split; [reflexivity|]. split; [apply layout_window; [reflexivity|exact L31]|cbn; lia]. }
          constructor; [apply PU|]. constructor; [apply PU|exact S4]. }
        intros a b sid. rewrite <- (S5 a b sid). unfold window. rewrite !total_app, !total_cons.
        assert (LT : latest announced (a ++ u (w_stream w) :: u 0 :: sent) = latest announced (a ++ sent)).
        { unfold latest. rewrite !fold_left_app. reflexivity. }
        rewrite LT.
        assert (GU : forall i, granted sid (u i) = if i =? sid then size (w_payload w) else 0).
        { intros i. unfold granted, u. cbn [w_type w_stream w_payload]. rewrite N.eqb_refl. cbn [andb]. destruct (i =? sid); [|reflexivity].
          unfold window_update_octets. pose proof (be_octets_size 4 (0 * 2 ^ 31 + size (w_payload w))) as S4'. unfold size in S4' at 1.
          replace (length (be_octets 4 (0 * 2 ^ 31 + size (w_payload w))) =? 4)%nat with true by (symmetry; apply Nat.eqb_eq; lia).
          rewrite be_octets_value. change (256 ^ N.of_nat 4) with (2 ^ 32). rewrite (N.mod_small _ (2 ^ 32)) by (apply join_lt; [reflexivity|exact L31]).
          apply join_low. exact L31. }
        rewrite !GU. unfold spent at 2. rewrite TY, N.eqb_refl. cbn [andb].
        destruct (N.eqb_spec sid 0) as [->|NZ]; cbn [orb].
        { destruct (N.eqb_spec (w_stream w) 0) as [X|_]; [destruct (NW TY X)|]. change (0 =? 0) with true. cbv iota. unfold size. lia. }
        destruct (N.eqb_spec 0 sid) as [X|_]; [destruct (NZ (eq_sym X))|]. destruct (w_stream w =? sid); unfold size; lia.
      * destruct (IH (Client s1 (c_req c) K) rest r c' F ND) as (RT & sent & S1 & S2 & S3 & S4 & S5); try assumption.
        { cbn [c_tls]. eapply delivers_mono; [|exact D1]. lia. }
        split; [exact RT|]. exists sent. cbn [c_tls] in S2. rewrite O1 in S2. split; [exact S1|]. split; [exact S2|]. split; [exact S3|]. split; [exact S4|].
        intros a b sid. rewrite <- (S5 a b sid). unfold window. rewrite !total_app, !total_cons.
        replace (spent sid w) with 0; [lia|]. unfold spent. unfold size in P. replace (N.of_nat (length (w_payload w))) with 0 by lia.
        destruct (_ && _); reflexivity.
    + assert (NDF : forall h p, fst (handled m (c_resp c) w) <> Ok (DataFrame h p)).
      { intros h p X. exact (NT (handled_data _ _ _ _ _ X)). }
      destruct (fst (handled m (c_resp c) w)) as [f|x|u|] eqn:HF.
      3: { injection H as <- <-. destruct (NU u eq_refl). }
      all: assert (H' : serve host m (length ws) (Client s1 (c_req c) K) = (r, c')) by (try exact H; destruct f; try exact H; destruct (NDF _ _ eq_refl)).
      all: destruct (IH (Client s1 (c_req c) K) rest r c' F ND) as (RT & sent & S1 & S2 & S3 & S4 & S5); try assumption;
        [cbn [c_tls]; eapply delivers_mono; [|exact D1]; lia|];
        split; [exact RT|]; exists sent; cbn [c_tls] in S2; rewrite O1 in S2; split; [exact S1|]; split; [exact S2|]; split; [exact S3|]; split; [exact S4|];
        intros a b sid; rewrite <- (S5 a b sid); unfold window; rewrite !total_app, !total_cons;
        replace (spent sid w) with 0; [lia|]; unfold spent; apply N.eqb_neq in NT; rewrite NT; reflexivity.
Qed.

(* SETTINGS with another initial window, DATA of the client, WINDOW_UPDATE and
   padded DATA of the server. *)
Definition peer_frames : list wframe :=
  [WFrame SETTINGS 0 0 0 (settings_octets [(4, 1000); (1, 50)]); WFrame WINDOW_UPDATE 0 1 1 (window_update_octets 1 70);
   WFrame DATA 8 0 1 [2; 104; 105; 0; 0]].
Definition mixed_calls (f : frame) : list call :=
  [CallReceive; CallSend (mk_data 1 1 [1; 2; 3]); CallReceive; CallReceive; CallSend f; CallResize 50].

Example C104_case : exists f, mk_window_update 1 0 5 = Ok f /\
  let c := new_client (Tls (concat (map wire peer_frames)) [] (repeat (Chunk 5) 200)) in
  let rs := fst (make_calls LittleEndian Strict c (mixed_calls f)) in
  Forall (session_call LittleEndian) (mixed_calls f) /\ pending (mixed_calls f) peer_frames /\ Forall clear_settings peer_frames /\
  delivers (size (concat (map wire peer_frames)) + size (concat (all_written LittleEndian default_table (mixed_calls f)))) (c_tls c) /\
  (forall u, ~ In (Received (UB u)) rs) /\
  account 1 (frames_got rs) (frames_sent (mixed_calls f)) = 1067%Z /\ account 0 (frames_sent (mixed_calls f)) (frames_got rs) = 65530%Z.
Proof.
  eexists. split; [reflexivity|]. cbv zeta. split; [|split; [|split; [|split; [|split; [|split]]]]].
  - repeat constructor; cbn [session_call].
    + exists 1, 1, (CData [1; 2; 3] []). eexists. split; [apply (asked_data 1 1 [1; 2; 3] []); split; [cbn; lia|reflexivity]|].
      split; [reflexivity|]. split; [reflexivity|]. split; [reflexivity|]. split; [reflexivity|]. apply octets_dec. reflexivity.
    + exists 0, 1, (CWindow 5). eexists. split; [apply (asked_window 1 0 5); [reflexivity|reflexivity]|].
      split; [reflexivity|]. split; [reflexivity|]. split; [reflexivity|]. split; [reflexivity|]. apply octets_dec. reflexivity.
  - split; [reflexivity|]. repeat constructor; try reflexivity; apply octets_dec; reflexivity.
  - repeat constructor; intros T; try discriminate T. exists [(4, 1000); (1, 50)]. split; [reflexivity|]. split; [repeat constructor|reflexivity].
  - exists (repeat (Chunk 5) 200), []. split; [reflexivity|]. split; [apply Forall_forall; intros e I; apply repeat_spec in I; subst; discriminate|].
    vm_compute. discriminate.
  - intros u. vm_compute. intuition discriminate.
  - vm_compute. reflexivity.
  - vm_compute. reflexivity.
Qed.

Example C104_repeated_case :
  let w := WFrame SETTINGS 0 0 0 (settings_octets [(4, 1000); (4, 2000)]) in
  wframe_ok w /\ first_value [(4, 1000); (4, 2000)] 4 = Some 1000 /\ last_value [(4, 1000); (4, 2000)] 4 = Some 2000 /\ window 1 [w] [] = 2000%Z.
Proof.
  cbv zeta. split; [repeat constructor; try reflexivity; apply octets_dec; reflexivity|]. repeat split; reflexivity.
Qed.

(* An empty DATA frame and a padded one among them. *)
Example C104_given_back_case :
  let ws := [WFrame SETTINGS 0 0 0 []; WFrame DATA 0 0 1 [1; 2; 3]; WFrame DATA 1 0 1 []; WFrame DATA 9 0 3 [1; 7; 0]] in
  let run := serve LittleEndian Strict 4 (new_client (Tls (concat (map wire ws)) [] (repeat (Chunk 5) 400))) in
  Forall wframe_ok ws /\ Forall (fun w => w_type w = DATA -> w_stream w <> 0) ws /\ fst run = Ok tt /\
  tls_out (c_tls (snd run)) = concat (map wire
    [WFrame WINDOW_UPDATE 0 0 1 [0; 0; 0; 3]; WFrame WINDOW_UPDATE 0 0 0 [0; 0; 0; 3];
     WFrame WINDOW_UPDATE 0 0 3 [0; 0; 0; 3]; WFrame WINDOW_UPDATE 0 0 0 [0; 0; 0; 3]]).
Proof.
  cbv zeta. split; [repeat constructor; try reflexivity; apply octets_dec; reflexivity|].
  split; [repeat constructor; discriminate|]. split; vm_compute; reflexivity.
Qed.

Print Assumptions C104_windows_partial.
Print Assumptions C104_repeated_refuted.
Print Assumptions C104_not_enforced_refuted.
Print Assumptions C104_given_back.
