(* Property C103: responses of several streams on one connection. *)
From Coq Require Import String.
From Coq Require Import ZArith NArith List Bool Lia ZifyBool ZifyNat ZifyN.
From Verif Require Import Base Arith Util HeaderType DynTable HeaderDec FrameHeader Frames FrameBuilder Ssl Client
  SpecBits SpecHpack SpecFrame SpecValid UtilProofs DynTableProofs FrameProofs HeaderProofs BlockProofs HistoryProofs
  PropHeader PropFrame PropBlock PropSsl PropClient PropHistory PropValid PropThrow PropDefined PropReceived.
Import ListNotations.
Local Open Scope string_scope.
Local Open Scope list_scope.
Local Open Scope N_scope.

(* ---- specification: a response on a stream, RFC 7540 section 8.1 ---- *)

Record response := Response { r_fields : list field; r_body : list N; r_trailers : list field; r_ended : bool }.

(* HEADERS and its CONTINUATION frames *)
Definition header_messages (l : list message) (fs : list field) : Prop :=
  exists x cs, l = x :: cs /\ w_type (msg_frame x) = HEADERS /\
    Forall (fun y => w_type (msg_frame y) = CONTINUATION) cs /\ fs = flat_map msg_fields l.

Definition ends_stream (x : message) : bool :=
  ((w_type (msg_frame x) =? HEADERS) || (w_type (msg_frame x) =? DATA)) && N.testbit (w_flags (msg_frame x)) 0.

(* The data of a DATA frame, section 6.1. *)
Definition data_sent (x : message) : list N := match msg_content x with CData data _ => data | _ => [] end.

(* The messages are a header list, DATA frames, and possibly trailers. *)
Definition response_with (data : message -> list N) (l : list message) (r : response) : Prop :=
  exists hs ds ts, l = hs ++ ds ++ ts /\ header_messages hs (r_fields r) /\
    Forall (fun x => w_type (msg_frame x) = DATA) ds /\ r_body r = flat_map data ds /\
    (ts = [] /\ r_trailers r = [] \/ header_messages ts (r_trailers r)) /\
    r_ended r = existsb ends_stream l.

Definition carries_response := response_with data_sent.

(* The messages of a stream, those that do not belong to a response left out. *)
Definition of_response (sid : N) (x : message) : bool :=
  (w_stream (msg_frame x) =? sid) &&
  ((w_type (msg_frame x) =? HEADERS) || (w_type (msg_frame x) =? DATA) || (w_type (msg_frame x) =? CONTINUATION)).

(* The response on stream sid; CONTINUATION frames of a PUSH_PROMISE frame would
   not belong to it. *)
Definition response_on (sid : N) (xs : list message) (r : response) : Prop :=
  (forall x, In x xs -> w_stream (msg_frame x) = sid -> w_type (msg_frame x) = PUSH_PROMISE -> N.testbit (w_flags (msg_frame x)) 2 = true) /\
  carries_response (filter (of_response sid) xs) r.

(* ---- what a user does with the frames of receive_frame ---- *)

Definition nothing : response := Response [] [] [] false.

(* Looks at get_header() and get_payload() of one frame.  The option tells
   whether the header list has begun, and whether the trailers have. *)
Definition add_frame (s : option bool * response) (f : frame) : option bool * response :=
  let '(stage, r) := s in
  let ended := r_ended r || N.testbit (fh_flags (frame_fh f)) 0 in
  match f with
  | HeadersFrame _ _ _ _ b =>
      match stage with
      | None => (Some false, Response (r_fields r ++ fields_of b) (r_body r) (r_trailers r) ended)
      | Some _ => (Some true, Response (r_fields r) (r_body r) (r_trailers r ++ fields_of b) ended)
      end
  | ContinuationFrame _ _ b =>
      match stage with
      | Some true => (stage, Response (r_fields r) (r_body r) (r_trailers r ++ fields_of b) (r_ended r))
      | _ => (stage, Response (r_fields r ++ fields_of b) (r_body r) (r_trailers r) (r_ended r))
      end
  | DataFrame _ p => (stage, Response (r_fields r) (r_body r ++ p) (r_trailers r) ended)
  | _ => s
  end.

Definition collect (sid : N) (fs : list frame) : response :=
  snd (fold_left add_frame (filter (fun f => fh_stream_id (frame_fh f) =? sid) fs) (None, nothing)).

(* ---- sessions in which DATA frames may be padded ---- *)

Definition padded_data (x : message) : bool := (w_type (msg_frame x) =? DATA) && has_padded (w_flags (msg_frame x)).

Inductive padding_session (m : ub_mode) (limit : N) : table -> list message -> table -> Prop :=
| padding_nil : forall t, padding_session m limit t [] t
| padding_data : forall t w data padding xs t2, w_type w = DATA -> has_padded (w_flags w) = true ->
    layout (w_flags w) (w_type w) (w_payload w) (CData data padding) -> padding_session m limit t xs t2 ->
    padding_session m limit t (Message w (CData data padding) [] :: xs) t2
| padding_other : forall t x t1 xs t2, server_sends m limit t x t1 -> padding_session m limit t1 xs t2 ->
    padding_session m limit t (x :: xs) t2.

Lemma session_padding : forall m limit t xs t', server_session m limit t xs t' -> padding_session m limit t xs t'.
Proof. intros m limit t xs t' H. induction H as [|t x t1 xs t2 S H IH]; [constructor|eapply padding_other; eassumption]. Qed.

(* What the library reports of a DATA frame. *)
Definition data_got (x : message) : list N :=
  match msg_content x with CData data _ => if has_padded (w_flags (msg_frame x)) then w_payload (msg_frame x) else data | _ => [] end.

Definition got (f : frame) (x : message) : Prop :=
  fh_flags (frame_fh f) = w_flags (msg_frame x) /\ fh_stream_id (frame_fh f) = w_stream (msg_frame x) /\
  match f with
  | DataFrame _ p => w_type (msg_frame x) = DATA /\ p = data_got x
  | HeadersFrame _ _ _ _ b => w_type (msg_frame x) = HEADERS /\ fields_of b = msg_fields x
  | ContinuationFrame _ _ b => w_type (msg_frame x) = CONTINUATION /\ fields_of b = msg_fields x
  | _ => w_type (msg_frame x) <> DATA /\ w_type (msg_frame x) <> HEADERS /\ w_type (msg_frame x) <> CONTINUATION
  end.

Lemma tells_got : forall m limit t x t' f, server_sends m limit t x t' -> tells f x -> got f x.
Proof.
  intros m limit t x t' f S (TY & FL & SI & T). unfold got. rewrite FL, SI. split; [reflexivity|]. split; [reflexivity|].
  assert (L : layout (w_flags (msg_frame x)) (w_type (msg_frame x)) (w_payload (msg_frame x)) (msg_content x)) by (destruct S; assumption).
  assert (ND : ~ (w_type (msg_frame x) = DATA /\ has_padded (w_flags (msg_frame x)) = true)).
  { destruct S as [w c fr fs t1 L0 F _|w c L0 F ND _]; [|exact ND]. cbn [msg_frame] in *. intros [X _]. rewrite X in L0. inversion L0; subst. discriminate F. }
  clear S FL SI TY. unfold data_got. destruct x as [w c fields]. cbn [msg_frame msg_content msg_fields] in *.
  remember (w_type w) as ty eqn:TY. remember (w_payload w) as pl eqn:PL.
  destruct L; destruct f; try contradiction; try (split; [discriminate|split; discriminate]).
  - split; [reflexivity|]. destruct (has_padded (w_flags w)) eqn:HP; [|exact T]. exfalso. apply ND. auto.
  - split; [reflexivity|apply T].
  - split; [reflexivity|apply T].
  - split; [reflexivity|exact T].
Qed.

Lemma received_streams : forall m limit xs t t' c rest,
  padding_session m limit t xs t' -> Forall wframe_ok (map msg_frame xs) ->
  dt_ok (c_resp c) -> Table (dt_max (c_resp c)) (dt_entries (c_resp c)) = t ->
  tls_in (c_tls c) = concat (map wire (map msg_frame xs)) ++ rest ->
  delivers (size (concat (map wire (map msg_frame xs)))) (c_tls c) ->
  exists fs c', receive_n m (length xs) c = (map Ok fs, c') /\ Forall2 got fs xs /\ tls_in (c_tls c') = rest.
Proof.
  intros m limit xs t t' c rest H. revert c.
  induction H as [t|t w data padding xs t2 TY HP LY H IH|t x t1 xs t2 S H IH]; intros c F K T E D.
  - exists [], c. cbn in *. auto 10.
  - cbn [map concat length receive_n msg_frame] in *. pose proof (Forall_inv F) as W. cbn [msg_frame] in W.
    rewrite <- app_assoc in E. rewrite size_app in D.
    destruct (receive_complete m c w _ _ W E D) as (s1 & I1 & O1 & D1 & R1). rewrite R1.
    assert (HA : handled m (c_resp c) w = (Ok (mk_data (w_flags w) (w_stream w) (w_payload w)), c_resp c)).
    { destruct w as [ty flags r sid payload]. cbn [w_type w_flags w_stream w_payload] in *. subst ty. reflexivity. }
    rewrite HA. cbn [fst snd].
    destruct (IH (Client s1 (c_req c) (c_resp c)) (Forall_inv_tail F) K T I1 D1) as (fs & c' & R & P' & I).
    rewrite R. exists (mk_data (w_flags w) (w_stream w) (w_payload w) :: fs), c'. split; [reflexivity|]. split; [|exact I].
    constructor; [|exact P']. split; [reflexivity|]. split; [reflexivity|]. cbn [mk_data msg_frame]. split; [exact TY|].
    unfold data_got. cbn [msg_content msg_frame]. rewrite HP. reflexivity.
  - cbn [map concat length receive_n] in *. pose proof (Forall_inv F) as W.
    rewrite <- app_assoc in E. rewrite size_app in D.
    destruct (receive_complete m c (msg_frame x) _ _ W E D) as (s1 & I1 & O1 & D1 & R1). rewrite R1.
    destruct (handled_message m limit t x t1 (c_resp c) S W K T) as (f & B & P & K1 & T1).
    destruct (IH (Client s1 (c_req c) (snd (handled m (c_resp c) (msg_frame x)))) (Forall_inv_tail F) K1 T1 I1 D1) as (fs & c' & R & P' & I).
    rewrite R, B. exists (f :: fs), c'. split; [reflexivity|]. split; [|exact I].
    constructor; [|exact P']. eapply tells_got; eassumption.
Qed.

(* ---- what the user collects ---- *)

Definition belongs (f : frame) : bool :=
  match f with DataFrame _ _ | HeadersFrame _ _ _ _ _ | ContinuationFrame _ _ _ => true | _ => false end.

Lemma collect_belongs : forall fs s, fold_left add_frame fs s = fold_left add_frame (filter belongs fs) s.
Proof.
  induction fs as [|f fs IH]; intros s; [reflexivity|]. cbn [fold_left filter]. destruct (belongs f) eqn:B; [apply IH|].
  rewrite IH. f_equal. destruct s as [st r]. destruct f; try discriminate B; reflexivity.
Qed.

Lemma filter_filter : forall A (p q : A -> bool) l, filter p (filter q l) = filter (fun x => q x && p x) l.
Proof.
  intros A p q. induction l as [|x l IH]; [reflexivity|]. cbn [filter]. destruct (q x); cbn [filter andb]; [destruct (p x); rewrite IH; reflexivity|exact IH].
Qed.

Lemma Forall2_filter : forall A B (R : A -> B -> Prop) p q l l', (forall a b, R a b -> p a = q b) -> Forall2 R l l' ->
  Forall2 R (filter p l) (filter q l').
Proof.
  intros A B R p q l l' H F. induction F as [|a b l l' R1 F IH]; [constructor|]. cbn [filter]. rewrite (H a b R1).
  destruct (q b); [constructor; assumption|exact IH].
Qed.

Lemma got_belongs : forall sid f x, got f x -> (fh_stream_id (frame_fh f) =? sid) && belongs f = of_response sid x.
Proof.
  intros sid f x (_ & SI & G). unfold of_response. rewrite SI. f_equal.
  destruct f; cbn [belongs]; cbn [frame_fh] in *; try (destruct G as [-> _]; reflexivity);
    destruct G as (N1 & N2 & N3);
    repeat match goal with |- context [?a =? ?b] => destruct (N.eqb_spec a b); [contradiction|] end; reflexivity.
Qed.

Lemma add_continuations : forall st r fs xs, Forall2 got fs xs -> Forall (fun y => w_type (msg_frame y) = CONTINUATION) xs ->
  fold_left add_frame fs (Some st, r) =
  (Some st, if st then Response (r_fields r) (r_body r) (r_trailers r ++ flat_map msg_fields xs) (r_ended r)
            else Response (r_fields r ++ flat_map msg_fields xs) (r_body r) (r_trailers r) (r_ended r)) /\
  existsb ends_stream xs = false.
Proof.
  intros st r fs xs F. revert r. induction F as [|f x fs xs G F IH]; intros r C.
  - cbn. rewrite !app_nil_r. split; [destruct st, r; reflexivity|reflexivity].
  - pose proof (Forall_inv C) as C1. cbn beta in C1. destruct G as (FL & SI & G). rewrite C1 in G.
    destruct f; try (destruct G as [X _]; discriminate X); try (destruct G as (_ & _ & X); destruct (X eq_refl)).
    destruct G as [_ G]. cbn [fold_left add_frame existsb].
    assert (E : ends_stream x = false) by (unfold ends_stream; rewrite C1; reflexivity). rewrite E.
    destruct st.
    + destruct (IH (Response (r_fields r) (r_body r) (r_trailers r ++ fields_of block) (r_ended r)) (Forall_inv_tail C)) as [-> ->].
      cbn [r_fields r_body r_trailers r_ended flat_map]. rewrite <- app_assoc, G. auto.
    + destruct (IH (Response (r_fields r ++ fields_of block) (r_body r) (r_trailers r) (r_ended r)) (Forall_inv_tail C)) as [-> ->].
      cbn [r_fields r_body r_trailers r_ended flat_map]. rewrite <- app_assoc, G. auto.
Qed.

Lemma add_data : forall st r fs xs, Forall2 got fs xs -> Forall (fun y => w_type (msg_frame y) = DATA) xs ->
  fold_left add_frame fs (Some st, r) =
  (Some st, Response (r_fields r) (r_body r ++ flat_map data_got xs) (r_trailers r) (r_ended r || existsb ends_stream xs)).
Proof.
  intros st r fs xs F. revert r. induction F as [|f x fs xs G F IH]; intros r C.
  - cbn. rewrite app_nil_r, orb_false_r. destruct r; reflexivity.
  - pose proof (Forall_inv C) as C1. cbn beta in C1. destruct G as (FL & SI & G). rewrite C1 in G.
    destruct f; try (destruct G as [X _]; discriminate X); try (destruct G as (X & _); destruct (X eq_refl)).
    destruct G as [_ ->]. cbn [fold_left add_frame existsb flat_map].
    assert (E : ends_stream x = N.testbit (fh_flags (frame_fh (DataFrame h (data_got x)))) 0).
    { unfold ends_stream. rewrite C1, FL. reflexivity. }
    rewrite IH by exact (Forall_inv_tail C). cbn [r_fields r_body r_trailers r_ended]. rewrite <- E, app_assoc, orb_assoc. reflexivity.
Qed.

(* The first header list, or the trailers. *)
Lemma add_headers : forall st r fs xs fields, Forall2 got fs xs -> header_messages xs fields ->
  fold_left add_frame fs (st, r) =
  match st with
  | None => (Some false, Response (r_fields r ++ fields) (r_body r) (r_trailers r) (r_ended r || existsb ends_stream xs))
  | Some _ => (Some true, Response (r_fields r) (r_body r) (r_trailers r ++ fields) (r_ended r || existsb ends_stream xs))
  end.
Proof.
  intros st r fs xs fields F (x & cs & -> & C1 & CS & ->). inversion F as [|f x0 fs0 xs0 G F']; subst. clear F.
  destruct G as (FL & SI & G). rewrite C1 in G.
  destruct f; try (destruct G as [X _]; discriminate X); try (destruct G as (_ & X & _); destruct (X eq_refl)).
  destruct G as [_ G]. cbn [fold_left add_frame existsb flat_map].
  assert (E : ends_stream x = N.testbit (fh_flags (frame_fh (HeadersFrame encoded h padding prio block))) 0).
  { unfold ends_stream. rewrite C1, FL. reflexivity. }
  rewrite <- E. destruct st as [b|].
  - destruct (add_continuations true (Response (r_fields r) (r_body r) (r_trailers r ++ fields_of block) (r_ended r || ends_stream x))
      fs0 cs F' CS) as [-> ->]. cbn [r_fields r_body r_trailers r_ended]. rewrite <- app_assoc, G, orb_false_r. reflexivity.
  - destruct (add_continuations false (Response (r_fields r ++ fields_of block) (r_body r) (r_trailers r) (r_ended r || ends_stream x))
      fs0 cs F' CS) as [-> ->]. cbn [r_fields r_body r_trailers r_ended]. rewrite <- app_assoc, G, orb_false_r. reflexivity.
Qed.

Lemma collects : forall sid fs xs r, Forall2 got fs xs -> response_with data_got (filter (of_response sid) xs) r -> collect sid fs = r.
Proof.
  intros sid fs xs r F (hs & ds & ts & L & H & DS & BD & TS & EN). unfold collect. rewrite collect_belongs, filter_filter.
  pose proof (Forall2_filter _ _ got _ (of_response sid) fs xs (got_belongs sid) F) as G. rewrite L in G.
  set (gs := filter _ fs) in *. clearbody gs. clear F.
  apply Forall2_app_inv_r in G. destruct G as (g1 & g23 & G1 & G & ->).
  apply Forall2_app_inv_r in G. destruct G as (g2 & g3 & G2 & G3 & ->).
  rewrite !fold_left_app, (add_headers None nothing g1 hs _ G1 H).
  cbn [nothing r_fields r_body r_trailers r_ended app orb]. rewrite (add_data _ _ g2 ds G2 DS).
  cbn [r_fields r_body r_trailers r_ended app]. rewrite L, !existsb_app in EN.
  destruct TS as [[-> TE]|TS].
  - inversion G3; subst. cbn [fold_left snd existsb] in *. rewrite orb_false_r in EN. destruct r as [a b c e]. cbn in *. congruence.
  - rewrite (add_headers _ _ g3 ts _ G3 TS). cbn [snd r_fields r_body r_trailers r_ended app]. destruct r as [a b c e]. cbn in *.
    rewrite <- orb_assoc. congruence.
Qed.

(* The frames of any number of responses, in any order RFC 7540 allows and among
   any other frames: what the user collects for a stream is the response sent on
   it. *)
Theorem C103_streams_partial : forall m limit xs t t' c rest,
  server_session m limit t xs t' -> Forall wframe_ok (map msg_frame xs) ->
  dt_ok (c_resp c) -> Table (dt_max (c_resp c)) (dt_entries (c_resp c)) = t ->
  tls_in (c_tls c) = concat (map wire (map msg_frame xs)) ++ rest ->
  delivers (size (concat (map wire (map msg_frame xs)))) (c_tls c) ->
  exists fs c', receive_n m (length xs) c = (map Ok fs, c') /\
    forall sid r, response_on sid xs r -> collect sid fs = r.
Proof.
  intros m limit xs t t' c rest S W K T E D.
  destruct (received_streams m limit xs t t' c rest (session_padding _ _ _ _ _ S) W K T E D) as (fs & c' & R & G & _).
  exists fs, c'. split; [exact R|]. intros sid r (_ & hs & ds & ts & L & H & DS & BD & TS & EN).
  apply (collects sid fs xs r G). exists hs, ds, ts. repeat split; try assumption. rewrite BD.
  assert (P : Forall (fun x => has_padded (w_flags (msg_frame x)) = false) ds).
  { assert (A : forall x, In x xs -> ~ (w_type (msg_frame x) = DATA /\ has_padded (w_flags (msg_frame x)) = true)).
    { clear - S. induction S as [|t x t1 xs t2 S _ IH]; intros y I; [destruct I|]. destruct I as [<-|I]; [|exact (IH y I)].
      destruct S as [w c fr fs t1 L0 F _|w c L0 F ND _]; [|exact ND]. cbn [msg_frame] in *. intros [X _]. rewrite X in L0. inversion L0; subst. discriminate F. }
    apply Forall_forall. intros x I. rewrite Forall_forall in DS.
    assert (J : In x xs). { assert (J : In x (filter (of_response sid) xs)) by (rewrite L; apply in_or_app; right; apply in_or_app; left; exact I). apply filter_In in J. apply J. }
    destruct (has_padded (w_flags (msg_frame x))) eqn:HP; [|reflexivity]. destruct (A x J (conj (DS x I) HP)). }
  clear - P. induction P as [|x ds HP _ IH]; [reflexivity|]. cbn [flat_map]. rewrite IH. f_equal. unfold data_sent, data_got.
  rewrite HP. reflexivity.
Qed.

(* With a padded DATA frame among them the body collected is longer than the body
   sent, on every stream that has one, while no call fails. *)
Theorem C103_padding_refuted : forall m limit xs t t' c rest,
  padding_session m limit t xs t' -> Forall wframe_ok (map msg_frame xs) ->
  dt_ok (c_resp c) -> Table (dt_max (c_resp c)) (dt_entries (c_resp c)) = t ->
  tls_in (c_tls c) = concat (map wire (map msg_frame xs)) ++ rest ->
  delivers (size (concat (map wire (map msg_frame xs)))) (c_tls c) ->
  exists fs c', receive_n m (length xs) c = (map Ok fs, c') /\
    forall sid r x, response_on sid xs r -> In x xs -> w_stream (msg_frame x) = sid ->
      padded_data x = true ->
      (length (r_body r) < length (r_body (collect sid fs)))%nat /\ collect sid fs <> r.
Proof.
  intros m limit xs t t' c rest S W K T E D.
  destruct (received_streams m limit xs t t' c rest S W K T E D) as (fs & c' & R & G & _).
  exists fs, c'. split; [exact R|]. intros sid r x (_ & hs & ds & ts & L & H & DS & BD & TS & EN) I SI PD.
  assert (C : collect sid fs = Response (r_fields r) (flat_map data_got ds) (r_trailers r) (r_ended r)).
  { apply (collects sid fs xs _ G). exists hs, ds, ts. cbn [r_fields r_body r_trailers r_ended]. auto 10. }
  assert (LT : (length (r_body r) < length (flat_map data_got ds))%nat).
  { rewrite BD. apply andb_true_iff in PD. destruct PD as [TY HP]. apply N.eqb_eq in TY.
    assert (LE : forall y, In y xs -> (length (data_sent y) <= length (data_got y))%nat /\
      (w_type (msg_frame y) = DATA -> has_padded (w_flags (msg_frame y)) = true -> (length (data_sent y) < length (data_got y))%nat)).
    { clear - S. induction S as [|t w data padding xs t2 TY HP LY _ IH|t x t1 xs t2 S _ IH]; intros y I; [destruct I|..];
        (destruct I as [<-|I]; [|exact (IH y I)]).
      - unfold data_sent, data_got. cbn [msg_content msg_frame]. rewrite HP. rewrite TY in LY. inversion LY as [d p P Q1 Q2 Q3| | | | | | | | | |]. subst.
        rewrite HP. unfold padded_payload. cbn [length app]. rewrite !app_length. lia.
      - assert (ND : ~ (w_type (msg_frame x) = DATA /\ has_padded (w_flags (msg_frame x)) = true)).
        { destruct S as [w c fr fs t1 L0 F _|w c L0 F ND _]; [|exact ND]. cbn [msg_frame] in *. intros [X _]. rewrite X in L0. inversion L0; subst. discriminate F. }
        split; [|intros A B; exfalso; apply ND; auto].
        assert (L0 : layout (w_flags (msg_frame x)) (w_type (msg_frame x)) (w_payload (msg_frame x)) (msg_content x)) by (destruct S; assumption).
        unfold data_sent, data_got. destruct (msg_content x) eqn:CX; try lia.
        destruct (has_padded (w_flags (msg_frame x))) eqn:HP; [|lia]. exfalso. apply ND. split; [|reflexivity]. inversion L0; reflexivity. }
    assert (IX : In x ds).
    { assert (J : In x (hs ++ ds ++ ts)).
      { rewrite <- L. apply filter_In. split; [exact I|]. unfold of_response. rewrite SI, N.eqb_refl, TY. reflexivity. }
      assert (NH : forall l fields, header_messages l fields -> ~ In x l).
      { intros l fields (y & cs & -> & HY & CS & _) [->|J']; [rewrite TY in HY; discriminate HY|].
        rewrite Forall_forall in CS. specialize (CS x J'). cbn beta in CS. rewrite TY in CS. discriminate CS. }
      apply in_app_or in J. destruct J as [J|J]; [destruct (NH _ _ H J)|]. apply in_app_or in J. destruct J as [J|J]; [exact J|].
      destruct TS as [[-> _]|TS]; [destruct J|destruct (NH _ _ TS J)]. }
    assert (SUB : forall y, In y ds -> In y xs).
    { intros y J. assert (Q : In y (filter (of_response sid) xs)) by (rewrite L; apply in_or_app; right; apply in_or_app; left; exact J).
      apply filter_In in Q. apply Q. }
    destruct (LE x I) as [_ LX]. specialize (LX TY HP).
    apply in_split in IX. destruct IX as (d1 & d2 & ->). rewrite !flat_map_app. cbn [flat_map]. rewrite !app_length.
    assert (MONO : forall l, (forall y, In y l -> In y xs) -> (length (flat_map data_sent l) <= length (flat_map data_got l))%nat).
    { induction l as [|y l IH]; intros SL; [reflexivity|]. cbn [flat_map]. rewrite !app_length.
      pose proof (proj1 (LE y (SL y (or_introl eq_refl)))). specialize (IH (fun z J => SL z (or_intror J))). lia. }
    pose proof (MONO d1 (fun y J => SUB y (in_or_app _ _ _ (or_introl J)))).
    pose proof (MONO d2 (fun y J => SUB y (in_or_app _ _ _ (or_intror (in_cons x y d2 J))))). lia. }
  rewrite C. cbn [r_body]. split; [exact LT|]. intros X. rewrite <- X in LT. cbn [r_body] in LT. lia.
Qed.

(* Two responses, their frames interleaved, the second with trailers that refer
   to a field of the first; a SETTINGS frame before them. *)
Definition interleaved : list message :=
  [Message (WFrame SETTINGS 0 0 0 (settings_octets [(3, 100)])) (CSettings [(3, 100)]) [];
   Message (WFrame HEADERS 0 0 1 [0x40; 1; 97; 1; 98]) (CHeaders None [0x40; 1; 97; 1; 98] []) [([97], [98])];
   Message (WFrame CONTINUATION 4 0 1 [0xbe]) (CContinuation [0xbe]) [([97], [98])];
   Message (WFrame HEADERS 4 0 3 [0xbe]) (CHeaders None [0xbe] []) [([97], [98])];
   Message (WFrame DATA 0 0 1 [1; 2; 3]) (CData [1; 2; 3] []) [];
   Message (WFrame DATA 0 0 3 [7]) (CData [7] []) [];
   Message (WFrame DATA 1 0 1 [4]) (CData [4] []) [];
   Message (WFrame HEADERS 5 0 3 [0xbe]) (CHeaders None [0xbe] []) [([97], [98])]].

Example C103_case : forall m,
  server_session m 4096 (Table 4096 []) interleaved (Table 4096 [([97], [98])]) /\
  Forall wframe_ok (map msg_frame interleaved) /\
  response_on 1 interleaved (Response [([97], [98]); ([97], [98])] [1; 2; 3; 4] [] true) /\
  response_on 3 interleaved (Response [([97], [98])] [7] [([97], [98])] true) /\
  delivers (size (concat (map wire (map msg_frame interleaved))))
    (Tls (concat (map wire (map msg_frame interleaved))) [] (repeat (Chunk 5) 100)).
Proof.
  intros m. assert (NP : forall flags, padding_fits flags []) by (intros flags; split; [cbn; lia|reflexivity]).
  assert (BE : decodable_block m 4096 (Table 4096 [([97], [98])]) [0xbe] [([97], [98])] (Table 4096 [([97], [98])])).
  { do 2 eexists. split; [apply (run_be m (Table 4096 [([97], [98])]) ([97], [98]) eq_refl)|]. split; [repeat split; discriminate|]. exact I. }
  split; [|split; [|split; [|split]]].
  - eapply session_cons; [|eapply session_cons; [|eapply session_cons; [|eapply session_cons; [|eapply session_cons; [|eapply session_cons;
      [|eapply session_cons; [|eapply session_cons; [|constructor]]]]]]]].
    + apply sends_plain; [| reflexivity|intros [X _]; discriminate X|].
      * apply layout_settings. repeat constructor.
      * intros params P. injection P as <-. split.
        -- constructor; [intros []|constructor].
        -- intros p [<-|[]]; discriminate.
    + eapply sends_fields; [exact (layout_headers 0 [0x40; 1; 97; 1; 98] [] (NP 0) eq_refl)|reflexivity|].
      do 2 eexists. split; [exact (run_a_b m default_table eq_refl)|].
      split; [repeat split; discriminate|]. split; [discriminate|exact I].
    + eapply sends_fields; [exact (layout_continuation 4 [0xbe])|reflexivity|exact BE].
    + eapply sends_fields; [exact (layout_headers 4 [0xbe] [] (NP 4) eq_refl)|reflexivity|exact BE].
    + apply sends_plain; [exact (layout_data 0 [1; 2; 3] [] (NP 0))|reflexivity|intros [_ X]; discriminate X|discriminate].
    + apply sends_plain; [exact (layout_data 0 [7] [] (NP 0))|reflexivity|intros [_ X]; discriminate X|discriminate].
    + apply sends_plain; [exact (layout_data 1 [4] [] (NP 1))|reflexivity|intros [_ X]; discriminate X|discriminate].
    + eapply sends_fields; [exact (layout_headers 5 [0xbe] [] (NP 5) eq_refl)|reflexivity|exact BE].
  - repeat constructor; apply wframe_check; reflexivity.
  - split.
    + intros x I0 _ T. exfalso. cbn in I0. repeat (destruct I0 as [<-|I0]; [discriminate T|]). destruct I0.
    + exists (firstn 2 (filter (of_response 1) interleaved)), (skipn 2 (filter (of_response 1) interleaved)), [].
      split; [reflexivity|]. split; [|split; [repeat constructor|split; [reflexivity|split; [left; split; reflexivity|reflexivity]]]].
      eexists _, _. split; [reflexivity|]. split; [reflexivity|]. split; [repeat constructor|reflexivity].
  - split.
    + intros x I0 _ T. exfalso. cbn in I0. repeat (destruct I0 as [<-|I0]; [discriminate T|]). destruct I0.
    + exists (firstn 1 (filter (of_response 3) interleaved)), (firstn 1 (skipn 1 (filter (of_response 3) interleaved))),
        (skipn 2 (filter (of_response 3) interleaved)).
      split; [reflexivity|]. split; [|split; [repeat constructor|split; [reflexivity|split; [right|reflexivity]]]];
        (eexists _, _; split; [reflexivity|]; split; [reflexivity|]; split; [repeat constructor|reflexivity]).
  - apply frame_delivers. vm_compute. discriminate.
Qed.

(* The same data, padded. *)
Example C103_padding_case : forall m,
  let xs := [Message (WFrame HEADERS 4 0 1 [0x40; 1; 97; 1; 98]) (CHeaders None [0x40; 1; 97; 1; 98] []) [([97], [98])];
             Message (WFrame DATA 9 0 1 [2; 7; 0; 0]) (CData [7] [0; 0]) []] in
  padding_session m 4096 (Table 4096 []) xs (Table 4096 [([97], [98])]) /\ Forall wframe_ok (map msg_frame xs) /\
  response_on 1 xs (Response [([97], [98])] [7] [] true).
Proof.
  intros m xs. assert (NP : forall flags, padding_fits flags []) by (intros flags; split; [cbn; lia|reflexivity]).
  split; [|split].
  - eapply padding_other; [|eapply padding_data; [reflexivity|reflexivity| |constructor]].
    + eapply sends_fields; [exact (layout_headers 4 [0x40; 1; 97; 1; 98] [] (NP 4) eq_refl)|reflexivity|].
      do 2 eexists. split; [exact (run_a_b m default_table eq_refl)|].
      split; [repeat split; discriminate|]. split; [discriminate|exact I].
    + refine (layout_data 9 [7] [0; 0] _). split; [cbn; lia|discriminate].
  - repeat constructor; apply wframe_check; reflexivity.
  - split.
    + intros x I0 _ T. exfalso. cbn in I0. repeat (destruct I0 as [<-|I0]; [discriminate T|]). destruct I0.
    + exists (firstn 1 xs), (skipn 1 xs), []. split; [reflexivity|].
      split; [|split; [repeat constructor|split; [reflexivity|split; [left; split; reflexivity|reflexivity]]]].
      eexists _, _. split; [reflexivity|]. split; [reflexivity|]. split; [constructor|reflexivity].
Qed.

Print Assumptions C103_streams_partial.
Print Assumptions C103_padding_refuted.
