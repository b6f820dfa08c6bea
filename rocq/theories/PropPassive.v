(* Property C127: frames without a header block and without a table size do not change how
   other frames are read. *)
From Coq Require Import String.
From Coq Require Import ZArith NArith List Bool Lia ZifyBool ZifyNat ZifyN.
From Verif Require Import Base Arith Util HeaderType DynTable HeaderDec FrameHeader Frames FrameBuilder Ssl Client
  SpecBits SpecHpack SpecFrame UtilProofs DynTableProofs FrameProofs HeaderProofs BlockProofs PropFrame PropSsl PropClient PropHistory PropMore.
Import ListNotations.
Local Open Scope string_scope.
Local Open Scope list_scope.
Local Open Scope N_scope.
Ltac Zify.zify_post_hook ::= Z.div_mod_to_equations.

(* ---- specification ---- *)

(* RFC 7540 section 6: frames that have nothing to do with header compression.  These are the
   frames of all types but HEADERS, PUSH_PROMISE, CONTINUATION and SETTINGS, well-formed or not
   and of unknown types too, and the SETTINGS frames without SETTINGS_HEADER_TABLE_SIZE. *)
Definition passive (w : wframe) : Prop :=
  ~ In (w_type w) [HEADERS; PUSH_PROMISE; CONTINUATION; SETTINGS] \/
  w_type w = SETTINGS /\ exists params, w_payload w = settings_octets params /\ ~ In 1 (map fst params) /\
    Forall (fun p => fst p < 2 ^ 16 /\ snd p < 2 ^ 32) params.

(* The elements at the places marked. *)
Fixpoint pick {A : Type} (marks : list bool) (l : list A) : list A :=
  match marks, l with
  | b :: marks', x :: l' => if b then x :: pick marks' l' else pick marks' l'
  | _, _ => []
  end.

(* A call that ended, with a frame or an exception. *)
Definition ended (r : res frame) : Prop := (exists f, r = Ok f) \/ exists x, r = Throw x.

(* ---- proofs ---- *)

Lemma first_value_none : forall params id, ~ In id (map fst params) -> first_value params id = None.
Proof.
  induction params as [|[k v] params IH]; intros id N; [reflexivity|]. cbn in *. destruct (N.eqb_spec k id) as [->|]; [exfalso; apply N; auto|]. apply IH. tauto.
Qed.

Lemma other_built : forall m h raw, wf_bytes raw -> ~ In (fh_type h) [HEADERS; PUSH_PROMISE; CONTINUATION; SETTINGS] ->
  exists b, ended b /\ (forall f, b = Ok f -> fh_type (frame_fh f) = fh_type h) /\ forall T, build_frame m h raw T = b.
Proof.
  intros m h raw W N. exists (build_frame m h raw default_table).
  assert (D : In (fh_type h) [PRIORITY; RST_STREAM; GOAWAY; WINDOW_UPDATE; PING; DATA] \/ ~ In (fh_type h) [PRIORITY; RST_STREAM; GOAWAY; WINDOW_UPDATE; PING; DATA])
    by (destruct (in_dec N.eq_dec (fh_type h) [PRIORITY; RST_STREAM; GOAWAY; WINDOW_UPDATE; PING; DATA]); auto).
  destruct D as [I|I].
  - split; [|split].
    + pose proof (C47_fixed_size_safe m h raw default_table W I) as C. destruct (too_short (fh_type h) raw); [right; eauto|left; exact C].
    + destruct h as [len ty fl r sid]. cbn [fh_type] in *. destruct I as [<-|[<-|[<-|[<-|[<-|[<-|[]]]]]]]; intros f E; cbn in E.
      * unfold parse_priority in E. destruct (priority_construct_payload raw); cbn [bind] in E; try discriminate E. destruct (validate_priority _); cbn [bind] in E; try discriminate E.
        injection E as <-. reflexivity.
      * unfold parse_rst_stream in E. destruct (size raw <? 4); [discriminate E|]. destruct (bytes2integral 4 raw 0); cbn [bind] in E; try discriminate E. injection E as <-. reflexivity.
      * unfold parse_goaway in E. destruct (goaway_construct_payload raw); cbn [bind] in E; try discriminate E. injection E as <-. reflexivity.
      * unfold parse_window_update in E. destruct raw; cbn [bind] in E; [discriminate E|]. destruct (negb _); cbn [bind] in E; [discriminate E|].
        destruct (bytes2integral 4 _ 0); cbn [bind] in E; try discriminate E. destruct (validate_window_size _); cbn [bind] in E; try discriminate E. injection E as <-. reflexivity.
      * injection E as <-. reflexivity.
      * injection E as <-. reflexivity.
    + intros T. destruct h as [len ty fl r sid]. cbn [fh_type] in *. destruct I as [<-|[<-|[<-|[<-|[<-|[<-|[]]]]]]]; reflexivity.
  - assert (E : forall T, build_frame m h raw T = Throw OutOfRange).
    { intros T. unfold build_frame. cbn [In] in N, I.
      repeat match goal with |- context [if fh_type h =? ?k then _ else _] => destruct (N.eqb_spec (fh_type h) k) as [Q|_]; [exfalso; unfold T_DATA, T_HEADERS, T_PRIORITY, T_RST_STREAM, T_SETTINGS, T_PUSH_PROMISE, T_PING, T_GOAWAY, T_WINDOW_UPDATE, T_CONTINUATION, HEADERS, PUSH_PROMISE, CONTINUATION, SETTINGS, PRIORITY, RST_STREAM, GOAWAY, WINDOW_UPDATE, PING, DATA in *; tauto || (rewrite Q in *; intuition congruence)|] end.
      reflexivity. }
    rewrite E. split; [right; eauto|]. split; [discriminate|exact E].
Qed.

Lemma passive_handled : forall m w, wframe_ok w -> passive w -> exists r, ended r /\ forall T, handled m T w = (r, T).
Proof.
  intros m w W [N|[TY (params & E & NI & F)]].
  - destruct (other_built m (header_of w) (w_payload w)) as (b & EN & TF & B); [apply octets_wf, W|exact N|]. exists b. split; [exact EN|]. intros T. unfold handled. rewrite B.
    destruct EN as [[f ->]|[x ->]]; [|reflexivity]. specialize (TF f eq_refl). cbn [header_of fh_type] in TF. unfold update_frame. rewrite TF. cbn [In] in N.
    repeat match goal with |- context [if w_type w =? ?k then _ else _] => destruct (N.eqb_spec (w_type w) k) as [Q|_]; [exfalso; apply N; rewrite Q; unfold T_HEADERS, T_SETTINGS, T_PUSH_PROMISE, T_CONTINUATION, HEADERS, PUSH_PROMISE, CONTINUATION, SETTINGS; auto|] end.
    reflexivity.
  - pose proof (fun T => proj2 (C39_first_wins_refuted params) F m (header_of w) T TY) as G. destruct w as [ty fl r sid p]. cbn [w_type w_payload] in *. subst ty p.
    exists (Ok (mk_settings fl sid (make_sf_payload params))). split; [left; eauto|]. intros T. destruct (G T) as (h' & mp & B & FV). unfold handled. cbn [w_payload] in *. rewrite B.
    assert (Q : build_frame m (header_of (WFrame SETTINGS fl r sid (settings_octets params))) (settings_octets params) T = Ok (mk_settings fl sid (make_sf_payload params))).
    { unfold header_of. cbn [w_type w_payload w_flags w_reserved w_stream]. generalize (size (settings_octets params)). intros len.
      change (build_settings_frame (FH len SETTINGS fl r sid) (settings_octets params) = Ok (mk_settings fl sid (make_sf_payload params))).
      unfold build_settings_frame. rewrite (settings_loop_spec params) by (try exact F; apply Nat.le_refl). reflexivity. }
    rewrite Q in B. injection B as <- <-. unfold update_frame. change (fh_type (frame_fh (SettingsFrame _ _))) with T_SETTINGS. cbn -[sm_find make_sf_payload size].
    rewrite (FV 1), first_value_none by exact NI. reflexivity.
Qed.

(* However many such frames stand between the others: the calls that receive the others have
   the outcomes they would have without them, the table for responses becomes the same, and the
   calls that receive such frames return or throw. *)
Theorem C127_undisturbed : forall m marks ws c c' rest rest', length marks = length ws -> Forall passive (pick (map negb marks) ws) -> Forall wframe_ok ws ->
  c_resp c = c_resp c' ->
  tls_in (c_tls c) = concat (map wire ws) ++ rest -> delivers (size (concat (map wire ws))) (c_tls c) ->
  tls_in (c_tls c') = concat (map wire (pick marks ws)) ++ rest' -> delivers (size (concat (map wire (pick marks ws)))) (c_tls c') ->
  let with_them := receive_n m (length ws) c in let without := receive_n m (length (pick marks ws)) c' in
  pick marks (fst with_them) = fst without /\ c_resp (snd with_them) = c_resp (snd without) /\ Forall ended (pick (map negb marks) (fst with_them)).
Proof.
  intros m marks. induction marks as [|b marks IH]; intros [|w ws] c c' rest rest' L P F Q E D E' D'; try discriminate L; [cbn; auto|].
  injection L as L. apply Forall_cons_iff in F. destruct F as [W F]. cbn [map concat length receive_n] in *.
  rewrite <- app_assoc in E. rewrite size_app in D. destruct (receive_complete m c w _ _ W E D) as (s1 & I1 & _ & D1 & R1). rewrite R1.
  destruct b; cbn [negb pick map concat length receive_n] in *.
  - rewrite <- app_assoc in E'. rewrite size_app in D'. destruct (receive_complete m c' w _ _ W E' D') as (s2 & I2 & _ & D2 & R2). rewrite R2.
    specialize (IH ws (Client s1 (c_req c) (snd (handled m (c_resp c) w))) (Client s2 (c_req c') (snd (handled m (c_resp c') w))) rest rest' L P F
      (f_equal (fun t => snd (handled m t w)) Q) I1 D1 I2 D2). rewrite Q in *.
    destruct (receive_n m (length ws) _) as [rs k], (receive_n m (length (pick marks ws)) _) as [rs' k']. cbn [fst snd pick negb map] in *.
    destruct IH as (A & B & C). rewrite A. auto.
  - apply Forall_cons_iff in P. destruct P as [PW P]. destruct (passive_handled m w W PW) as (r & EN & H). rewrite H. cbn [fst snd].
    specialize (IH ws (Client s1 (c_req c) (c_resp c)) c' rest rest' L P F Q). specialize (IH I1 D1 E' D').
    destruct (receive_n m (length ws) _) as [rs k]. cbn [fst snd pick negb map] in *. destruct IH as (A & B & C). auto.
Qed.

(* Such a frame is read the same whatever the table is, and leaves it as it is. *)
Theorem C127_anywhere : forall m w c c' rest rest', passive w -> wframe_ok w ->
  tls_in (c_tls c) = wire w ++ rest -> delivers (size (wire w)) (c_tls c) -> tls_in (c_tls c') = wire w ++ rest' -> delivers (size (wire w)) (c_tls c') ->
  fst (receive_frame m c) = fst (receive_frame m c') /\ ended (fst (receive_frame m c)) /\ c_resp (snd (receive_frame m c)) = c_resp c.
Proof.
  intros m w c c' rest rest' P W E D E' D'. destruct (passive_handled m w W P) as (r & EN & H).
  destruct (receive_complete m c w rest 0 W E) as (s1 & _ & _ & _ & R1); [rewrite N.add_0_r; exact D|].
  destruct (receive_complete m c' w rest' 0 W E') as (s2 & _ & _ & _ & R2); [rewrite N.add_0_r; exact D'|].
  rewrite R1, R2, !H. cbn [fst snd c_resp]. auto.
Qed.

(* A response with a field to be indexed, a reference to it in the next one, and between them
   a PING frame, a frame of an unknown type, a WINDOW_UPDATE frame that is too long and a
   SETTINGS frame with a parameter that RFC 7540 does not define. *)
Example C127_case : forall m,
  let a := WFrame HEADERS 4 0 1 [0x88; 0x40; 1; 97; 1; 98] in let b := WFrame HEADERS 4 0 3 [0xbe] in
  let between := [WFrame PING 0 0 0 [1; 2; 3; 4; 5; 6; 7; 8]; WFrame 77 0 0 0 [1]; WFrame WINDOW_UPDATE 0 0 0 [0; 0; 0; 1; 9]; WFrame SETTINGS 0 0 0 [0; 99; 0; 0; 0; 7]] in
  let ws := a :: between ++ [b] in let marks := [true; false; false; false; false; true] in
  length marks = length ws /\ Forall passive (pick (map negb marks) ws) /\ Forall wframe_ok ws /\ pick marks ws = [a; b] /\
  (exists f, fst (handled m default_table a) = Ok f) /\ (exists f, fst (handled m (snd (handled m default_table a)) b) = Ok f).
Proof.
  intros m a b between ws marks. split; [reflexivity|]. split; [|split; [|split; [reflexivity|]]].
  - cbn. do 3 (apply Forall_cons; [left; cbn; intuition discriminate|]). apply Forall_cons; [|apply Forall_nil]. right. split; [reflexivity|].
    exists [(99, 7)]. split; [reflexivity|]. split; [cbn; intuition discriminate|]. repeat constructor.
  - repeat constructor; apply wframe_check; reflexivity.
  - destruct m; split; eexists; vm_compute; reflexivity.
Qed.

Print Assumptions C127_undisturbed.
Print Assumptions C127_anywhere.
