(* Property C131: the order of the parameters of a SETTINGS frame. *)
From Coq Require Import String.
From Coq Require Import ZArith NArith List Bool Lia ZifyBool ZifyNat ZifyN Sorted Permutation.
From Verif Require Import Base Arith Util HeaderType DynTable HeaderDec FrameHeader Frames FrameBuilder Ssl Client
  SpecBits SpecHpack SpecFrame UtilProofs DynTableProofs FrameProofs HeaderProofs BlockProofs PropFrame PropSsl PropClient PropHistory PropMore.
Import ListNotations.
Local Open Scope string_scope.
Local Open Scope list_scope.
Local Open Scope N_scope.
Ltac Zify.zify_post_hook ::= Z.div_mod_to_equations.

(* ---- specification ---- *)

(* The values a list gives for one parameter, in their order. *)
Definition values_of (id : N) (params : list (N * N)) : list N := map snd (filter (fun p => fst p =? id) params).

(* The same parameters in another order; only the values of one and the same parameter keep theirs. *)
Definition reordered (params params' : list (N * N)) : Prop := forall id, values_of id params = values_of id params'.

Definition fits_fields (params : list (N * N)) : Prop := Forall (fun p => fst p < 2 ^ 16 /\ snd p < 2 ^ 32) params.

(* Two frames on the wire: the same, or SETTINGS frames that differ in the order of the parameters. *)
Definition same_but_order (w w' : wframe) : Prop :=
  w = w' \/
  exists flags reserved stream params params', w = WFrame SETTINGS flags reserved stream (settings_octets params) /\
    w' = WFrame SETTINGS flags reserved stream (settings_octets params') /\ fits_fields params /\ fits_fields params' /\ reordered params params'.

(* ---- proofs ---- *)

Lemma first_values : forall params id, first_value params id = hd_error (values_of id params).
Proof.
  unfold values_of. induction params as [|[k v] params IH]; intros id; [reflexivity|]. cbn [first_value filter fst]. destruct (k =? id); [reflexivity|apply IH].
Qed.

Lemma find_below : forall mp k, Forall (N.lt k) (map fst mp) -> sm_find mp k = None.
Proof.
  induction mp as [|[k' v] mp IH]; intros k F; [reflexivity|]. cbn [map fst] in F. apply Forall_cons_iff in F. destruct F as [L F]. cbn [sm_find].
  destruct (N.eqb_spec k k'); [lia|apply IH; exact F].
Qed.

Lemma ordered_same : forall a b, map_ordered a -> map_ordered b -> (forall k, sm_find a k = sm_find b k) -> a = b.
Proof.
  induction a as [|[k v] a IH]; intros b A B H.
  - destruct b as [|[k v] b]; [reflexivity|]. specialize (H k). cbn [sm_find] in H. rewrite N.eqb_refl in H. discriminate H.
  - destruct b as [|[k' v'] b]; [specialize (H k); cbn [sm_find] in H; rewrite N.eqb_refl in H; discriminate H|].
    apply ordered_inv in A, B. destruct A as [A AK], B as [B BK].
    assert (K : k = k').
    { destruct (N.lt_trichotomy k k') as [L|[E|L]]; [|exact E|].
      - specialize (H k). cbn [sm_find] in H. rewrite N.eqb_refl in H. destruct (N.eqb_spec k k'); [lia|].
        rewrite find_below in H; [discriminate H|]. eapply Forall_impl; [|exact BK]. intros y Y. cbv beta in *. lia.
      - specialize (H k'). cbn [sm_find] in H. rewrite N.eqb_refl in H. destruct (N.eqb_spec k' k); [lia|].
        rewrite find_below in H; [discriminate H|]. eapply Forall_impl; [|exact AK]. intros y Y. cbv beta in *. lia. }
    subst k'. pose proof (H k) as V. cbn [sm_find] in V. rewrite N.eqb_refl in V. injection V as ->. f_equal. apply IH; [exact A|exact B|].
    intros x. specialize (H x). cbn [sm_find] in H. destruct (x =? k) eqn:X; [|exact H]. apply N.eqb_eq in X. rewrite X, !find_below by assumption. reflexivity.
Qed.

Lemma payload_same : forall params params', (forall id, hd_error (values_of id params) = hd_error (values_of id params')) <->
  make_sf_payload params = make_sf_payload params'.
Proof.
  intros params params'. pose proof (proj1 (C39_first_wins_refuted params)) as A. pose proof (proj1 (C39_first_wins_refuted params')) as B. split; intros H.
  - apply ordered_same; [apply (fold_settings_ordered params); constructor|apply (fold_settings_ordered params'); constructor|].
    intros k. rewrite A, B, !first_values. apply H.
  - intros id. rewrite <- !first_values, <- A, <- B, H. reflexivity.
Qed.

Lemma settings_built : forall m flags reserved stream params T, fits_fields params ->
  build_frame m (header_of (WFrame SETTINGS flags reserved stream (settings_octets params))) (settings_octets params) T =
  Ok (mk_settings flags stream (make_sf_payload params)).
Proof.
  intros m flags reserved stream params T F. unfold header_of. cbn [w_type w_payload w_flags w_reserved w_stream]. generalize (size (settings_octets params)). intros len.
  change (build_settings_frame (FH len SETTINGS flags reserved stream) (settings_octets params) = Ok (mk_settings flags stream (make_sf_payload params))).
  unfold build_settings_frame. rewrite (settings_loop_spec params) by (try exact F; apply Nat.le_refl). reflexivity.
Qed.

Lemma handled_same : forall m T w w', same_but_order w w' -> handled m T w = handled m T w'.
Proof.
  intros m T w w' [->|(fl & r & s & ps & ps' & -> & -> & F & F' & R)]; [reflexivity|]. unfold handled. cbn [w_payload].
  rewrite !settings_built by assumption. replace (make_sf_payload ps') with (make_sf_payload ps); [reflexivity|].
  apply payload_same. intros id. rewrite (R id). reflexivity.
Qed.

(* ---------------------------------------------------------------- C131 *)

(* On any connection: if the server lists the parameters of its SETTINGS frames in another order,
   every call returns an equal frame or ends in the same way, and the tables become the same. *)
Theorem C131_received : forall m ws ws' c c' rest rest', Forall2 same_but_order ws ws' -> Forall wframe_ok ws -> Forall wframe_ok ws' -> c_resp c = c_resp c' ->
  tls_in (c_tls c) = concat (map wire ws) ++ rest -> delivers (size (concat (map wire ws))) (c_tls c) ->
  tls_in (c_tls c') = concat (map wire ws') ++ rest' -> delivers (size (concat (map wire ws'))) (c_tls c') ->
  fst (receive_n m (length ws) c) = fst (receive_n m (length ws') c') /\
  c_resp (snd (receive_n m (length ws) c)) = c_resp (snd (receive_n m (length ws') c')).
Proof.
  intros m ws ws' c c' rest rest' S. revert c c'. induction S as [|w w' ws ws' O S IH]; intros c c' F F' Q E D E' D'; [cbn; auto|].
  apply Forall_cons_iff in F. destruct F as [W F]. apply Forall_cons_iff in F'. destruct F' as [W' F']. cbn [map concat length receive_n] in *.
  rewrite <- app_assoc in E, E'. rewrite size_app in D, D'.
  destruct (receive_complete m c w _ _ W E D) as (s1 & I1 & _ & D1 & R1). destruct (receive_complete m c' w' _ _ W' E' D') as (s2 & I2 & _ & D2 & R2). rewrite R1, R2.
  assert (H : handled m (c_resp c) w = handled m (c_resp c') w') by (rewrite Q; apply handled_same; exact O).
  specialize (IH (Client s1 (c_req c) (snd (handled m (c_resp c) w))) (Client s2 (c_req c') (snd (handled m (c_resp c') w'))) F F' (f_equal snd H) I1 D1 I2 D2).
  rewrite <- H in *.
  destruct (receive_n m (length ws) _) as [rs k], (receive_n m (length ws') _) as [rs' k']. cbn [fst snd] in *. destruct IH as (A & B). rewrite A. auto.
Qed.

(* A frame made from the same parameters in another order is equal and sends the same octets. *)
Theorem C131_sent : forall host flags stream params params', reordered params params' ->
  mk_settings flags stream (make_sf_payload params) = mk_settings flags stream (make_sf_payload params') /\
  forall c, send_frame host c (mk_settings flags stream (make_sf_payload params)) = send_frame host c (mk_settings flags stream (make_sf_payload params')).
Proof.
  intros host flags stream params params' R. assert (E : make_sf_payload params = make_sf_payload params') by (apply payload_same; intros id; rewrite (R id); reflexivity).
  rewrite E. split; reflexivity.
Qed.

(* If each parameter is listed once, every order will do. *)
Theorem C131_any_order : forall params params', NoDup (map fst params) -> Permutation params params' -> reordered params params'.
Proof.
  assert (G : forall id l, NoDup (map fst l) -> forall v, In (id, v) l -> values_of id l = [v]).
  { intros id. induction l as [|[k w] l IH]; intros N v I; [destruct I|]. cbn [map fst] in N. apply NoDup_cons_iff in N. destruct N as [K N]. unfold values_of. cbn [filter fst].
    destruct I as [E|I].
    - injection E as -> ->. rewrite N.eqb_refl. cbn [map snd]. f_equal. clear - K. induction l as [|[k v'] l IH]; [reflexivity|]. cbn in *.
      destruct (N.eqb_spec k id) as [->|]; [exfalso; apply K; auto|]. apply IH. tauto.
    - destruct (N.eqb_spec k id) as [->|]; [exfalso; apply K; apply (in_map fst) in I; exact I|]. apply IH; assumption. }
  assert (Z : forall id l, (forall v, ~ In (id, v) l) -> values_of id l = []).
  { intros id. induction l as [|[k w] l IH]; intros N; [reflexivity|]. unfold values_of. cbn [filter fst].
    destruct (N.eqb_spec k id) as [->|]; [exfalso; apply (N w); left; reflexivity|]. apply IH. intros v I. apply (N v). right. exact I. }
  intros params params' N P id.
  assert (N' : NoDup (map fst params')) by (eapply Permutation_NoDup; [apply Permutation_map; exact P|exact N]).
  destruct (in_dec N.eq_dec id (map fst params)) as [I|I].
  - apply in_map_iff in I. destruct I as ([k v] & K & I). cbn [fst] in K. subst k. rewrite (G id params N v I). symmetry. apply G; [exact N'|].
    eapply Permutation_in; eassumption.
  - rewrite !Z; [reflexivity| |]; intros v J; apply I; apply in_map_iff; exists (id, v); split; try reflexivity; [|exact J].
    eapply Permutation_in; [apply Permutation_sym; exact P|exact J].
Qed.

(* Nothing else is the same: two lists give equal frames only if the first values of every
   parameter agree. *)
Theorem C131_exact : forall flags stream params params',
  mk_settings flags stream (make_sf_payload params) = mk_settings flags stream (make_sf_payload params') <->
  forall id, hd_error (values_of id params) = hd_error (values_of id params').
Proof.
  intros flags stream params params'. rewrite payload_same. split; intros H; [|rewrite H; reflexivity].
  unfold mk_settings in H. injection H as _ H. exact H.
Qed.

Example C131_case : forall m,
  let ps := [(3, 100); (1, 0); (4, 7)] in let ps' := [(4, 7); (3, 100); (1, 0)] in
  let frames p := [WFrame SETTINGS 0 0 0 (settings_octets p); WFrame HEADERS 4 0 1 [0x88]] in
  let c p := Client (Tls (concat (map wire (frames p))) [] (repeat (Chunk 4) 60)) default_table default_table in
  NoDup (map fst ps) /\ Permutation ps ps' /\ Forall2 same_but_order (frames ps) (frames ps') /\ Forall wframe_ok (frames ps) /\ Forall wframe_ok (frames ps') /\
  delivers (size (concat (map wire (frames ps)))) (c_tls (c ps)) /\ delivers (size (concat (map wire (frames ps')))) (c_tls (c ps')) /\
  (exists f g, fst (receive_n m 2 (c ps)) = [Ok f; Ok g]) /\ dt_max (c_resp (snd (receive_n m 2 (c ps)))) = 0 /\
  values_of 3 [(3, 1); (4, 9); (3, 2)] = [1; 2] /\ ~ reordered [(3, 1); (3, 2)] [(3, 2); (3, 1)] /\
  make_sf_payload [(3, 1); (3, 2)] <> make_sf_payload [(3, 2); (3, 1)].
Proof.
  intros m ps ps' frames c.
  assert (N : NoDup (map fst ps)) by (repeat constructor; cbn; intuition discriminate).
  assert (P : Permutation ps ps') by (apply Permutation_sym, (Permutation_cons_append [(3, 100); (1, 0)] (4, 7))).
  split; [exact N|]. split; [exact P|]. split.
  { constructor; [|constructor; [left; reflexivity|constructor]]. right. exists 0, 0, 0, ps, ps'.
    split; [reflexivity|]. split; [reflexivity|]. split; [repeat constructor|]. split; [repeat constructor|]. apply C131_any_order; assumption. }
  split; [repeat constructor; apply wframe_check; reflexivity|]. split; [repeat constructor; apply wframe_check; reflexivity|].
  split; [exists (repeat (Chunk 4) 60), []; split; [reflexivity|split; [repeat constructor; discriminate|apply N.leb_le; reflexivity]]|].
  split; [exists (repeat (Chunk 4) 60), []; split; [reflexivity|split; [repeat constructor; discriminate|apply N.leb_le; reflexivity]]|].
  split; [destruct m; do 2 eexists; vm_compute; reflexivity|]. split; [destruct m; vm_compute; reflexivity|]. split; [reflexivity|].
  split; [intros R; specialize (R 3); discriminate R|vm_compute; discriminate].
Qed.

Print Assumptions C131_received.
Print Assumptions C131_sent.
Print Assumptions C131_any_order.
Print Assumptions C131_exact.
