(* Property C95: the answers RFC 7540 obliges a client to give, and the octets
   it lets the server send, in runs of the sample program. *)
From Coq Require Import String.
From Coq Require Import ZArith NArith List Bool Permutation Lia ZifyBool ZifyNat ZifyN.
From Verif Require Import Base Arith Util StaticTable HeaderType DynTable HeaderEnc FrameHeader Frames FrameBuilder Ssl Client Dump Sample
  SpecBits SpecInt SpecHpack SpecFrame UtilProofs StaticProofs DynTableProofs HeaderProofs FrameProofs HistoryProofs
  PropHeader PropFrame PropSsl PropClient PropHistory PropRequest PropSample.
Import ListNotations.
Local Open Scope string_scope.
Local Open Scope list_scope.
Local Open Scope N_scope.
Ltac Zify.zify_post_hook ::= Z.div_mod_to_equations.

(* ---- specification ---- *)

(* ACK, section 6.5 and 6.7 *)
Definition is_ack (w : wframe) : bool := N.testbit (w_flags w) 0.

(* 6.5.3: SETTINGS are acknowledged by an empty SETTINGS frame with ACK.
   6.7: a PING is answered by a PING with ACK and the same payload. *)
Definition answer (w : wframe) : list wframe :=
  if is_ack w then []
  else if w_type w =? SETTINGS then [WFrame SETTINGS 1 0 0 []]
  else if w_type w =? PING then [WFrame PING 1 0 0 (w_payload w)]
  else [].

(* Every answer owed for the frames received is among the frames sent, once for
   each frame that calls for it, in any order. *)
Definition answered (received sent : list wframe) : Prop :=
  exists others, Permutation sent (flat_map answer received ++ others).

(* 6.9.1: the connection window is 65535 octets, enlarged by the WINDOW_UPDATE
   frames for stream 0; the payloads of the DATA frames, padding included, have
   to fit in. *)
Definition increment (w : wframe) : N :=
  if (w_type w =? WINDOW_UPDATE) && (w_stream w =? 0)
  then fold_left (fun a b => a * 256 + b) (w_payload w) 0 mod 2 ^ 31 else 0.
Definition data_octets (w : wframe) : N := if w_type w =? DATA then N.of_nat (length (w_payload w)) else 0.
Definition sum (l : list N) : N := fold_right N.add 0 l.
Definition within_window (sent received : list wframe) : Prop :=
  sum (map data_octets received) <= 65535 + sum (map increment sent).

(* ---- the frames sent can be told from the octets ---- *)

Lemma wire_prefix_free : forall a b x y, wframe_ok a -> wframe_ok b -> wire a ++ x = wire b ++ y -> a = b /\ x = y.
Proof.
  intros a b x y A B E. destruct (wire_split a A) as (h & WA & SA & HA). destruct (wire_split b B) as (g & WB & SB & HB).
  rewrite WA, WB, <- !app_assoc in E. apply app_split in E; [|unfold size in *; lia]. destruct E as [-> E].
  rewrite HA in HB. apply Ok_inj in HB. unfold header_of in HB. injection HB as E1 E2 E3 E4 E5.
  apply app_split in E; [|unfold size in *; lia]. destruct E as [E6 ->]. split; [|reflexivity].
  destruct a, b. cbn in *. subst. reflexivity.
Qed.

Lemma wires_inj : forall a b, Forall wframe_ok a -> Forall wframe_ok b -> concat (map wire a) = concat (map wire b) -> a = b.
Proof.
  assert (NE : forall w, wframe_ok w -> forall x, wire w ++ x <> []).
  { intros w W x E. pose proof (wire_size w W) as S. apply (f_equal size) in E. rewrite size_app, S in E. change (size (@nil N)) with 0 in E. lia. }
  intros a b A. revert b. induction A as [|w a W A IH]; intros b B E; destruct B as [|v b V B]; cbn [map concat] in E.
  - reflexivity.
  - symmetry in E. exfalso. exact (NE v V _ E).
  - exfalso. exact (NE w W _ E).
  - apply wire_prefix_free in E; [|assumption|assumption]. destruct E as [-> E]. f_equal. apply IH; assumption.
Qed.

(* ---- what the sample sends ---- *)

Definition first_three : list wframe :=
  [WFrame SETTINGS 0 0 0 (settings_octets [(1, 8192); (2, 0); (4, 65535)]); WFrame SETTINGS 1 0 0 []; WFrame HEADERS 5 0 1 get_block].
Definition last_one : wframe := WFrame GOAWAY 0 0 0 (goaway_octets 0 1 0 []).

Lemma first_three_ok : Forall wframe_ok first_three.
Proof. repeat constructor; try reflexivity; apply octets_dec; reflexivity. Qed.
Lemma last_one_ok : wframe_ok last_one.
Proof. repeat constructor; try reflexivity; apply octets_dec; reflexivity. Qed.

Lemma normal_end_sent : forall host m s text hex ws v k s' sent,
  Forall wframe_ok ws -> wframe_ok v -> (k < length (wire v))%nat ->
  tls_in s = concat (map wire ws) ++ firstn k (wire v) ->
  sample_main host m (Machine (new_client s) text hex) = (Ok tt, s') ->
  Forall wframe_ok sent -> tls_out (c_tls (mc_client s')) = tls_out s ++ preface_octets ++ concat (map wire sent) ->
  exists w0 ws1 w ws2, ws = w0 :: ws1 ++ w :: ws2 /\ Forall (fun u => ~ final_frame u) ws1 /\ final_frame w /\
    tls_in (c_tls (mc_client s')) = concat (map wire ws2) ++ firstn k (wire v) /\
    sent = first_three ++ (if w_type w =? GOAWAY then [] else [last_one]).
Proof.
  intros host m s text hex ws v k s' sent OKS V K E H OS O.
  destruct (C62_normal_end _ _ _ _ _ _ _ _ _ OKS V K E H) as (w0 & ws1 & w & ws2 & L & NF & FW & C & I & _).
  exists w0, ws1, w, ws2. split; [exact L|]. split; [exact NF|]. split; [exact FW|]. split; [exact I|].
  apply wires_inj; [exact OS| |].
  { apply Forall_app. split; [exact first_three_ok|]. destruct (w_type w =? GOAWAY); constructor; [exact last_one_ok|constructor]. }
  apply (app_inv_head (tls_out s ++ preface_octets)). rewrite <- !app_assoc. rewrite <- O. rewrite map_app, concat_app.
  destruct C as [[T ->]|[T ->]]; f_equal; unfold opening, asking.
  - rewrite T. change (GOAWAY =? GOAWAY) with true. cbn [map concat]. rewrite !app_nil_r, <- !app_assoc. reflexivity.
  - apply N.eqb_neq in T. rewrite T. cbn [map concat]. rewrite !app_nil_r, <- !app_assoc. reflexivity.
Qed.

(* ---------------------------------------------------------------- C95 *)

(* From a server that begins with its SETTINGS, as RFC 7540 3.5 demands, and
   sends no further SETTINGS and no PING, the sample owes nothing when it ends. *)
Theorem C95_answers_partial : forall host m s text hex ws v k s' sent,
  Forall wframe_ok ws -> wframe_ok v -> (k < length (wire v))%nat ->
  tls_in s = concat (map wire ws) ++ firstn k (wire v) ->
  sample_main host m (Machine (new_client s) text hex) = (Ok tt, s') ->
  Forall wframe_ok sent -> tls_out (c_tls (mc_client s')) = tls_out s ++ preface_octets ++ concat (map wire sent) ->
  (forall w, nth_error ws 0 = Some w -> w_type w = SETTINGS /\ is_ack w = false) ->
  (forall i w, nth_error ws (S i) = Some w -> w_type w = SETTINGS \/ w_type w = PING -> is_ack w = true) ->
  exists received unread, ws = received ++ unread /\ tls_in (c_tls (mc_client s')) = concat (map wire unread) ++ firstn k (wire v) /\
    answered received sent.
Proof.
  intros host m s text hex ws v k s' sent OKS V K E H OS O F R.
  destruct (normal_end_sent _ _ _ _ _ _ _ _ _ _ OKS V K E H OS O) as (w0 & ws1 & w & ws2 & L & NF & FW & I & S).
  exists (w0 :: ws1 ++ [w]), ws2. split; [rewrite L; cbn; rewrite <- app_assoc; reflexivity|]. split; [exact I|].
  destruct (F w0) as [T A]; [rewrite L; reflexivity|].
  assert (Z : flat_map answer (ws1 ++ [w]) = []).
  { assert (G : forall u, In u (ws1 ++ [w]) -> answer u = []).
    { intros u J.
      assert (J' : In u (ws1 ++ w :: ws2)) by (apply in_app_or in J; apply in_or_app; destruct J as [J|[J|[]]]; [auto|right; left; exact J]).
      apply In_nth_error in J'. destruct J' as (i & J'). specialize (R i u). rewrite L in R. cbn [nth_error] in R. specialize (R J').
      unfold answer. destruct (is_ack u); [reflexivity|].
      destruct (N.eqb_spec (w_type u) SETTINGS) as [Q|_]; [discriminate (R (or_introl Q))|].
      destruct (N.eqb_spec (w_type u) PING) as [Q|_]; [discriminate (R (or_intror Q))|reflexivity]. }
    clear -G. induction (ws1 ++ [w]) as [|u l IH]; [reflexivity|]. cbn [flat_map]. rewrite (G u (or_introl eq_refl)), IH; [reflexivity|].
    intros x J. apply G. right. exact J. }
  unfold answered. cbn [flat_map]. rewrite Z, app_nil_r. unfold answer. rewrite A, T. change (SETTINGS =? SETTINGS) with true. cbv iota.
  rewrite S. unfold first_three. eexists (_ :: _ :: _). cbn [app]. apply perm_swap.
Qed.

Lemma first_three_pings : forall w l, In w (first_three ++ (if w_type l =? GOAWAY then [] else [last_one])) -> w_type w <> PING.
Proof. intros w l I. destruct (w_type l =? GOAWAY); repeat (destruct I as [<-|I]; [discriminate|]); destruct I. Qed.

(* No PING is ever answered. *)
Theorem C95_ping_refuted : forall host m s text hex ws v k s' sent w,
  Forall wframe_ok ws -> wframe_ok v -> (k < length (wire v))%nat ->
  tls_in s = concat (map wire ws) ++ firstn k (wire v) ->
  sample_main host m (Machine (new_client s) text hex) = (Ok tt, s') ->
  Forall wframe_ok sent -> tls_out (c_tls (mc_client s')) = tls_out s ++ preface_octets ++ concat (map wire sent) ->
  forall received unread, ws = received ++ unread -> tls_in (c_tls (mc_client s')) = concat (map wire unread) ++ firstn k (wire v) ->
  In w received -> w_type w = PING -> is_ack w = false -> ~ answered received sent.
Proof.
  intros host m s text hex ws v k s' sent w OKS V K E H OS O received unread L I J T A (others & P).
  destruct (normal_end_sent _ _ _ _ _ _ _ _ _ _ OKS V K E H OS O) as (w0 & ws1 & w1 & ws2 & _ & _ & _ & _ & ->).
  assert (X : In (WFrame PING 1 0 0 (w_payload w)) (flat_map answer received ++ others)).
  { apply in_or_app. left. apply in_flat_map. exists w. split; [exact J|]. unfold answer. rewrite A, T. left. reflexivity. }
  apply (Permutation_in _ (Permutation_sym P)) in X. apply first_three_pings in X. apply X. reflexivity.
Qed.

(* Of several SETTINGS frames all but one are never acknowledged. *)
Theorem C95_settings_refuted : forall host m s text hex ws v k s' sent a b c u w,
  Forall wframe_ok ws -> wframe_ok v -> (k < length (wire v))%nat ->
  tls_in s = concat (map wire ws) ++ firstn k (wire v) ->
  sample_main host m (Machine (new_client s) text hex) = (Ok tt, s') ->
  Forall wframe_ok sent -> tls_out (c_tls (mc_client s')) = tls_out s ++ preface_octets ++ concat (map wire sent) ->
  forall unread, ws = (a ++ u :: b ++ w :: c) ++ unread -> tls_in (c_tls (mc_client s')) = concat (map wire unread) ++ firstn k (wire v) ->
  w_type u = SETTINGS -> is_ack u = false -> w_type w = SETTINGS -> is_ack w = false -> ~ answered (a ++ u :: b ++ w :: c) sent.
Proof.
  intros host m s text hex ws v k s' sent a b c u w OKS V K E H OS O unread L I TU AU TW AW (others & P).
  destruct (normal_end_sent _ _ _ _ _ _ _ _ _ _ OKS V K E H OS O) as (w0 & ws1 & w1 & ws2 & _ & _ & _ & _ & ->).
  pose (ack := fun x : wframe => (w_type x =? SETTINGS) && is_ack x).
  assert (C : forall l1 l2, Permutation l1 l2 -> length (filter ack l1) = length (filter ack l2)).
  { intros l1 l2 Q. induction Q; cbn [filter]; try congruence; repeat match goal with |- context [if ?e then _ else _] => destruct e end;
      cbn [length]; congruence. }
  apply C in P. rewrite !filter_app, !app_length in P.
  replace (length (filter ack (if w_type w1 =? GOAWAY then [] else [last_one]))) with 0%nat in P by (destruct (w_type w1 =? GOAWAY); reflexivity).
  change (length (filter ack first_three)) with 1%nat in P.
  rewrite flat_map_app, filter_app, app_length in P. cbn [flat_map] in P. rewrite flat_map_app in P. cbn [flat_map] in P.
  rewrite !filter_app, !app_length in P.
  assert (AN : forall x, w_type x = SETTINGS -> is_ack x = false -> length (filter ack (answer x)) = 1%nat).
  { intros x TX AX. unfold answer. rewrite AX, TX. reflexivity. }
  rewrite (AN u TU AU), (AN w TW AW) in P. lia.
Qed.

Lemma wires_prefix : forall a b y, Forall wframe_ok a -> Forall wframe_ok b -> concat (map wire a) ++ y = concat (map wire b) ->
  exists c, b = a ++ c.
Proof.
  intros a b y A. revert b. induction A as [|w a W A IH]; intros b B E.
  - exists b. reflexivity.
  - destruct B as [|v b V B]; cbn [map concat] in E.
    + pose proof (wire_size w W) as S. apply (f_equal size) in E. rewrite !size_app, S in E. change (size (@nil N)) with 0 in E. lia.
    + rewrite <- app_assoc in E. apply wire_prefix_free in E; [|assumption|assumption]. destruct E as [-> E].
      destruct (IH b B E) as (c & ->). exists c. reflexivity.
Qed.

(* The window is never enlarged, however the run goes: a server that respects it
   cannot send the sample more than 65535 octets of DATA, so it cannot send a
   longer response.  [sent] are the complete frames sent, [ws] the frames the
   server has sent. *)
Theorem C95_large_response_refuted : forall host m s text hex r s' sent part ws,
  sample_main host m (Machine (new_client s) text hex) = (r, s') ->
  Forall wframe_ok sent -> tls_out (c_tls (mc_client s')) = tls_out s ++ preface_octets ++ concat (map wire sent) ++ part ->
  within_window sent ws -> sum (map data_octets ws) <= 65535.
Proof.
  intros host m s text hex r s' sent part ws H OS O WW.
  destruct (C62_sends_nothing_else _ _ _ _ _ _ _ H) as (k & O'). rewrite O' in O. apply app_inv_head in O.
  pose (all := first_three ++ [last_one]).
  assert (EA : opening ++ asking ++ closing = preface_octets ++ concat (map wire all)).
  { unfold all, opening, asking. cbn [map concat app]. rewrite <- !app_assoc. cbn [app]. reflexivity. }
  rewrite <- (firstn_skipn k (opening ++ asking ++ closing)), O in EA. rewrite <- !app_assoc in EA. apply app_inv_head in EA.
  apply wires_prefix in EA; [|exact OS|apply Forall_app; split; [exact first_three_ok|constructor; [exact last_one_ok|constructor]]].
  destruct EA as (c & EA).
  assert (Z : sum (map increment all) = 0) by reflexivity.
  assert (A : forall x y, sum (map increment (x ++ y)) = sum (map increment x) + sum (map increment y)).
  { intros x y. induction x as [|b x IH]; [reflexivity|]. cbn [app map]. unfold sum in *. cbn [fold_right]. rewrite IH. lia. }
  rewrite EA, A in Z. unfold within_window in WW. lia.
Qed.

(* Five-octet response after a PING: nothing is owed without the PING. *)
Definition pinging : list wframe :=
  [WFrame SETTINGS 0 0 0 [0; 3; 0; 0; 0; 100]; WFrame PING 0 0 0 [1; 2; 3; 4; 5; 6; 7; 8]; WFrame SETTINGS 0 0 0 []; WFrame DATA 1 0 1 [104; 101; 108; 108; 111]].
Example C95_case :
  let quiet := [WFrame SETTINGS 0 0 0 [0; 3; 0; 0; 0; 100]; WFrame SETTINGS 1 0 0 []; WFrame DATA 1 0 1 [104; 101; 108; 108; 111]] in
  let run ws := sample_main LittleEndian Strict (Machine (new_client (Tls (concat (map wire ws)) [] (repeat (Chunk 5) 400))) [] false) in
  Forall wframe_ok quiet /\ Forall wframe_ok pinging /\
  within_window (first_three ++ [last_one]) quiet /\
  (forall ws, ws = quiet \/ ws = pinging -> exists s', run ws = (Ok tt, s') /\
    tls_out (c_tls (mc_client s')) = preface_octets ++ concat (map wire (first_three ++ [last_one])) /\ tls_in (c_tls (mc_client s')) = []).
Proof.
  cbv zeta. split; [repeat constructor; try reflexivity; apply octets_dec; reflexivity|].
  split; [repeat constructor; try reflexivity; apply octets_dec; reflexivity|].
  split; [vm_compute; discriminate|].
  intros ws [-> | ->]; eexists; (split; [vm_compute; reflexivity|split; vm_compute; reflexivity]).
Qed.

Print Assumptions C95_answers_partial.
Print Assumptions C95_ping_refuted.
Print Assumptions C95_settings_refuted.
Print Assumptions C95_large_response_refuted.
