(* Property C114: the order of frames. *)
From Coq Require Import String.
From Coq Require Import ZArith NArith List Bool Lia ZifyBool ZifyNat ZifyN.
From Verif Require Import Base Arith Util HeaderType DynTable FrameHeader Frames FrameBuilder Ssl Client
  SpecBits SpecHpack SpecFrame SpecValid SpecOrder DynTableProofs FrameProofs HistoryProofs
  PropSsl PropClient PropHistory PropValid PropDefined PropReceived PropDuplex PropStreams.
Import ListNotations.
Local Open Scope string_scope.
Local Open Scope list_scope.
Local Open Scope N_scope.
Ltac Zify.zify_post_hook ::= Z.div_mod_to_equations.

(* ---- Specification ---- *)

(* One step of a program: it sends frame f, which is w on the wire, or receives
   the message x. *)
Inductive act := Send (f : frame) (w : wframe) | Get (x : message).

(* The calls the program makes, with their outcomes *)
Fixpoint play (host : endian) (m : ub_mode) (c : client) (l : list act) : list (res (option frame)) * client :=
  match l with
  | [] => ([], c)
  | Send f _ :: l' =>
      let '(r, c1) := send_frame host c f in
      let '(rs, c2) := play host m c1 l' in ((let* _ := r in Ok None) :: rs, c2)
  | Get _ :: l' =>
      let '(r, c1) := receive_frame m c in
      let '(rs, c2) := play host m c1 l' in ((let* f := r in Ok (Some f)) :: rs, c2)
  end.

Definition signal_of (w : wframe) (promised : N) : signal := Signal (w_type w) (w_flags w) (w_stream w) promised.
Definition promise (c : content) : N := match c with CPush promised _ _ => promised | _ => 0 end.

(* The traffic it causes *)
Definition traffic (l : list act) : list (bool * signal) :=
  map (fun a => match a with
                | Send _ w => (true, signal_of w 0)
                | Get x => (false, signal_of (msg_frame x) (promise (msg_content x)))
                end) l.

Definition messages (l : list act) : list message := flat_map (fun a => match a with Get x => [x] | _ => [] end) l.
Definition frames_sent (l : list act) : list wframe := flat_map (fun a => match a with Send _ w => [w] | _ => [] end) l.

(* Every frame by itself is a proper one: what is sent has wire form w, and what
   is received is of the kind C93 is about (see server_session). *)
Definition proper (host : endian) (m : ub_mode) (limit : N) (t : table) (l : list act) : Prop :=
  (forall f w, In (Send f w) l -> wframe_ok w /\ serialize host f = Ok (wire w)) /\
  Forall wframe_ok (map msg_frame (messages l)) /\
  exists t', server_session m limit t (messages l) t'.

(* A client about to do so, over a connection that does not fail *)
Definition ready (c : client) (t : table) (l : list act) : Prop :=
  dt_ok (c_resp c) /\ Table (dt_max (c_resp c)) (dt_entries (c_resp c)) = t /\
  (exists rest, tls_in (c_tls c) = concat (map wire (map msg_frame (messages l))) ++ rest) /\
  delivers (size (concat (map wire (map msg_frame (messages l)))) + size (concat (map wire (frames_sent l)))) (c_tls c).

(* Every call did its work. *)
Definition works (a : act) (r : res (option frame)) : Prop :=
  match a with
  | Send _ _ => r = Ok None
  | Get x => exists f, r = Ok (Some f) /\ tells f x
  end.

Definition all_work (host : endian) (m : ub_mode) (c : client) (l : list act) : Prop :=
  exists rs c', play host m c l = (rs, c') /\ Forall2 works l rs /\
    tls_out (c_tls c') = tls_out (c_tls c) ++ concat (map wire (frames_sent l)).

(* ---- Proofs ---- *)

Lemma all_frames_work : forall host m limit l t c, proper host m limit t l -> ready c t l -> all_work host m c l.
Proof.
  intros host m limit. induction l as [|a l IH]; intros t c (P1 & P2 & t' & P3) (K & T & (rest & E) & D).
  - exists [], c. cbn. rewrite app_nil_r. split; [reflexivity|]. split; [constructor|reflexivity].
  - destruct a as [f w|x].
    + destruct (P1 f w (or_introl eq_refl)) as [W S].
      change (messages (Send f w :: l)) with (messages l) in *.
      change (frames_sent (Send f w :: l)) with (w :: frames_sent l) in *. cbn [map concat] in D |- *. rewrite size_app in D.
      destruct (send_raw_quiet c (wire w) (size (concat (map wire (map msg_frame (messages l)))) + size (concat (map wire (frames_sent l)))))
        as (s & R & D' & O & I).
      { pose proof (wire_size w W) as Z. destruct W as (_ & _ & _ & _ & _ & L). rewrite Z. change (2 ^ 31) with 2147483648.
        change (2 ^ 24) with 16777216 in L. lia. }
      { replace (size (wire w) + (size (concat (map wire (map msg_frame (messages l)))) + size (concat (map wire (frames_sent l)))))
          with (size (concat (map wire (map msg_frame (messages l)))) + (size (wire w) + size (concat (map wire (frames_sent l))))) by lia. exact D. }
      destruct (IH t (Client s (c_req c) (c_resp c))) as (rs & c' & PL & WK & OUT).
      { split; [|split; [exact P2|exists t'; exact P3]]. intros g v J. apply P1. right. exact J. }
      { split; [exact K|]. split; [exact T|]. split; [exists rest; cbn [c_tls]; rewrite I; exact E|exact D']. }
      unfold all_work. cbn [play]. unfold send_frame. rewrite S. cbn [bind]. rewrite R, PL. eexists _, _. split; [reflexivity|].
      split; [constructor; [reflexivity|exact WK]|]. rewrite OUT. cbn [c_tls]. rewrite O. cbn [frames_sent flat_map app map concat].
      rewrite <- app_assoc. reflexivity.
    + change (messages (Get x :: l)) with (x :: messages l) in *. change (frames_sent (Get x :: l)) with (frames_sent l) in *.
      cbn [map concat] in E, D, P2. rewrite <- app_assoc in E. rewrite size_app, <- N.add_assoc in D.
      inversion P3 as [|t0 x0 t1 xs t2 SX SS]; subst t0 x0 xs t2. pose proof (Forall_inv P2) as W.
      destruct (receive_complete m c (msg_frame x) _ _ W E D) as (s1 & I1 & O1 & D1 & R1).
      destruct (handled_message m limit t x t1 (c_resp c) SX W K T) as (f & B & TL & K1 & T1).
      destruct (IH t1 (Client s1 (c_req c) (snd (handled m (c_resp c) (msg_frame x))))) as (rs & c' & PL & WK & OUT).
      { split; [|split; [exact (Forall_inv_tail P2)|exists t'; exact SS]]. intros g v J. apply P1. right. exact J. }
      { split; [exact K1|]. split; [exact T1|]. split; [exists rest; exact I1|exact D1]. }
      unfold all_work. cbn [play]. rewrite R1, PL, B. eexists _, _. split; [reflexivity|].
      split; [constructor; [exists f; split; [reflexivity|exact TL]|exact WK]|]. rewrite OUT. cbn [c_tls]. rewrite O1. reflexivity.
Qed.

(* The state after some traffic; None once the RFC was broken. *)
Definition step (c : connection) (x : bool * signal) : option connection :=
  if fst x then sends c (snd x) else receives c (snd x).
Fixpoint run (c : connection) (l : list (bool * signal)) : option connection :=
  match l with
  | [] => Some c
  | x :: l' => match step c x with Some c' => run c' l' | None => None end
  end.

Lemma lawful_run : forall l c, lawful_from c l <-> exists c', run c l = Some c'.
Proof.
  induction l as [|[out s] l IH]; intros c; cbn [lawful_from run].
  - split; [intros _; exists c; reflexivity|intros _; exact I].
  - unfold step. cbn [fst snd]. destruct (if out then sends c s else receives c s) as [c'|]; [apply IH|].
    split; [intros []|intros (c' & X); discriminate X].
Qed.

Lemma run_app : forall a b c, run c (a ++ b) = match run c a with Some c' => run c' b | None => None end.
Proof. induction a as [|x a IH]; intros b c; cbn [app run]; [reflexivity|]. destruct (step c x); [apply IH|reflexivity]. Qed.

(* Traffic that breaks the RFC at x, if it has not before. *)
Lemma unlawful : forall a x b, (forall c, run new_connection a = Some c -> step c x = None) -> ~ lawful (a ++ x :: b).
Proof.
  intros a x b H L. unfold lawful in L. apply lawful_run in L. destruct L as (c' & R). rewrite run_app in R.
  destruct (run new_connection a) as [c|]; [|discriminate R]. cbn [run] in R. rewrite (H c eq_refl) in R. discriminate R.
Qed.

(* Something that holds at first and is kept by each step holds afterwards. *)
Lemma run_keeps : forall (Q : connection -> Prop) (P : bool * signal -> Prop),
  (forall c x c', Q c -> P x -> step c x = Some c' -> Q c') ->
  forall l c c', Forall P l -> Q c -> run c l = Some c' -> Q c'.
Proof.
  intros Q P H l. induction l as [|x l IH]; intros c c' F K R; cbn [run] in R; [injection R as <-; exact K|].
  destruct (step c x) as [c1|] eqn:S; [|discriminate R]. exact (IH c1 c' (Forall_inv_tail F) (H c x c1 K (Forall_inv F) S) R).
Qed.

(* Every way a step can be taken *)
Ltac split_step H :=
  cbn [step fst snd] in H; unfold receives, sends in H; cbv zeta in H;
  repeat match type of H with
  | context [if ?b then _ else _] => destruct b eqn:?; try discriminate H
  | context [match ?o with Some _ => _ | None => _ end] => destruct o eqn:?; try discriminate H
  | context [match streams ?c ?s with _ => _ end] => destruct (streams c s) eqn:?; try discriminate H
  end;
  injection H as H; subst.

Ltac facts :=
  repeat match goal with
  | H : (?a =? ?b) = true |- _ => apply N.eqb_eq in H
  | H : (?a && ?b) = true |- _ => apply andb_true_iff in H; destruct H
  end.

Ltac chase :=
  cbn [streams list_in list_out begun_in begun_out highest fst snd] in *; unfold turn in *; facts;
  repeat match goal with |- context [if ?a =? ?b then _ else _] => destruct (N.eqb_spec a b); [subst|] end;
  repeat match goal with |- context [if ?b then _ else _] => destruct b end;
  try assumption; try congruence; try tauto; try lia.

Definition cancels (sid : N) (x : bool * signal) : Prop := fst x = true /\ s_type (snd x) = RST_STREAM /\ s_stream (snd x) = sid.
Definition requests (sid : N) (x : bool * signal) : Prop := fst x = true /\ s_type (snd x) = HEADERS /\ s_stream (snd x) = sid.

Lemma keep_uncancelled : forall sid c x c', streams c sid <> Cancelled -> ~ cancels sid x -> step c x = Some c' -> streams c' sid <> Cancelled.
Proof. intros sid c [[] s] c' K P H; unfold cancels in P; cbn [fst snd] in P; split_step H; chase. Qed.

Lemma keep_ended : forall sid c x c', (streams c sid = HalfClosedRemote \/ streams c sid = Closed) -> ~ cancels sid x -> step c x = Some c' ->
  streams c' sid = HalfClosedRemote \/ streams c' sid = Closed.
Proof. intros sid c [[] s] c' [K|K] P H; unfold cancels in P; cbn [fst snd] in P; split_step H; chase. Qed.

Lemma keep_finished : forall sid c x c', (streams c sid = HalfClosedLocal \/ streams c sid = Closed \/ streams c sid = Cancelled) -> True ->
  step c x = Some c' -> streams c' sid = HalfClosedLocal \/ streams c' sid = Closed \/ streams c' sid = Cancelled.
Proof. intros sid c [[] s] c' [K|[K|K]] _ H; split_step H; chase. Qed.

Lemma keep_idle : forall sid c x c', N.odd sid = true -> streams c sid = Idle -> ~ requests sid x -> step c x = Some c' -> streams c' sid = Idle.
Proof.
  intros sid c [[] s] c' O K P H; unfold requests in P; cbn [fst snd] in P; rewrite <- N.negb_even in O; split_step H; chase;
    first [exfalso; apply P; repeat split; assumption | match goal with H : N.even _ = true |- _ => rewrite H in O; discriminate O end].
Qed.

Lemma keep_even : forall sid c x c', N.even sid = true -> (streams c sid <> Open /\ streams c sid <> HalfClosedRemote) -> True -> step c x = Some c' ->
  streams c' sid <> Open /\ streams c' sid <> HalfClosedRemote.
Proof.
  intros sid c [[] s] c' O [K1 K2] _ H; split_step H; chase; try (split; discriminate);
    exfalso; match goal with H : N.odd _ = true |- _ => rewrite <- N.negb_even, O in H; discriminate H end.
Qed.

Lemma keep_highest : forall n c x c', n <= highest c -> True -> step c x = Some c' -> n <= highest c'.
Proof. intros n c [[] s] c' K _ H; split_step H; chase. Qed.

Lemma keep_list : forall i c x c', list_in c = Some i -> fst x = true -> step c x = Some c' -> list_in c' = Some i.
Proof. intros i c [[] s] c' K P H; [|discriminate P]. split_step H; chase. Qed.

Lemma keep_unbegun : forall c x c', begun_in c = false -> fst x = true -> step c x = Some c' -> begun_in c' = false.
Proof. intros c [[] s] c' K P H; [|discriminate P]. split_step H; chase. Qed.

(* ---------------------------------------------------------------- C114 *)

Lemma traffic_app : forall a b, traffic (a ++ b) = traffic a ++ traffic b.
Proof. intros a b. apply map_app. Qed.
Lemma traffic_all : forall (P : bool * signal -> Prop) (Q : act -> Prop) l,
  (forall a, Q a -> P (match a with Send _ w => (true, signal_of w 0) | Get x => (false, signal_of (msg_frame x) (promise (msg_content x))) end)) ->
  Forall Q l -> Forall P (traffic l).
Proof. intros P Q l H F. unfold traffic. apply Forall_map. eapply Forall_impl; [|exact F]. exact H. Qed.

(* What RFC 7540 allows passes unharmed. *)
Theorem C114_lawful_partial : forall host m limit t c l, proper host m limit t l -> ready c t l ->
  lawful (traffic l) -> all_work host m c l.
Proof. intros host m limit t c l P R _. exact (all_frames_work host m limit l t c P R). Qed.

(* So does what it forbids: the order of frames is not checked at all. *)
Theorem C114_unlawful_refuted : forall host m limit t c l, proper host m limit t l -> ready c t l ->
  ~ lawful (traffic l) -> all_work host m c l.
Proof. intros host m limit t c l P R _. exact (all_frames_work host m limit l t c P R). Qed.

Definition sent_act (a : act) : Prop := match a with Send _ _ => True | Get _ => False end.
Definition resets (sid : N) (a : act) : Prop := match a with Send _ w => w_type w = RST_STREAM /\ w_stream w = sid | Get _ => False end.
Definition opens (sid : N) (a : act) : Prop := match a with Send _ w => w_type w = HEADERS /\ w_stream w = sid | Get _ => False end.

(* A server that does not begin with SETTINGS *)
Theorem C114_first_frame_refuted : forall host m limit t c a x b, let l := a ++ Get x :: b in
  proper host m limit t l -> ready c t l -> Forall sent_act a ->
  (w_type (msg_frame x) <> SETTINGS \/ N.testbit (w_flags (msg_frame x)) 0 = true) ->
  ~ lawful (traffic l) /\ all_work host m c l.
Proof.
  intros host m limit t c a x b l P R S F. split; [|exact (all_frames_work host m limit l t c P R)].
  unfold l. rewrite traffic_app. cbn [traffic map]. apply unlawful. intros k K.
  assert (B : begun_in k = false).
  { apply (run_keeps (fun k => begun_in k = false) (fun y => fst y = true) keep_unbegun (traffic a) new_connection k); [|reflexivity|exact K].
    apply (traffic_all _ sent_act); [|exact S]. intros [f w|y] Y; [reflexivity|destruct Y]. }
  unfold step, receives. cbn [fst snd]. rewrite B. cbn [negb andb]. unfold acknowledges, signal_of. cbn [s_type s_flags].
  destruct F as [F|F]; [apply N.eqb_neq in F; rewrite F|rewrite F, andb_false_r]; reflexivity.
Qed.

(* Any other frame in the middle of a header list *)
Theorem C114_header_list_refuted : forall host m limit t c a x b y d, let l := a ++ Get x :: b ++ Get y :: d in
  proper host m limit t l -> ready c t l -> Forall sent_act b ->
  w_type (msg_frame x) = HEADERS \/ w_type (msg_frame x) = PUSH_PROMISE -> N.testbit (w_flags (msg_frame x)) 2 = false ->
  ~ (w_type (msg_frame y) = CONTINUATION /\ w_stream (msg_frame y) = w_stream (msg_frame x)) ->
  ~ lawful (traffic l) /\ all_work host m c l.
Proof.
  intros host m limit t c a x b y d l P R S TX FX NY. split; [|exact (all_frames_work host m limit l t c P R)].
  unfold l. rewrite (app_comm_cons b), app_assoc, traffic_app. cbn [traffic map]. apply unlawful. intros k K.
  fold (traffic (a ++ Get x :: b)) in K. rewrite traffic_app, PropOrder.run_app in K. cbn [traffic map run] in K. fold (traffic b) in K.
  destruct (run new_connection (traffic a)) as [k1|]; [|discriminate K].
  destruct (step k1 (false, signal_of (msg_frame x) (promise (msg_content x)))) as [k2|] eqn:S2; [|discriminate K].
  assert (L2 : list_in k2 = Some (w_stream (msg_frame x))).
  { clear K. set (s := signal_of (msg_frame x) (promise (msg_content x))) in *.
    assert (OL : open_list s = Some (w_stream (msg_frame x))) by (unfold open_list, ends_list; change (s_flags s) with (w_flags (msg_frame x)); rewrite FX; reflexivity).
    assert (TS : s_type s = HEADERS \/ s_type s = PUSH_PROMISE) by exact TX. clearbody s.
    split_step S2; cbn [list_in]; try exact OL; exfalso; destruct TS as [TS|TS]; rewrite TS in *; discriminate. }
  assert (L : list_in k = Some (w_stream (msg_frame x))).
  { apply (run_keeps (fun k => list_in k = Some (w_stream (msg_frame x))) (fun y => fst y = true) (keep_list _) (traffic b) k2 k); [|exact L2|exact K].
    apply (traffic_all _ sent_act); [|exact S]. intros [f w|z] Z; [reflexivity|destruct Z]. }
  unfold step, receives. cbn [fst snd]. rewrite L. cbn [signal_of s_type s_stream].
  destruct (negb (begun_in k) && negb ((w_type (msg_frame y) =? SETTINGS) && negb (acknowledges (signal_of (msg_frame y) (promise (msg_content y)))))); [reflexivity|].
  destruct (N.eqb_spec (w_type (msg_frame y)) CONTINUATION) as [E1|E1]; [|reflexivity].
  destruct (N.eqb_spec (w_stream (msg_frame y)) (w_stream (msg_frame x))) as [E2|E2]; [|reflexivity].
  exfalso. apply NY. split; assumption.
Qed.

Definition ends (sid : N) (w : wframe) : Prop := w_stream w = sid /\
  ((w_type w = DATA \/ w_type w = HEADERS) /\ N.testbit (w_flags w) 0 = true \/ w_type w = RST_STREAM).

(* DATA or HEADERS on a stream the server has ended or reset *)
Theorem C114_after_end_refuted : forall host m limit t c a x b y d sid, let l := a ++ Get x :: b ++ Get y :: d in
  proper host m limit t l -> ready c t l -> Forall (fun z => ~ resets sid z) (a ++ b) ->
  ends sid (msg_frame x) -> w_stream (msg_frame y) = sid -> w_type (msg_frame y) = DATA \/ w_type (msg_frame y) = HEADERS ->
  ~ lawful (traffic l) /\ all_work host m c l.
Proof.
  intros host m limit t c a x b y d sid l P R S [SX EX] SY TY. split; [|exact (all_frames_work host m limit l t c P R)].
  unfold l. rewrite (app_comm_cons b), app_assoc, traffic_app. cbn [traffic map]. apply unlawful. intros k K.
  fold (traffic (a ++ Get x :: b)) in K. rewrite traffic_app, PropOrder.run_app in K. cbn [traffic map run] in K. fold (traffic b) in K.
  destruct (run new_connection (traffic a)) as [k1|] eqn:K1; [|discriminate K].
  destruct (step k1 (false, signal_of (msg_frame x) (promise (msg_content x)))) as [k2|] eqn:S2; [|discriminate K].
  assert (NC : forall z, Forall (fun z => ~ resets sid z) z -> Forall (fun y => ~ cancels sid y) (traffic z)).
  { intros z Z. apply (traffic_all _ (fun z => ~ resets sid z)); [|exact Z]. intros [f w|v] V; unfold cancels; cbn; [|intros [X _]; discriminate X].
    intros (_ & X). exact (V X). }
  apply Forall_app in S. destruct S as [SA SB].
  assert (U : streams k1 sid <> Cancelled).
  { apply (run_keeps (fun k => streams k sid <> Cancelled) (fun y => ~ cancels sid y) (keep_uncancelled sid) (traffic a) new_connection k1); [|discriminate|exact K1].
    apply NC. exact SA. }
  assert (E2 : streams k2 sid = HalfClosedRemote \/ streams k2 sid = Closed).
  { clear K K1. set (s := signal_of (msg_frame x) (promise (msg_content x))) in *.
    assert (SS : s_stream s = sid) by exact SX.
    assert (ES : (s_type s = DATA \/ s_type s = HEADERS) /\ stream_ends s = true \/ s_type s = RST_STREAM) by exact EX. clearbody s.
    rewrite <- SS in U |- *. destruct ES as [[[TS|TS] ES]|TS]; split_step S2; try (rewrite TS in *; discriminate);
      cbn [streams]; unfold turn; rewrite ?N.eqb_refl, ?ES; auto; try contradiction; try congruence;
      try (rewrite TS in *; cbn in *; discriminate). }
  assert (E : streams k sid = HalfClosedRemote \/ streams k sid = Closed).
  { apply (run_keeps (fun k => streams k sid = HalfClosedRemote \/ streams k sid = Closed) (fun y => ~ cancels sid y) (keep_ended sid) (traffic b) k2 k); [|exact E2|exact K].
    apply NC. exact SB. }
  clear -E SY TY. destruct (step k (false, signal_of (msg_frame y) (promise (msg_content y)))) as [k'|] eqn:S; [exfalso|reflexivity].
  set (s := signal_of (msg_frame y) (promise (msg_content y))) in *. assert (SS : s_stream s = sid) by exact SY.
  assert (TS : s_type s = DATA \/ s_type s = HEADERS) by exact TY. clearbody s. rewrite <- SS in E.
  destruct TS as [TS|TS]; split_step S; try (rewrite TS in *; discriminate); destruct E; congruence.
Qed.

(* The state a stream is in after some traffic that opened it in no way *)
Lemma still_idle : forall sid a k, N.odd sid = true -> Forall (fun z => ~ opens sid z) a ->
  run new_connection (traffic a) = Some k -> streams k sid = Idle.
Proof.
  intros sid a k O F K.
  apply (run_keeps (fun k => streams k sid = Idle) (fun y => ~ requests sid y) (fun c x c' => keep_idle sid c x c' O) (traffic a) new_connection k); [|reflexivity|exact K].
  apply (traffic_all _ (fun z => ~ opens sid z)); [|exact F]. intros [f w|v] V; unfold requests; cbn; [|intros [X _]; discriminate X].
  intros (_ & X). exact (V X).
Qed.

(* A response that was not asked for *)
Theorem C114_unrequested_refuted : forall host m limit t c a x b sid, let l := a ++ Get x :: b in
  proper host m limit t l -> ready c t l -> N.odd sid = true -> Forall (fun z => ~ opens sid z) a ->
  w_stream (msg_frame x) = sid -> w_type (msg_frame x) = DATA \/ w_type (msg_frame x) = HEADERS ->
  ~ lawful (traffic l) /\ all_work host m c l.
Proof.
  intros host m limit t c a x b sid l P R O S SX TX. split; [|exact (all_frames_work host m limit l t c P R)].
  unfold l. rewrite traffic_app. cbn [traffic map]. apply unlawful. intros k K. pose proof (still_idle sid a k O S K) as J.
  clear -J SX TX. destruct (step k (false, signal_of (msg_frame x) (promise (msg_content x)))) as [k'|] eqn:S; [exfalso|reflexivity].
  set (s := signal_of (msg_frame x) (promise (msg_content x))) in *. assert (SS : s_stream s = sid) by exact SX.
  assert (TS : s_type s = DATA \/ s_type s = HEADERS) by exact TX. clearbody s. rewrite <- SS in J.
  destruct TS as [TS|TS]; split_step S; try (rewrite TS in *; discriminate); congruence.
Qed.

(* A request on a stream with an even number *)
Theorem C114_even_refuted : forall host m limit t c a f w b, let l := a ++ Send f w :: b in
  proper host m limit t l -> ready c t l -> w_type w = HEADERS -> N.even (w_stream w) = true ->
  ~ lawful (traffic l) /\ all_work host m c l.
Proof.
  intros host m limit t c a f w b l P R T E. split; [|exact (all_frames_work host m limit l t c P R)].
  unfold l. rewrite traffic_app. cbn [traffic map]. apply unlawful. intros k K.
  assert (J : streams k (w_stream w) <> Open /\ streams k (w_stream w) <> HalfClosedRemote).
  { apply (run_keeps (fun k => streams k (w_stream w) <> Open /\ streams k (w_stream w) <> HalfClosedRemote) (fun _ => True)
      (fun c x c' => keep_even (w_stream w) c x c' E) (traffic a) new_connection k); [|split; discriminate|exact K].
    apply Forall_forall. intros; exact I. }
  clear -J E T. destruct (step k (true, signal_of w 0)) as [k'|] eqn:S; [exfalso|reflexivity].
  change (w_stream w) with (s_stream (signal_of w 0)) in *. assert (TS : s_type (signal_of w 0) = HEADERS) by exact T.
  set (s := signal_of w 0) in *. clearbody s. destruct J as [J1 J2].
  split_step S; try (rewrite TS in *; discriminate); try congruence; facts;
    match goal with X : N.odd _ = true |- _ => rewrite <- N.negb_even, E in X; discriminate X end.
Qed.

(* A second request, or more data, on a stream whose request was complete *)
Theorem C114_reuse_refuted : forall host m limit t c a f w b g v d, let l := a ++ Send f w :: b ++ Send g v :: d in
  proper host m limit t l -> ready c t l ->
  w_type w = HEADERS \/ w_type w = DATA -> N.testbit (w_flags w) 0 = true ->
  w_type v = HEADERS \/ w_type v = DATA -> w_stream v = w_stream w ->
  ~ lawful (traffic l) /\ all_work host m c l.
Proof.
  intros host m limit t c a f w b g v d l P R TW FW TV SV. split; [|exact (all_frames_work host m limit l t c P R)].
  unfold l. rewrite (app_comm_cons b), app_assoc, traffic_app. cbn [traffic map]. apply unlawful. intros k K.
  fold (traffic (a ++ Send f w :: b)) in K. rewrite traffic_app, PropOrder.run_app in K. cbn [traffic map run] in K. fold (traffic b) in K.
  destruct (run new_connection (traffic a)) as [k1|] eqn:K1; [|discriminate K].
  destruct (step k1 (true, signal_of w 0)) as [k2|] eqn:S2; [|discriminate K].
  assert (E2 : streams k2 (w_stream w) = HalfClosedLocal \/ streams k2 (w_stream w) = Closed \/ streams k2 (w_stream w) = Cancelled).
  { clear K K1. change (w_stream w) with (s_stream (signal_of w 0)).
    assert (ES : stream_ends (signal_of w 0) = true) by exact FW.
    assert (TS : s_type (signal_of w 0) = HEADERS \/ s_type (signal_of w 0) = DATA) by exact TW.
    set (s := signal_of w 0) in *. clearbody s.
    destruct TS as [TS|TS]; split_step S2; try (rewrite TS in *; discriminate);
      cbn [streams]; unfold turn; rewrite ?N.eqb_refl, ?ES; auto; try congruence. }
  assert (E : streams k (w_stream w) = HalfClosedLocal \/ streams k (w_stream w) = Closed \/ streams k (w_stream w) = Cancelled).
  { apply (run_keeps (fun k => streams k (w_stream w) = HalfClosedLocal \/ streams k (w_stream w) = Closed \/ streams k (w_stream w) = Cancelled)
      (fun _ => True) (keep_finished (w_stream w)) (traffic b) k2 k); [|exact E2|exact K]. apply Forall_forall. intros; exact I. }
  clear -E SV TV. destruct (step k (true, signal_of v 0)) as [k'|] eqn:S; [exfalso|reflexivity].
  rewrite <- SV in E. change (w_stream v) with (s_stream (signal_of v 0)) in E.
  assert (TS : s_type (signal_of v 0) = HEADERS \/ s_type (signal_of v 0) = DATA) by exact TV. set (s := signal_of v 0) in *. clearbody s.
  destruct TS as [TS|TS]; split_step S; try (rewrite TS in *; discriminate); destruct E as [E|[E|E]]; congruence.
Qed.

(* A new request on a lower stream than an earlier one *)
Theorem C114_lower_refuted : forall host m limit t c a f w b g v d, let l := a ++ Send f w :: b ++ Send g v :: d in
  proper host m limit t l -> ready c t l -> w_type w = HEADERS -> w_type v = HEADERS ->
  Forall (fun z => ~ opens (w_stream w) z) a -> Forall (fun z => ~ opens (w_stream v) z) (a ++ b) -> w_stream v < w_stream w ->
  ~ lawful (traffic l) /\ all_work host m c l.
Proof.
  intros host m limit t c a f w b g v d l P R TW TV FA FV LT.
  destruct (N.even (w_stream v)) eqn:EV.
  { unfold l in *. rewrite (app_comm_cons b), app_assoc in *. exact (C114_even_refuted host m limit t c (a ++ Send f w :: b) g v d P R TV EV). }
  destruct (N.even (w_stream w)) eqn:EW.
  { exact (C114_even_refuted host m limit t c a f w (b ++ Send g v :: d) P R TW EW). }
  split; [|exact (all_frames_work host m limit l t c P R)].
  unfold l. rewrite (app_comm_cons b), app_assoc, traffic_app. cbn [traffic map]. apply unlawful. intros k K.
  fold (traffic (a ++ Send f w :: b)) in K.
  assert (J : streams k (w_stream v) = Idle).
  { apply (still_idle _ (a ++ Send f w :: b)); [rewrite <- N.negb_even, EV; reflexivity| |exact K].
    apply Forall_app in FV. destruct FV as [F1 F2]. apply Forall_app. split; [exact F1|]. constructor; [|exact F2]. cbn. intros [_ X]. lia. }
  rewrite traffic_app, PropOrder.run_app in K. cbn [traffic map run] in K. fold (traffic b) in K.
  destruct (run new_connection (traffic a)) as [k1|] eqn:K1; [|discriminate K].
  destruct (step k1 (true, signal_of w 0)) as [k2|] eqn:S2; [|discriminate K].
  assert (J1 : streams k1 (w_stream w) = Idle).
  { apply (still_idle _ a); [rewrite <- N.negb_even, EW; reflexivity|exact FA|exact K1]. }
  assert (H2 : w_stream w <= highest k2).
  { clear K K1. change (w_stream w) with (s_stream (signal_of w 0)) in *.
    assert (TS : s_type (signal_of w 0) = HEADERS) by exact TW. set (s := signal_of w 0) in *. clearbody s.
    split_step S2; try (rewrite TS in *; discriminate); try congruence; cbn [highest]; lia. }
  assert (H : w_stream w <= highest k).
  { apply (run_keeps (fun k => w_stream w <= highest k) (fun _ => True) (keep_highest (w_stream w)) (traffic b) k2 k); [|exact H2|exact K].
    apply Forall_forall. intros; exact I. }
  clear -J TV H LT. destruct (step k (true, signal_of v 0)) as [k'|] eqn:S; [exfalso|reflexivity].
  change (w_stream v) with (s_stream (signal_of v 0)) in *. assert (TS : s_type (signal_of v 0) = HEADERS) by exact TV.
  set (s := signal_of v 0) in *. clearbody s.
  split_step S; try (rewrite TS in *; discriminate); try congruence; facts;
    match goal with X : (_ <? s_stream _) = true |- _ => apply N.ltb_lt in X end; lia.
Qed.

(* Two requests and their responses (interleaved, see PropStreams.v) *)
Definition raw (w : wframe) : act := Send (RawFrame (FH (size (w_payload w)) (w_type w) (w_flags w) (w_reserved w) (w_stream w)) (w_payload w)) w.
Definition beginning : list act := [raw (WFrame SETTINGS 0 0 0 [])].
Definition ask_on (sid : N) : act := raw (WFrame HEADERS 5 0 sid [0x82; 0x87; 0x84; 0x41; 1; 97]).
Definition lawful_program : list act :=
  beginning ++ map Get (firstn 1 interleaved) ++ [raw (WFrame SETTINGS 1 0 0 []); ask_on 1; ask_on 3] ++ map Get (skipn 1 interleaved).
(* Nobody asked *)
Definition unasked_program : list act := beginning ++ map Get interleaved.
(* Streams in the wrong order; twice the same; an even one *)
Definition wrong_program : list act := beginning ++ [ask_on 5; ask_on 3; ask_on 3; ask_on 2] ++ map Get interleaved.

Example C114_case : forall host m, let c := new_client (Tls (concat (map wire (map msg_frame interleaved))) [] (repeat (Chunk 5) 400)) in
  let t := Table 4096 [] in
  (lawful (traffic lawful_program) /\ proper host m 4096 t lawful_program /\ ready c t lawful_program) /\
  (proper host m 4096 t unasked_program /\ ready c t unasked_program /\
   Forall (fun z => ~ opens 1 z) (beginning ++ map Get (firstn 1 interleaved)) /\
   exists x, nth_error interleaved 1 = Some x /\ w_stream (msg_frame x) = 1 /\ w_type (msg_frame x) = HEADERS) /\
  (proper host m 4096 t wrong_program /\ ready c t wrong_program /\ Forall (fun z => ~ opens 3 z) (beginning ++ [ask_on 5]) /\
   Forall (fun z => ~ opens 5 z) beginning).
Proof.
  intros host m c t.
  assert (Q : forall l, messages l = interleaved ->
    (forall a, In a l -> match a with Send f w => exists v, a = raw v /\ In v [WFrame SETTINGS 0 0 0 []; WFrame SETTINGS 1 0 0 [];
       WFrame HEADERS 5 0 1 [0x82; 0x87; 0x84; 0x41; 1; 97]; WFrame HEADERS 5 0 2 [0x82; 0x87; 0x84; 0x41; 1; 97];
       WFrame HEADERS 5 0 3 [0x82; 0x87; 0x84; 0x41; 1; 97]; WFrame HEADERS 5 0 5 [0x82; 0x87; 0x84; 0x41; 1; 97]] | Get _ => True end) ->
    size (concat (map wire (map msg_frame interleaved))) + size (concat (map wire (frames_sent l))) <= 400 ->
    proper host m 4096 t l /\ ready c t l).
  { intros l M A D. destruct (C103_case m) as (S & W & _). split.
    - split; [|rewrite M; split; [exact W|eexists; exact S]]. intros f w J. destruct (A _ J) as (v & E & V).
      unfold raw in E. assert (EV : v = w) by congruence. subst v. assert (EF : f = RawFrame (FH (size (w_payload w)) (w_type w) (w_flags w) (w_reserved w) (w_stream w)) (w_payload w)) by congruence.
      rewrite EF. clear E EF J. cbn [In] in V.
      repeat (destruct V as [<-|V]; [split; [apply wframe_check; reflexivity|destruct host; reflexivity]|]). destruct V.
    - split; [cbn; split; [reflexivity|discriminate]|]. split; [reflexivity|]. rewrite M. split; [exists []; rewrite app_nil_r; reflexivity|].
      exists (repeat (Chunk 5) 400), []. split; [rewrite app_nil_r; reflexivity|].
      split; [apply Forall_forall; intros e E; apply repeat_spec in E; subst e; discriminate|]. exact D. }
  assert (NO : forall sid l, (forall a, In a l -> match a with Send _ w => w_type w <> HEADERS \/ w_stream w <> sid | Get _ => True end) -> Forall (fun z => ~ opens sid z) l).
  { intros sid l H. apply Forall_forall. intros a I X. specialize (H a I). destruct a as [f w|x]; [|exact X]. destruct X as [X1 X2]. destruct H as [H|H]; contradiction. }
  split; [|split].
  - split; [vm_compute; exact I|]. apply Q; [reflexivity| |vm_compute; discriminate].
    intros a J. cbn in J. repeat (destruct J as [<-|J]; [first [exact I|eexists; split; [reflexivity|cbn; tauto]]|]). destruct J.
  - destruct (Q unasked_program) as [P R]; [reflexivity| |vm_compute; discriminate|].
    { intros a J. cbn in J. repeat (destruct J as [<-|J]; [first [exact I|eexists; split; [reflexivity|cbn; tauto]]|]). destruct J. }
    split; [exact P|]. split; [exact R|]. split; [|eexists; repeat split; reflexivity].
    apply NO. intros a J. cbn in J. repeat (destruct J as [<-|J]; [first [exact I|left; discriminate]|]). destruct J.
  - destruct (Q wrong_program) as [P R]; [reflexivity| |vm_compute; discriminate|].
    { intros a J. cbn in J. repeat (destruct J as [<-|J]; [first [exact I|eexists; split; [reflexivity|cbn; tauto]]|]). destruct J. }
    split; [exact P|]. split; [exact R|].
    split; apply NO; intros a J; cbn in J; repeat (destruct J as [<-|J]; [first [exact I|left; discriminate|right; discriminate]|]); destruct J.
Qed.

Print Assumptions C114_lawful_partial.
Print Assumptions C114_unlawful_refuted.
Print Assumptions C114_first_frame_refuted.
Print Assumptions C114_header_list_refuted.
Print Assumptions C114_after_end_refuted.
Print Assumptions C114_unrequested_refuted.
Print Assumptions C114_even_refuted.
Print Assumptions C114_reuse_refuted.
Print Assumptions C114_lower_refuted.
