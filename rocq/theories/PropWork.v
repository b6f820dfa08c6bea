(* Property C97: the work of a call is bounded by its data. *)
From Coq Require Import String.
From Coq Require Import ZArith NArith List Bool Lia ZifyBool ZifyNat ZifyN.
From Verif Require Import Base Arith Util StaticTable HeaderType DynTable HeaderEnc HeaderDec FrameHeader Frames FrameBuilder Ssl Client Dump Sample
  SpecBits SpecHpack SpecFrame DynTableProofs StaticProofs HeaderProofs HeaderProofs2 FrameProofs BlockProofs HistoryProofs
  PropTable PropHeader PropFrame PropBlock PropSsl PropClient PropHistory PropRequest PropDuplex.
Import ListNotations.
Local Open Scope string_scope.
Local Open Scope list_scope.
Local Open Scope N_scope.
Ltac Zify.zify_post_hook ::= Z.div_mod_to_equations.

(* ---------------------------------------------------------------- specification *)

(* Between s and s' at most one OpenSSL call was made for each octet received or
   sent, and extra calls besides. *)
Definition calls_within (extra : nat) (s s' : tls) : Prop :=
  exists used taken given, tls_sched s = used ++ tls_sched s' /\ tls_in s = taken ++ tls_in s' /\
    tls_out s' = tls_out s ++ given /\ (length used <= length taken + length given + extra)%nat.

(* The call that failed. *)
Definition failed {A} (r : res A) : nat := match r with Throw RuntimeError => 1 | _ => 0 end.

Definition is_failure (r : returned) : bool :=
  match r with Received (Throw RuntimeError) | Returned (Throw RuntimeError) => true | _ => false end.

(* ---------------------------------------------------------------- proofs *)

Lemma within_refl : forall n s, calls_within n s s.
Proof. intros n s. exists [], [], []. rewrite app_nil_r. cbn. repeat split. lia. Qed.

Lemma within_trans : forall a b c s s1 s2, calls_within a s s1 -> calls_within b s1 s2 -> (a + b <= c)%nat -> calls_within c s s2.
Proof.
  intros a b c s s1 s2 (u & t & g & U & T & G & L) (u' & t' & g' & U' & T' & G' & L') C.
  exists (u ++ u'), (t ++ t'), (g ++ g'). rewrite U, U', T, T', G', G, !app_assoc, !app_length. repeat split. lia.
Qed.

Lemma within_more : forall a b s s', calls_within a s s' -> (a <= b)%nat -> calls_within b s s'.
Proof. intros a b s s' (u & t & g & U & T & G & L) C. exists u, t, g. repeat split; try assumption. lia. Qed.

Lemma pop_within : forall s, calls_within 1 s (pop_sched s).
Proof.
  intros [i o sc]. exists (firstn 1 sc), [], []. unfold pop_sched. cbn [tls_sched tls_in tls_out].
  split; [destruct sc; reflexivity|]. split; [reflexivity|]. split; [symmetry; apply app_nil_r|]. rewrite firstn_length. cbn [length]. lia.
Qed.

Lemma write_within : forall n s d, let '(r, s') := write_loop n s d in calls_within (failed r) s s'.
Proof.
  induction n as [|n IH]; intros s d; destruct d as [|x d]; cbn [write_loop]; try apply within_refl.
  destruct (bio_write s (x :: d)) as [[j|] s1] eqn:B.
  - assert (W : calls_within 0 s s1).
    { unfold bio_write in B. destruct (tls_sched s) as [|[c|] sc] eqn:SC; try discriminate B.
      destruct (to_positive_int (size (x :: d))) as [k|] eqn:P; [|discriminate B]. injection B as <- <-.
      exists [Chunk c], [], (firstn (N.to_nat (N.min (c + 1) k)) (x :: d)). cbn [tls_sched tls_in tls_out]. repeat split; [exact SC|].
      assert (0 < k).
      { unfold to_positive_int in P. destruct ((0 <? _) && _) eqn:E; [|discriminate P]. injection P as <-. apply andb_true_iff in E. destruct E as [E _].
        apply N.ltb_lt in E. exact E. }
      rewrite firstn_length. cbn [length]. lia. }
    specialize (IH s1 (skipn (N.to_nat j) (x :: d))). destruct (write_loop n s1 _) as [r s2].
    eapply within_trans; [exact W|exact IH|lia].
  - unfold bio_write in B.
    assert (E : s1 = pop_sched s) by (destruct (tls_sched s) as [|[c|] sc]; [| |]; destruct (to_positive_int (size (x :: d))); congruence).
    subst s1. apply pop_within.
Qed.

Lemma read_within : forall n s k, let '(r, s') := read_loop n s k in calls_within (failed r) s s'.
Proof.
  induction n as [|n IH]; intros s k; cbn [read_loop]; destruct (0 <? k); try apply within_refl.
  destruct (bio_read s k) as [[d|] s1] eqn:B.
  - assert (W : calls_within 0 s s1).
    { unfold bio_read in B. destruct (tls_sched s) as [|[c|] sc] eqn:SC; try discriminate B.
      destruct (to_positive_int k) as [k'|] eqn:P; [|discriminate B]. destruct (tls_in s) as [|y i] eqn:I; [discriminate B|]. injection B as <- <-.
      set (j := N.to_nat (N.min (c + 1) (N.min k' (size (y :: i))))).
      exists [Chunk c], (firstn j (y :: i)), []. cbn [tls_sched tls_in tls_out].
      assert (0 < k').
      { unfold to_positive_int in P. destruct ((0 <? _) && _) eqn:E; [|discriminate P]. injection P as <-. apply andb_true_iff in E. destruct E as [E _].
        apply N.ltb_lt in E. exact E. }
      rewrite SC, I, firstn_skipn, app_nil_r. repeat split.
      rewrite firstn_length. subst j. unfold size. cbn [length]. lia. }
    specialize (IH s1 (k - size d)). destruct (read_loop n s1 (k - size d)) as [r s2].
    eapply within_trans; [exact W|exact IH|]. destruct r as [?|[]|?|]; cbn; lia.
  - unfold bio_read in B.
    assert (E : s1 = pop_sched s) by (destruct (tls_sched s) as [|[c|] sc]; destruct (to_positive_int k); destruct (tls_in s); congruence).
    subst s1. apply pop_within.
Qed.

Lemma send_raw_within : forall c d, let '(r, c') := send_raw_data c d in calls_within (failed r) (c_tls c) (c_tls c').
Proof. intros c d. unfold send_raw_data, ssl_write. pose proof (write_within (length d) (c_tls c) d) as W. destruct (write_loop _ _ _). exact W. Qed.

Lemma receive_raw_within : forall c n, let '(r, c') := receive_raw_data c n in calls_within (failed r) (c_tls c) (c_tls c').
Proof. intros c n. unfold receive_raw_data, ssl_read. pose proof (read_within (N.to_nat n) (c_tls c) n) as W. destruct (read_loop _ _ _). exact W. Qed.

Lemma send_frame_within : forall host c f, let '(r, c') := send_frame host c f in calls_within (failed r) (c_tls c) (c_tls c').
Proof.
  intros host c f. unfold send_frame. destruct (serialize host f) as [d|x|u|]; try apply within_refl. apply send_raw_within.
Qed.

Lemma receive_within : forall m c, let '(r, c') := receive_frame m c in calls_within (failed r) (c_tls c) (c_tls c').
Proof.
  intros m c. unfold receive_frame. pose proof (receive_raw_within c FRAME_HEADER_BYTES) as W.
  destruct (receive_raw_data c FRAME_HEADER_BYTES) as [r c1].
  destruct r as [raw|x|u|]; cbn [bind]; try exact W.
  destruct (build_frame_header raw) as [fh|x|u|]; cbn [failed] in W; try (eapply within_more; [exact W|lia]).
  assert (W2 : let '(r2, c2) := if 0 <? fh_length fh then receive_raw_data c1 (fh_length fh) else (Ok [], c1) in
               calls_within (failed r2) (c_tls c1) (c_tls c2)).
  { destruct (0 <? fh_length fh); [apply receive_raw_within|apply within_refl]. }
  destruct (if 0 <? fh_length fh then receive_raw_data c1 (fh_length fh) else (Ok [], c1)) as [r2 c2].
  assert (W3 : calls_within (failed r2) (c_tls c) (c_tls c2)) by (eapply within_trans; [exact W|exact W2|lia]).
  destruct r2 as [raw2|x|u|]; cbn [bind]; try exact W3. cbn [failed] in W3.
  destruct (build_frame m fh raw2 (c_resp c2)) as [f|x|u|]; try (eapply within_more; [exact W3|lia]).
  destruct (update_frame (c_resp c2) f) as [r3 t]. cbn [c_tls]. eapply within_more; [exact W3|lia].
Qed.

Lemma call_within : forall host m c k, let '(r, c') := make_call host m c k in
  calls_within (if is_failure r then 1 else 0) (c_tls c) (c_tls c').
Proof.
  intros host m c k. destruct k; cbn [make_call].
  - unfold perform. destruct (mk_headers _ _ _ _ _ _ _) as [f|x|u|]; cbn [fst snd]; try apply within_refl.
    pose proof (send_frame_within host c f) as W. destruct (send_frame host c f) as [r c1].
    destruct r as [[]|x|u|]; cbn [fst snd] in *; try (destruct x; exact W); try exact W.
    unfold update_request_dynamic_table. destruct (update_block (c_req c1) (q_block q)) as [r t]. cbn [fst snd c_tls]. cbn [failed] in W.
    eapply within_more; [exact W|lia].
  - pose proof (send_frame_within host c f) as W. destruct (send_frame host c f) as [r c1]. cbn [fst snd]. destruct r as [?|[]|?|]; exact W.
  - pose proof (send_raw_within c data) as W. destruct (send_raw_data c data) as [r c1]. cbn [fst snd]. destruct r as [?|[]|?|]; exact W.
  - unfold send_connection_preface. pose proof (send_raw_within c connection_preface) as W. destruct (send_raw_data c connection_preface) as [r c1]. cbn [fst snd].
    destruct r as [?|[]|?|]; exact W.
  - unfold update_request_dynamic_table. destruct (update_block (c_req c) b) as [r t]. apply within_refl.
  - unfold update_request_table_size. destruct (dt_update_size (c_req c) n); apply within_refl.
  - pose proof (receive_within m c) as W. destruct (receive_frame m c) as [r c1]. cbn [fst snd]. destruct r as [?|[]|?|]; exact W.
Qed.

(* Every public call makes at most one OpenSSL call for each octet it transfers,
   and one more if that one fails; nothing is transferred in vain, and there is
   no busy waiting. *)
Theorem C97_call : forall host m c k, let '(r, c') := make_call host m c k in
  calls_within (if is_failure r then 1 else 0) (c_tls c) (c_tls c').
Proof. exact call_within. Qed.

(* All calls of a session together: one OpenSSL call for each octet, and one for
   each of the session's calls that failed. *)
Theorem C97_session : forall host m ks c, let '(rs, c') := make_calls host m c ks in
  calls_within (length (filter is_failure rs)) (c_tls c) (c_tls c').
Proof.
  induction ks as [|k ks IH]; intros c; cbn [make_calls]; [apply within_refl|].
  pose proof (call_within host m c k) as W. destruct (make_call host m c k) as [r c1]. specialize (IH c1).
  destruct (make_calls host m c1 ks) as [rs c2]. eapply within_trans; [exact W|exact IH|].
  cbn [filter]. destruct (is_failure r); cbn [length]; lia.
Qed.

(* The sample program. *)
Definition frugal {A} (p : prog A) : Prop := forall s, let '(r, s') := p s in
  calls_within (failed r) (c_tls (mc_client s)) (c_tls (mc_client s')).

Lemma frugal_seq : forall A B (p : prog A) (q : A -> prog B), frugal p -> (forall a, frugal (q a)) -> frugal (seqp p q).
Proof.
  intros A B p q P Q s. unfold seqp. specialize (P s). destruct (p s) as [[a|x|u|] s1]; try exact P.
  specialize (Q a s1). destruct (q a s1) as [r s2]. eapply within_trans; [exact P|exact Q|cbn; lia].
Qed.

Lemma frugal_client : forall A (f : client -> res A * client),
  (forall c, let '(r, c') := f c in calls_within (failed r) (c_tls c) (c_tls c')) -> frugal (on_client f).
Proof. intros A f F s. unfold on_client. specialize (F (mc_client s)). destruct (f (mc_client s)). exact F. Qed.

Lemma frugal_print : forall m f, frugal (print m f).
Proof. intros m f s. unfold print. destruct (dump m (mc_hex s) f) as [[x h]|x|u|]; apply within_refl. Qed.

Lemma frugal_loop : forall m n, frugal (receive_loop m n).
Proof.
  induction n as [|n IH]; cbn [receive_loop]; [intros s; apply within_refl|].
  apply frugal_seq; [apply frugal_client; apply receive_within|]. intros f. apply frugal_seq; [apply frugal_print|]. intros _.
  destruct (is_more_data (frame_fh f)); [exact IH|intros s; apply within_refl].
Qed.

Theorem C97_sample : forall host m s, let '(r, s') := sample_main host m s in
  calls_within (failed r) (c_tls (mc_client s)) (c_tls (mc_client s')).
Proof.
  intros host m. assert (F : frugal (sample_main host m)); [|exact F]. unfold sample_main.
  repeat (apply frugal_seq; [|intros ?]); try apply frugal_print;
    try (apply frugal_client; intros c; first [apply send_frame_within|apply send_raw_within|apply receive_within]).
  - apply frugal_client. intros c. unfold update_request_table_size. destruct (dt_update_size (c_req c) sample_table_size); apply within_refl.
  - intros s. apply within_refl.
  - intros s. apply within_refl.
  - apply frugal_client. intros c. unfold update_request_dynamic_table. destruct (update_block (c_req c) _). apply within_refl.
  - intros s. apply frugal_loop.
  - destruct (negb (_ =? T_GOAWAY)); [apply frugal_client; intros c; apply send_frame_within|intros s; apply within_refl].
Qed.

(* When OpenSSL takes, or gives, all that it is asked to, one call sends a whole
   frame and at most two receive one. *)
Theorem C97_sent_at_once : forall host c f d k sc, serialize host f = Ok d -> 0 < size d < 2 ^ 31 ->
  tls_sched (c_tls c) = Chunk k :: sc -> size d <= k + 1 ->
  send_frame host c f = (Ok tt, Client (Tls (tls_in (c_tls c)) (tls_out (c_tls c) ++ d) sc) (c_req c) (c_resp c)).
Proof.
  intros host c f d k sc S B E K. unfold send_frame. rewrite S. unfold send_raw_data, ssl_write, size in *.
  destruct d as [|x d]; [cbn in B; lia|]. cbn [length write_loop]. unfold bio_write, size. rewrite E.
  assert (P : to_positive_int (N.of_nat (length (x :: d))) = Some (N.of_nat (length (x :: d)))).
  { unfold to_positive_int. change (2 ^ 32) with 4294967296. change (2 ^ 31) with 2147483648 in *.
    rewrite N.mod_small by lia. destruct (N.ltb_spec 0 (N.of_nat (length (x :: d)))); [|lia].
    destruct (N.ltb_spec (N.of_nat (length (x :: d))) 2147483648); [reflexivity|lia]. }
  rewrite P. rewrite N.min_r by exact K. rewrite Nat2N.id, firstn_all, skipn_all.
  destruct d; reflexivity.
Qed.

Lemma read_at_once : forall c d rest k sc, tls_in (c_tls c) = d ++ rest -> tls_sched (c_tls c) = Chunk k :: sc ->
  0 < size d < 2 ^ 31 -> size d <= k + 1 ->
  receive_raw_data c (size d) = (Ok d, Client (Tls rest (tls_out (c_tls c)) sc) (c_req c) (c_resp c)).
Proof.
  intros c d rest k sc I E B K. unfold receive_raw_data, ssl_read.
  destruct (N.to_nat (size d)) as [|n] eqn:F; [lia|]. cbn [read_loop].
  destruct (N.ltb_spec 0 (size d)); [|lia]. unfold bio_read. rewrite E, I.
  assert (P : to_positive_int (size d) = Some (size d)).
  { unfold to_positive_int. change (2 ^ 32) with 4294967296. change (2 ^ 31) with 2147483648 in *.
    rewrite N.mod_small by lia. destruct (N.ltb_spec 0 (size d)); [|lia]. destruct (N.ltb_spec (size d) 2147483648); [reflexivity|lia]. }
  rewrite P. destruct (d ++ rest) as [|y i] eqn:DR.
  { destruct d; [unfold size in B; cbn in B; lia|discriminate DR]. }
  rewrite <- DR. assert (L : size d <= size (d ++ rest)) by (unfold size; rewrite app_length; lia).
  rewrite (N.min_l (size d)) by exact L. rewrite (N.min_r (k + 1)) by exact K.
  assert (X : N.to_nat (size d) = length d) by (unfold size; apply Nat2N.id). rewrite X.
  rewrite firstn_app, firstn_all, Nat.sub_diag. cbn [firstn]. rewrite app_nil_r.
  rewrite skipn_app, skipn_all, Nat.sub_diag. cbn [skipn app]. rewrite N.sub_diag.
  destruct n; cbn [read_loop N.ltb N.compare bind]; rewrite app_nil_r; destruct c; reflexivity.
Qed.

Theorem C97_received_at_once : forall m c w rest k k' sc, wframe_ok w -> tls_in (c_tls c) = wire w ++ rest ->
  tls_sched (c_tls c) = Chunk k :: Chunk k' :: sc -> 9 <= k + 1 -> size (w_payload w) <= k' + 1 ->
  tls_sched (c_tls (snd (receive_frame m c))) = if size (w_payload w) =? 0 then Chunk k' :: sc else sc.
Proof.
  intros m c w rest k k' sc W I E K K'. destruct (wire_split w W) as (head & WE & HS & HB). destruct W as (_ & _ & _ & _ & _ & L).
  rewrite WE, <- app_assoc in I. unfold receive_frame.
  change FRAME_HEADER_BYTES with 9. rewrite <- HS.
  rewrite (read_at_once c head (w_payload w ++ rest) k (Chunk k' :: sc) I E); [|rewrite HS; split; reflexivity|rewrite HS; exact K].
  cbn [bind]. rewrite HB. cbn [bind].
  assert (FL : fh_length (header_of w) = size (w_payload w)) by reflexivity. rewrite FL.
  destruct (N.ltb_spec 0 (size (w_payload w))) as [P|P].
  - rewrite (read_at_once (Client (Tls (w_payload w ++ rest) (tls_out (c_tls c)) (Chunk k' :: sc)) (c_req c) (c_resp c))
               (w_payload w) rest k' sc); cbn [c_tls tls_in tls_sched]; try reflexivity; [|split; [exact P|]|exact K'].
    2:{ change (2 ^ 24) with 16777216 in L. change (2 ^ 31) with 2147483648. lia. }
    destruct (N.eqb_spec (size (w_payload w)) 0); [lia|]. cbn [c_resp c_tls bind].
    destruct (build_frame m (header_of w) (w_payload w) (c_resp c)) as [f|x|u|]; try reflexivity.
    destruct (update_frame (c_resp c) f); reflexivity.
  - destruct (N.eqb_spec (size (w_payload w)) 0); [|lia]. cbn [c_resp c_tls bind].
    destruct (build_frame m (header_of w) [] (c_resp c)) as [f|x|u|]; try reflexivity.
    destruct (update_frame (c_resp c) f); reflexivity.
Qed.

(* A session that sends 37 octets and receives 26, and then finds the end of the
   data: 34 calls in chunks of two octets, six if nothing is split. *)
Example C97_case :
  let ping := WFrame PING 0 0 0 [1; 2; 3; 4; 5; 6; 7; 8] in
  let ack := WFrame SETTINGS 1 0 0 [] in
  let c k := new_client (Tls (wire ping ++ wire ack) [] (repeat (Chunk k) 100)) in
  let ks := [CallPreface; CallReceive; CallSend (mk_rst_stream 1 8); CallReceive; CallReceive] in
  let after k := make_calls LittleEndian Strict (c k) ks in
  length (filter is_failure (fst (after 1))) = 1%nat /\
  length (tls_sched (c_tls (snd (after 1)))) = 66%nat /\ length (tls_sched (c_tls (snd (after 99)))) = 94%nat /\
  wframe_ok ping /\ wframe_ok ack /\ serialize LittleEndian (mk_rst_stream 1 8) = Ok [0; 0; 4; 3; 0; 0; 0; 0; 1; 0; 0; 0; 8].
Proof.
  cbv zeta. split; [vm_compute; reflexivity|]. split; [vm_compute; reflexivity|]. split; [vm_compute; reflexivity|].
  split; [repeat split; try reflexivity; apply octets_dec; reflexivity|].
  split; [repeat split; try reflexivity; apply octets_dec; reflexivity|]. vm_compute. reflexivity.
Qed.

Print Assumptions C97_call.
Print Assumptions C97_session.
Print Assumptions C97_sample.
Print Assumptions C97_sent_at_once.
Print Assumptions C97_received_at_once.
