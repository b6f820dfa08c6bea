(* Property C129: a connection that is cut short. *)
From Coq Require Import String.
From Coq Require Import ZArith NArith List Bool Lia ZifyBool ZifyNat ZifyN.
From Verif Require Import Base Arith Util HeaderType DynTable HeaderDec FrameHeader Frames FrameBuilder Ssl Client
  SpecBits SpecHpack SpecFrame UtilProofs DynTableProofs FrameProofs HeaderProofs BlockProofs PropFrame PropSsl PropClient PropHistory.
Import ListNotations.
Local Open Scope string_scope.
Local Open Scope list_scope.
Local Open Scope N_scope.
Ltac Zify.zify_post_hook ::= Z.div_mod_to_equations.

(* Reading more than is there: all of it is read, and the call throws. *)
Lemma read_short : forall fuel s n, (N.to_nat n <= fuel)%nat -> n < 2 ^ 31 -> size (tls_in s) < n -> delivers (size (tls_in s)) s ->
  exists s', read_loop fuel s n = (Throw RuntimeError, s') /\ tls_in s' = [].
Proof.
  induction fuel as [|fuel IH]; intros s n L B A D; [lia|]. cbn [read_loop]. destruct (N.ltb_spec 0 n) as [P|P]; [|lia].
  unfold bio_read. rewrite positive_small by assumption. destruct s as [inn out sched]. cbn [tls_in tls_out tls_sched] in *.
  destruct inn as [|b inn].
  - exists (pop_sched (Tls [] out sched)). split; [destruct sched as [|[c|] sched]; reflexivity|reflexivity].
  - destruct (delivers_next (size inn) (Tls (b :: inn) out sched)) as (c & sc & SC & N); [rewrite size_cons in D; exact D|]. cbn [tls_sched] in SC. subst sched.
    remember (N.min (c + 1) (N.min n (size (b :: inn)))) as j eqn:J. remember (b :: inn) as l eqn:LL.
    assert (J1 : 0 < j /\ j <= size l) by (subst j l; rewrite size_cons in *; lia).
    assert (S1 : size (firstn (N.to_nat j) l) = j) by (rewrite size_firstn; lia). assert (S2 : size (skipn (N.to_nat j) l) = size l - j) by (rewrite size_skipn; lia).
    rewrite S1. destruct (IH (Tls (skipn (N.to_nat j) l) out sc) (n - j)) as (s' & R & E); cbn [tls_in].
    + lia.
    + clear - B. lia.
    + rewrite S2. lia.
    + apply (delivers_mono (size inn)); [|apply N]. rewrite S2, LL, size_cons in *. lia.
    + exists s'. rewrite R. split; [reflexivity|exact E].
Qed.

(* At the end of the data every call throws. *)
Lemma receive_end : forall m c, tls_in (c_tls c) = [] -> exists s', receive_frame m c = (Throw RuntimeError, Client s' (c_req c) (c_resp c)) /\ tls_in s' = [].
Proof.
  intros m c E. exists (pop_sched (c_tls c)). split; [|exact E]. unfold receive_frame, receive_raw_data at 1, ssl_read, FRAME_HEADER_BYTES.
  change (N.to_nat 9) with 9%nat. cbn [read_loop]. change (0 <? 9) with true. cbv iota. unfold bio_read. rewrite E.
  destruct (tls_sched (c_tls c)) as [|[x|] sc]; reflexivity.
Qed.

Lemma receive_ends : forall m j c, tls_in (c_tls c) = [] -> exists s', receive_n m j c = (repeat (Throw RuntimeError) j, Client s' (c_req c) (c_resp c)).
Proof.
  induction j as [|j IH]; intros c E.
  - exists (c_tls c). destruct c. reflexivity.
  - cbn [receive_n repeat]. destruct (receive_end m c E) as (s1 & R & E1). rewrite R. destruct (IH (Client s1 (c_req c) (c_resp c)) E1) as (s2 & ->). exists s2. reflexivity.
Qed.

(* In the middle of a frame. *)
Lemma receive_cut : forall m c w k, wframe_ok w -> (k < length (wire w))%nat -> tls_in (c_tls c) = firstn k (wire w) -> delivers (N.of_nat k) (c_tls c) ->
  exists s', receive_frame m c = (Throw RuntimeError, Client s' (c_req c) (c_resp c)) /\ tls_in s' = [].
Proof.
  intros m c w k W L E D. destruct (wire_split w W) as (head & WE & HS & HB). destruct W as (_ & _ & _ & _ & _ & LP). rewrite WE in E, L.
  assert (SI : size (tls_in (c_tls c)) = N.of_nat k) by (rewrite E; unfold size; rewrite firstn_length; lia).
  unfold receive_frame, receive_raw_data at 1, FRAME_HEADER_BYTES. destruct (Nat.ltb_spec k (length head)) as [K|K].
  - destruct (read_short (N.to_nat 9) (c_tls c) 9) as (s1 & R & E1); [apply Nat.le_refl|reflexivity|rewrite SI; unfold size in HS; lia|rewrite SI; exact D|].
    unfold ssl_read. rewrite R. cbn [bind]. exists s1. split; [reflexivity|exact E1].
  - rewrite firstn_app, firstn_all2 in E by exact K.
    destruct (read_delivers (c_tls c) head (firstn (k - length head) (w_payload w)) (N.of_nat (k - length head)) E) as (s1 & R1 & I1 & O1 & D1).
    { rewrite HS. reflexivity. }
    { apply (delivers_mono (N.of_nat k)); [|exact D]. unfold size. lia. }
    rewrite HS in R1. rewrite R1. cbn [bind]. rewrite HB. change (fh_length (header_of w)) with (size (w_payload w)).
    rewrite app_length in L. assert (P : (k - length head < length (w_payload w))%nat) by lia.
    destruct (N.ltb_spec 0 (size (w_payload w))) as [Q|Q]; [|unfold size in Q; lia].
    assert (SS : size (tls_in s1) = N.of_nat (k - length head)) by (rewrite I1; unfold size; rewrite firstn_length; lia).
    destruct (read_short (N.to_nat (size (w_payload w))) s1 (size (w_payload w))) as (s2 & R2 & E2).
    { apply Nat.le_refl. }
    { eapply N.lt_trans; [exact LP|reflexivity]. }
    { rewrite SS. unfold size. lia. }
    { rewrite SS. exact D1. }
    unfold receive_raw_data, ssl_read. cbn [set_tls c_tls c_req c_resp]. rewrite R2. cbn [bind]. exists s2. split; [reflexivity|exact E2].
Qed.

(* The octets of any sequence of frames, cut anywhere: the frames that are complete are received
   as on the connection that was not cut, and from then on every call throws; what came of the
   frame that was cut has no effect. *)
Theorem C129_cut : forall m ws k c c' rest, Forall wframe_ok ws -> c_resp c = c_resp c' -> (k < length (concat (map wire ws)))%nat ->
  tls_in (c_tls c) = firstn k (concat (map wire ws)) -> delivers (N.of_nat k) (c_tls c) ->
  tls_in (c_tls c') = concat (map wire ws) ++ rest -> delivers (size (concat (map wire ws))) (c_tls c') ->
  exists n, (length (concat (map wire (firstn n ws))) <= k < length (concat (map wire (firstn (n + 1) ws))))%nat /\ forall calls,
    fst (receive_n m (n + calls) c) = fst (receive_n m n c') ++ repeat (Throw RuntimeError) calls /\
    c_resp (snd (receive_n m (n + calls) c)) = c_resp (snd (receive_n m n c')) /\ c_req (snd (receive_n m (n + calls) c)) = c_req c.
Proof.
  intros m ws. induction ws as [|w ws IH]; intros k c c' rest F Q L E D E' D'; [cbn in L; lia|].
  apply Forall_cons_iff in F. destruct F as [W F]. cbn [map concat] in *. rewrite app_length in L. destruct (Nat.ltb_spec k (length (wire w))) as [K|K].
  - exists 0%nat. split; [cbn [Nat.add firstn map concat length]; rewrite app_nil_r; lia|]. intros calls. cbn [Nat.add receive_n fst snd app].
    assert (G : exists s', receive_n m calls c = (repeat (Throw RuntimeError) calls, Client s' (c_req c) (c_resp c))).
    { rewrite firstn_app in E. replace (k - length (wire w))%nat with 0%nat in E by lia. cbn [firstn] in E. rewrite app_nil_r in E. destruct (receive_cut m c w k W K E D) as (s1 & R & E1).
      destruct calls as [|calls]; [exists (c_tls c); destruct c; reflexivity|]. cbn [receive_n repeat]. rewrite R.
      destruct (receive_ends m calls (Client s1 (c_req c) (c_resp c)) E1) as (s2 & ->). exists s2. reflexivity. }
    destruct G as (s' & ->). cbn. auto.
  - rewrite firstn_app, firstn_all2 in E by exact K. rewrite <- app_assoc in E'. rewrite size_app in D'.
    assert (D2 : delivers (size (wire w) + N.of_nat (k - length (wire w))) (c_tls c)) by (apply (delivers_mono (N.of_nat k)); [unfold size; lia|exact D]).
    destruct (receive_complete m c w _ _ W E D2) as (s1 & I1 & _ & D1 & R1). destruct (receive_complete m c' w _ _ W E' D') as (s2 & I2 & _ & D3 & R2).
    destruct (IH (k - length (wire w))%nat (Client s1 (c_req c) (snd (handled m (c_resp c) w))) (Client s2 (c_req c') (snd (handled m (c_resp c') w))) rest F
      (f_equal (fun t => snd (handled m t w)) Q) ltac:(lia) I1 D1 I2 D3) as (n & B & H).
    exists (S n). split; [cbn [Nat.add firstn map concat]; rewrite !app_length; lia|]. intros calls. cbn [Nat.add receive_n]. rewrite R1, R2, Q in *.
    specialize (H calls). destruct (receive_n m (n + calls) _) as [rs q], (receive_n m n _) as [rs' q']. cbn [fst snd] in *. destruct H as (H1 & H2 & H3). rewrite H1. auto.
Qed.

(* The other direction: when a call that sends fails, the server has been sent what the calls
   before it sent, and a proper part of what this call was to send; nothing of the later calls. *)
Theorem C129_sent : forall host os c r c', send_all host c os = (r, c') -> r <> Ok tt ->
  exists before o after ds part, os = before ++ o :: after /\ Forall2 (to_send host) before ds /\
    tls_out (c_tls c') = tls_out (c_tls c) ++ concat ds ++ part /\
    ((exists d k, to_send host o d /\ (k < length d)%nat /\ part = firstn k d /\ r = Throw RuntimeError) \/ (forall d, ~ to_send host o d) /\ part = []) /\
    tls_in (c_tls c') = tls_in (c_tls c) /\ c_req c' = c_req c /\ c_resp c' = c_resp c.
Proof.
  intros host os. induction os as [|o os IH]; intros c r c' H NO; cbn [send_all] in H; [injection H as <- <-; contradiction NO; reflexivity|].
  destruct (send host c o) as [r1 c1] eqn:S. destruct (C54_send_exact host c o r1 c1 S) as (I & Q & P & X).
  destruct X as [(d & T & -> & O)|[(d & k & T & -> & K & O)|(N & R & O)]].
  - destruct (IH c1 r c' H NO) as (before & o' & after & ds & part & -> & F & O2 & X & I2 & Q2 & P2). exists (o :: before), o', after, (d :: ds), part.
    split; [reflexivity|]. split; [constructor; assumption|]. cbn [concat]. rewrite O2, O, <- !app_assoc. split; [reflexivity|]. split; [exact X|]. split; [congruence|]. split; congruence.
  - injection H as <- <-. exists [], o, os, [], (firstn k d). split; [reflexivity|]. split; [constructor|]. split; [exact O|]. split; [left; exists d, k; auto|]. auto.
  - exists [], o, os, [], []. split; [reflexivity|]. split; [constructor|]. cbn [concat app]. rewrite app_nil_r.
    assert (c' = c1) by (destruct r1 as [[]|x|u|]; [contradiction R; reflexivity| | |]; congruence). subst c'. split; [exact O|]. split; [right; split; [exact N|reflexivity]|]. auto.
Qed.

(* Two frames, of which the second lacks its last octet. *)
Example C129_case : forall m,
  let ws := [WFrame HEADERS 4 0 1 [0x88; 0x40; 1; 97; 1; 98]; WFrame DATA 1 0 1 [1; 2; 3]] in let k := 26%nat in
  let c := Client (Tls (firstn k (concat (map wire ws))) [] (repeat (Chunk 2) 30)) default_table default_table in
  let c' := Client (Tls (concat (map wire ws)) [] (repeat (Chunk 0) 30)) default_table default_table in
  Forall wframe_ok ws /\ (k < length (concat (map wire ws)))%nat /\ delivers (N.of_nat k) (c_tls c) /\ delivers (size (concat (map wire ws))) (c_tls c') /\
  exists f, fst (receive_n m 4 c) = [Ok f; Throw RuntimeError; Throw RuntimeError; Throw RuntimeError] /\ dt_entries (c_resp (snd (receive_n m 4 c))) = [([97], [98])] /\
  let d := Client (Tls [] [] [Chunk 40; Chunk 2; Fail]) default_table default_table in
  fst (send_all LittleEndian d [SendPreface; SendRaw [1; 2; 3; 4]; SendRaw [5]]) = Throw RuntimeError /\
  tls_out (c_tls (snd (send_all LittleEndian d [SendPreface; SendRaw [1; 2; 3; 4]; SendRaw [5]]))) = preface_octets ++ [1; 2; 3].
Proof.
  intros m ws k c c'. split; [repeat constructor; apply wframe_check; reflexivity|]. split; [apply Nat.ltb_lt; reflexivity|].
  split; [exists (repeat (Chunk 2) 30), []; split; [reflexivity|split; [repeat constructor; discriminate|apply N.leb_le; reflexivity]]|].
  split; [exists (repeat (Chunk 0) 30), []; split; [reflexivity|split; [repeat constructor; discriminate|apply N.leb_le; reflexivity]]|].
  destruct m; eexists; (split; [vm_compute; reflexivity|split; [vm_compute; reflexivity|split; vm_compute; reflexivity]]).
Qed.

Print Assumptions C129_cut.
Print Assumptions C129_sent.
