(* Property C82: repeating a call that failed. *)
From Coq Require Import ZArith NArith List Bool Lia ZifyBool ZifyNat ZifyN.
From Verif Require Import Base Arith Util HeaderType DynTable FrameHeader Frames FrameBuilder
  Ssl Client SpecFrame FrameProofs PropSsl PropClient.
Import ListNotations.
Open Scope N_scope.
Ltac Zify.zify_post_hook ::= Z.div_mod_to_equations.

(* ---- sending ---- *)

Lemma to_send_fun : forall host o d d', to_send host o d -> to_send host o d' -> d = d'.
Proof. intros host o d d' H H'. destruct o; cbn in *; congruence. Qed.

(* A call that failed before anything was transferred can be repeated: if the
   second call returns, the octets are on the wire once. *)
Theorem C82_send_again_partial : forall host c o x c1 c2,
  send host c o = (Throw x, c1) -> tls_out (c_tls c1) = tls_out (c_tls c) -> send host c1 o = (Ok tt, c2) ->
  exists d, to_send host o d /\ tls_out (c_tls c2) = tls_out (c_tls c) ++ d /\
  tls_in (c_tls c2) = tls_in (c_tls c) /\ c_req c2 = c_req c /\ c_resp c2 = c_resp c.
Proof.
  intros host c o x c1 c2 S1 N S2.
  destruct (C54_send_exact _ _ _ _ _ S1) as (I1 & Q1 & P1 & _).
  destruct (C54_send_exact _ _ _ _ _ S2) as (I2 & Q2 & P2 & [(d & T & _ & O)|[(d & k & _ & R & _)|(_ & R & _)]]);
    [|discriminate R|contradiction].
  exists d. rewrite N in O. split; [exact T|]. split; [exact O|]. split; [congruence|]. split; congruence.
Qed.

(* In general the part the failed call had transferred is followed by the whole
   data again. *)
Theorem C82_send_again_octets : forall host c o d c1 c2, to_send host o d ->
  send host c o = (Throw RuntimeError, c1) -> send host c1 o = (Ok tt, c2) ->
  exists k, (k < length d)%nat /\ tls_out (c_tls c2) = tls_out (c_tls c) ++ firstn k d ++ d.
Proof.
  intros host c o d c1 c2 T S1 S2.
  destruct (C54_send_exact _ _ _ _ _ S1) as (_ & _ & _ & [(d1 & _ & R & _)|[(d1 & k & T1 & _ & L & O1)|(N & _)]]);
    [discriminate R| |destruct (N d T)].
  destruct (C54_send_exact _ _ _ _ _ S2) as (_ & _ & _ & [(d2 & T2 & _ & O2)|[(d2 & k2 & _ & R & _)|(_ & R & _)]]);
    [|discriminate R|contradiction].
  rewrite (to_send_fun _ _ _ _ T1 T) in *. rewrite (to_send_fun _ _ _ _ T2 T) in *.
  exists k. split; [exact L|]. rewrite O2, O1, <- app_assoc. reflexivity.
Qed.

Lemma send_data : forall host c o d, to_send host o d -> send host c o = send_raw_data c d.
Proof.
  intros host c o d T. destruct o as [f|d'|]; cbn [send to_send] in *.
  - unfold send_frame. rewrite T. reflexivity.
  - subst. reflexivity.
  - subst. reflexivity.
Qed.

Lemma write_cut : forall s d k more, (0 < k < length d)%nat -> size d < 2 ^ 31 ->
  tls_sched s = Chunk (N.of_nat k - 1) :: Fail :: more ->
  ssl_write s d = (Throw RuntimeError, Tls (tls_in s) (tls_out s ++ firstn k d) more).
Proof.
  intros s d k more K L S. unfold ssl_write.
  assert (P : 0 < size d) by (unfold size; clear L; lia).
  destruct (length d) as [|f] eqn:LD; [lia|]. rewrite write_loop_step by exact P. unfold bio_write.
  rewrite S, (positive_small _ P L).
  replace (N.min (N.of_nat k - 1 + 1) (size d)) with (N.of_nat k) by (unfold size; clear L; lia).
  rewrite Nat2N.id. destruct f as [|f].
  - lia.
  - assert (P2 : 0 < size (skipn k d)) by (unfold size; rewrite skipn_length; clear L; lia).
    rewrite write_loop_step by exact P2. unfold bio_write. cbn [tls_sched tls_in tls_out pop_sched tl]. reflexivity.
Qed.

(* The claim fails for every call and every cut inside its data. *)
Theorem C82_send_twice_refuted : forall host c o d k more, to_send host o d -> (0 < k < length d)%nat -> size d < 2 ^ 31 ->
  tls_sched (c_tls c) = Chunk (N.of_nat k - 1) :: Fail :: more ->
  (forall i u, delivers (size d) (Tls i u more)) ->
  exists c1 c2, send host c o = (Throw RuntimeError, c1) /\ send host c1 o = (Ok tt, c2) /\
  tls_out (c_tls c2) = tls_out (c_tls c) ++ firstn k d ++ d /\ tls_out (c_tls c2) <> tls_out (c_tls c) ++ d.
Proof.
  intros host c o d k more T K L S D.
  exists (set_tls c (Tls (tls_in (c_tls c)) (tls_out (c_tls c) ++ firstn k d) more)).
  destruct (C48_write_completes_partial (Tls (tls_in (c_tls c)) (tls_out (c_tls c) ++ firstn k d) more) d L (D _ _))
    as (s2 & W2 & O2 & _).
  cbn [tls_out] in O2.
  exists (set_tls (set_tls c (Tls (tls_in (c_tls c)) (tls_out (c_tls c) ++ firstn k d) more)) s2).
  rewrite !(send_data _ _ _ _ T). unfold send_raw_data. rewrite (write_cut _ _ _ _ K L S).
  split; [reflexivity|]. cbn [set_tls c_tls c_req c_resp]. rewrite W2. split; [reflexivity|].
  rewrite O2, <- app_assoc. split; [reflexivity|]. intros E. apply app_inv_head in E.
  apply (f_equal (@length N)) in E. rewrite app_length, firstn_length in E. clear L. lia.
Qed.

(* ---- receiving ---- *)

(* A call that failed before anything was read can be repeated. *)
Theorem C82_receive_again_partial : forall m c more w rest, tls_sched (c_tls c) = Fail :: more -> wframe_ok w ->
  tls_in (c_tls c) = wire w ++ rest -> (forall i u, delivers (size (wire w)) (Tls i u more)) ->
  exists c1 c2, receive_frame m c = (Throw RuntimeError, c1) /\
  receive_frame m c1 = (fst (handled m (c_resp c) w), c2) /\
  tls_in (c_tls c2) = rest /\ c_resp c2 = snd (handled m (c_resp c) w).
Proof.
  intros m c more w rest S W I D.
  set (c1 := set_tls c (Tls (tls_in (c_tls c)) (tls_out (c_tls c)) more)).
  assert (R : receive_frame m c = (Throw RuntimeError, c1)).
  { unfold receive_frame, receive_raw_data, ssl_read, FRAME_HEADER_BYTES. change (N.to_nat 9) with 9%nat. cbn [read_loop].
    change (0 <? 9) with true. cbv iota. unfold bio_read. rewrite S. unfold pop_sched. rewrite S. reflexivity. }
  destruct (receive_complete m c1 w rest 0 W) as (s & IS & _ & _ & R2).
  { exact I. } { rewrite N.add_0_r. apply D. }
  exists c1. eexists. split; [exact R|]. split; [exact R2|]. split; [exact IS|reflexivity].
Qed.

Lemma read_loop_step : forall f s n, 0 < n -> read_loop (Datatypes.S f) s n =
  match bio_read s n with
  | (None, s') => (Throw RuntimeError, s')
  | (Some d, s') => let '(r, s'') := read_loop f s' (n - size d) in (let* rest := r in Ok (d ++ rest), s'')
  end.
Proof. intros f s n P. cbn [read_loop]. apply N.ltb_lt in P. rewrite P. reflexivity. Qed.

Lemma bio_read_chunk : forall s n k sc, tls_sched s = Chunk (N.of_nat k - 1) :: sc -> (0 < k)%nat -> N.of_nat k <= n ->
  n < 2 ^ 31 -> (k <= length (tls_in s))%nat ->
  bio_read s n = (Some (firstn k (tls_in s)), Tls (skipn k (tls_in s)) (tls_out s) sc).
Proof.
  intros s n k sc S P K L A. unfold bio_read. rewrite S, (positive_small n) by (assumption || (clear L; lia)).
  replace (N.to_nat (N.min (N.of_nat k - 1 + 1) (N.min n (size (tls_in s))))) with k by (unfold size; clear L; lia).
  destruct (tls_in s); [cbn in A; lia|]. reflexivity.
Qed.

(* Reading n octets of which k arrive before the failure. *)
Lemma read_cut : forall s n k more, (0 < k)%nat -> N.of_nat k < n -> n < 2 ^ 31 -> (k <= length (tls_in s))%nat ->
  tls_sched s = Chunk (N.of_nat k - 1) :: Fail :: more ->
  ssl_read s n = (Throw RuntimeError, Tls (skipn k (tls_in s)) (tls_out s) more).
Proof.
  intros s n k more P K L A S. unfold ssl_read.
  assert (Z : 0 < n) by (clear L; lia).
  destruct (N.to_nat n) as [|[|f]] eqn:F; [clear L; lia|clear L; lia|].
  rewrite read_loop_step by exact Z. rewrite (bio_read_chunk s n k (Fail :: more) S P) by (assumption || (clear L; lia)).
  assert (SZ : size (firstn k (tls_in s)) = N.of_nat k) by (unfold size; rewrite firstn_length; f_equal; lia).
  rewrite SZ. rewrite read_loop_step by (clear L; lia). unfold bio_read. cbn [tls_sched pop_sched tl tls_in tls_out]. reflexivity.
Qed.

(* Reading n octets in one piece. *)
Lemma read_whole : forall s n sc, 0 < n -> n < 2 ^ 31 -> n <= size (tls_in s) -> tls_sched s = Chunk (n - 1) :: sc ->
  ssl_read s n = (Ok (firstn (N.to_nat n) (tls_in s)), Tls (skipn (N.to_nat n) (tls_in s)) (tls_out s) sc).
Proof.
  intros s n sc P L A S. unfold ssl_read. destruct (N.to_nat n) as [|f] eqn:F; [clear L; lia|].
  rewrite read_loop_step by exact P. rewrite <- F.
  rewrite (bio_read_chunk s n (N.to_nat n) sc); try (clear L; unfold size in *; lia).
  - assert (SZ : size (firstn (N.to_nat n) (tls_in s)) = n) by (unfold size in *; rewrite firstn_length; clear L; lia).
    rewrite SZ, N.sub_diag. assert (Z : forall q, read_loop f q 0 = (Ok [], q)) by (intros q; destruct f; reflexivity).
    rewrite Z. cbn [bind]. rewrite app_nil_r. reflexivity.
  - rewrite N2Nat.id. exact S.
  - exact L.
Qed.

(* Every octet of the frame read before the failure is lost: wherever the
   failure falls inside a frame, the next call starts in the middle of it. *)
Theorem C82_receive_loses_refuted : forall w k, wframe_ok w -> (0 < k < length (wire w))%nat ->
  exists events, forall m c more rest, tls_sched (c_tls c) = events ++ more -> tls_in (c_tls c) = wire w ++ rest ->
  receive_frame m c = (Throw RuntimeError,
    Client (Tls (skipn k (wire w) ++ rest) (tls_out (c_tls c)) more) (c_req c) (c_resp c)).
Proof.
  intros w k W K. pose proof (wire_size w W) as WS. destruct (wire_split w W) as (head & WE & HS & HB).
  assert (HL : length head = 9%nat) by (unfold size in HS; lia).
  assert (PL : size (w_payload w) < 2 ^ 31) by (destruct W as (_ & _ & _ & _ & _ & L); eapply N.lt_trans; [exact L|reflexivity]).
  destruct (Nat.lt_ge_cases k 9) as [C|C].
  - exists [Chunk (N.of_nat k - 1); Fail]. intros m c more rest S I. cbn [app] in S.
    unfold receive_frame, receive_raw_data, FRAME_HEADER_BYTES. rewrite (read_cut (c_tls c) 9 k more); try assumption; try lia.
    + cbn [bind]. unfold set_tls. rewrite I. f_equal. f_equal. f_equal. rewrite skipn_app.
      replace (k - length (wire w))%nat with 0%nat by lia. reflexivity.
    + rewrite I, app_length. lia.
  - assert (PP : 0 < size (w_payload w)).
    { rewrite WE, app_length, HL in K. unfold size. clear PL. lia. }
    assert (H1 : forall c sc rest, tls_sched (c_tls c) = Chunk 8 :: sc -> tls_in (c_tls c) = wire w ++ rest ->
      ssl_read (c_tls c) 9 = (Ok head, Tls (w_payload w ++ rest) (tls_out (c_tls c)) sc)).
    { intros c sc rest S I. rewrite (read_whole (c_tls c) 9 sc); try assumption; try reflexivity.
      - rewrite I, WE, <- app_assoc. change (N.to_nat 9) with 9%nat. rewrite <- HL, firstn_app, skipn_app, Nat.sub_diag, firstn_all, skipn_all.
        cbn [firstn skipn app]. rewrite app_nil_r. reflexivity.
      - rewrite I, size_app, WS. clear PL. lia. }
    assert (SK : forall rest, skipn (k - 9) (w_payload w) ++ rest = skipn k (wire w) ++ rest).
    { intros rest. rewrite WE, skipn_app, HL, (skipn_all2 head) by lia. reflexivity. }
    destruct (Nat.eq_dec k 9) as [->|C9].
    + exists [Chunk 8; Fail]. intros m c more rest S I. cbn [app] in S.
      unfold receive_frame, receive_raw_data at 1, FRAME_HEADER_BYTES. rewrite (H1 c (Fail :: more) rest S I). cbn [bind].
      rewrite HB. change (fh_length (header_of w)) with (size (w_payload w)).
      pose proof PP as PP'. apply N.ltb_lt in PP'. rewrite PP'. unfold receive_raw_data, ssl_read.
      destruct (N.to_nat (size (w_payload w))) as [|f] eqn:F; [clear PL; lia|]. rewrite read_loop_step by exact PP.
      unfold bio_read. cbn [set_tls c_tls tls_sched pop_sched tl tls_in tls_out bind]. rewrite <- SK. reflexivity.
    + exists [Chunk 8; Chunk (N.of_nat (k - 9) - 1); Fail]. intros m c more rest S I. cbn [app] in S.
      unfold receive_frame, receive_raw_data at 1, FRAME_HEADER_BYTES. rewrite (H1 c _ rest S I). cbn [bind].
      rewrite HB. change (fh_length (header_of w)) with (size (w_payload w)).
      pose proof PP as PP'. apply N.ltb_lt in PP'. rewrite PP'. unfold receive_raw_data.
      assert (KP : (k - 9 < length (w_payload w))%nat) by (rewrite WE, app_length, HL in K; lia).
      rewrite (read_cut _ (size (w_payload w)) (k - 9) more); cbn [set_tls c_tls c_req c_resp tls_in tls_out tls_sched]; try assumption; try lia.
      * cbn [bind]. rewrite <- SK, skipn_app. replace (k - 9 - length (w_payload w))%nat with 0%nat by lia. reflexivity.
      * unfold size. clear PL. lia.
      * rewrite app_length. lia.
      * reflexivity.
Qed.

(* So whoever chooses the content of a DATA frame chooses what the repeated call
   returns: a frame placed in the payload is handled as a frame of the server. *)
Theorem C82_smuggled_refuted : forall m c more rest v flags stream, wframe_ok v ->
  let w := WFrame 0 flags 0 stream (wire v) in wframe_ok w ->
  tls_sched (c_tls c) = Chunk 8 :: Fail :: more -> tls_in (c_tls c) = wire w ++ rest ->
  (forall i u, delivers (size (wire v)) (Tls i u more)) ->
  exists c1 c2, receive_frame m c = (Throw RuntimeError, c1) /\
  receive_frame m c1 = (fst (handled m (c_resp c) v), c2) /\ tls_in (c_tls c2) = rest.
Proof.
  intros m c more rest v flags stream V w W S I D.
  set (c1 := Client (Tls (wire v ++ rest) (tls_out (c_tls c)) more) (c_req c) (c_resp c)).
  assert (R : receive_frame m c = (Throw RuntimeError, c1)).
  { destruct (wire_split w W) as (head & WE & HS & HB). pose proof (wire_size w W) as WS. pose proof (wire_size v V) as VS.
    unfold receive_frame, receive_raw_data at 1, FRAME_HEADER_BYTES.
    rewrite (read_whole (c_tls c) 9 (Fail :: more)); try assumption; try reflexivity.
    2: { rewrite I, size_app, WS. lia. }
    rewrite I, WE, <- app_assoc. change (N.to_nat 9) with 9%nat.
    assert (HL : length head = 9%nat) by (unfold size in HS; lia).
    rewrite <- HL, firstn_app, skipn_app, Nat.sub_diag, firstn_all, skipn_all. cbn [firstn skipn app]. rewrite app_nil_r.
    cbn [bind]. rewrite HB. change (fh_length (header_of w)) with (size (wire v)). change (w_payload w) with (wire v).
    assert (PP : 0 < size (wire v)) by lia. pose proof PP as PP'. apply N.ltb_lt in PP'. rewrite PP'.
    unfold receive_raw_data, ssl_read. destruct (N.to_nat (size (wire v))) as [|f] eqn:F; [lia|].
    rewrite read_loop_step by exact PP. unfold bio_read. reflexivity. }
  destruct (receive_complete m c1 v rest 0 V) as (s & IS & _ & _ & R2).
  { reflexivity. } { rewrite N.add_0_r. apply D. }
  exists c1. eexists. split; [exact R|]. split; [exact R2|]. exact IS.
Qed.

(* A DATA frame whose content is a GOAWAY frame; the read fails once after the
   frame header. *)
Example C82_case :
  let v := WFrame 7 0 0 0 [0; 0; 0; 0; 0; 0; 0; 2] in
  let w := WFrame 0 0 0 1 (wire v) in
  let c := new_client (Tls (wire w) [] (Chunk 8 :: Fail :: repeat (Chunk 8) 17)) in
  wframe_ok v /\ wframe_ok w /\ tls_in (c_tls c) = wire w ++ [] /\
  (forall i u, delivers (size (wire v)) (Tls i u (repeat (Chunk 8) 17))) /\
  (exists c1 c2 f, receive_frame Strict c = (Throw RuntimeError, c1) /\
     receive_frame Strict c1 = (Ok f, c2) /\ frame_fh f = FH 8 7 0 0 0) /\
  to_send LittleEndian SendPreface preface_octets /\ (0 < 3 < length preface_octets)%nat.
Proof.
  cbv zeta. split; [|split; [|split; [|split; [|split; [|split]]]]].
  - repeat split; try reflexivity. intros b H; cbn in H; intuition (subst; reflexivity).
  - split; [reflexivity|]. split; [reflexivity|]. split; [reflexivity|]. split; [reflexivity|]. split; [|vm_compute; reflexivity].
    intros b H. vm_compute in H. intuition (subst; reflexivity).
  - rewrite app_nil_r. reflexivity.
  - intros i u. exists (repeat (Chunk 8) 17), []. split; [reflexivity|]. split; [|discriminate].
    apply Forall_forall. intros e I. apply repeat_spec in I. subst. discriminate.
  - eexists. eexists. eexists. split; [vm_compute; reflexivity|]. split; [vm_compute; reflexivity|]. reflexivity.
  - reflexivity.
  - cbn. lia.
Qed.

Print Assumptions C82_send_again_partial.
Print Assumptions C82_send_again_octets.
Print Assumptions C82_send_twice_refuted.
Print Assumptions C82_receive_again_partial.
Print Assumptions C82_receive_loses_refuted.
Print Assumptions C82_smuggled_refuted.
