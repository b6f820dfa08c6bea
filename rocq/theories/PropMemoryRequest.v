(* Property C119: repeating what failed for want of memory. *)
From Coq Require Import String.
From Coq Require Import ZArith NArith List Bool Lia ZifyBool ZifyNat ZifyN.
From Verif Require Import Base Arith Util StaticTable HeaderType DynTable HeaderEnc FrameHeader Frames FrameBuilder Ssl Client Memory MemoryRequest
  SpecHpack SpecFrame SpecUnique DynTableProofs StaticProofs HeaderProofs FrameProofs BlockProofs HistoryProofs PropHeader PropSsl PropClient PropEntry
  PropHistory PropRequest PropFrame PropRetry PropAhead PropReqBlock PropReqHistory PropMemory.
Import ListNotations.
Local Open Scope string_scope.
Local Open Scope list_scope.
Local Open Scope N_scope.
Ltac Zify.zify_post_hook ::= Z.div_mod_to_equations.

(* ---- the library ---- *)

(* The calls that send something; the memory left is of no interest here. *)
Definition send_mem (mem : memory) (host : endian) (c : client) (o : send_op) : outcome unit * client :=
  fst (match o with
       | SendFrame f => send_frame_mem mem host c f
       | SendRaw d => send_raw_data_mem mem c d
       | SendPreface => send_connection_preface_mem mem c
       end).

(* The calls a user makes for a request (perform, PropRequest.v): build the frame
   with the client's request table, send it, report the block. *)
Definition perform_mem (mem : memory) (host : endian) (c : client) (q : request) : outcome unit * client :=
  let '(b, mem1) := mk_headers_mem mem (q_flags q) (q_stream q) (q_block q) (q_mode q) (get_request_dynamic_table c) (q_padding q)
          (Prio (q_exclusive q) (q_dependency q) (q_weight q)) in
  match b with
  | BadAlloc => (BadAlloc, c)
  | Returns (Throw x) => (Returns (Throw x), c)
  | Returns (UB u) => (Returns (UB u), c)
  | Returns NoFuel => (Returns NoFuel, c)
  | Returns (Ok f) =>
      let '(s, c1, mem2) := send_frame_mem mem1 host c f in
      match s with
      | Returns (Ok _) => update_request_dynamic_table_mem mem2 c1 (q_block q)
      | _ => (s, c1)
      end
  end.

(* A user who repeats a request as long as it ends with std::bad_alloc; mems says
   how much memory each attempt finds. *)
Fixpoint attempts (mems : list memory) (host : endian) (c : client) (q : request) : outcome unit * client :=
  match mems with
  | [] => (BadAlloc, c)
  | mem :: mems' =>
      match perform_mem mem host c q with
      | (BadAlloc, c') => attempts mems' host c' q
      | other => other
      end
  end.

(* ---- sending ---- *)

Lemma raw_mem : forall mem c data r c' mem', send_raw_data_mem mem c data = (r, c', mem') ->
  (r = Returns (fst (send_raw_data c data)) /\ c' = snd (send_raw_data c data)) \/
  (r = BadAlloc /\ send_raw_data c data = (Throw RuntimeError, c') /\ fst (alloc mem) = false).
Proof.
  intros mem c data r c' mem' H. unfold send_raw_data_mem in H. destruct (send_raw_exact c data) as (k & X).
  destruct (send_raw_data c data) as [[[]|x|u|] c1]; try (injection H as <- <- _; left; split; reflexivity).
  destruct X as (_ & _ & _ & _ & [[X _]|[X _]]); [discriminate X|]. injection X as ->.
  destruct (alloc mem) as [[] mem1] eqn:A; injection H as <- <- _; [left; split; reflexivity|]. right. auto.
Qed.

Lemma frame_mem : forall mem host c f r c' mem', send_frame_mem mem host c f = (r, c', mem') ->
  (r = Returns (fst (send_frame host c f)) /\ c' = snd (send_frame host c f)) \/
  (r = BadAlloc /\ c' = c) \/
  (r = BadAlloc /\ send_frame host c f = (Throw RuntimeError, c') /\ exists raw, serialize host f = Ok raw).
Proof.
  intros mem host c f r c' mem' H. unfold send_frame_mem in H. unfold send_frame. destruct (alloc mem) as [[] mem1]; [|injection H as <- <- _; auto].
  destruct (serialize host f) as [raw|x|u|]; try (injection H as <- <- _; left; split; reflexivity).
  destruct (raw_mem _ _ _ _ _ _ H) as [X|(X & Y & _)]; [auto|]. right. right. eauto.
Qed.

(* A call that sends: either it ends as described for it (C54), or with
   std::bad_alloc, and then nothing has happened to the client unless the TLS layer
   failed after a proper part of the data. *)
Theorem C119_send : forall mem host c o r c', send_mem mem host c o = (r, c') ->
  (forall e, r = Returns e -> send host c o = (e, c')) /\
  (r = BadAlloc -> c' = c \/
     (send host c o = (Throw RuntimeError, c') /\
      exists d k, to_send host o d /\ (k < length d)%nat /\ tls_out (c_tls c') = tls_out (c_tls c) ++ firstn k d)).
Proof.
  intros mem host c o r c' H.
  assert (G : (r = Returns (fst (send host c o)) /\ c' = snd (send host c o)) \/ (r = BadAlloc /\ c' = c) \/
    (r = BadAlloc /\ send host c o = (Throw RuntimeError, c') /\ exists d, to_send host o d)).
  { unfold send_mem in H. destruct o as [f|d|]; cbn [send] in *.
    - destruct (send_frame_mem mem host c f) as [[r1 c1] m1] eqn:E. cbn [fst] in H. injection H as -> ->.
      exact (frame_mem _ _ _ _ _ _ _ E).
    - destruct (send_raw_data_mem mem c d) as [[r1 c1] m1] eqn:E. cbn [fst] in H. injection H as -> ->.
      destruct (raw_mem _ _ _ _ _ _ E) as [X|(X & Y & _)]; [auto|]. right. right. split; [exact X|]. split; [exact Y|]. exists d. reflexivity.
    - destruct (send_connection_preface_mem mem c) as [[r1 c1] m1] eqn:E. cbn [fst] in H. injection H as -> ->.
      unfold send_connection_preface_mem in E. unfold send_connection_preface. destruct (alloc mem) as [[] m2]; [|injection E as <- <- _; auto].
      destruct (raw_mem _ _ _ _ _ _ E) as [X|(X & Y & _)]; [auto|]. right. right. split; [exact X|]. split; [exact Y|]. exists preface_octets. reflexivity. }
  split.
  - intros e ->. destruct G as [(X & ->)|[(X & _)|(X & _)]]; [|discriminate X..]. injection X as ->. destruct (send host c o). reflexivity.
  - intros ->. destruct G as [(X & _)|[(_ & ->)|(_ & X & d & T)]]; [discriminate X|auto|]. right. split; [exact X|].
    destruct (C54_send_exact _ _ _ _ _ X) as (_ & _ & _ & [(d' & _ & R & _)|[(d' & k & T' & _ & L & O)|(R & _)]]); [discriminate R| |destruct (R d T)].
    exists d', k. auto.
Qed.

(* With enough memory every call ends as described for it. *)
Theorem C119_enough_memory : forall mem host c, plenty mem ->
  (forall o, send_mem mem host c o = (Returns (fst (send host c o)), snd (send host c o))) /\
  (forall q, perform_mem mem host c q = (Returns (fst (perform host c q)), snd (perform host c q))).
Proof.
  intros mem host c P.
  assert (R : forall m c0 d, plenty m -> exists m', plenty m' /\
    send_raw_data_mem m c0 d = (Returns (fst (send_raw_data c0 d)), snd (send_raw_data c0 d), m')).
  { intros m c0 d Q. unfold send_raw_data_mem. destruct (alloc_plenty m Q) as (m' & A & Q'). rewrite A.
    destruct (send_raw_data c0 d) as [[| | |] c1]; [exists m|exists m'|exists m|exists m]; split; (assumption || reflexivity). }
  assert (F : forall m c0 f, plenty m -> exists m', plenty m' /\
    send_frame_mem m host c0 f = (Returns (fst (send_frame host c0 f)), snd (send_frame host c0 f), m')).
  { intros m c0 f Q. unfold send_frame_mem, send_frame. destruct (alloc_plenty m Q) as (m' & A & Q'). rewrite A.
    destruct (serialize host f) as [d| | |]; [apply R; exact Q'|..]; exists m'; split; (assumption || reflexivity). }
  split.
  - intros [f|d|]; unfold send_mem; cbn [send].
    + destruct (F mem c f P) as (m' & _ & ->). reflexivity.
    + destruct (R mem c d P) as (m' & _ & ->). reflexivity.
    + unfold send_connection_preface_mem, send_connection_preface. destruct (alloc_plenty mem P) as (m & A & Q). rewrite A.
      destruct (R m c connection_preface Q) as (m' & _ & ->). reflexivity.
  - intros q. unfold perform_mem, perform, mk_headers_mem. destruct (alloc_plenty mem P) as (m & A & Q). rewrite A.
    destruct (mk_headers _ _ _ _ _ _ _) as [f| | |]; try reflexivity. destruct (F m c f Q) as (m' & Q' & ->).
    destruct (send_frame host c f) as [[[]| | |] c1]; cbn [fst snd]; try reflexivity.
    rewrite (proj2 (C107_enough_memory m' Q')). reflexivity.
Qed.

(* When the TLS layer fails after k octets and there is no memory for the text of
   the exception, the call ends exactly like one that has sent nothing (std::bad_alloc),
   and a user who repeats it sends the k octets and then everything again. *)
Theorem C119_masked_refuted : forall host c o d k more, (forall d', o <> SendRaw d') ->
  to_send host o d -> (0 < k < length d)%nat -> size d < 2 ^ 31 ->
  tls_sched (c_tls c) = Chunk (N.of_nat k - 1) :: Fail :: more ->
  (forall i u, delivers (size d) (Tls i u more)) ->
  send_mem [false] host c o = (BadAlloc, c) /\
  exists c1 c2, send_mem [true; false] host c o = (BadAlloc, c1) /\ tls_out (c_tls c1) = tls_out (c_tls c) ++ firstn k d /\
  send_mem [] host c1 o = (Returns (Ok tt), c2) /\ tls_out (c_tls c2) = tls_out (c_tls c) ++ firstn k d ++ d.
Proof.
  intros host c o d k more NR T K L S D. split.
  { destruct o as [f|d'|]; [reflexivity|destruct (NR d' eq_refl)|reflexivity]. }
  destruct (C82_send_twice_refuted host c o d k more T K L S D) as (c1 & c2 & S1 & S2 & O & _). exists c1, c2.
  assert (E : send_mem [true; false] host c o = (BadAlloc, c1)).
  { rewrite (send_data _ _ _ _ T) in S1. destruct o as [f|d'|]; [|destruct (NR d' eq_refl)|]; unfold send_mem; cbn [to_send] in T.
    - unfold send_frame_mem. cbn [alloc]. rewrite T. unfold send_raw_data_mem. rewrite S1. reflexivity.
    - unfold send_connection_preface_mem. cbn [alloc]. change connection_preface with preface_octets. rewrite <- T.
      unfold send_raw_data_mem. rewrite S1. reflexivity. }
  split; [exact E|]. split.
  - destruct (C54_send_exact _ _ _ _ _ S2) as (_ & _ & _ & [(d2 & T2 & _ & O2)|[(d2 & k2 & _ & R & _)|(_ & R & _)]]); [|discriminate R|contradiction].
    rewrite (to_send_fun _ _ _ _ T2 T), O in O2. rewrite app_assoc in O2. apply app_inv_tail in O2. symmetry. exact O2.
  - split; [|exact O]. rewrite (proj1 (C119_enough_memory [] host c1 (Forall_nil _))), S2. reflexivity.
Qed.

(* ---- requests ---- *)

Lemma perform_cases : forall mem host c q r c', perform_mem mem host c q = (r, c') ->
  (exists e, r = Returns e /\ perform host c q = (e, c')) \/
  (r = BadAlloc /\ (c' = c \/ exists f raw, build_request (c_req c) q = Ok f /\ serialize host f = Ok raw /\
     (send_frame host c f = (Throw RuntimeError, c') \/
      exists c1 mem', send_frame host c f = (Ok tt, c1) /\ update_request_dynamic_table_mem mem' c1 (q_block q) = (BadAlloc, c')))).
Proof.
  intros mem host c q r c' H. unfold perform_mem, mk_headers_mem in H. unfold perform.
  fold (build_request (get_request_dynamic_table c) q) in *. unfold get_request_dynamic_table in *.
  destruct (alloc mem) as [[] mem1]; [|injection H as <- <-; right; auto].
  destruct (build_request (c_req c) q) as [f|x|u|]; try (injection H as <- <-; left; eexists; split; reflexivity).
  destruct (send_frame_mem mem1 host c f) as [[s c1] mem2] eqn:F.
  destruct (frame_mem _ _ _ _ _ _ _ F) as [(-> & ->)|[(-> & ->)|(-> & Y & raw & R)]].
  - destruct (send_frame host c f) as [[[]|x|u|] c1] eqn:S; cbn [fst snd] in H; try (injection H as <- <-; left; eexists; split; reflexivity).
    destruct r as [e|].
    + left. exists e. split; [reflexivity|]. symmetry. apply (proj2 (C107_reported_partial mem2 c1)). exact H.
    + right. split; [reflexivity|]. right. unfold send_frame in S. destruct (serialize host f) as [raw| | |] eqn:R; try discriminate S.
      exists f, raw. split; [reflexivity|]. split; [exact R|]. right. exists c1, mem2. split; [unfold send_frame; rewrite R; exact S|exact H].
  - injection H as <- <-. right. auto.
  - injection H as <- <-. right. split; [reflexivity|]. right. exists f, raw. auto.
Qed.

(* Whatever memory there is: a request that does not end with std::bad_alloc ends
   as described for it (C52). *)
Theorem C119_reported : forall mem host c q e c', perform_mem mem host c q = (Returns e, c') -> perform host c q = (e, c').
Proof.
  intros mem host c q e c' H. destruct (perform_cases _ _ _ _ _ _ H) as [(e' & E & P)|(X & _)]; [|discriminate X].
  injection E as ->. exact P.
Qed.

(* A request that would have succeeded and ends with std::bad_alloc: either nothing
   has happened, or the whole frame has been sent and the request table has been
   updated up to some entry of the block, which is missing. *)
Theorem C119_request_partial : forall mem host c q done c', dt_ok (c_req c) -> perform host c q = (Ok tt, done) ->
  perform_mem mem host c q = (BadAlloc, c') ->
  c' = c \/ (c_tls c' = c_tls done /\ c_resp c' = c_resp done /\ cut_short (c_req c) (q_block q) (c_req c')).
Proof.
  intros mem host c q done c' K G H. destruct (perform_cases _ _ _ _ _ _ H) as [(e & X & _)|(_ & [->|(f & raw & B & R & C)])]; [discriminate X|auto|].
  unfold perform in G. fold (build_request (get_request_dynamic_table c) q) in G. unfold get_request_dynamic_table in G. rewrite B in G.
  destruct C as [C|(c1 & mem' & S & U)]; [rewrite C in G; discriminate G|]. rewrite S in G. right.
  destruct (sent_ok _ _ _ _ _ R S) as (_ & Q). unfold update_request_dynamic_table_mem in U. unfold update_request_dynamic_table in G.
  destruct (update_block_mem mem' (c_req c1) (q_block q)) as [r t] eqn:E. injection U as -> <-.
  destruct (update_block (c_req c1) (q_block q)) as [r2 t2]. injection G as _ <-. cbn [c_tls c_resp c_req].
  split; [reflexivity|]. split; [reflexivity|]. rewrite Q in E. exact (block_cut _ _ _ _ K E).
Qed.

Lemma unindexed_update : forall b mem t, Forall (fun e => e_prefix e <> IncrementalIndexing) b -> fst (update_block_mem mem t b) <> BadAlloc.
Proof.
  induction b as [|e b IH]; intros mem t F; cbn [update_block_mem]; [discriminate|]. inversion F as [|x y F0 F1]; subst.
  unfold update_entry_mem. destruct (e_prefix e); try (apply IH; exact F1); try (destruct (F0 eq_refl)).
  destruct (let* n := get_max_size e in dt_update_size t n); [apply IH; exact F1|discriminate..].
Qed.

(* A request that inserts nothing into the table can be repeated as long as it ends
   with std::bad_alloc: it is as if only the last attempt had been made. *)
Theorem C119_repeat_partial : forall mems host c q done, perform host c q = (Ok tt, done) ->
  Forall (fun e => e_prefix e <> IncrementalIndexing) (q_block q) ->
  attempts mems host c q = (BadAlloc, c) \/ attempts mems host c q = (Returns (Ok tt), done).
Proof.
  intros mems host c q done G F. induction mems as [|mem mems IH]; [left; reflexivity|]. cbn [attempts].
  destruct (perform_mem mem host c q) as [r c'] eqn:E. destruct (perform_cases _ _ _ _ _ _ E) as [(e & -> & P)|(-> & C)].
  - rewrite G in P. injection P as <- <-. right. reflexivity.
  - assert (c' = c) as ->; [|exact IH]. destruct C as [C|(f & raw & B & R & C)]; [exact C|].
    unfold perform in G. fold (build_request (get_request_dynamic_table c) q) in G. unfold get_request_dynamic_table in G. rewrite B in G.
    destruct C as [C|(c1 & mem' & S & U)]; [rewrite C in G; discriminate G|]. exfalso.
    apply (unindexed_update (q_block q) mem' (c_req c1) F). unfold update_request_dynamic_table_mem in U.
    destruct (update_block_mem mem' (c_req c1) (q_block q)) as [r t]. injection U as -> _. reflexivity.
Qed.

(* The request table after the copy of the second field of a block could not be made. *)
Lemma copy_failed : forall T x b more, update_block_mem (false :: more) T (HEntry IncrementalIndexing (EHeader x) :: b) = (BadAlloc, T).
Proof. reflexivity. Qed.

Lemma one_inserted : forall T x1 x2 b more, dt_ok T -> field_size x1 <= dt_max T ->
  exists T1, update_block_mem (true :: true :: false :: more) T
      (HEntry IncrementalIndexing (EHeader x1) :: HEntry IncrementalIndexing (EHeader x2) :: b) = (BadAlloc, T1) /\
    dt_ok T1 /\ rfc_table T1 = insert (rfc_table T) x1.
Proof.
  intros T x1 x2 b more K L. destruct (push_holds 0 (rfc_table T) T x1 (false :: more) (ok_holds T K) L) as (T1 & P & H1).
  exists T1. split; [|exact (holds_ok _ _ H1)].
  cbn [update_block_mem]. unfold update_entry_mem at 1. cbn [e_prefix get_header e_content alloc].
  rewrite P. reflexivity.
Qed.

(* the frame of a request is sent; what is left of the memory is for the report *)
Lemma sent_first : forall host c q done, perform host c q = (Ok tt, done) ->
  exists f w c1, build_request (c_req c) q = Ok f /\ serialize host f = Ok w /\
    tls_out (c_tls c1) = tls_out (c_tls c) ++ w /\ c_req c1 = c_req c /\ c_tls c1 = c_tls done /\
    forall mem, perform_mem (true :: true :: mem) host c q = update_request_dynamic_table_mem mem c1 (q_block q).
Proof.
  intros host c q done G. unfold perform in G. fold (build_request (get_request_dynamic_table c) q) in G.
  unfold get_request_dynamic_table in G. destruct (build_request (c_req c) q) as [f| | |] eqn:B; try discriminate G.
  destruct (send_frame host c f) as [[[]| | |] c1] eqn:SF; try discriminate G.
  destruct (serialize host f) as [w| | |] eqn:S; [|unfold send_frame in SF; rewrite S in SF; discriminate SF..].
  destruct (sent_ok _ _ _ _ _ S SF) as (O & Q). exists f, w, c1. split; [reflexivity|]. split; [exact S|]. split; [exact O|]. split; [exact Q|]. split.
  - unfold update_request_dynamic_table in G. destruct (update_block (c_req c1) (q_block q)). injection G as _ <-. reflexivity.
  - intros mem. unfold perform_mem, mk_headers_mem. cbn [alloc]. fold (build_request (get_request_dynamic_table c) q).
    unfold get_request_dynamic_table. rewrite B. unfold send_frame_mem. cbn [alloc]. rewrite S. unfold send_raw_data_mem.
    unfold send_frame in SF. rewrite S in SF. rewrite SF. reflexivity.
Qed.

(* A request that inserts a field and fails while the insertion is reported: the
   client's tables are as before, but repeating the request sends it a second time,
   on the same stream, and the server has the field in its table twice. *)
Theorem C119_twice_refuted : forall host c q x done more, dt_ok (c_req c) -> sendable (c_req c) q ->
  q_block q = [HEntry IncrementalIndexing (EHeader x)] -> ~ in_tables (c_req c) x -> fst x <> octets "accept-control-allow-origin" ->
  perform host c q = (Ok tt, done) ->
  exists c1 w, perform_mem (true :: true :: false :: more) host c q = (BadAlloc, c1) /\
    c_req c1 = c_req c /\ c_resp c1 = c_resp c /\ tls_out (c_tls c1) = tls_out (c_tls c) ++ w /\
    forall c2, perform_mem [] host c1 q = (Returns (Ok tt), c2) ->
      tls_out (c_tls c2) = tls_out (c_tls c) ++ w ++ w /\
      forall limit t, server_reads limit t (w ++ w) [[x]; [x]] (insert (insert t x) x).
Proof.
  intros host c q x done more K A EB NI NM G. destruct (sent_first host c q done G) as (f & w & c1 & B & S & O & Q & _ & P).
  assert (RS : c_resp c1 = c_resp c).
  { destruct (C119_request_partial (true :: true :: false :: more) host c q done c1 K G) as [->|(_ & R & _)]; [|reflexivity|].
    - rewrite P, EB. unfold update_request_dynamic_table_mem. rewrite copy_failed. destruct c1. reflexivity.
    - rewrite R. clear -G. unfold perform in G. destruct (mk_headers _ _ _ _ _ _ _) as [f| | |]; try discriminate G.
      destruct (send_frame host c f) as [r c1] eqn:SF. destruct (C54_send_exact host c (SendFrame f) r c1 SF) as (_ & _ & R & _).
      destruct r as [[]| | |]; try discriminate G. unfold update_request_dynamic_table in G.
      destruct (update_block _ _). injection G as _ <-. exact R. }
  exists c1, w. split.
  { rewrite P, EB. unfold update_request_dynamic_table_mem. rewrite copy_failed. destruct c1. reflexivity. }
  split; [exact Q|]. split; [exact RS|]. split; [exact O|]. intros c2 H.
  destruct (sent_first host c1 q c2 (C119_reported _ _ _ _ _ _ H)) as (f2 & w2 & c3 & B2 & S2 & O2 & _ & T2 & _).
  rewrite Q, B in B2. apply Ok_inj in B2. subst f2. rewrite S in S2. apply Ok_inj in S2. subst w2.
  rewrite T2 in O2. rewrite O2, O, <- app_assoc. split; [reflexivity|]. intros limit t.
  assert (FO : forall t0, follows limit (c_req c) t0 (q_block q) (insert t0 x)).
  { intros t0. rewrite EB. apply follows_insert; [exact NI|exact NM|]. constructor. }
  assert (FF : fields_of (q_block q) = [x]) by (rewrite EB; reflexivity).
  destruct (built_read host limit (c_req c) q f K A B) as (w' & S' & R). rewrite S in S'. apply Ok_inj in S'. subst w'. rewrite FF in R.
  apply R. exists (insert t x). split; [apply FO|]. rewrite <- (app_nil_r w). apply R. eexists. split; [apply FO|]. constructor.
Qed.

Lemma newest_resolved : forall T t x1 x2 old i, ~ In x1 rfc_static -> t_entries T = x1 :: old -> ~ In x1 old ->
  hd_error (t_entries t) = Some x2 -> resolve T i = Some x1 -> resolve t i = Some x2.
Proof.
  intros T t x1 x2 old i NS E NO HD R. unfold resolve, resolve_in in *. destruct (i =? 0); [discriminate R|].
  destruct (i <=? N.of_nat (length rfc_static)); [apply nth_error_In in R; contradiction|]. rewrite E in R.
  destruct (N.to_nat (i - 1 - N.of_nat (length rfc_static))) as [|n]; [|cbn [nth_error] in R; apply nth_error_In in R; contradiction].
  destruct (t_entries t) as [|y l]; [discriminate HD|]. exact HD.
Qed.

(* A request that inserts two fields and fails while the second is reported: the
   server's newest entry is the second field, the client's the first.  When the
   client next sends the first field, the server reads the second. *)
Theorem C119_misread_refuted : forall host c q1 x1 x2 q2 p done more, dt_ok (c_req c) -> sendable (c_req c) q1 ->
  q_block q1 = [HEntry IncrementalIndexing (EHeader x1); HEntry IncrementalIndexing (EHeader x2)] ->
  ~ in_tables (c_req c) x1 -> ~ in_tables (c_req c) x2 -> ~ In x1 rfc_static ->
  fst x1 <> octets "accept-control-allow-origin" -> fst x2 <> octets "accept-control-allow-origin" ->
  field_size x1 <= dt_max (c_req c) -> field_size x2 <= dt_max (c_req c) ->
  perform host c q1 = (Ok tt, done) -> p <> SizeUpdate -> q_block q2 = [HEntry p (EHeader x1)] ->
  exists c1, perform_mem (true :: true :: true :: true :: false :: more) host c q1 = (BadAlloc, c1) /\
    forall c2, request_ok (Table (dt_max (c_req c1)) (dt_entries (c_req c1))) q2 -> perform host c1 q2 = (Ok tt, c2) ->
      exists out, tls_out (c_tls c2) = tls_out (c_tls c) ++ out /\ forall limit, exists t,
        server_reads limit (Table (dt_max (c_req c)) (dt_entries (c_req c))) out [[x1; x2]; [x2]] t.
Proof.
  intros host c q1 x1 x2 q2 p done more K A EB N1 N2 NS M1 M2 L1 L2 G NP EB2.
  destruct (sent_first host c q1 done G) as (f & w & c0 & B & S & O & Q & _ & P).
  destruct (one_inserted (c_req c) x1 x2 [] more K L1) as (T1 & U & K1 & R1).
  exists (Client (c_tls c0) T1 (c_resp c0)). split; [rewrite P, EB; unfold update_request_dynamic_table_mem; rewrite Q, U; reflexivity|].
  cbn [c_req]. intros c2 RQ H.
  destruct (sent_first host _ q2 c2 H) as (f2 & w2 & c3 & B2 & S2 & O2 & _ & T2 & _). cbn [c_tls c_req] in *.
  exists (w ++ w2). rewrite <- T2, O2, O, <- app_assoc. split; [reflexivity|]. intros limit.
  assert (T1E : exists old, dt_entries T1 = x1 :: old /\ ~ In x1 old).
  { assert (X : t_entries (rfc_table T1) = t_entries (insert (rfc_table (c_req c)) x1)) by (rewrite R1; reflexivity).
    rewrite insert_room in X by exact L1. cbn [t_entries rfc_table] in X. eexists. split; [exact X|]. intros I. apply N1. right.
    clear -I. revert I. generalize (t_max (rfc_table (c_req c)) - field_size x1). induction (dt_entries (c_req c)) as [|y l IH]; intros n I; [destruct I|].
    cbn [keep] in I. destruct (N.leb_spec (field_size y) n) as [_|_]; [|contradiction]. destruct I as [->|I]; [left; reflexivity|right; eapply IH; exact I]. }
  destruct T1E as (old & E1 & NO).
  destruct (indexed_means p x1 (q_mode q2) T1 NP) as (l & i & EN & RP & RS & _); [right; rewrite E1; left; reflexivity|].
  assert (EK : encode_block (q_block q2) (q_mode q2) T1 = Ok l).
  { rewrite EB2. cbn [encode_block]. rewrite EN. cbn [bind]. rewrite app_nil_r. reflexivity. }
  destruct (request_wire host T1 q2 l K1 RQ EK) as (SZ & _ & g & G2 & SG).
  rewrite B2 in G2. apply Ok_inj in G2. subst g. rewrite S2 in SG. apply Ok_inj in SG.
  destruct (built_read host limit (c_req c) q1 f K A B) as (w' & S' & R). rewrite S in S'. apply Ok_inj in S'. subst w'.
  exists (insert (insert (rfc_table (c_req c)) x1) x2).
  assert (FF : fields_of (q_block q1) = [x1; x2]) by (rewrite EB; reflexivity). rewrite FF in R.
  apply R. exists (insert (insert (rfc_table (c_req c)) x1) x2). split.
  - rewrite EB. apply follows_insert; [exact N1|exact M1|]. apply follows_insert; [exact N2|exact M2|]. constructor.
  - rewrite SG, <- (app_nil_r (wire_frame _ _ _ _ _)). eapply reads_headers; [exact SZ| |constructor].
    apply (one_repr _ _ _ _ _ _ RP). unfold step_in. fold resolve.
    rewrite (newest_resolved (rfc_table T1) (insert (insert (rfc_table (c_req c)) x1) x2) x1 x2 old i NS E1 NO); [reflexivity| |exact RS].
    rewrite insert_room; [reflexivity|]. exact L2.
Qed.

(* Requests of one field and of two, a request that inserts nothing, a connection
   that delivers and one that fails after five octets. *)
Example C119_case : forall host, let c := new_client (Tls [] [] (repeat (Chunk 100) 3)) in
  let x1 := ([97], [98]) in let x2 := ([99], [100]) in
  let q := ask 1 [HEntry IncrementalIndexing (EHeader x1)] in
  let q1 := ask 1 [HEntry IncrementalIndexing (EHeader x1); HEntry IncrementalIndexing (EHeader x2)] in
  let q2 := ask 3 [HEntry WithoutIndexing (EHeader x1)] in
  let bad := new_client (Tls [] [] (Chunk 4 :: Fail :: repeat (Chunk 0) 24)) in
  dt_ok (c_req c) /\ sendable (c_req c) q /\ sendable (c_req c) q1 /\ ~ in_tables (c_req c) x1 /\ ~ in_tables (c_req c) x2 /\
  ~ In x1 rfc_static /\
  (exists done, perform host c q = (Ok tt, done)) /\ (exists done, perform host c q1 = (Ok tt, done)) /\
  (exists done, perform host c q2 = (Ok tt, done)) /\
  attempts [[false]; [true; false]; [true; true]] host c q2 = (Returns (Ok tt), snd (perform host c q2)) /\
  (exists c1 c2 c3, perform_mem [true; true; false] host c q = (BadAlloc, c1) /\ perform_mem [] host c1 q = (Returns (Ok tt), c2) /\
     perform_mem [true; true; true; true; false] host c q1 = (BadAlloc, c3) /\
     request_ok (Table (dt_max (c_req c3)) (dt_entries (c_req c3))) q2 /\ exists c4, perform host c3 q2 = (Ok tt, c4)) /\
  plenty [true; true] /\
  (forall i u, delivers (size preface_octets) (Tls i u (repeat (Chunk 0) 24))) /\ to_send host SendPreface preface_octets /\
  tls_sched (c_tls bad) = Chunk (N.of_nat 5 - 1) :: Fail :: repeat (Chunk 0) 24.
Proof.
  intros host c x1 x2 q q1 q2 bad. split; [split; [reflexivity|discriminate]|].
  split; [split; [eapply request_okb; [vm_compute; reflexivity|vm_compute; reflexivity]|];
      (split; [repeat (apply Forall_cons; [apply octets_ab; reflexivity|]); apply Forall_nil|]);
      repeat (apply Forall_cons; [intros h E; discriminate E|]); apply Forall_nil|].
  split; [split; [eapply request_okb; [vm_compute; reflexivity|vm_compute; reflexivity]|];
      (split; [repeat (apply Forall_cons; [apply octets_ab; reflexivity|]); apply Forall_nil|]);
      repeat (apply Forall_cons; [intros h E; discriminate E|]); apply Forall_nil|].
  split; [apply in_tablesb_false; vm_compute; reflexivity|]. split; [apply in_tablesb_false; vm_compute; reflexivity|].
  split; [intros J; vm_compute in J; repeat (destruct J as [J|J]; [discriminate J|]); destruct J|].
  split; [eexists; destruct host; vm_compute; reflexivity|]. split; [eexists; destruct host; vm_compute; reflexivity|].
  split; [eexists; destruct host; vm_compute; reflexivity|]. split; [destruct host; vm_compute; reflexivity|].
  split.
  { do 3 eexists. split; [destruct host; vm_compute; reflexivity|]. split; [destruct host; vm_compute; reflexivity|].
    split; [destruct host; vm_compute; reflexivity|]. split; [|eexists; destruct host; vm_compute; reflexivity].
    eapply request_okb; [vm_compute; reflexivity|vm_compute; reflexivity]. }
  split; [repeat constructor|]. split; [|split; reflexivity].
  intros i u. exists (repeat (Chunk 0) 24), []. split; [rewrite app_nil_r; reflexivity|]. split.
  - apply Forall_forall. intros y J. apply repeat_spec in J. subst. discriminate.
  - vm_compute. discriminate.
Qed.

Print Assumptions C119_send.
Print Assumptions C119_enough_memory.
Print Assumptions C119_masked_refuted.
Print Assumptions C119_reported.
Print Assumptions C119_request_partial.
Print Assumptions C119_repeat_partial.
Print Assumptions C119_twice_refuted.
Print Assumptions C119_misread_refuted.
