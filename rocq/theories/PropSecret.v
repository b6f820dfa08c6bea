(* Property C72: headers kept out of the compression tables. *)
From Coq Require Import String.
From Coq Require Import ZArith NArith List Bool Lia ZifyBool ZifyNat ZifyN.
From Verif Require Import Base Arith Util StaticTable HeaderType DynTable HeaderEnc HeaderDec FrameHeader Frames FrameBuilder Ssl Client
  SpecBits SpecHpack SpecFrame DynTableProofs StaticProofs HeaderProofs HeaderProofs2 FrameProofs BlockProofs HistoryProofs
  PropHeader PropFrame PropBlock PropSsl PropClient PropHistory PropRequest DumpProofs PropDump.
Import ListNotations.
Local Open Scope string_scope.
Local Open Scope list_scope.
Local Open Scope N_scope.
Ltac Zify.zify_post_hook ::= Z.div_mod_to_equations.

(* No request asks for h to be inserted. *)
Definition not_inserted (h : field) (qs : list request) : Prop :=
  forall q, In q qs -> ~ In (HEntry IncrementalIndexing (EHeader h)) (q_block q).

Lemma resize_sub : forall l c m r c', resize_loop l c m = Ok (r, c') -> forall h, In h r -> In h l.
Proof.
  induction l as [|x l IH]; intros c m r c' H h I; cbn [resize_loop] in H; destruct (m <? c); try discriminate H.
  - apply ok_pair in H. destruct H as [<- _]. exact I.
  - right. eapply IH; eassumption.
  - apply ok_pair in H. destruct H as [<- _]. exact I.
Qed.

Lemma resize_table_sub : forall l c m r c', resize_table l c m = Ok (r, c') -> forall h, In h r -> In h l.
Proof.
  intros l c m r c' H h I. unfold resize_table in H. apply bind_ok in H. destruct H as ([x y] & E & H).
  apply ok_pair in H. destruct H as [<- _]. apply in_rev. apply in_rev in I. eapply resize_sub; eassumption.
Qed.

Lemma update_entry_sub : forall t e t', update_entry t e = Ok t' -> forall h, In h (dt_entries t') ->
  In h (dt_entries t) \/ e = HEntry IncrementalIndexing (EHeader h).
Proof.
  intros t [p c] t' H h I. unfold update_entry in H. cbn [e_prefix] in H.
  destruct p; try (injection H as <-; left; exact I); destruct c as [g|n]; cbn [get_header get_max_size e_content e_prefix bind] in H; try discriminate H.
  - unfold dt_update_size in H. apply bind_ok in H. destruct H as ([x y] & E & H). injection H as <-. left. eapply resize_table_sub; eassumption.
  - unfold dt_push in H. apply bind_ok in H. destruct H as ([x y] & E & H). injection H as <-. cbn [dt_entries In] in I.
    destruct I as [<-|I]; [right; reflexivity|left; eapply resize_table_sub; eassumption].
Qed.

Lemma update_block_sub : forall b t r t', update_block t b = (r, t') -> forall h, In h (dt_entries t') ->
  In h (dt_entries t) \/ In (HEntry IncrementalIndexing (EHeader h)) b.
Proof.
  induction b as [|e b IH]; intros t r t' H h I; cbn [update_block] in H; [injection H as _ <-; left; exact I|].
  destruct (update_entry t e) as [t1|x|u|] eqn:U; try (injection H as _ <-; left; exact I).
  destruct (IH t1 r t' H h I) as [J|J]; [|right; right; exact J].
  destruct (update_entry_sub _ _ _ U h J) as [K| ->]; [left; exact K|right; left; reflexivity].
Qed.

Lemma perform_sub : forall host c q r c', perform host c q = (r, c') -> forall h, In h (dt_entries (c_req c')) ->
  In h (dt_entries (c_req c)) \/ In (HEntry IncrementalIndexing (EHeader h)) (q_block q).
Proof.
  intros host c q r c' H h I. unfold perform in H. destruct (mk_headers _ _ _ _ _ _ _) as [f|x|u|]; try (injection H as _ <-; left; exact I).
  destruct (send_frame host c f) as [r1 c1] eqn:S.
  assert (Q : c_req c1 = c_req c).
  { unfold send_frame in S. destruct (serialize host f) as [d|x|u|]; try (injection S as _ <-; reflexivity).
    unfold send_raw_data in S. destruct (ssl_write _ _). injection S as _ <-. reflexivity. }
  destruct r1; try (injection H as _ <-; left; rewrite <- Q; exact I).
  unfold update_request_dynamic_table in H. destruct (update_block (c_req c1) (q_block q)) as [r2 t] eqn:U.
  injection H as _ <-. cbn [c_req] in I. rewrite <- Q. eapply update_block_sub; eassumption.
Qed.

(* Whatever the requests and whatever becomes of them (r is any outcome), only
   headers submitted with incremental indexing enter the request table. *)
Theorem C72_not_in_request_table : forall host qs c r c' h, perform_all host c qs = (r, c') ->
  not_inserted h qs -> ~ In h (dt_entries (c_req c)) -> ~ In h (dt_entries (c_req c')).
Proof.
  intros host. induction qs as [|q qs IH]; intros c r c' h H N NI.
  - injection H as _ <-. exact NI.
  - cbn [perform_all] in H. destruct (perform host c q) as [r1 c1] eqn:P.
    assert (X : ~ In h (dt_entries (c_req c1))).
    { intros I. destruct (perform_sub _ _ _ _ _ P h I) as [J|J]; [exact (NI J)|]. apply (N q); [left; reflexivity|exact J]. }
    destruct r1; try (injection H as _ <-; exact X).
    eapply IH; [exact H| |exact X]. intros q' I. apply N. right. exact I.
Qed.

Lemma encode_block_split : forall b1 b2 mode t raw, encode_block (b1 ++ b2) mode t = Ok raw ->
  exists r1 r2, encode_block b1 mode t = Ok r1 /\ encode_block b2 mode t = Ok r2 /\ raw = r1 ++ r2.
Proof.
  induction b1 as [|e b1 IH]; intros b2 mode t raw H.
  - exists [], raw. split; [reflexivity|]. split; [exact H|reflexivity].
  - cbn [app encode_block] in *. apply bind_ok in H. destruct H as (x & E & H). apply bind_ok in H. destruct H as (y & F & H).
    apply Ok_inj in H. subst raw. destruct (IH _ _ _ _ F) as (r1 & r2 & -> & G & ->). rewrite E. cbn [bind].
    exists (x ++ r1), r2. split; [reflexivity|]. split; [exact G|]. rewrite app_assoc. reflexivity.
Qed.

(* In every later request the header is written as a literal of the kind asked
   for, never as an index and never with the incremental pattern: k is Without
   (first octet 0000xxxx) or Never (0001xxxx). *)
Theorem C72_written_literally : forall host qs c c1 h k q b1 b2 raw, perform_all host c qs = (Ok tt, c1) ->
  not_inserted h qs -> ~ In h (dt_entries (c_req c)) -> (snd h <> [] -> ~ In h (map snd static_table_entries)) ->
  is_octets (fst h) -> is_octets (snd h) -> k = Without \/ k = Never ->
  q_block q = b1 ++ HEntry (lib_prefix k) (EHeader h) :: b2 ->
  encode_block (q_block q) (q_mode q) (get_request_dynamic_table c1) = Ok raw ->
  exists r1 x r2, raw = r1 ++ x ++ r2 /\
    encode_block b1 (q_mode q) (get_request_dynamic_table c1) = Ok r1 /\
    encode_block b2 (q_mode q) (get_request_dynamic_table c1) = Ok r2 /\
    literal_pattern k x /\
    exists n, rfc_repr x (RLiteral k n (snd h)).
Proof.
  intros host qs c c1 h k q b1 b2 raw P N NI NS On Ov K QB E.
  pose proof (C72_not_in_request_table _ _ _ _ _ _ P N NI) as NT.
  rewrite QB in E. apply encode_block_split in E. destruct E as (r1 & r & E1 & E & ->).
  cbn [encode_block] in E. apply bind_ok in E. destruct E as (x & EX & E). apply bind_ok in E. destruct E as (r2 & E2 & E).
  apply Ok_inj in E. subst r. exists r1, x, r2. split; [reflexivity|]. split; [exact E1|]. split; [exact E2|].
  destruct (C22_representation_kept k h (q_mode q) _ x On Ov EX) as (LP & n & R & _).
  { intros [[S V]|I]; [exact (NS V S)|exact (NT I)]. }
  split; [exact LP|exists n; exact R].
Qed.

(* A server with an RFC 7541 decoder does not get it into its table either
   (requests that avoid the deviations of C52). *)
Theorem C72_not_in_server_table : forall host limit qs c c' h, perform_all host c qs = (Ok tt, c') ->
  dt_ok (c_req c) -> plain_requests limit (Table (dt_max (c_req c)) (dt_entries (c_req c))) qs ->
  not_inserted h qs -> ~ In h (dt_entries (c_req c)) ->
  exists out, tls_out (c_tls c') = tls_out (c_tls c) ++ out /\
    forall fss t, server_reads limit (Table (dt_max (c_req c)) (dt_entries (c_req c))) out fss t -> ~ In h (t_entries t).
Proof.
  intros host limit qs c c' h H K P N NI. destruct (C52_request_table_partial host limit qs c c' H K P) as (out & O & _ & U).
  exists out. split; [exact O|]. intros fss t S. destruct (U fss t S) as [_ ->]. cbn [t_entries].
  exact (C72_not_in_request_table _ _ _ _ _ _ H N NI).
Qed.

Example C72_case :
  let secret := (octets "authorization", octets "Basic eA==") in
  let q p := ask 1 [HEntry IncrementalIndexing (EHeader (octets "a", octets "b")); HEntry p (EHeader secret)] in
  not_inserted secret [q NeverIndexed; q WithoutIndexing] /\ ~ In secret (map snd static_table_entries) /\
  (exists c', perform_all LittleEndian (new_client (Tls [] [] (repeat (Chunk 100) 9))) [q NeverIndexed] = (Ok tt, c') /\
  c_req c' = DynTable [(octets "a", octets "b")] 34 4096 /\
  encode_block (q_block (q NeverIndexed)) ModeNone (get_request_dynamic_table c') =
       Ok ([0xbe] ++ [0x1f; 0x08; 10] ++ octets "Basic eA==")) /\
  perform_all LittleEndian (new_client (Tls [] [] (repeat (Chunk 100) 9))) [q IncrementalIndexing] <>
  perform_all LittleEndian (new_client (Tls [] [] (repeat (Chunk 100) 9))) [q NeverIndexed].
Proof.
  cbv zeta. split; [|split; [|split]].
  - intros q [<-|[<-|[]]] [E|[E|[]]]; discriminate E.
  - intros I. revert I. vm_compute. intuition discriminate.
  - eexists. split; [vm_compute; reflexivity|]. split; vm_compute; reflexivity.
  - vm_compute. discriminate.
Qed.

Print Assumptions C72_not_in_request_table.
Print Assumptions C72_written_literally.
Print Assumptions C72_not_in_server_table.
