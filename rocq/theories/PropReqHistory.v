(* Properties C52 and C86, sequences of requests: exactly which of them the
   server reads as submitted, and with what table it ends. *)
From Coq Require Import String.
From Coq Require Import ZArith NArith List Bool Lia ZifyBool ZifyNat ZifyN.
From Verif Require Import Base Arith Util IntRep Huffman StaticTable HeaderType DynTable HeaderEnc HeaderDec FrameHeader Frames FrameBuilder Ssl Client
  SpecBits SpecInt SpecHpack SpecFrame SpecUnique UtilProofs IntRepProofs DynTableProofs StaticProofs HeaderProofs HeaderProofs2 FrameProofs BlockProofs
  HistoryProofs PropHeader PropFrame PropBlock PropSsl PropClient PropHistory PropRequest PropRelay PropSingle PropSettings PropAhead PropReqBlock.
Import ListNotations.
Local Open Scope string_scope.
Local Open Scope list_scope.
Local Open Scope N_scope.
Ltac Zify.zify_post_hook ::= Z.div_mod_to_equations.

(* ---------------------------------------------------------------- the specification *)

(* A request whose frame is built with table T. *)
Definition sendable (T : dyn_table) (q : request) : Prop :=
  request_ok (Table (dt_max T) (dt_entries T)) q /\ Forall octets_entry (q_block q) /\ Forall (indexed_present T) (q_block q).

(* The client's table after a block, when every insertion fits. *)
Definition after_block (T : dyn_table) (b : header_block) : dyn_table :=
  of_table (table_after (Table (dt_max T) (dt_entries T)) b).

Fixpoint sendable_all (T : dyn_table) (qs : list request) : Prop :=
  match qs with
  | [] => True
  | q :: qs' => sendable T q /\ sendable_all (after_block T (q_block q)) qs'
  end.

(* The server's table t and the client's T change from request to request; they
   need not be equal. *)
Inductive follows_all (limit : N) : dyn_table -> table -> list header_block -> table -> Prop :=
| follows_none : forall T t, follows_all limit T t [] t
| follows_next : forall T t b t1 bs t', follows limit T t b t1 -> follows_all limit (after_block T b) t1 bs t' ->
    follows_all limit T t (b :: bs) t'.

(* ---------------------------------------------------------------- one frame *)

Lemma built_read : forall host limit T q f, dt_ok T -> sendable T q -> build_request T q = Ok f ->
  exists w, serialize host f = Ok w /\ forall t rest fss t2,
    (server_reads limit t (w ++ rest) (fields_of (q_block q) :: fss) t2 <->
     exists t1, follows limit T t (q_block q) t1 /\ server_reads limit t1 rest fss t2).
Proof.
  intros host limit T q f K (Q & O & P) B.
  assert (E : exists raw, encode_block (q_block q) (q_mode q) T = Ok raw).
  { unfold build_request, mk_headers, headers_construct_payload in B.
    destruct (if is_flag_set (q_flags q) F_PRIORITY then _ else _); try discriminate B.
    destruct (encode_block (q_block q) (q_mode q) T) as [raw| | |]; try discriminate B. eauto. }
  destruct E as (raw & E). destruct (request_wire host T q raw K Q E) as (SZ & _ & g & G & S).
  rewrite B in G. apply Ok_inj in G. subst g.
  exists (wire_frame HEADERS (q_flags q) 0 (q_stream q) (headers_octets (q_flags q) (q_exclusive q) (q_dependency q) (q_weight q) raw (q_padding q))).
  split; [exact S|]. intros t rest fss t2. split.
  - intros R. apply (reads_one _ _ _ _ _ _ _ _ _ _ _ _ _ SZ) in R. destruct R as (fs & fss' & t1 & EF & BL & R).
    injection EF as <- <-. exists t1. split; [|exact R]. exact (read_follows limit T (q_mode q) _ t t1 raw O P E BL).
  - intros (t1 & F & R). destruct (follows_read limit T (q_mode q) _ t t1 O F) as (raw' & E' & BL).
    rewrite E in E'. apply Ok_inj in E'. subst raw'. eapply reads_headers; [exact SZ|exact BL|exact R].
Qed.

Lemma sent_ok : forall host c f w c1, serialize host f = Ok w -> send_frame host c f = (Ok tt, c1) ->
  tls_out (c_tls c1) = tls_out (c_tls c) ++ w /\ c_req c1 = c_req c.
Proof.
  intros host c f w c1 S H. unfold send_frame in H. rewrite S in H. destruct (send_raw_exact c w) as (k & X).
  rewrite H in X. destruct X as (O & _ & Q & _ & [[_ F]|[D _]]); [|discriminate D]. rewrite F in O. auto.
Qed.

Lemma after_update : forall T b T', dt_ok T -> update_block T b = (Ok tt, T') -> T' = after_block T b /\ dt_ok T'.
Proof.
  intros T b T' K U. destruct (update_block_spec b T K (update_fits b T T' K U)) as (T2 & U2 & K2 & R2).
  rewrite U in U2. injection U2 as <-. split; [|exact K2]. unfold after_block. fold (rfc_table T). rewrite <- R2.
  symmetry. apply of_rfc_table. exact K2.
Qed.

(* ---------------------------------------------------------------- requests in turn *)

(* Whatever tables the two sides start with: the server reads what was
   submitted and ends with t' exactly when it follows the blocks to t'. *)
Theorem C52_history_partial : forall host limit qs c c', perform_all host c qs = (Ok tt, c') -> dt_ok (c_req c) ->
  sendable_all (c_req c) qs -> let submitted := map (fun q => fields_of (q_block q)) qs in
  exists out, tls_out (c_tls c') = tls_out (c_tls c) ++ out /\
    forall t t', (server_reads limit t out submitted t' <-> follows_all limit (c_req c) t (map q_block qs) t').
Proof.
  intros host limit. cbv zeta. induction qs as [|q qs IH]; intros c c' H K A.
  - cbn in H. injection H as <-. exists []. rewrite app_nil_r. split; [reflexivity|]. intros t t'. cbn [map].
    split; intros X; inversion X; subst; constructor.
  - destruct A as [A0 A]. cbn [perform_all] in H. unfold perform in H.
    fold (build_request (get_request_dynamic_table c) q) in H. unfold get_request_dynamic_table in H.
    destruct (build_request (c_req c) q) as [f| | |] eqn:B; try discriminate H.
    destruct (built_read host limit (c_req c) q f K A0 B) as (w & S & W).
    destruct (send_frame host c f) as [[[]| | |] c1] eqn:SF; try discriminate H.
    destruct (sent_ok host c f w c1 S SF) as [O1 Q1].
    destruct (update_request_dynamic_table c1 (q_block q)) as [[[]| | |] c2] eqn:UR; try discriminate H.
    unfold update_request_dynamic_table in UR. rewrite Q1 in UR.
    destruct (update_block (c_req c) (q_block q)) as [r T'] eqn:U. injection UR as -> <-.
    destruct (after_update _ _ _ K U) as [-> K'].
    destruct (IH _ _ H K' A) as (out & O & R). cbn [c_tls c_req] in O, R.
    exists (w ++ out). rewrite O, O1, <- app_assoc. split; [reflexivity|]. intros t t'. cbn [map]. rewrite W. split.
    + intros (t1 & F & X). apply follows_next with (t1 := t1); [exact F|]. apply R. exact X.
    + intros X. inversion X as [|T1 t0 b t1 bs t2 F Y]; subst. exists t1. split; [exact F|]. apply R. exact Y.
Qed.

(* ---------------------------------------------------------------- requests built ahead *)

Lemma follows_app : forall limit T b1 b2 t t',
  follows limit T t (b1 ++ b2) t' <-> exists t1, follows limit T t b1 t1 /\ follows limit T t1 b2 t'.
Proof.
  intros limit T b1 b2 t t'. split.
  - revert t. induction b1 as [|e b1 IH]; intros t F; [exists t; split; [constructor|exact F]|]. cbn [app] in F.
    inversion F; subst; match goal with X : follows limit T _ (b1 ++ b2) t' |- _ => destruct (IH _ X) as (t1 & F1 & F2) end;
      exists t1; (split; [|exact F2]).
    + apply follows_size; assumption.
    + apply follows_static; assumption.
    + eapply follows_dynamic; eassumption.
    + apply follows_literal; assumption.
    + apply follows_insert; assumption.
  - intros (t1 & F1 & F2). induction F1; cbn [app]; [exact F2|..].
    + apply follows_size; auto.
    + apply follows_static; auto.
    + eapply follows_dynamic; eauto.
    + apply follows_literal; auto.
    + apply follows_insert; auto.
Qed.

(* All frames are built with the client's table c_req c, then sent in turn. *)
Theorem C86_exact_partial : forall host limit qs c c', perform_ahead host c qs = (Ok tt, c') -> dt_ok (c_req c) ->
  Forall (sendable (c_req c)) qs -> let submitted := map (fun q => fields_of (q_block q)) qs in
  exists out, tls_out (c_tls c') = tls_out (c_tls c) ++ out /\
    forall t t', (server_reads limit t out submitted t' <-> follows limit (c_req c) t (concat (map q_block qs)) t').
Proof.
  intros host limit qs c c' H K A. cbv zeta. unfold perform_ahead, get_request_dynamic_table in H.
  destruct (build_requests (c_req c) qs) as [fs| | |] eqn:B; try discriminate H.
  remember (c_req c) as T0 eqn:E0. clear E0. revert fs c H B. induction qs as [|q qs IH]; intros fs c H B.
  - apply Ok_inj in B. subst fs. cbn in H. injection H as <-. exists []. rewrite app_nil_r. split; [reflexivity|].
    intros t t'. cbn [map concat]. split; intros X; inversion X; subst; constructor.
  - inversion A as [|x y A0 A1]; subst. cbn [build_requests] in B. apply bind_ok in B. destruct B as (f & B0 & B).
    apply bind_ok in B. destruct B as (fs' & B1 & B). apply Ok_inj in B. subst fs.
    destruct (built_read host limit T0 q f K A0 B0) as (w & S & W). cbn [map send_built] in H.
    destruct (send_frame host c f) as [[[]| | |] c1] eqn:SF; try discriminate H.
    destruct (sent_ok host c f w c1 S SF) as [O1 _].
    destruct (update_request_dynamic_table c1 (q_block q)) as [[[]| | |] c2] eqn:UR; try discriminate H.
    destruct (IH A1 fs' c2 H B1) as (out & O & R).
    assert (T2 : c_tls c2 = c_tls c1).
    { unfold update_request_dynamic_table in UR. destruct (update_block (c_req c1) (q_block q)). injection UR as _ <-. reflexivity. }
    exists (w ++ out). rewrite O, T2, O1, <- app_assoc. split; [reflexivity|]. intros t t'. cbn [map concat]. rewrite W, follows_app. split.
    + intros (t1 & F & X). exists t1. split; [exact F|]. apply R. exact X.
    + intros (t1 & F & X). exists t1. split; [exact F|]. apply R. exact X.
Qed.

(* Whenever one of the frames inserts a new field and a later entry, of this
   frame or of another, is a field of the table (and not of the static table),
   a server with the client's table cannot read the frames as submitted. *)
Theorem C86_stale_refuted : forall host limit qs c c' h e p b1 b2 b3, perform_ahead host c qs = (Ok tt, c') -> dt_ok (c_req c) ->
  Forall (sendable (c_req c)) qs ->
  concat (map q_block qs) = b1 ++ HEntry IncrementalIndexing (EHeader h) :: b2 ++ HEntry p (EHeader e) :: b3 -> p <> SizeUpdate ->
  ~ in_tables (c_req c) h -> In e (dt_entries (c_req c)) -> ~ (In e (map snd static_table_entries) /\ snd e <> []) ->
  let before := Table (dt_max (c_req c)) (dt_entries (c_req c)) in
  let submitted := map (fun q => fields_of (q_block q)) qs in
  exists out, tls_out (c_tls c') = tls_out (c_tls c) ++ out /\ forall t', ~ server_reads limit before out submitted t'.
Proof.
  intros host limit qs c c' h e p b1 b2 b3 H K A B PS NI IE NS before submitted.
  destruct (C86_exact_partial host limit qs c c' H K A) as (out & O & R). exists out. split; [exact O|]. intros t' X.
  apply R in X.
  refine (follows_stale limit (c_req c) _ _ _ [] X _ (Forall_nil _) e p (b1 ++ HEntry IncrementalIndexing (EHeader h) :: b2) b3 _ PS IE NS _).
  - exists (length (dt_entries (c_req c))). cbn [t_entries before app]. rewrite firstn_all. reflexivity.
  - rewrite B, <- app_assoc. reflexivity.
  - right. exists h, b1, b2. split; [reflexivity|exact NI].
Qed.

(* Three requests in turn: the second refers to what the first inserted. *)
Definition three : list request :=
  [ask 1 [HEntry IncrementalIndexing (EHeader ([97], [98]))];
   ask 3 [HEntry Indexed (EHeader ([97], [98])); HEntry IncrementalIndexing (EHeader ([99], [100]))];
   ask 5 [HEntry Indexed (EHeader ([97], [98])); HEntry Indexed (EHeader ([99], [100]))]].

(* Two frames built at once; the second mentions the field that the first
   inserts, which at that time is a literal. *)
Definition two : list request :=
  [ask 1 [HEntry IncrementalIndexing (EHeader ([97], [98]))]; ask 3 [HEntry WithoutIndexing (EHeader ([97], [98]))]].

Lemma octets_ab : forall p n v, n < 256 -> v < 256 -> octets_entry (HEntry p (EHeader ([n], [v]))).
Proof. intros p n v N V. split; intros b [<-|[]]; assumption. Qed.

Example C52_history_case : forall host, let c := new_client (Tls [] [] (repeat (Chunk 100) 3)) in
  dt_ok (c_req c) /\ sendable_all (c_req c) three /\ Forall (sendable (c_req c)) two /\
  (exists c', perform_all host c three = (Ok tt, c')) /\ (exists c', perform_ahead host c two = (Ok tt, c')) /\
  follows_all 4096 (c_req c) (Table 4096 []) (map q_block three) (Table 4096 [([99], [100]); ([97], [98])]) /\
  follows 4096 (c_req c) (Table 4096 []) (concat (map q_block two)) (Table 4096 [([97], [98])]).
Proof.
  intros host c.
  assert (N1 : forall s m n v, n = 97 \/ n = 99 -> ~ In ([n], [v]) (map snd static_table_entries) /\ ~ in_tables (DynTable [] s m) ([n], [v])).
  { intros s m n v D. assert (X : ~ In ([n], [v]) (map snd static_table_entries)).
    { intros I. apply in_map_iff in I. destruct I as ([i g] & E & I). cbn [snd] in E. subst g.
      assert (Y : forallb (fun x => negb (existsb (fun z => bytes_eqb (fst (snd x)) [z]) [97; 99])) static_table_entries = true) by (vm_compute; reflexivity).
      rewrite forallb_forall in Y. specialize (Y _ I). cbn [snd fst existsb] in Y. destruct D as [-> | ->]; vm_compute in Y; discriminate Y. }
    split; [exact X|]. intros [[I _]|[]]. exact (X I). }
  assert (N2 : ~ in_tables (DynTable [([97], [98])] 34 4096) ([99], [100])) by (apply in_tablesb_false; vm_compute; reflexivity).
  split; [split; [reflexivity|discriminate]|].
  split; [|split; [|split; [|split; [|split]]]].
  - split; [|split; [|split; [|exact I]]]; (split; [eapply request_okb; [vm_compute; reflexivity|vm_compute; reflexivity]|]);
      (split; [repeat (apply Forall_cons; [apply octets_ab; reflexivity|]); apply Forall_nil|]);
      repeat (apply Forall_cons; [intros h E; try discriminate E; injection E as <-; right; vm_compute; tauto|]); apply Forall_nil.
  - repeat (apply Forall_cons; [split; [eapply request_okb; [vm_compute; reflexivity|vm_compute; reflexivity]|];
      (split; [repeat (apply Forall_cons; [apply octets_ab; reflexivity|]); apply Forall_nil|]);
      repeat (apply Forall_cons; [intros h E; discriminate E|]); apply Forall_nil|]). apply Forall_nil.
  - eexists. destruct host; vm_compute; reflexivity.
  - eexists. destruct host; vm_compute; reflexivity.
  - apply follows_next with (t1 := Table 4096 [([97], [98])]).
    + apply follows_insert; [apply N1; auto|discriminate|]. constructor.
    + apply follows_next with (t1 := Table 4096 [([99], [100]); ([97], [98])]).
      * apply follows_dynamic with (k := 0%nat); [discriminate|intros [X _]; exact (proj1 (N1 0 0 97 98 (or_introl eq_refl)) X)| |reflexivity|].
        -- split; [reflexivity|]. intros j J. inversion J.
        -- apply follows_insert; [exact N2|discriminate|]. constructor.
      * apply follows_next with (t1 := Table 4096 [([99], [100]); ([97], [98])]); [|constructor].
        apply follows_dynamic with (k := 1%nat); [discriminate|intros [X _]; exact (proj1 (N1 0 0 97 98 (or_introl eq_refl)) X)| |reflexivity|].
        -- split; [reflexivity|]. intros [|j] J; [discriminate|lia].
        -- apply follows_dynamic with (k := 0%nat); [discriminate|intros [X _]; exact (proj1 (N1 0 0 99 100 (or_intror eq_refl)) X)| |reflexivity|constructor].
           split; [reflexivity|]. intros j J. inversion J.
  - apply follows_insert; [apply N1; auto|discriminate|]. apply follows_literal; [left; reflexivity|apply N1; auto|discriminate|]. constructor.
Qed.

(* The hypotheses of C86_stale_refuted. *)
Example C86_stale_case : forall host, let c := Client (Tls [] [] (repeat (Chunk 100) 2)) (DynTable [([97], [98])] 34 4096) default_table in
  let qs := [ask 1 [HEntry IncrementalIndexing (EHeader ([99], [100]))];
             ask 3 [HEntry WithoutIndexing (EHeader ([101], [102])); HEntry Indexed (EHeader ([97], [98]))]] in
  dt_ok (c_req c) /\ Forall (sendable (c_req c)) qs /\ (exists c', perform_ahead host c qs = (Ok tt, c')) /\
  concat (map q_block qs) = [] ++ HEntry IncrementalIndexing (EHeader ([99], [100])) ::
    [HEntry WithoutIndexing (EHeader ([101], [102]))] ++ HEntry Indexed (EHeader ([97], [98])) :: [] /\
  ~ in_tables (c_req c) ([99], [100]) /\ In ([97], [98]) (dt_entries (c_req c)) /\
  ~ in_tables (DynTable [] 0 0) ([97], [98]).
Proof.
  intros host c qs. split; [split; [reflexivity|discriminate]|]. split; [|split; [|split; [reflexivity|split; [|split]]]].
  - repeat (apply Forall_cons; [split; [eapply request_okb; [vm_compute; reflexivity|vm_compute; reflexivity]|];
      (split; [repeat (apply Forall_cons; [apply octets_ab; reflexivity|]); apply Forall_nil|]);
      repeat (apply Forall_cons; [intros h E; try discriminate E; injection E as <-; right; left; reflexivity|]); apply Forall_nil|]). apply Forall_nil.
  - eexists. destruct host; vm_compute; reflexivity.
  - apply in_tablesb_false. vm_compute. reflexivity.
  - left. reflexivity.
  - apply in_tablesb_false. vm_compute. reflexivity.
Qed.

Print Assumptions C52_history_partial.
Print Assumptions C86_exact_partial.
Print Assumptions C86_stale_refuted.
