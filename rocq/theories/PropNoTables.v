(* Property C123: without indexing a caller needs no tables. *)
From Coq Require Import String.
From Coq Require Import ZArith NArith List Bool Lia ZifyBool ZifyNat ZifyN.
From Verif Require Import Base Arith Util IntRep Huffman StaticTable HeaderType DynTable HeaderEnc HeaderDec FrameHeader Frames FrameBuilder Ssl Client
  SpecBits SpecInt SpecHpack SpecFrame SpecUnique UtilProofs IntRepProofs DynTableProofs StaticProofs HeaderProofs HeaderProofs2 FrameProofs BlockProofs
  HistoryProofs PropHeader PropFrame PropBlock PropSsl PropClient PropHistory PropRequest PropRelay PropSingle PropSettings PropAhead PropReqBlock PropReqHistory PropTogether.
Import ListNotations.
Local Open Scope string_scope.
Local Open Scope list_scope.
Local Open Scope N_scope.
Ltac Zify.zify_post_hook ::= Z.div_mod_to_equations.

(* ---- specification ---- *)

(* The caller builds a HEADERS frame with the client's table and sends it, and does not
   call update_request_dynamic_table. *)
Definition only_send (host : endian) (c : client) (q : request) : res unit * client :=
  match build_request (get_request_dynamic_table c) q with
  | Ok f => send_frame host c f
  | Throw x => (Throw x, c)
  | UB u => (UB u, c)
  | NoFuel => (NoFuel, c)
  end.

Fixpoint only_send_all (host : endian) (c : client) (qs : list request) : res unit * client :=
  match qs with
  | [] => (Ok tt, c)
  | q :: qs' => match only_send host c q with (Ok _, c1) => only_send_all host c1 qs' | (r, c1) => (r, c1) end
  end.

(* No entry asks for indexing; INDEXED is asked for static fields only. *)
Definition without_tables (b : header_block) : Prop :=
  Forall usual_entry b /\ forall e, In e b -> e_prefix e <> IncrementalIndexing.

(* ---- proofs ---- *)

Lemma no_change : forall b t, without_tables b -> table_after t b = t.
Proof.
  induction b as [|e b IH]; intros t [U P]; [reflexivity|]. apply Forall_cons_iff in U. destruct U as [(p & h & -> & _ & _ & X) U].
  assert (N : p <> IncrementalIndexing) by (apply (P (HEntry p (EHeader h))); left; reflexivity).
  assert (W : without_tables b) by (split; [exact U|intros e I; apply P; right; exact I]).
  destruct p; cbn [table_after]; try (apply IH; exact W). contradiction (N eq_refl).
Qed.

Lemma updates_nothing : forall b T, without_tables b -> update_block T b = (Ok tt, T).
Proof.
  induction b as [|e b IH]; intros T [U P]; [reflexivity|]. apply Forall_cons_iff in U. destruct U as [(p & h & -> & _ & _ & X) U].
  assert (N : p <> IncrementalIndexing) by (apply (P (HEntry p (EHeader h))); left; reflexivity).
  assert (W : without_tables b) by (split; [exact U|intros e I; apply P; right; exact I]).
  cbn [update_block]. unfold update_entry. cbn [e_prefix]. destruct p; try (apply IH; exact W); [contradiction X|contradiction (N eq_refl)].
Qed.

(* update_request_dynamic_table changes nothing. *)
Theorem C123_update_idle : forall host c q, without_tables (q_block q) -> perform host c q = only_send host c q.
Proof.
  intros host c q W. unfold perform, only_send, build_request, get_request_dynamic_table. destruct (mk_headers _ _ _ _ _ _ _) as [f| | |]; try reflexivity.
  destruct (send_frame host c f) as [[[]| | |] c1]; try reflexivity. unfold update_request_dynamic_table. rewrite updates_nothing by exact W. destruct c1. reflexivity.
Qed.

Lemma only_sent : forall host c q c1, only_send host c q = (Ok tt, c1) -> c_req c1 = c_req c.
Proof.
  intros host c q c1 H. unfold only_send in H. destruct (build_request _ q) as [f| | |]; try discriminate H.
  unfold send_frame in H. destruct (serialize host f) as [w| | |]; try discriminate H. destruct (send_raw_exact c w) as (k & X). rewrite H in X. apply X.
Qed.

(* The server reads every request as submitted, whatever table it has and whatever
   limit it set, and its table stays as it is. *)
Theorem C123_any_table_partial : forall host limit qs c c', dt_entries (c_req c) = [] -> dt_ok (c_req c) ->
  Forall (fun q => request_ok (Table (dt_max (c_req c)) []) q /\ without_tables (q_block q)) qs ->
  only_send_all host c qs = (Ok tt, c') ->
  c_req c' = c_req c /\
  exists out, tls_out (c_tls c') = tls_out (c_tls c) ++ out /\ forall t, server_reads limit t out (map (fun q => fields_of (q_block q)) qs) t.
Proof.
  intros host limit. induction qs as [|q qs IH]; intros c c' E K F H.
  - cbn in H. injection H as <-. split; [reflexivity|]. exists []. split; [rewrite app_nil_r; reflexivity|]. intros t. apply reads_nil.
  - apply Forall_cons_iff in F. destruct F as [[R W] F]. cbn [only_send_all] in H. destruct (only_send host c q) as [[[]| | |] c1] eqn:S; try discriminate H.
    pose proof (only_sent _ _ _ _ S) as Q. rewrite <- (C123_update_idle host c q W) in S.
    assert (SE : sendable (c_req c) q).
    { split; [rewrite E; exact R|]. destruct W as [U _]. rewrite Forall_forall in U. split; apply Forall_forall; intros e I.
      - destruct (U e I) as (p & h & -> & O1 & O2 & _). split; assumption.
      - intros h ->. destruct (U _ I) as (p & h' & X & _ & _ & P). injection X as <- <-. left. exact P. }
    destruct (C52_history_partial host limit [q] c c1 (single _ _ _ _ S) K (conj SE Logic.I)) as (o1 & O1 & X1). cbn [map] in X1.
    assert (R1 : forall t, server_reads limit t o1 [fields_of (q_block q)] t).
    { intros t. apply X1. apply follows_next with (t1 := t); [|apply follows_none]. rewrite <- (no_change (q_block q) t W) at 2.
      apply usual_follows; [exact (proj1 W)|]. intros p h _. rewrite E. intros []. }
    rewrite <- Q in E, K, F. destruct (IH c1 c' E K F H) as (Q2 & o2 & O2 & X2). split; [congruence|]. exists (o1 ++ o2).
    split; [rewrite O2, O1, app_assoc; reflexivity|]. intros t. exact (reads_app limit t o1 _ _ (R1 t) o2 _ _ (X2 t)).
Qed.

Lemma misspelt_sweep : forallb (fun h => negb (bytes_eqb (fst h) (octets "accept-control-allow-origin")) || bytes_eqb (snd h) []) (map snd static_table_entries) = true.
Proof. vm_compute. reflexivity. Qed.

Lemma misspelt_value : forall v, ~ is_static (octets "accept-control-allow-origin", v).
Proof.
  intros v [I N]. pose proof (proj1 (forallb_forall _ _) misspelt_sweep _ I) as Q. cbn [fst snd] in Q, N. rewrite bytes_eqb_refl in Q. cbn [negb orb] in Q.
  apply bytes_eqb_eq in Q. exact (N Q).
Qed.

Lemma follows_misspelt : forall limit T t b t', follows limit T t b t' -> dt_entries T = [] ->
  forall p v, In (HEntry p (EHeader (octets "accept-control-allow-origin", v))) b -> False.
Proof.
  intros limit T t b t' F E. induction F as [t|t n b t' L F IH|t p h b t' P S1 S2 F IH|t p h k b t' P NS NW NE F IH|t p h b t' P NT NM F IH|t h b t' NT NM F IH]; intros p0 v I.
  - contradiction I.
  - destruct I as [I|I]; [discriminate I|]. exact (IH p0 v I).
  - destruct I as [I|I]; [|exact (IH p0 v I)]. assert (X : h = (octets "accept-control-allow-origin", v)) by congruence. subst h. apply (misspelt_value v). split; assumption.
  - destruct NW as [NW _]. rewrite E in NW. destruct k; discriminate NW.
  - destruct I as [I|I]; [|exact (IH p0 v I)]. apply NM. assert (X : h = (octets "accept-control-allow-origin", v)) by congruence. subst h. reflexivity.
  - destruct I as [I|I]; [|exact (IH p0 v I)]. apply NM. assert (X : h = (octets "accept-control-allow-origin", v)) by congruence. subst h. reflexivity.
Qed.

(* The name the library's static table misspells cannot be sent: no representation, no
   table of the server and no limit make the server read such a request as submitted. *)
Theorem C123_misspelt_refuted : forall host limit c q c' p v, dt_entries (c_req c) = [] -> dt_ok (c_req c) -> sendable (c_req c) q ->
  In (HEntry p (EHeader (octets "accept-control-allow-origin", v))) (q_block q) -> perform host c q = (Ok tt, c') ->
  exists out, tls_out (c_tls c') = tls_out (c_tls c) ++ out /\ forall t t', ~ server_reads limit t out [fields_of (q_block q)] t'.
Proof.
  intros host limit c q c' p v E K S I H.
  destruct (C52_history_partial host limit [q] c c' (single _ _ _ _ H) K (conj S Logic.I)) as (out & O & X). exists out. split; [exact O|].
  intros t t' R. cbn [map] in X. apply X in R. inversion R as [|T1 t1 b t2 bs t3 F F']; subst. exact (follows_misspelt _ _ _ _ _ F E p v I).
Qed.

Example C123_case :
  let c := new_client (Tls [] [] (repeat (Chunk 100) 9)) in
  let q sid := ask sid [HEntry Indexed (EHeader (octets ":method", octets "GET")); HEntry WithoutIndexing (EHeader (octets ":path", octets "/a"));
                        HEntry NeverIndexed (EHeader (octets "cookie", octets "s")); HEntry WithoutIndexing (EHeader (octets ":scheme", octets "https"))] in
  dt_entries (c_req c) = [] /\ dt_ok (c_req c) /\
  Forall (fun r => request_ok (Table (dt_max (c_req c)) []) r /\ without_tables (q_block r)) [q 1; q 3] /\
  (exists c', only_send_all LittleEndian c [q 1; q 3] = (Ok tt, c') /\ size (tls_out (c_tls c')) = 64) /\
  let bad := ask 5 [HEntry NeverIndexed (EHeader (octets "accept-control-allow-origin", octets "x"))] in
  sendable (c_req c) bad /\ exists c', perform LittleEndian c bad = (Ok tt, c').
Proof.
  cbv zeta. assert (O : forall p : string, is_octets (octets p)) by (intros p b I; apply in_map_iff in I; destruct I as (a & <- & _); apply Ascii.N_ascii_bounded).
  split; [reflexivity|]. split; [exact (new_table_ok _)|]. split.
  - assert (W : forall sid, without_tables (q_block (ask sid [HEntry Indexed (EHeader (octets ":method", octets "GET")); HEntry WithoutIndexing (EHeader (octets ":path", octets "/a"));
                        HEntry NeverIndexed (EHeader (octets "cookie", octets "s")); HEntry WithoutIndexing (EHeader (octets ":scheme", octets "https"))]))).
    { intros sid. cbn [q_block ask]. split.
      - apply Forall_cons; [|apply Forall_cons; [|apply Forall_cons; [|apply Forall_cons; [|apply Forall_nil]]]]; (eexists _, _; split; [reflexivity|split; [apply O|split; [apply O|]]]).
        + split; [vm_compute; tauto|discriminate].
        + right. vm_compute. discriminate.
        + right. vm_compute. discriminate.
        + left. split; [vm_compute; tauto|discriminate].
      - intros e [<-|[<-|[<-|[<-|[]]]]]; discriminate. }
    apply Forall_cons; [|apply Forall_cons; [|apply Forall_nil]]; (split; [|apply W]);
      (match goal with |- request_ok ?t ?q => apply (request_okb t q (match encode_block (q_block q) (q_mode q) (of_table t) with Ok r => r | _ => [] end)) end; vm_compute; reflexivity).
  - split; [eexists; split; vm_compute; reflexivity|]. split; [|eexists; vm_compute; reflexivity]. split; [|split].
    + match goal with |- request_ok ?t ?q => apply (request_okb t q (match encode_block (q_block q) (q_mode q) (of_table t) with Ok r => r | _ => [] end)) end; vm_compute; reflexivity.
    + apply Forall_cons; [split; apply O|apply Forall_nil].
    + apply Forall_cons; [intros h X; discriminate X|apply Forall_nil].
Qed.

Print Assumptions C123_update_idle.
Print Assumptions C123_any_table_partial.
Print Assumptions C123_misspelt_refuted.
