(* Property C122: a caller can bring the tables of client and server together again. *)
From Coq Require Import String.
From Coq Require Import ZArith NArith List Bool Lia ZifyBool ZifyNat ZifyN.
From Verif Require Import Base Arith Util IntRep Huffman StaticTable HeaderType DynTable HeaderEnc HeaderDec FrameHeader Frames FrameBuilder Ssl Client
  SpecBits SpecInt SpecHpack SpecFrame SpecUnique UtilProofs IntRepProofs DynTableProofs StaticProofs HeaderProofs HeaderProofs2 FrameProofs BlockProofs
  HistoryProofs PropHeader PropFrame PropBlock PropSsl PropClient PropHistory PropRequest PropRelay PropSingle PropSettings PropAhead PropReqBlock PropReqHistory.
Import ListNotations.
Local Open Scope string_scope.
Local Open Scope list_scope.
Local Open Scope N_scope.
Ltac Zify.zify_post_hook ::= Z.div_mod_to_equations.

(* ---- specification ---- *)

(* A request that begins with the size updates 0 and n (RFC 7541, 4.2: how an encoder
   says that it has emptied its table). *)
Definition begins_anew (n : N) (q : request) (rest : header_block) : Prop :=
  q_block q = HEntry SizeUpdate (ESize 0) :: HEntry SizeUpdate (ESize n) :: rest.

(* A field of the static table (which the library sends as its index). *)
Definition is_static (h : field) : Prop := In h (map snd static_table_entries) /\ snd h <> [].

(* The entries without the deviations of C21, C52 and C12: INDEXED for static fields
   only, no insertion of static fields, and not the misspelt name. *)
Definition usual_entry (e : hentry) : Prop :=
  exists p h, e = HEntry p (EHeader h) /\ is_octets (fst h) /\ is_octets (snd h) /\
  match p with
  | Indexed => is_static h
  | IncrementalIndexing => ~ is_static h /\ fst h <> octets "accept-control-allow-origin"
  | WithoutIndexing | NeverIndexed => is_static h \/ fst h <> octets "accept-control-allow-origin"
  | SizeUpdate => False
  end.

(* The fields are not in the client's table. *)
Definition not_kept (entries : list field) (b : header_block) : Prop :=
  forall p h, In (HEntry p (EHeader h)) b -> ~ In h entries.

(* update_request_dynamic_table(0) and then update_request_dynamic_table(n) *)
Definition emptied (c : client) (n : N) : res unit * client :=
  match update_request_table_size c 0 with
  | (Ok _, c1) => update_request_table_size c1 n
  | (r, c1) => (r, c1)
  end.

(* ---- proofs ---- *)

Lemma keep_zero : forall l, keep 0 l = [].
Proof. intros [|f l]; [reflexivity|]. cbn [keep]. destruct (N.leb_spec (field_size f) 0) as [X|X]; [unfold field_size in X; lia|reflexivity]. Qed.

Lemma emptied_table : forall t n, resize (resize t 0) n = Table n [].
Proof. intros t n. unfold resize. cbn [t_entries]. rewrite keep_zero. reflexivity. Qed.

Lemma static_dec : forall h, is_static h \/ ~ is_static h.
Proof.
  intros h. destruct (in_tables_dec (DynTable [] 0 0) h) as [[I|[]]|N]; [left; exact I|right]. intros I. apply N. left. exact I.
Qed.

Lemma usual_follows : forall limit T b t, Forall usual_entry b -> not_kept (dt_entries T) b -> follows limit T t b (table_after t b).
Proof.
  intros limit T. induction b as [|e b IH]; intros t U K; [apply follows_nil|].
  apply Forall_cons_iff in U. destruct U as [(p & h & -> & _ & _ & P) U].
  assert (KB : not_kept (dt_entries T) b) by (intros p' h' I; apply (K p' h'); right; exact I).
  assert (ND : ~ In h (dt_entries T)) by (apply (K p h); left; reflexivity).
  assert (NT : ~ is_static h -> ~ in_tables T h) by (intros N [I|I]; [exact (N I)|exact (ND I)]).
  destruct p; cbn [table_after].
  - destruct (static_dec h) as [[S1 S2]|S]; [apply follows_static; [discriminate|exact S1|exact S2|apply IH; assumption]|].
    destruct P as [P|P]; [contradiction (S P)|]. apply follows_literal; [tauto|apply NT; exact S|exact P|apply IH; assumption].
  - destruct (static_dec h) as [[S1 S2]|S]; [apply follows_static; [discriminate|exact S1|exact S2|apply IH; assumption]|].
    destruct P as [P|P]; [contradiction (S P)|]. apply follows_literal; [tauto|apply NT; exact S|exact P|apply IH; assumption].
  - contradiction P.
  - destruct P as [P1 P2]. apply follows_insert; [apply NT; exact P1|exact P2|apply IH; assumption].
  - destruct P as [P1 P2]. apply follows_static; [discriminate|exact P1|exact P2|apply IH; assumption].
Qed.

Lemma usual_sendable : forall T q n rest, request_ok (Table (dt_max T) (dt_entries T)) q -> begins_anew n q rest -> Forall usual_entry rest -> sendable T q.
Proof.
  intros T q n rest R B U. split; [exact R|]. rewrite B. split; (constructor; [|constructor; [|]]).
  - exact Logic.I.
  - exact Logic.I.
  - rewrite Forall_forall in *. intros e I. destruct (U e I) as (p & h & -> & O1 & O2 & _). split; assumption.
  - intros h X. discriminate X.
  - intros h X. discriminate X.
  - rewrite Forall_forall in *. intros e I h ->. destruct (U _ I) as (p & h' & E & _ & _ & P). injection E as <- <-. left. exact P.
Qed.

Lemma fields_anew : forall n q rest, begins_anew n q rest -> fields_of (q_block q) = fields_of rest.
Proof. intros n q rest ->. reflexivity. Qed.

Lemma reads_app : forall limit t out fss t1, server_reads limit t out fss t1 -> forall out2 fss2 t2, server_reads limit t1 out2 fss2 t2 -> server_reads limit t (out ++ out2) (fss ++ fss2) t2.
Proof.
  intros limit t out fss t1 R. induction R as [t|t flags r sid e dep w fragment padding fs t1 rest fss t2 payload S B R IH]; intros out2 fss2 t3 R2; [exact R2|].
  rewrite <- app_assoc. cbn [app]. eapply reads_headers; [exact S|exact B|apply IH; exact R2].
Qed.

Lemma single : forall host c q c', perform host c q = (Ok tt, c') -> perform_all host c [q] = (Ok tt, c').
Proof. intros host c q c' H. cbn [perform_all]. rewrite H. reflexivity. Qed.

Lemma performed_table : forall host c q c', dt_ok (c_req c) -> perform host c q = (Ok tt, c') -> dt_ok (c_req c') /\
  Table (dt_max (c_req c')) (dt_entries (c_req c')) = table_after (Table (dt_max (c_req c)) (dt_entries (c_req c))) (q_block q).
Proof.
  intros host c q c' K H. unfold perform in H. destruct (mk_headers _ _ _ _ _ _ _) as [f| | |]; try discriminate H.
  destruct (send_frame host c f) as [[[]| | |] c1] eqn:SF; try discriminate H.
  assert (Q : c_req c1 = c_req c).
  { unfold send_frame in SF. destruct (serialize host f) as [w| | |]; try discriminate SF. destruct (send_raw_exact c w) as (k & X). rewrite SF in X. apply X. }
  unfold update_request_dynamic_table in H. rewrite Q in H. destruct (update_block (c_req c) (q_block q)) as [r T'] eqn:U. injection H as -> <-. cbn [c_req].
  destruct (update_block_spec (q_block q) _ K (update_fits _ _ _ K U)) as (T2 & U2 & K2 & R2). rewrite U in U2. injection U2 as <-. split; [exact K2|exact R2].
Qed.

(* Whatever table the server has: a request that begins anew, with fields the client's
   table does not have, is read as submitted, and then the tables are equal. *)
Theorem C122_anew_partial : forall host limit c q n rest c', dt_ok (c_req c) -> request_ok (Table (dt_max (c_req c)) (dt_entries (c_req c))) q ->
  begins_anew n q rest -> n <= limit -> Forall usual_entry rest -> not_kept (dt_entries (c_req c)) rest ->
  perform host c q = (Ok tt, c') ->
  exists out, tls_out (c_tls c') = tls_out (c_tls c) ++ out /\
    forall t, server_reads limit t out [fields_of rest] (Table (dt_max (c_req c')) (dt_entries (c_req c'))).
Proof.
  intros host limit c q n rest c' K R B L U NK H. pose proof (usual_sendable _ _ _ _ R B U) as S.
  destruct (C52_history_partial host limit [q] c c' (single _ _ _ _ H) K (conj S Logic.I)) as (out & O & X). exists out. split; [exact O|].
  intros t. cbn [map] in X. rewrite (fields_anew _ _ _ B) in X. apply X. apply follows_next with (t1 := table_after t (q_block q)).
  - rewrite B. cbn [table_after]. apply follows_size; [lia|]. apply follows_size; [exact L|]. apply usual_follows; assumption.
  - rewrite (proj2 (performed_table host c q c' K H)), B. cbn [table_after]. rewrite !emptied_table. apply follows_none.
Qed.

Lemma emptied_ok : forall c n, dt_ok (c_req c) -> emptied c n = (Ok tt, Client (c_tls c) (new_table n) (c_resp c)).
Proof.
  intros c n K. unfold emptied, update_request_table_size.
  assert (E : forall T m, dt_ok T -> exists T', dt_update_size T m = Ok T' /\ dt_ok T' /\ rfc_table T' = resize (rfc_table T) m).
  { intros T m KT. destruct (update_block_spec [HEntry SizeUpdate (ESize m)] T KT Logic.I) as (T' & UB' & KT' & R'). exists T'.
    cbn [update_block update_entry e_prefix get_max_size e_content bind] in UB'. unfold update_entry in UB'. cbn [e_prefix get_max_size e_content bind] in UB'.
    destruct (dt_update_size T m) as [T2| | |]; try discriminate UB'. injection UB' as <-. auto. }
  destruct (E (c_req c) 0 K) as (T1 & -> & K1 & R1). cbn [c_req c_tls c_resp]. destruct (E T1 n K1) as (T2 & -> & K2 & R2).
  assert (X : T2 = new_table n); [|rewrite X; reflexivity].
  rewrite <- (of_rfc_table T2 K2), R2, R1, emptied_table. reflexivity.
Qed.

(* Whatever has become of the two tables: when the client's is emptied before a request
   that begins anew, this request and those after it are read as submitted, and the
   tables are equal. *)
Theorem C122_together_partial : forall host limit c n c1 q rest qs c2 c', dt_ok (c_req c) -> emptied c n = (Ok tt, c1) ->
  request_ok (Table n []) q -> begins_anew n q rest -> n <= limit -> Forall usual_entry rest ->
  perform host c1 q = (Ok tt, c2) ->
  plain_requests limit (Table (dt_max (c_req c2)) (dt_entries (c_req c2))) qs -> perform_all host c2 qs = (Ok tt, c') ->
  exists out, tls_out (c_tls c') = tls_out (c_tls c) ++ out /\
    forall t, server_reads limit t out (fields_of rest :: map (fun r => fields_of (q_block r)) qs) (Table (dt_max (c_req c')) (dt_entries (c_req c'))).
Proof.
  intros host limit c n c1 q rest qs c2 c' K E R B L U H P H2. rewrite emptied_ok in E by exact K. injection E as <-.
  assert (KN : dt_ok (c_req (Client (c_tls c) (new_table n) (c_resp c)))) by exact (new_table_ok n).
  destruct (C122_anew_partial host limit _ q n rest c2 KN R B L U (fun p h _ X => X) H) as (o1 & O1 & S1). cbn [c_tls] in O1.
  pose proof (proj1 (performed_table host _ q c2 KN H)) as K2.
  destruct (C52_request_table_partial host limit qs c2 c' H2 K2 P) as (o2 & O2 & S2 & _). exists (o1 ++ o2).
  split; [rewrite O2, O1, app_assoc; reflexivity|]. intros t. exact (reads_app limit t o1 _ _ (S1 t) o2 _ _ S2).
Qed.

Lemma keep_in : forall l n h, In h (keep n l) -> In h l.
Proof.
  induction l as [|f l IH]; intros n h I; [exact I|]. cbn [keep] in I. destruct (field_size f <=? n); [|contradiction I].
  destruct I as [I|I]; [left; exact I|right; exact (IH _ _ I)].
Qed.

Lemma follows_known : forall limit T t b t', follows limit T t b t' -> (forall h, In h (t_entries t) -> ~ in_tables T h) ->
  forall p h, In (HEntry p (EHeader h)) b -> In h (dt_entries T) -> ~ is_static h -> False.
Proof.
  intros limit T t b t' F. induction F as [t|t n b t' L F IH|t p h b t' P S1 S2 F IH|t p h k b t' P NS NW NE F IH|t p h b t' P NT NM F IH|t h b t' NT NM F IH]; intros A p0 h0 I D N.
  - contradiction I.
  - destruct I as [I|I]; [discriminate I|]. apply (IH (fun h J => A h (keep_in _ _ _ J)) p0 h0); assumption.
  - destruct I as [I|I]; [injection I as -> ->; apply N; split; assumption|]. exact (IH A p0 h0 I D N).
  - apply (A h (nth_error_In _ _ NE)). right. exact (nth_error_In _ _ (proj1 NW)).
  - destruct I as [I|I]; [injection I as -> ->; apply NT; right; exact D|]. exact (IH A p0 h0 I D N).
  - destruct I as [I|I]; [injection I as _ <-; apply NT; right; exact D|]. apply (IH) with (p := p0) (h := h0); try assumption.
    intros h' J. unfold insert in J. cbn [t_entries] in J. apply keep_in in J. destruct J as [<-|J]; [exact NT|exact (A h' J)].
Qed.

(* The size updates alone do not do it: unless the client's table is emptied first, the
   fields it has are sent as indices of entries the server has just dropped. *)
Theorem C122_kept_refuted : forall host limit c q n rest c' p h, dt_ok (c_req c) -> sendable (c_req c) q ->
  begins_anew n q rest -> In (HEntry p (EHeader h)) rest -> In h (dt_entries (c_req c)) -> ~ is_static h ->
  perform host c q = (Ok tt, c') ->
  exists out, tls_out (c_tls c') = tls_out (c_tls c) ++ out /\ forall t t', ~ server_reads limit t out [fields_of rest] t'.
Proof.
  intros host limit c q n rest c' p h K S B I D N H.
  destruct (C52_history_partial host limit [q] c c' (single _ _ _ _ H) K (conj S Logic.I)) as (out & O & X). exists out. split; [exact O|].
  intros t t' R. cbn [map] in X. rewrite (fields_anew _ _ _ B) in X. apply X in R. inversion R as [|T1 t1 b t2 bs t3 F F']; subst. rewrite B in F.
  inversion F as [|t4 n4 b4 t5 L4 F4| | | |]; subst; [|congruence..]. inversion F4 as [|t6 n6 b6 t7 L6 F6| | | |]; subst; [|congruence..].
  rewrite emptied_table in F6. exact (follows_known _ _ _ _ _ F6 (fun h' J => match J with end) p h I D N).
Qed.

(* A field inserted twice: the client has it twice, the server once.  Then the table is
   emptied and a request begins anew. *)
Example C122_case :
  let c := new_client (Tls [] [] (repeat (Chunk 100) 9)) in
  let twice := ask 1 [HEntry IncrementalIndexing (EHeader (octets "x-a", octets "1"))] in
  let rest := [HEntry Indexed (EHeader (octets ":method", octets "GET")); HEntry IncrementalIndexing (EHeader (octets "x-a", octets "1"));
               HEntry NeverIndexed (EHeader (octets "cookie", octets "s"))] in
  let q := ask 3 (HEntry SizeUpdate (ESize 0) :: HEntry SizeUpdate (ESize 4096) :: rest) in
  exists c1 c2 c3 c4, perform LittleEndian c twice = (Ok tt, c1) /\ perform LittleEndian c1 twice = (Ok tt, c2) /\
    dt_entries (c_req c2) = [(octets "x-a", octets "1"); (octets "x-a", octets "1")] /\ dt_ok (c_req c2) /\
    emptied c2 4096 = (Ok tt, c3) /\ request_ok (Table 4096 []) q /\ begins_anew 4096 q rest /\ Forall usual_entry rest /\
    perform LittleEndian c3 q = (Ok tt, c4) /\ dt_entries (c_req c4) = [(octets "x-a", octets "1")] /\
    (* without emptying it the field is an index *)
    In (HEntry IncrementalIndexing (EHeader (octets "x-a", octets "1"))) rest /\ In (octets "x-a", octets "1") (dt_entries (c_req c2)) /\
    ~ is_static (octets "x-a", octets "1") /\ exists c5, perform LittleEndian c2 q = (Ok tt, c5).
Proof.
  cbv zeta. assert (O : forall p : string, is_octets (octets p)) by (intros p b I; apply in_map_iff in I; destruct I as (a & <- & _); apply Ascii.N_ascii_bounded).
  assert (NS : ~ is_static (octets "x-a", octets "1")) by (intros [I _]; revert I; vm_compute; intuition discriminate).
  do 4 eexists. split; [vm_compute; reflexivity|]. split; [vm_compute; reflexivity|]. split; [reflexivity|]. split; [split; vm_compute; [reflexivity|discriminate]|].
  split; [vm_compute; reflexivity|]. split.
  { match goal with |- request_ok ?t ?q => apply (request_okb t q (match encode_block (q_block q) (q_mode q) (of_table t) with Ok r => r | _ => [] end)) end; vm_compute; reflexivity. }
  split; [reflexivity|]. split.
  - apply Forall_cons; [|apply Forall_cons; [|apply Forall_cons; [|apply Forall_nil]]]; (eexists _, _; split; [reflexivity|split; [apply O|split; [apply O|]]]).
    + split; [vm_compute; tauto|discriminate].
    + split; [exact NS|vm_compute; discriminate].
    + right. vm_compute. discriminate.
  - split; [vm_compute; reflexivity|]. split; [reflexivity|]. split; [right; left; reflexivity|]. split; [left; reflexivity|]. split; [exact NS|].
    eexists. vm_compute. reflexivity.
Qed.

Print Assumptions C122_anew_partial.
Print Assumptions C122_together_partial.
Print Assumptions C122_kept_refuted.
