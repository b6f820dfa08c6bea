(* Property C52, requests with one entry: exactly which of them work. *)
From Coq Require Import String.
From Coq Require Import ZArith NArith List Bool Lia ZifyBool ZifyNat ZifyN.
From Verif Require Import Base Arith Util IntRep Huffman StaticTable HeaderType DynTable HeaderEnc HeaderDec FrameHeader Frames FrameBuilder Ssl Client
  SpecBits SpecInt SpecHpack SpecFrame SpecUnique UtilProofs IntRepProofs DynTableProofs StaticProofs HeaderProofs HeaderProofs2 FrameProofs BlockProofs
  HistoryProofs PropHeader PropFrame PropBlock PropSsl PropClient PropHistory PropRequest PropRelay.
Import ListNotations.
Local Open Scope string_scope.
Local Open Scope list_scope.
Local Open Scope N_scope.
Ltac Zify.zify_post_hook ::= Z.div_mod_to_equations.

(* The request is read as submitted and the tables agree afterwards exactly when
   its block is encoded, the client's table update succeeds, and RFC 7541 reads
   the octets as the fields submitted, with the table the client ends with. *)
Lemma step_exact : forall host limit T q raw, dt_ok T -> request_ok (rfc_table T) q ->
  encode_block (q_block q) (q_mode q) T = Ok raw ->
  (C52_step host limit T q <-> exists T', update_block T (q_block q) = (Ok tt, T') /\
    rfc_block limit (rfc_table T) raw (fields_of (q_block q)) (rfc_table T')).
Proof.
  intros host limit T q raw K Q E. split.
  - apply step_reading; assumption.
  - intros (T' & U & B). destruct Q as (Ls & Lp & Le & Ld & SZ). rewrite (of_rfc_table _ K) in SZ. specialize (SZ raw E).
    set (out := wire_frame HEADERS (q_flags q) 0 (q_stream q)
      (headers_octets (q_flags q) (q_exclusive q) (q_dependency q) (q_weight q) raw (q_padding q))).
    assert (L : size out < 2 ^ 31).
    { unfold out, wire_frame, wire_header. rewrite !size_app. unfold size at 1 2 3. rewrite !be_octets_len. cbn [length].
      change (2 ^ 24) with 16777216 in SZ. change (2 ^ 31) with 2147483648. clear -SZ. lia. }
    exists out. intros c CE D. rewrite <- (N.add_0_r (size out)) in D.
    destruct (send_raw_more c out 0 L D) as (c1 & S & _ & O & Q1).
    assert (P : perform host c q = (Ok tt, Client (c_tls c1) T' (c_resp c1))).
    { unfold perform, mk_headers, get_request_dynamic_table. rewrite CE.
      rewrite (headers_payload_wire (q_flags q) (q_block q) (q_mode q) T (q_padding q) (q_exclusive q) (q_dependency q)
        (q_weight q) raw) by (try assumption; lia). cbn [bind]. unfold send_frame.
      rewrite (serialize_wire host (HeadersFrame _ _ _ _ _)
        (headers_octets (q_flags q) (q_exclusive q) (q_dependency q) (q_weight q) raw (q_padding q)));
        cbn [frame_fh fh_stream_id fh_length fh_reserved fh_type fh_flags payload_bytes]; try reflexivity; try assumption.
      + change T_HEADERS with HEADERS. fold out. rewrite S. unfold update_request_dynamic_table. rewrite Q1, CE, U. reflexivity.
      + apply u32_small. change (2 ^ 24) with 16777216 in SZ. change (2 ^ 32) with 4294967296. clear -SZ. lia. }
    eexists. split; [exact P|]. cbn [c_tls c_req]. split; [exact O|].
    rewrite <- (app_nil_r out). eapply reads_headers; [exact SZ|exact B|constructor].
Qed.

(* The one-entry requests that work, T being the request table. *)
Definition works (limit : N) (T : dyn_table) (e : hentry) : Prop :=
  match e with
  | HEntry SizeUpdate (ESize n) => n <= limit
  | HEntry Indexed (EHeader h) => in_tables T h
  | HEntry IncrementalIndexing (EHeader h) =>
      field_size h <= dt_max T /\
      (~ in_tables T h /\ fst h <> octets "accept-control-allow-origin" \/
       in_tables T h /\ insert (Table (dt_max T) (dt_entries T)) h = Table (dt_max T) (dt_entries T))
  | HEntry (WithoutIndexing | NeverIndexed) (EHeader h) => in_tables T h \/ fst h <> octets "accept-control-allow-origin"
  | _ => False
  end.

Definition octets_entry (e : hentry) : Prop :=
  match e_content e with EHeader h => is_octets (fst h) /\ is_octets (snd h) | ESize _ => True end.

Lemma in_tables_dec : forall T h, in_tables T h \/ ~ in_tables T h.
Proof.
  intros T h. destruct (in_tablesb T h) eqn:X; [left|right; apply in_tablesb_false; exact X].
  apply orb_true_iff in X. destruct X as [X|X].
  - apply andb_true_iff in X. destruct X as [X V]. apply existsb_exists in X. destruct X as (g & IN & EQ).
    apply header_eqb_eq in EQ. subst g. left. split; [exact IN|]. intros V0. rewrite V0 in V. discriminate V.
  - apply existsb_exists in X. destruct X as (g & IN & EQ). apply header_eqb_eq in EQ. subst g. right. exact IN.
Qed.

(* An entry that is sent as an index. *)
Lemma in_tables_raw : forall T h limit mode p, p <> SizeUpdate -> in_tables T h ->
  exists raw, encode_block [HEntry p (EHeader h)] mode T = Ok raw /\
    rfc_block limit (rfc_table T) raw [h] (rfc_table T).
Proof.
  intros T h limit mode p NP I. destruct (indexed_means p h mode T NP I) as (out & i & E & R & S & _).
  exists out. cbn [encode_block]. rewrite E. cbn [bind]. rewrite app_nil_r. split; [reflexivity|].
  apply (one_repr _ _ _ _ _ _ R). cbn [step_in].
  change (resolve_in rfc_static (rfc_table T) i) with (resolve (rfc_table T) i). rewrite S. reflexivity.
Qed.

Theorem C52_single_partial : forall host limit T q e, dt_ok T -> request_ok (Table (dt_max T) (dt_entries T)) q ->
  q_block q = [e] -> octets_entry e -> (C52_step host limit T q <-> works limit T e).
Proof.
  intros host limit T q e K Q B O. fold (rfc_table T) in Q.
  assert (PL : plain_block limit (of_table (rfc_table T)) (dt_max T) false [e] -> C52_step host limit T q).
  { intros P. apply plain_step; [exact K|exact Q|]. rewrite B. exact P. }
  rewrite (of_rfc_table T K) in PL.
  assert (BAD : forall r : res bytes, encode_block [e] (q_mode q) T = r -> (forall raw, r <> Ok raw) -> ~ C52_step host limit T q).
  { intros r E NR (out & C).
    pose (n := N.to_nat (size out)).
    destruct (C (Client (Tls [] [] (repeat (Chunk 0) n)) T default_table) eq_refl) as (c' & P & _).
    { exists (repeat (Chunk 0) n), []. rewrite app_nil_r. split; [reflexivity|]. split.
      - apply Forall_forall. intros x I. apply repeat_spec in I. subst. discriminate.
      - unfold size at 2. rewrite repeat_length. lia. }
    assert (NP : forall x, mk_headers (q_flags q) (q_stream q) (q_block q) (q_mode q) T (q_padding q)
      (Prio (q_exclusive q) (q_dependency q) (q_weight q)) <> Ok x).
    { intros x M. unfold mk_headers, headers_construct_payload in M. rewrite B, E in M.
      destruct (if is_flag_set (q_flags q) F_PRIORITY then _ else _); try discriminate M.
      destruct r as [raw| | |]; try discriminate M. exact (NR raw eq_refl). }
    unfold perform, get_request_dynamic_table in P. cbn [c_req] in P.
    destruct (mk_headers _ _ _ _ _ _ _) as [x| | |]; try discriminate P. exact (NP x eq_refl). }
  assert (LIT : forall k h, e = HEntry (lib_prefix k) (EHeader h) -> fst h = octets "accept-control-allow-origin" -> ~ in_tables T h ->
    ~ C52_step host limit T q).
  { intros k [n v] -> EN NI. cbn [fst] in EN. subst n. destruct O as [_ Ov].
    exact (C52_misspelt_refuted host limit T k v q K Q Ov NI B). }
  assert (ND : forall n : list N, n = octets "accept-control-allow-origin" \/ n <> octets "accept-control-allow-origin").
  { intros n. destruct (list_eq_dec N.eq_dec n (octets "accept-control-allow-origin")); auto. }
  destruct e as [p [h|n]].
  - destruct O as [On Ov]. cbn [e_content] in On, Ov.
    assert (AV : in_tables T h -> available false T h) by (intros [I|I]; [left; exact I|right; auto]).
    assert (OUT : in_tables T h \/ fst h <> octets "accept-control-allow-origin" -> available false T h \/ fresh T h).
    { intros H. destruct (in_tables_dec T h) as [I|NI]; [left; auto|]. destruct H as [I|NM]; [contradiction|].
      right. repeat split; assumption. }
    destruct p; cbn [works].
    + split; [|intros I; apply PL; split; [auto|exact Logic.I]].
      intros S. destruct (in_tables_dec T h) as [I|NI]; [auto|]. destruct (ND (fst h)) as [EN|NM]; [|auto].
      exfalso. exact (LIT Without h eq_refl EN NI S).
    + split; [|intros I; apply PL; split; [auto|exact Logic.I]].
      intros S. destruct (in_tables_dec T h) as [I|NI]; [auto|]. destruct (ND (fst h)) as [EN|NM]; [|auto].
      exfalso. exact (LIT Never h eq_refl EN NI S).
    + split; [|intros []]. intros S. exfalso. refine (BAD _ eq_refl _ S). intros raw H. discriminate H.
    + destruct (N.leb_spec (field_size h) (dt_max T)) as [L|L].
      2:{ split; [|lia]. intros S. exfalso. exact (C52_oversized_refuted host limit T h q K Q On Ov L B S). }
      destruct (update_block_spec [HEntry IncrementalIndexing (EHeader h)] T K) as (T2 & U2 & _ & R2); [cbn; split; [lia|exact Logic.I]|].
      cbn [table_after] in R2.
      destruct (in_tables_dec T h) as [I|NI].
      * destruct (in_tables_raw T h limit (q_mode q) IncrementalIndexing ltac:(discriminate) I) as (raw & E & RB).
        pose proof (step_exact host limit T q raw K Q) as X. rewrite B in X. specialize (X E). rewrite X.
        change (fields_of [HEntry IncrementalIndexing (EHeader h)]) with [h].
        split.
        -- intros (T' & U & RB'). split; [exact L|]. right. split; [exact I|]. rewrite U in U2. injection U2 as <-.
           destruct (rfc_block_unique _ _ _ _ _ RB _ _ RB') as [_ ET]. fold (rfc_table T). congruence.
        -- intros (_ & [(NI & _)|(_ & ET)]); [contradiction|]. exists T2. split; [exact U2|]. fold (rfc_table T) in ET. rewrite R2, ET. exact RB.
      * split.
        -- intros S. split; [exact L|]. left. split; [exact NI|]. intros EN. exact (LIT Incremental h eq_refl EN NI S).
        -- intros (_ & [(_ & NM)|(I & _)]); [|contradiction]. apply PL. split; [repeat split; assumption|]. split; [exact L|exact Logic.I].
    + split; [|intros I; apply PL; split; [auto|exact Logic.I]].
      intros S. destruct (in_tables_dec T h) as [I|NI]; [exact I|]. exfalso. exact (absent_step host limit T h q K Q On Ov NI B S).
  - destruct p; cbn [works]; try (split; [|intros []]; intros S; exfalso; refine (BAD _ eq_refl _ S); intros raw H; discriminate H).
    split; [|intros L; apply PL; split; [exact L|exact Logic.I]]. intros S.
    destruct (size_means n (q_mode q) T) as (out & E & R).
    assert (EB : encode_block (q_block q) (q_mode q) T = Ok out).
    { rewrite B. cbn [encode_block]. rewrite E. cbn [bind]. rewrite app_nil_r. reflexivity. }
    destruct (step_reading host limit T q out K Q EB S) as (T' & _ & RB). rewrite B in RB.
    inversion RB as [|t0 l r o t1 ls fs t2 R' S' H' E1 E2 E3 E4].
    + subst. inversion R as [| | |l0 n0 _ (b & tl & X & _)]. discriminate X.
    + subst t0 t2. rewrite <- (app_nil_r out) in E2. destruct (repr_unique _ _ _ _ _ _ R' R E2) as (-> & -> & _).
      cbn [step_in] in S'. destruct (N.leb_spec n limit) as [L|L]; [exact L|discriminate S'].
Qed.

(* Entries that work and entries that do not, with a table that holds one field
   and has no room for another. *)
Example C52_single_case : let T := DynTable [([97], [98])] 34 34 in
  dt_ok T /\
  works 4096 T (HEntry IncrementalIndexing (EHeader ([97], [98]))) /\
  works 4096 T (HEntry IncrementalIndexing (EHeader ([97], [99]))) /\
  works 4096 T (HEntry Indexed (EHeader ([97], [98]))) /\ works 4096 T (HEntry SizeUpdate (ESize 4096)) /\
  works 4096 T (HEntry NeverIndexed (EHeader ([97], [99]))) /\
  ~ works 4096 T (HEntry Indexed (EHeader ([97], [99]))) /\
  ~ works 4096 T (HEntry IncrementalIndexing (EHeader (octets ":method", octets "GET"))) /\
  ~ works 4096 T (HEntry SizeUpdate (ESize 4097)) /\
  ~ works 4096 T (HEntry WithoutIndexing (EHeader (octets "accept-control-allow-origin", [42]))) /\
  request_ok (Table (dt_max T) (dt_entries T)) (ask 1 [HEntry IncrementalIndexing (EHeader ([97], [98]))]).
Proof.
  cbv zeta. set (T := DynTable [([97], [98])] 34 34).
  assert (I : in_tables T ([97], [98])) by (right; left; reflexivity).
  assert (NC : ~ in_tables T ([97], [99])) by (apply in_tablesb_false; vm_compute; reflexivity).
  split; [split; [reflexivity|discriminate]|].
  split; [split; [discriminate|right; split; [exact I|reflexivity]]|].
  split; [split; [discriminate|left; split; [exact NC|discriminate]]|].
  split; [exact I|]. split; [discriminate|]. split; [right; discriminate|]. split; [exact NC|].
  split; [|split; [intros H; apply H; reflexivity|split]].
  - intros (_ & [(NI & _)|(_ & H)]); [|discriminate H]. apply NI. left. split; [|discriminate]. vm_compute. right; left. reflexivity.
  - intros [H|H]; [|apply H; reflexivity]. revert H. apply in_tablesb_false. vm_compute. reflexivity.
  - eapply request_okb; [vm_compute; reflexivity|vm_compute; reflexivity].
Qed.

Print Assumptions C52_single_partial.
