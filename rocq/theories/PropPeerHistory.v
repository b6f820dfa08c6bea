(* Property C71, two instances of the library whose tables may differ: exactly
   which histories of requests are delivered. *)
From Coq Require Import String.
From Coq Require Import ZArith NArith List Bool Lia ZifyBool ZifyNat ZifyN.
From Verif Require Import Base Arith Util IntRep Huffman StaticTable HeaderType DynTable HeaderEnc HeaderDec FrameHeader Frames FrameBuilder Ssl Client
  SpecBits SpecInt SpecHpack SpecFrame DynTableProofs StaticProofs HeaderProofs HeaderProofs2 FrameProofs BlockProofs
  HistoryProofs PropHeader PropFrame PropBlock PropSsl PropClient PropHistory PropRequest PropReqBlock PropPeer PropPeerExact.
Import ListNotations.
Local Open Scope string_scope.
Local Open Scope list_scope.
Local Open Scope N_scope.
Ltac Zify.zify_post_hook ::= Z.div_mod_to_equations.

(* ---------------------------------------------------------------- the specification *)

(* An entry is understood by a receiver with entries rs if it is sent from a
   table with entries ss: a field that stands in the sender's table (and is not a
   static one) is sent as its newest position there, and must stand at that same
   position in the receiver's table.  Everything else is understood by anyone. *)
Definition resolves (ss rs : list field) (e : hentry) : Prop :=
  forall h, e_content e = EHeader h -> ~ (In h (map snd static_table_entries) /\ snd h <> []) ->
  forall k, newest_at ss h k -> nth_error rs k = Some h.

(* A history of requests: the sender's table s, the receiver's table r. *)
Fixpoint understood (s r : table) (qs : list request) : Prop :=
  match qs with
  | [] => True
  | q :: qs' => Forall (resolves (t_entries s) (t_entries r)) (q_block q) /\
      understood (table_after s (q_block q)) (table_received (of_table s) r (q_block q)) qs'
  end.

Fixpoint table_sent (s : table) (qs : list request) : table :=
  match qs with
  | [] => s
  | q :: qs' => table_sent (table_after s (q_block q)) qs'
  end.

Fixpoint table_got (s r : table) (qs : list request) : table :=
  match qs with
  | [] => r
  | q :: qs' => table_got (table_after s (q_block q)) (table_received (of_table s) r (q_block q)) qs'
  end.

Fixpoint sendable_requests (m : ub_mode) (s : table) (qs : list request) : Prop :=
  match qs with
  | [] => True
  | q :: qs' => sendable_request m s q /\ sendable_requests m (table_after s (q_block q)) qs'
  end.

(* ---------------------------------------------------------------- one entry *)

Definition nothing : dyn_table := DynTable [] 0 0.

(* What is decoded with an empty table is decoded alike with every table. *)
Lemma decode_any : forall m l x R, decode_header m l nothing = Ok x -> decode_header m l R = Ok x.
Proof.
  intros m l x R H. unfold decode_header in *.
  apply bind_ok in H. destruct H as (b0 & V & H). rewrite V. cbn [bind].
  apply bind_ok in H. destruct H as (p & P & H). rewrite P. cbn [bind].
  destruct (hprefix_eqb p SizeUpdate); [exact H|].
  apply bind_ok in H. destruct H as ((i & il) & I & H). rewrite I. cbn [bind].
  apply bind_ok in H. destruct H as (h & Hh & H).
  assert (X : (if 0 <? i then make_indexed_header i R else Ok ([], [])) = Ok h).
  { destruct (0 <? i) eqn:Z; [|exact Hh]. apply N.ltb_lt in Z. assert (NZ : i <> 0) by lia.
    rewrite indexed_header_spec in Hh |- * by exact NZ. unfold resolve_in in *.
    destruct (i =? 0); [discriminate Hh|]. destruct (i <=? N.of_nat (length lib_static)); [exact Hh|].
    cbn [rfc_table t_entries nothing dt_entries] in Hh. destruct (N.to_nat (i - 1 - N.of_nat (length lib_static))); discriminate Hh. }
  rewrite X. exact H.
Qed.

Lemma encode_static : forall p h mode S, p <> SizeUpdate ->
  (In h (map snd static_table_entries) /\ snd h <> []) \/ ~ In h (dt_entries S) ->
  encode_header (HEntry p (EHeader h)) mode S = encode_header (HEntry p (EHeader h)) mode nothing.
Proof.
  intros p h mode S NP C. unfold encode_header. cbn [e_prefix get_header e_content bind].
  destruct (hprefix_eqb p SizeUpdate); [reflexivity|].
  destruct C as [[I V]|N].
  - apply in_static in I. destruct I as (i & I). rewrite I.
    destruct (N.ltb_spec 0 (size (snd h))) as [_|L]; [reflexivity|]. exfalso. apply V.
    destruct (snd h); [reflexivity|]. unfold size in L. cbn [length] in L. lia.
  - destruct (match reverse_static_find h with
     | Some i => if 0 <? size (snd h) then Some i else None | None => None end); [reflexivity|].
    destruct (find_index (dt_entries S) h) as [i|] eqn:F; [|reflexivity].
    exfalso. apply N. apply find_index_some in F. exact (nth_error_In _ _ F).
Qed.

Lemma in_nothing : forall h, in_tables nothing h -> In h (map snd static_table_entries) /\ snd h <> [].
Proof. intros h [X|[]]. exact X. Qed.

Lemma entry_across : forall m S R e mode, sendable m S e -> size (dt_entries S) < 2 ^ 30 ->
  forall out, encode_header e mode S = Ok out -> size out < 2 ^ 31 -> out <> [] /\ wf_bytes out /\
    forall rest, wf_bytes rest ->
      (resolves (dt_entries S) (dt_entries R) e -> exists e', decode_header m (out ++ rest) R = Ok (e', size out) /\ received S e e') /\
      (forall e' n, decode_header m (out ++ rest) R = Ok (e', n) -> n = size out /\
         length (fields_of [e']) = length (fields_of [e]) /\
         (fields_of [e'] = fields_of [e] -> resolves (dt_entries S) (dt_entries R) e)).
Proof.
  intros m S R e mode SE T out E L.
  assert (C : (sendable m nothing e /\ encode_header e mode nothing = Ok out /\
               (forall e', received nothing e e' -> received S e e') /\ resolves (dt_entries S) (dt_entries R) e) \/
              (exists p h, e = HEntry p (EHeader h) /\ p <> SizeUpdate /\
                 ~ (In h (map snd static_table_entries) /\ snd h <> []) /\ In h (dt_entries S))).
  { destruct e as [p [h|n]].
    - assert (NP : p <> SizeUpdate) by (intros ->; inversion SE; destruct k; discriminate).
      destruct (static_dec h) as [ST|NS].
      + left. rewrite <- (encode_static p h mode S NP (or_introl ST)). split; [|split; [exact E|split]].
        * inversion SE; subst; [apply send_literal|apply send_indexed]; try assumption. left. exact ST.
        * intros e' RE. inversion RE as [e0 N|p0 h0 I]; subst; [exfalso; apply (N h eq_refl); left; exact ST|].
          apply rec_indexed. left. exact ST.
        * intros h0 X N. injection X as <-. contradiction.
      + destruct (in_tables_dec S h) as [[ST|I]|NI]; [contradiction|right; exists p, h; auto|].
        assert (ND : ~ In h (dt_entries S)) by (intros I; apply NI; right; exact I).
        left. rewrite <- (encode_static p h mode S NP (or_intror ND)). split; [|split; [exact E|split]].
        * inversion SE; subst; [apply send_literal; assumption|contradiction].
        * intros e' RE. inversion RE as [e0 N|p0 h0 I]; subst; [|exfalso; exact (NS (in_nothing _ I))].
          apply rec_same. intros h0 X. injection X as <-. exact NI.
        * intros h0 X N k [K _]. injection X as <-. exfalso. exact (ND (nth_error_In _ _ K)).
    - left. inversion SE; subst. split; [apply send_size; assumption|]. split; [exact E|]. split.
      + intros e' RE. inversion RE; subst. apply rec_same. intros h X. discriminate X.
      + intros h X. discriminate X. }
  destruct C as [(SN & EN & RN & RS)|(p & h & -> & NP & NS & I)].
  - destruct (entry_roundtrip m nothing e mode SN) as (out' & E' & P); [reflexivity|].
    rewrite EN in E'. injection E' as <-. destruct (P L) as (W & NE & Q). split; [exact NE|]. split; [exact W|].
    intros rest Wr. destruct (Q rest Wr) as (e' & D & RC). apply decode_any with (R := R) in D. split.
    + intros _. exists e'. split; [exact D|]. apply RN. exact RC.
    + intros e2 n D2. rewrite D in D2. apply Ok_inj in D2. injection D2 as <- <-. split; [reflexivity|]. split; [|intros _; exact RS].
      destruct RC; reflexivity.
  - destruct (dynamic_means p h mode S NP NS I) as (k & out' & K & E' & RR). rewrite E in E'. injection E' as <-.
    destruct (find_index (dt_entries S) h) as [i|] eqn:F; [|exfalso; exact (HeaderProofs.find_index_none _ _ F I)].
    assert (KI : k = N.to_nat i) by (apply (newest_unique (dt_entries S) h); [exact K|apply find_newest; exact F]).
    assert (EI : encode_index (62 + N.of_nat k) Indexed = Ok out).
    { rewrite <- E. unfold encode_header. cbn [e_prefix get_header e_content bind].
      replace (hprefix_eqb p SizeUpdate) with false by (destruct p; try reflexivity; contradiction).
      replace (match reverse_static_find h with
        | Some i => if 0 <? size (snd h) then Some i else None | None => None end) with (@None N).
      - rewrite F, static_size, KI, N2Nat.id. reflexivity.
      - destruct (reverse_static_find h) eqn:RV; [|reflexivity]. destruct (N.ltb_spec 0 (size (snd h))) as [LL|LL]; [|reflexivity].
        exfalso. apply NS. split; [apply in_static; eauto|]. intros Z. rewrite Z in LL. rewrite size_nil in LL. lia. }
    destruct (encode_index_indexed (62 + N.of_nat k)) as (l & El & SH & FI). rewrite EI in El. injection El as <-.
    assert (BI : 62 + N.of_nat k < 2 ^ 31).
    { assert (k < length (dt_entries S))%nat by (apply nth_error_Some; destruct K as [K _]; congruence). unfold size in T.
      change (2 ^ 30) with 1073741824 in T. change (2 ^ 31) with 2147483648. lia. }
    split. { destruct FI as (b & tl & -> & _). discriminate. }
    split. { eapply rfc_int_octets. apply SH. }
    assert (SM : small_int 7 out (62 + N.of_nat k)) by (split; [apply SH|exact BI]).
    intros rest Wr. rewrite (decode_indexed_small m out (62 + N.of_nat k) rest R SM FI Wr).
    destruct (N.eqb_spec (62 + N.of_nat k) 0) as [Z|_]; [lia|].
    assert (RV : resolve_in lib_static (rfc_table R) (62 + N.of_nat k) = nth_error (dt_entries R) k).
    { unfold resolve_in. rewrite lib_static_len. change (N.of_nat 61) with 61.
      destruct (N.eqb_spec (62 + N.of_nat k) 0) as [Z|_]; [lia|]. destruct (N.leb_spec (62 + N.of_nat k) 61) as [Z|_]; [lia|].
      cbn [rfc_table t_entries]. f_equal. lia. }
    rewrite RV. split.
    + intros RS. rewrite (RS h eq_refl NS k K). eexists. split; [reflexivity|]. apply rec_indexed. right. exact I.
    + intros e' n D. destruct (nth_error (dt_entries R) k) as [g|] eqn:G; [|discriminate D].
      apply Ok_inj in D. injection D as <- <-. split; [reflexivity|]. split; [reflexivity|].
      intros FE h0 X _ k0 K0. injection X as <-. cbn in FE. injection FE as ->.
      rewrite <- (newest_unique _ _ _ _ K K0). exact G.
Qed.

(* ---------------------------------------------------------------- a block *)

Lemma fields_cons : forall e b, fields_of (e :: b) = fields_of [e] ++ fields_of b.
Proof. intros e b. unfold fields_of. cbn [flat_map]. rewrite app_nil_r. reflexivity. Qed.

Lemma app_same_length : forall (a a' b b' : list field), length a = length a' -> a ++ b = a' ++ b' -> a = a' /\ b = b'.
Proof.
  induction a as [|x a IH]; intros [|x' a'] b b' L E; try discriminate L; [auto|].
  cbn [app] in E. injection E as -> E. injection L as L. destruct (IH a' b b' L E) as [-> ->]. auto.
Qed.

Lemma block_across : forall m S R mode b, Forall (sendable m S) b -> size (dt_entries S) < 2 ^ 30 ->
  forall out, encode_block b mode S = Ok out -> size out < 2 ^ 31 -> wf_bytes out /\
    (Forall (resolves (dt_entries S) (dt_entries R)) b -> exists b', decode_block m out R = Ok b' /\ Forall2 (received S) b b') /\
    (forall b', decode_block m out R = Ok b' -> fields_of b' = fields_of b -> Forall (resolves (dt_entries S) (dt_entries R)) b).
Proof.
  intros m S R mode b F T. induction F as [|e b SE F IH]; intros out E L; cbn [encode_block] in E.
  - injection E as <-. split; [constructor|]. split.
    + intros _. exists []. split; [reflexivity|constructor].
    + intros _ _ _. constructor.
  - apply bind_ok in E. destruct E as (x & X & E). apply bind_ok in E. destruct E as (y & Y & E). injection E as <-.
    rewrite size_app in L.
    destruct (IH y Y ltac:(lia)) as (Wy & A & B).
    destruct (entry_across m S R e mode SE T x X ltac:(lia)) as (NE & Wx & Q). destruct (Q y Wy) as (Q1 & Q2).
    assert (W : wf_bytes (x ++ y)) by (apply wf_bytes_app; split; assumption).
    split; [exact W|]. split.
    + intros RS. destruct (Q1 (Forall_inv RS)) as (e' & De & Re). destruct (A (Forall_inv_tail RS)) as (b' & D & RB).
      exists (e' :: b'). split; [|constructor; assumption].
      rewrite (decode_block_cons m x y R e' W NE De), D. reflexivity.
    + intros b' D FE. assert (NX : x ++ y <> []) by (destruct x; [contradiction|discriminate]).
      pose proof D as D0. rewrite decode_block_step in D by assumption. apply bind_ok in D. destruct D as ((e' & n) & De & D).
      destruct (Q2 e' n De) as (-> & LE & QE). clear D. rewrite (decode_block_cons m x y R e' W NE De) in D0.
      apply bind_ok in D0. destruct D0 as (b2 & D2 & D0). apply Ok_inj in D0. subst b'.
      rewrite (fields_cons e' b2), (fields_cons e b) in FE. destruct (app_same_length _ _ _ _ LE FE) as [F1 F2].
      constructor; [exact (QE F1)|exact (B b2 D2 F2)].
Qed.

(* ---------------------------------------------------------------- a request *)

Lemma headers_parse_any : forall m t flags len r sid e dep w fragment padding,
  size padding < 256 -> e < 2 -> dep < 2 ^ 31 ->
  headers_decode_payload m (FH len HEADERS flags r sid) (headers_octets flags e dep w fragment padding) t =
  let* b := decode_block m fragment t in
  Ok (if has_padded flags then padding else [], if has_priority flags then Prio e dep w else Prio 0 0 0, b).
Proof.
  intros m t flags len r sid e dep w fragment padding P E D.
  unfold headers_decode_payload, headers_octets. cbn [fh_flags]. rewrite padded_flag, priority_flag.
  destruct (has_padded flags).
  - rewrite padded_split by exact P. cbn [bind]. destruct (has_priority flags).
    + rewrite split_priority by assumption. cbn [bind]. reflexivity.
    + cbn [app bind]. reflexivity.
  - cbn [padded_payload bind]. destruct (has_priority flags).
    + rewrite split_priority by assumption. cbn [bind]. reflexivity.
    + cbn [app bind]. reflexivity.
Qed.

Lemma peer_wire : forall host m T q, dt_ok T -> sendable_request m (rfc_table T) q ->
  exists w T' raw, wframe_ok w /\ size (wire w) < 2 ^ 31 /\ dt_ok T' /\ rfc_table T' = table_after (rfc_table T) (q_block q) /\
    encode_block (q_block q) (q_mode q) T = Ok raw /\ size raw < 2 ^ 31 /\
    (forall R, build_frame m (header_of w) (w_payload w) R =
       match decode_block m raw R with
       | Ok b' => Ok (request_frame q (w_payload w) b')
       | Throw _ => Ok (RawFrame (header_of w) (w_payload w))
       | UB u => UB u | NoFuel => NoFuel
       end) /\
    forall c, c_req c = T -> perform host c q = let '(r, c1) := send_raw_data c (wire w) in
      match r with Ok _ => (Ok tt, Client (c_tls c1) T' (c_resp c1)) | _ => (r, c1) end.
Proof.
  intros host m T q K ((Ls & Lp & Le & Ld & SZ) & Lf & Lw & Op & S & N30 & FI).
  rewrite (of_rfc_table _ K) in *. change (t_entries (rfc_table T)) with (dt_entries T) in N30.
  destruct (encode_block_total m T (q_mode q) (q_block q) S N30) as (raw & E). specialize (SZ raw E).
  set (payload := headers_octets (q_flags q) (q_exclusive q) (q_dependency q) (q_weight q) raw (q_padding q)) in *.
  assert (LR : size raw < 2 ^ 31).
  { assert (size raw <= size payload).
    { unfold payload, headers_octets, padded_payload. destruct (has_padded (q_flags q)), (has_priority (q_flags q));
      rewrite ?size_app; lia. }
    change (2 ^ 24) with 16777216 in SZ. change (2 ^ 31) with 2147483648. lia. }
  destruct (block_roundtrip m T (q_mode q) (q_block q) S N30 raw E LR) as (Wr & _).
  destruct (update_block_spec (q_block q) T K FI) as (T' & U & K' & R').
  exists (WFrame HEADERS (q_flags q) 0 (q_stream q) payload), T', raw.
  assert (OP : is_octets payload).
  { apply wf_octets in Wr. unfold payload, headers_octets, padded_payload, priority_fields.
    assert (B : forall k x, is_octets (be_octets k x)).
    { clear. induction k as [|k IH]; intros x b H; [destruct H|]. cbn [be_octets] in H. destruct H as [<-|H]; [lia|exact (IH _ _ H)]. }
    intros x X.
    assert (P : In x (if has_priority (q_flags q) then be_octets 4 (q_exclusive q * 2 ^ 31 + q_dependency q) ++ [q_weight q] else []) -> x < 256).
    { destruct (has_priority (q_flags q)); [|intros []]. intros Y. apply in_app_or in Y. destruct Y as [Y|[<-|[]]]; [exact (B _ _ _ Y)|exact Lw]. }
    destruct (has_padded (q_flags q)).
    - cbn [app In] in X. destruct X as [<-|X]; [unfold size in Lp; lia|].
      apply in_app_or in X. destruct X as [X|X]; [apply in_app_or in X; destruct X as [X|X]; [exact (P X)|exact (Wr _ X)]|exact (Op _ X)].
    - apply in_app_or in X. destruct X as [X|X]; [exact (P X)|exact (Wr _ X)]. }
  assert (W : wframe_ok (WFrame HEADERS (q_flags q) 0 (q_stream q) payload)).
  { split; [reflexivity|]. split; [exact Lf|]. split; [reflexivity|]. split; [exact Ls|]. split; [exact OP|exact SZ]. }
  split; [exact W|]. split.
  { rewrite (wire_size _ W). cbn [w_payload]. change (2 ^ 24) with 16777216 in SZ. change (2 ^ 31) with 2147483648. lia. }
  split; [exact K'|]. split; [exact R'|]. split; [exact E|]. split; [exact LR|]. split.
  { intros R. unfold header_of. cbn [w_type w_flags w_reserved w_stream w_payload].
    unfold build_frame. cbn [fh_type]. change (HEADERS =? T_DATA) with false. change (HEADERS =? T_HEADERS) with true. cbv iota.
    unfold build_headers_frame, parse_headers. unfold payload at 2.
    rewrite (headers_parse_any m R (q_flags q) (size payload) 0 (q_stream q) _ _ _ raw (q_padding q)) by (try assumption; lia).
    destruct (decode_block m raw R); reflexivity. }
  intros c CE. unfold perform, mk_headers, get_request_dynamic_table. rewrite CE.
  rewrite (headers_payload_wire (q_flags q) (q_block q) (q_mode q) T (q_padding q) (q_exclusive q) (q_dependency q)
    (q_weight q) raw) by (try assumption; lia). cbn [bind]. unfold send_frame.
  rewrite (serialize_wire host (HeadersFrame _ _ _ _ _) payload);
    cbn [frame_fh fh_stream_id fh_length fh_reserved fh_type fh_flags payload_bytes]; try reflexivity; try assumption.
  - change T_HEADERS with HEADERS. change (wire (WFrame HEADERS (q_flags q) 0 (q_stream q) payload)) with (wire_frame HEADERS (q_flags q) 0 (q_stream q) payload).
    unfold send_raw_data. destruct (ssl_write _ _) as [r s]. destruct r; try reflexivity.
    unfold update_request_dynamic_table, set_tls. cbn [c_req c_tls c_resp]. rewrite CE, U. reflexivity.
  - apply u32_small. change (2 ^ 24) with 16777216 in SZ. change (2 ^ 32) with 4294967296. clear -SZ. lia.
Qed.

(* The size limits of the two tables change together. *)
Lemma same_max : forall T b s r, t_max r = t_max s -> t_max (table_received T r b) = t_max (table_after s b).
Proof.
  intros T b. induction b as [|[p [h|n]] b IH]; intros s r E; cbn [table_received table_after]; [exact E| |].
  - destruct p; try (apply IH; exact E). apply IH. destruct (in_tablesb T h); exact E.
  - destruct p; try (apply IH; exact E). apply IH. reflexivity.
Qed.

Lemma step_across : forall host m T q, dt_ok T -> sendable_request m (rfc_table T) q ->
  exists w T', wframe_ok w /\ size (wire w) < 2 ^ 31 /\ dt_ok T' /\ rfc_table T' = table_after (rfc_table T) (q_block q) /\
    (forall R, dt_ok R -> dt_max R = dt_max T ->
       (delivered q (fst (handled m R w)) -> Forall (resolves (dt_entries T) (dt_entries R)) (q_block q)) /\
       (Forall (resolves (dt_entries T) (dt_entries R)) (q_block q) -> delivered q (fst (handled m R w)) /\
          dt_ok (snd (handled m R w)) /\ rfc_table (snd (handled m R w)) = table_received T (rfc_table R) (q_block q))) /\
    forall c, c_req c = T -> perform host c q = let '(r, c1) := send_raw_data c (wire w) in
      match r with Ok _ => (Ok tt, Client (c_tls c1) T' (c_resp c1)) | _ => (r, c1) end.
Proof.
  intros host m T q K SQ.
  destruct (peer_wire host m T q K SQ) as (w & T' & raw & W & LW & K' & R' & E & LR & BF & PF).
  destruct SQ as (_ & _ & _ & _ & S & N30 & FI). rewrite (of_rfc_table _ K) in *. change (t_entries (rfc_table T)) with (dt_entries T) in N30.
  exists w, T'. split; [exact W|]. split; [exact LW|]. split; [exact K'|]. split; [exact R'|]. split; [|exact PF].
  intros R KR MX. destruct (block_across m T R (q_mode q) (q_block q) S N30 raw E LR) as (_ & A & B).
  unfold handled. rewrite BF. split.
  - intros (enc & len & b & EQ & FE). destruct (decode_block m raw R) as [b'|x|u|] eqn:D; try discriminate EQ.
    + destruct (update_frame R (request_frame q (w_payload w) b')) as [r t']. cbn [fst] in EQ.
      apply bind_ok in EQ. destruct EQ as ([] & _ & EQ). apply Ok_inj in EQ. unfold request_frame in EQ.
      injection EQ as _ _ EQ. subst b'. exact (B b eq_refl FE).
    + destruct (update_frame R (RawFrame (header_of w) (w_payload w))) as [r t']. cbn [fst] in EQ.
      apply bind_ok in EQ. destruct EQ as ([] & _ & EQ). discriminate EQ.
  - intros RS. destruct (A RS) as (b' & D & RB). rewrite D.
    destruct (received_after T m _ _ (rfc_table R) RB S) as (TA & FB & FE).
    assert (FR : inserts_fit (dt_max R) b') by (apply FB; rewrite MX; exact FI).
    destruct (update_block_spec b' R KR FR) as (T2 & U2 & K2 & R2).
    unfold request_frame, update_frame. cbn [frame_fh fh_type].
    change (HEADERS =? T_HEADERS) with true. cbv iota. rewrite U2. cbn [fst snd bind].
    split; [do 3 eexists; split; [reflexivity|exact FE]|]. split; [exact K2|]. rewrite R2. exact TA.
Qed.

Lemma history_across : forall host m qs S, dt_ok S -> sendable_requests m (rfc_table S) qs ->
  exists out,
    (forall a, c_req a = S -> delivers (size out) (c_tls a) ->
       exists a', perform_all host a qs = (Ok tt, a') /\ tls_out (c_tls a') = tls_out (c_tls a) ++ out /\
         c_req a' = of_table (table_sent (rfc_table S) qs)) /\
    (forall b rest, tls_in (c_tls b) = out ++ rest -> delivers (size out) (c_tls b) ->
       exists rs b', receive_n m (length qs) b = (rs, b') /\ tls_in (c_tls b') = rest /\
         (dt_ok (c_resp b) -> dt_max (c_resp b) = dt_max S ->
          (forall n, Forall2 delivered (firstn n qs) (firstn n rs) <-> understood (rfc_table S) (rfc_table (c_resp b)) (firstn n qs)) /\
          (understood (rfc_table S) (rfc_table (c_resp b)) qs -> c_resp b' = of_table (table_got (rfc_table S) (rfc_table (c_resp b)) qs)))).
Proof.
  intros host m qs. induction qs as [|q qs IH]; intros S KS P.
  - exists []. split.
    + intros a A _. exists a. rewrite app_nil_r. split; [reflexivity|]. split; [reflexivity|]. rewrite A. symmetry. apply of_rfc_table. exact KS.
    + intros b rest I _. exists [], b. cbn [length receive_n table_got understood]. split; [reflexivity|]. split; [exact I|].
      intros KR _. split; [intros n; rewrite !firstn_nil; split; [intros _; exact Logic.I|constructor]|]. intros _. symmetry. apply of_rfc_table. exact KR.
  - destruct P as [Q P]. destruct (step_across host m S q KS Q) as (w & S1 & W & LW & K1 & R1 & ST & PF).
    cbn [understood table_sent table_got]. rewrite (of_rfc_table _ KS). rewrite <- R1 in P |- *.
    change (t_entries (rfc_table S)) with (dt_entries S).
    destruct (IH S1 K1 P) as (out & A & B).
    exists (wire w ++ out). split.
    + intros a AE D. rewrite size_app in D. destruct (send_raw_more a (wire w) (size out) LW D) as (a1 & S0 & D1 & O1 & _).
      cbn [perform_all]. rewrite (PF a AE), S0.
      destruct (A (Client (c_tls a1) S1 (c_resp a1)) eq_refl D1) as (a' & X & O' & T2).
      exists a'. split; [exact X|]. cbn [c_tls] in O'. rewrite O', O1, <- app_assoc. auto.
    + intros b rest I D. rewrite <- app_assoc in I. rewrite size_app in D.
      destruct (receive_complete m b w _ _ W I D) as (s1 & I1 & O1 & D1 & X1).
      cbn [length receive_n]. rewrite X1.
      destruct (B (Client s1 (c_req b) (snd (handled m (c_resp b) w))) rest I1 D1) as (rs & b' & X & I2 & F).
      rewrite X. eexists _, b'. split; [reflexivity|]. split; [exact I2|]. intros KR MX.
      change (t_entries (rfc_table (c_resp b))) with (dt_entries (c_resp b)).
      destruct (ST (c_resp b) KR MX) as [STA STB]. cbn [c_resp] in F.
      assert (N : Forall (resolves (dt_entries S) (dt_entries (c_resp b))) (q_block q) ->
        delivered q (fst (handled m (c_resp b) w)) /\
        (forall n, Forall2 delivered (firstn n qs) (firstn n rs) <->
           understood (rfc_table S1) (table_received S (rfc_table (c_resp b)) (q_block q)) (firstn n qs)) /\
        (understood (rfc_table S1) (table_received S (rfc_table (c_resp b)) (q_block q)) qs ->
         c_resp b' = of_table (table_got (rfc_table S1) (table_received S (rfc_table (c_resp b)) (q_block q)) qs))).
      { intros RS. destruct (STB RS) as (DL & K2 & RT). split; [exact DL|]. rewrite <- RT. apply F; [exact K2|].
        change (t_max (rfc_table (snd (handled m (c_resp b) w))) = t_max (rfc_table S1)). rewrite RT, R1.
        apply same_max. exact MX. }
      split; [intros [|n]; [split; [intros _; exact Logic.I|constructor]|]; cbn [firstn understood]; rewrite (of_rfc_table _ KS), <- R1; split|].
      * intros G. inversion G as [|x y l l' G1 G2]; subst. pose proof (STA G1) as RS. split; [exact RS|].
        destruct (N RS) as (_ & N1 & _). exact (proj1 (N1 n) G2).
      * intros [RS U]. destruct (N RS) as (DL & N2 & _). constructor; [exact DL|exact (proj2 (N2 n) U)].
      * intros [RS U]. destruct (N RS) as (_ & _ & N3). exact (N3 U).
Qed.

(* ---------------------------------------------------------------- the theorems *)

(* Any number of requests, any two tables with the same limit, any chunking on
   either side: the first n requests arrive as submitted exactly if every one of
   them is understood, given what the earlier ones have done to the two tables. *)
Theorem C71_history_partial : forall host m qs S R, dt_ok S -> dt_ok R -> dt_max R = dt_max S ->
  let s := Table (dt_max S) (dt_entries S) in let r := Table (dt_max R) (dt_entries R) in
  sendable_requests m s qs ->
  exists out,
    (forall a, c_req a = S -> delivers (size out) (c_tls a) ->
       exists a', perform_all host a qs = (Ok tt, a') /\ tls_out (c_tls a') = tls_out (c_tls a) ++ out /\
         c_req a' = of_table (table_sent s qs)) /\
    (forall b rest, c_resp b = R -> tls_in (c_tls b) = out ++ rest -> delivers (size out) (c_tls b) ->
       exists rs b', receive_n m (length qs) b = (rs, b') /\ tls_in (c_tls b') = rest /\
         (forall n, Forall2 delivered (firstn n qs) (firstn n rs) <-> understood s r (firstn n qs)) /\
         (understood s r qs -> c_resp b' = of_table (table_got s r qs))).
Proof.
  intros host m qs S R KS KR MX s r P. destruct (history_across host m qs S KS P) as (out & A & B).
  exists out. split; [exact A|]. intros b rest BE I D. destruct (B b rest I D) as (rs & b' & X & I2 & F).
  rewrite BE in F. exists rs, b'. split; [exact X|]. split; [exact I2|]. exact (F KR MX).
Qed.

(* After a request that inserts a field for the second time (C71_duplicate_refuted)
   a field further back in the table does not arrive: the receiver looks one
   place too far. *)
Theorem C71_misread_refuted : forall host m T h g k p q1 q2, dt_ok T ->
  let t := Table (dt_max T) (dt_entries T) in
  in_tables T h -> dt_size T + field_size h <= dt_max T -> q_block q1 = [HEntry IncrementalIndexing (EHeader h)] ->
  g <> h -> ~ (In g (map snd static_table_entries) /\ snd g <> []) -> newest_at (dt_entries T) g k ->
  nth_error (dt_entries T) (Datatypes.S k) <> Some g -> q_block q2 = [HEntry p (EHeader g)] ->
  sendable_requests m t [q1; q2] ->
  exists out,
    (forall a, c_req a = T -> delivers (size out) (c_tls a) ->
       exists a', perform_all host a [q1; q2] = (Ok tt, a') /\ tls_out (c_tls a') = tls_out (c_tls a) ++ out) /\
    (forall b rest, c_resp b = T -> tls_in (c_tls b) = out ++ rest -> delivers (size out) (c_tls b) ->
       exists r1 r2 b', receive_n m 2 b = ([r1; r2], b') /\ delivered q1 r1 /\ ~ delivered q2 r2).
Proof.
  intros host m T h g k p q1 q2 K t I L Q1 NG NS [K1 K2] NK Q2 P.
  destruct (C71_history_partial host m [q1; q2] T T K K eq_refl P) as (out & A & B). fold t in A, B.
  destruct P as [P1 [P2 _]].
  exists out. split.
  - intros a AE D. destruct (A a AE D) as (a' & X & O & _). eauto.
  - intros b rest BE IN D. destruct (B b rest BE IN D) as (rs & b' & X & _ & F & _).
    cbn [length receive_n] in X |- *. destruct (receive_frame m b) as [r1 b1]. destruct (receive_frame m b1) as [r2 b2].
    injection X as <- <-. exists r1, r2, b2. split; [reflexivity|].
    assert (D1 : delivered q1 r1).
    { assert (U : understood t t (firstn 1 [q1; q2])).
      { cbn [firstn understood]. split; [|exact Logic.I]. rewrite Q1. constructor; [|constructor]. intros h0 E _ j [J _]. exact J. }
      pose proof (proj2 (F 1%nat) U) as G. cbn [firstn] in G.
      inversion G; assumption. }
    split; [exact D1|]. intros D2. pose proof (proj1 (F 2%nat)) as G. cbn [firstn understood] in G.
    destruct G as (_ & G & _); [constructor; [exact D1|constructor; [exact D2|constructor]]|].
    rewrite Q2, Q1 in G. apply Forall_inv in G. cbn [table_after table_received] in G.
    assert (OT : of_table t = T) by (apply of_rfc_table; exact K). rewrite OT in G.
    destruct (in_tablesb T h) eqn:Z; [|exact (in_tablesb_false _ _ Z I)].
    assert (KA : t_entries (insert t h) = h :: dt_entries T).
    { unfold insert. cbn [t_entries t_max t]. apply keep_all. destruct K as [KS _]. rewrite total_cons, <- KS. lia. }
    rewrite KA in G. cbn [t_entries t] in G. apply NK. apply (G g eq_refl NS). split; [exact K1|].
    intros [|j] J; cbn [nth_error]; [congruence|]. apply K2. lia.
Qed.

(* Both sides hold ([97],[98]) and ([99],[100]).  The first request inserts the
   older one again; the second asks for the newer one, and the receiver reports
   the older one instead. *)
Example C71_history_case :
  let T := DynTable [([99], [100]); ([97], [98])] 68 4096 in let t := Table (dt_max T) (dt_entries T) in
  let qs := [ask 1 [HEntry IncrementalIndexing (EHeader ([97], [98]))]; ask 3 [HEntry WithoutIndexing (EHeader ([99], [100]))]] in
  dt_ok T /\ sendable_requests Strict t qs /\ understood t t (firstn 1 qs) /\ ~ understood t t qs /\
  (let a := snd (perform_all LittleEndian (Client (Tls [] [] (repeat (Chunk 3) 200)) T default_table) qs) in
   let b := receive_n Strict 2 (Client (Tls (tls_out (c_tls a)) [] (repeat (Chunk 1) 200)) default_table T) in
   exists f1 f2, fst b = [Ok f1; Ok f2] /\ frame_fields f1 = [([97], [98])] /\ frame_fields f2 = [([97], [98])]).
Proof.
  cbv zeta. split; [split; [reflexivity|discriminate]|].
  assert (O1 : forall x, x < 256 -> is_octets [x]) by (intros x L b [<-|[]]; exact L).
  split; [|split; [|split]].
  - split; [|split; [|exact I]].
    + split; [eapply request_okb; [vm_compute; reflexivity|vm_compute; reflexivity]|]. split; [reflexivity|]. split; [reflexivity|].
      split; [apply octets_dec; reflexivity|]. split; [|split; [reflexivity|vm_compute; repeat split; discriminate]].
      apply Forall_cons; [apply (send_literal Strict _ Incremental); [apply O1; reflexivity|apply O1; reflexivity|right; split; discriminate]|].
      apply Forall_nil.
    + split; [eapply request_okb; [vm_compute; reflexivity|vm_compute; reflexivity]|]. split; [reflexivity|]. split; [reflexivity|].
      split; [apply octets_dec; reflexivity|]. split; [|split; [reflexivity|vm_compute; repeat split; discriminate]].
      apply Forall_cons; [apply (send_literal Strict _ Without); [apply O1; reflexivity|apply O1; reflexivity|right; split; discriminate]|].
      apply Forall_nil.
  - cbn [firstn understood]. split; [|exact I]. constructor; [|constructor]. intros h0 _ _ j [J _]. exact J.
  - intros (_ & U & _). apply Forall_inv in U. specialize (U ([99], [100]) eq_refl).
    assert (X : nth_error (A := field) [([99], [100]); ([97], [98])] 1 = Some ([99], [100])); [|discriminate X].
    apply U.
    + intros [ST _]. assert (Z : existsb (header_eqb ([99], [100])) (map snd static_table_entries) = true).
      { apply existsb_exists. exists ([99], [100]). split; [exact ST|reflexivity]. }
      vm_compute in Z. discriminate Z.
    + split; [reflexivity|]. intros [|j] J; [discriminate|lia].
  - eexists _, _. split; [vm_compute; reflexivity|]. split; vm_compute; reflexivity.
Qed.

Print Assumptions C71_history_partial.
Print Assumptions C71_misread_refuted.
