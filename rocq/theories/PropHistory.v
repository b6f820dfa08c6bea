(* Properties C51, C52 and C58: the header tables of client and server over a
   connection. *)
From Coq Require Import String.
From Coq Require Import ZArith NArith List Bool Lia ZifyBool ZifyNat ZifyN.
From Verif Require Import Base Arith Util IntRep StaticTable HeaderType DynTable HeaderEnc HeaderDec FrameHeader Frames
  FrameBuilder Ssl Client SpecBits SpecInt SpecHpack SpecFrame IntRepProofs DynTableProofs StaticProofs HeaderProofs
  HeaderProofs2 FrameProofs BlockProofs PropHeader PropFrame PropBlock PropSsl PropClient HistoryProofs.
Import ListNotations.
Local Open Scope string_scope.
Local Open Scope list_scope.
Local Open Scope N_scope.
Ltac Zify.zify_post_hook ::= Z.div_mod_to_equations.

(* ---------------------------------------------------------------- C51 *)

(* A frame sent by a server whose encoder has table t: the fields it carries and
   the encoder's table afterwards.  [block] says which header blocks the encoder
   emits, [settings] which parameters it announces. *)
Inductive server_frame (block : table -> list N -> list field -> table -> Prop) (settings : list (N * N) -> Prop)
  : table -> wframe -> list field -> table -> Prop :=
| server_headers : forall t flags sid e dep w fragment padding fs t',
    block t fragment fs t' -> size padding < 256 -> e < 2 -> dep < 2 ^ 31 ->
    server_frame block settings t
      (WFrame HEADERS flags 0 sid (headers_octets flags e dep w fragment padding)) fs t'
| server_push_promise : forall t flags sid r promised fragment padding fs t',
    block t fragment fs t' -> size padding < 256 -> r < 2 -> promised < 2 ^ 31 ->
    server_frame block settings t
      (WFrame PUSH_PROMISE flags 0 sid (push_promise_octets flags r promised fragment padding)) fs t'
| server_continuation : forall t flags sid fragment fs t',
    block t fragment fs t' ->
    server_frame block settings t (WFrame CONTINUATION flags 0 sid fragment) fs t'
| server_settings : forall t flags sid params,
    Forall param_ok params -> settings params ->
    server_frame block settings t (WFrame SETTINGS flags 0 sid (settings_octets params)) [] t
| server_other : forall t w,
    ~ In (w_type w) [HEADERS; PUSH_PROMISE; CONTINUATION; SETTINGS] ->
    server_frame block settings t w [] t.

Inductive server_history (block : table -> list N -> list field -> table -> Prop) (settings : list (N * N) -> Prop)
  : table -> list wframe -> list (list field) -> table -> Prop :=
| history_nil : forall t, server_history block settings t [] [] t
| history_cons : forall t w fs t1 ws fss t2,
    server_frame block settings t w fs t1 -> server_history block settings t1 ws fss t2 ->
    server_history block settings t (w :: ws) (fs :: fss) t2.

(* Every RFC 7541 encoder. *)
Definition rfc_server (limit : N) := server_frame (rfc_block limit) (fun _ => True).

(* Encoders that avoid the deviations recorded under C11, C15, C26 and C28, and
   do not announce SETTINGS_HEADER_TABLE_SIZE. *)
Definition decodable_block (m : ub_mode) (limit : N) (t : table) (raw : list N) (fs : list field) (t' : table) : Prop :=
  exists rs b, rfc_run m limit t raw rs b fs t' /\ no_late_reference false rs /\ inserts_fit (t_max t) b.
Definition no_table_size (params : list (N * N)) : Prop := forall p, In p params -> fst p <> 1.

(* The header fields the returned frame object holds. *)
Definition frame_fields (f : frame) : list field :=
  match f with
  | HeadersFrame _ _ _ _ b => fields_of b
  | PushPromiseFrame _ _ p => fields_of (pp_block p)
  | ContinuationFrame _ _ b => fields_of b
  | _ => []
  end.

Definition reports (fs : list field) (r : res frame) : Prop :=
  match r with
  | Ok f => frame_fields f = fs
  | Throw _ => fs = []
  | _ => False
  end.

Lemma first_value_none : forall params, no_table_size params -> first_value params 1 = None.
Proof.
  induction params as [|[k v] ps IH]; intros H; [reflexivity|]. cbn [first_value].
  destruct (N.eqb_spec k 1) as [E|_]; [exfalso; apply (H (k, v)); [left; reflexivity|exact E]|].
  apply IH. intros p I. apply H. right. exact I.
Qed.

Lemma handled_server : forall m limit t w fs t' T, server_frame (decodable_block m limit) no_table_size t w fs t' ->
  wframe_ok w -> dt_ok T -> rfc_table T = t ->
  dt_ok (snd (handled m T w)) /\ rfc_table (snd (handled m T w)) = t' /\ reports fs (fst (handled m T w)).
Proof.
  intros m limit t w fs t' T S W K E. destruct S as [t flags sid e dep w fragment padding fs t' B P Le Ld
    |t flags sid r promised fragment padding fs t' B P Lr Lp|t flags sid fragment fs t' B|t flags sid params PO NS|t w NI];
    subst t; unfold handled.
  - destruct B as (rs & b & R & NL & IF).
    destruct (C28_block_decoding_partial m limit T fragment rs b fs t' R NL) as (D & F & _).
    unfold header_of. cbn [w_type w_flags w_reserved w_stream w_payload].
    unfold build_frame. cbn [fh_type]. change (HEADERS =? T_DATA) with false. change (HEADERS =? T_HEADERS) with true. cbv iota.
    unfold build_headers_frame, parse_headers.
    rewrite (headers_parse_wire m T flags _ 0 sid e dep w fragment padding b) by assumption. cbn [bind].
    unfold update_frame. cbn [frame_fh fh_type]. change (HEADERS =? T_HEADERS) with true. cbv iota.
    destruct (update_block_spec b T K IF) as (T' & U & K' & R'). rewrite U. cbn [fst snd bind reports frame_fields].
    rewrite (run_table_after _ _ _ _ _ _ _ _ R) in R'. auto.
  - destruct B as (rs & b & R & NL & IF).
    destruct (C28_block_decoding_partial m limit T fragment rs b fs t' R NL) as (D & F & _).
    unfold header_of. cbn [w_type w_flags w_reserved w_stream w_payload].
    change (build_frame m (FH ?len PUSH_PROMISE flags 0 sid) ?raw T) with (parse_push_promise m (FH len PUSH_PROMISE flags 0 sid) raw T).
    unfold parse_push_promise.
    rewrite (push_parse_wire m T flags _ 0 sid r promised fragment padding b) by assumption. cbn [bind].
    unfold update_frame. cbn [frame_fh fh_type pp_block]. change (PUSH_PROMISE =? T_HEADERS) with false.
    change (PUSH_PROMISE =? T_PUSH_PROMISE) with true. cbv iota.
    destruct (update_block_spec b T K IF) as (T' & U & K' & R'). rewrite U. cbn [fst snd bind reports frame_fields pp_block].
    rewrite (run_table_after _ _ _ _ _ _ _ _ R) in R'. auto.
  - destruct B as (rs & b & R & NL & IF).
    destruct (C28_block_decoding_partial m limit T fragment rs b fs t' R NL) as (D & F & _).
    unfold header_of. cbn [w_type w_flags w_reserved w_stream w_payload].
    change (build_frame m (FH ?len CONTINUATION flags 0 sid) ?raw T) with (parse_continuation m (FH len CONTINUATION flags 0 sid) raw T).
    unfold parse_continuation. rewrite D. cbn [bind].
    unfold update_frame. cbn [frame_fh fh_type]. change (CONTINUATION =? T_HEADERS) with false.
    change (CONTINUATION =? T_PUSH_PROMISE) with false. change (CONTINUATION =? T_CONTINUATION) with true. cbv iota.
    destruct (update_block_spec b T K IF) as (T' & U & K' & R'). rewrite U. cbn [fst snd bind reports frame_fields].
    rewrite (run_table_after _ _ _ _ _ _ _ _ R) in R'. auto.
  - unfold header_of. cbn [w_type w_flags w_reserved w_stream w_payload].
    change (build_frame m (FH ?len SETTINGS flags 0 sid) ?raw T) with (build_settings_frame (FH len SETTINGS flags 0 sid) raw).
    unfold build_settings_frame. rewrite (settings_loop_spec params) by (try exact PO; apply Nat.le_refl).
    cbn [bind]. unfold mk_settings, update_frame. cbn [frame_fh fh_type].
    change (T_SETTINGS =? T_HEADERS) with false. change (T_SETTINGS =? T_PUSH_PROMISE) with false.
    change (T_SETTINGS =? T_CONTINUATION) with false. change (T_SETTINGS =? T_SETTINGS) with true. cbv iota.
    rewrite sm_find_fold by constructor. cbn [sm_find]. rewrite (first_value_none params NS).
    cbn [fst snd bind reports frame_fields]. auto.
  - destruct W as (_ & _ & _ & _ & O & _). apply octets_wf in O.
    assert (Q : (exists x, build_frame m (header_of w) (w_payload w) T = Throw x) \/
                (exists f, build_frame m (header_of w) (w_payload w) T = Ok f)).
    { destruct (N.lt_ge_cases 9 (w_type w)) as [G|G].
      - left. exists OutOfRange. apply C46_unknown_type. exact G.
      - pose proof (C47_fixed_size_safe m (header_of w) (w_payload w) T O) as S.
        change (fh_type (header_of w)) with (w_type w) in S.
        assert (I : In (w_type w) [PRIORITY; RST_STREAM; GOAWAY; WINDOW_UPDATE; PING; DATA]).
        { unfold HEADERS, PUSH_PROMISE, CONTINUATION, SETTINGS in NI. cbn [In] in *.
          unfold PRIORITY, RST_STREAM, GOAWAY, WINDOW_UPDATE, PING, DATA. lia. }
        specialize (S I). destruct (too_short (w_type w) (w_payload w)); [left; eauto|right; exact S]. }
    destruct Q as [[x Q]|[f Q]]; rewrite Q; cbn [fst snd].
    + cbn. auto.
    + destruct (C46_dispatch m _ _ _ _ Q) as (_ & C & TY & _).
      change (fh_type (header_of w)) with (w_type w) in TY, C.
      unfold update_frame. rewrite TY.
      assert (NE : forall k, In k [HEADERS; PUSH_PROMISE; CONTINUATION; SETTINGS] -> (w_type w =? k) = false)
        by (intros k I; apply N.eqb_neq; intros Z; apply NI; rewrite Z; exact I).
      rewrite (NE T_HEADERS), (NE T_PUSH_PROMISE), (NE T_CONTINUATION), (NE T_SETTINGS) by (cbn; auto).
      cbn [fst snd bind reports]. split; [exact K|]. split; [reflexivity|].
      destruct C as [C|(X & _)]; [|destruct NI; rewrite X; left; reflexivity].
      destruct f; try reflexivity; cbn in C; injection C as C; destruct NI; rewrite <- C; cbn; auto.
Qed.

Theorem C51_response_table_partial : forall m limit ws fss t t' c rest,
  server_history (decodable_block m limit) no_table_size t ws fss t' -> Forall wframe_ok ws ->
  dt_ok (c_resp c) -> Table (dt_max (c_resp c)) (dt_entries (c_resp c)) = t ->
  tls_in (c_tls c) = concat (map wire ws) ++ rest -> delivers (size (concat (map wire ws))) (c_tls c) ->
  exists rs c', receive_n m (length ws) c = (rs, c') /\ tls_in (c_tls c') = rest /\
    Table (dt_max (c_resp c')) (dt_entries (c_resp c')) = t' /\ Forall2 reports fss rs.
Proof.
  intros m limit ws fss t t' c rest H. revert c. induction H as [t|t w fs t1 ws fss t2 S H IH]; intros c F K T E D.
  - exists [], c. cbn in *. auto.
  - cbn [map concat length receive_n] in *. pose proof (Forall_inv F) as W.
    rewrite <- app_assoc in E. rewrite size_app in D.
    destruct (receive_complete m c w _ _ W E D) as (s1 & I1 & O1 & D1 & R1). rewrite R1.
    destruct (handled_server m limit t w fs t1 (c_resp c) S W K T) as (K1 & T1 & P1).
    destruct (IH (Client s1 (c_req c) (snd (handled m (c_resp c) w))) (Forall_inv_tail F) K1 T1 I1 D1)
      as (rs & c' & R & I & T' & P).
    rewrite R. eexists _, c'. split; [reflexivity|]. split; [exact I|]. split; [exact T'|]. constructor; assumption.
Qed.

(* From the start of a connection. *)
Theorem C51_new_connection_partial : forall m limit ws fss t' s rest,
  server_history (decodable_block m limit) no_table_size (Table 4096 []) ws fss t' -> Forall wframe_ok ws ->
  tls_in s = concat (map wire ws) ++ rest -> delivers (size (concat (map wire ws))) s ->
  exists rs c', receive_n m (length ws) (new_client s) = (rs, c') /\
    Table (dt_max (c_resp c')) (dt_entries (c_resp c')) = t' /\ Forall2 reports fss rs.
Proof.
  intros m limit ws fss t' s rest H F E D.
  destruct (C51_response_table_partial m limit ws fss _ t' (new_client s) rest H F (new_table_ok 4096) eq_refl E D)
    as (rs & c' & R & _ & T & P). eauto.
Qed.

(* ---- counterexamples to the unrestricted claim ---- *)

Lemma short_int : forall n b, b < 256 -> b mod 2 ^ n < 2 ^ n - 1 -> rfc_int n [b] (b mod 2 ^ n).
Proof. intros. apply rfc_int_short; assumption. Qed.

Lemma short_string : forall s, is_octets s -> size s < 127 -> rfc_string (size s :: s) s.
Proof.
  intros s O L. change (size s :: s) with ([size s] ++ s). apply string_plain.
  - replace (N.of_nat (length s)) with (size s mod 2 ^ 7) by (unfold size in *; apply N.mod_small; change (2 ^ 7) with 128; lia).
    apply rfc_int_short; [lia|]. change (2 ^ 7) with 128. rewrite N.mod_small; lia.
  - do 2 eexists. split; [reflexivity|]. lia.
  - exact O.
Qed.

Lemma octets_dec : forall l : list N, forallb (fun b => b <? 256) l = true -> is_octets l.
Proof. intros l H b I. apply N.ltb_lt. exact (proj1 (forallb_forall _ l) H b I). Qed.

Lemma repr_new : forall n v, is_octets n -> is_octets v -> size n < 127 -> size v < 127 ->
  rfc_repr ([0x40] ++ (size n :: n) ++ (size v :: v)) (RLiteral Incremental (NameLiteral n) v).
Proof.
  intros n v On Ov Ln Lv. apply repr_literal_new_name.
  - exact (short_int 6 0x40 eq_refl eq_refl).
  - do 2 eexists. split; [reflexivity|]. lia.
  - apply short_string; assumption.
  - apply short_string; assumption.
Qed.

Lemma repr_named : forall i v, 0 < i -> i < 63 -> is_octets v -> size v < 127 ->
  rfc_repr ([0x40 + i] ++ (size v :: v)) (RLiteral Incremental (NameIndex i) v).
Proof.
  intros i v L U Ov Lv.
  assert (M : (0x40 + i) mod 2 ^ 6 = i) by (change (2 ^ 6) with 64; lia).
  apply repr_literal_indexed_name.
  - rewrite <- M at 2. apply short_int; [lia|]. rewrite M. exact U.
  - do 2 eexists. split; [reflexivity|]. lia.
  - lia.
  - apply short_string; assumption.
Qed.

Lemma frame_delivers : forall n inp, n <= 100 -> delivers n (Tls inp [] (repeat (Chunk 5) 100)).
Proof.
  intros n inp H. exists (repeat (Chunk 5) 100), []. split; [reflexivity|]. split; [|exact H].
  apply Forall_forall. intros e I. apply repeat_spec in I. subst. discriminate.
Qed.

Lemma wframe_check : forall w, (w_type w <? 256) && (w_flags w <? 256) && (w_reserved w <? 2) && (w_stream w <? 2 ^ 31) &&
  forallb (fun b => b <? 256) (w_payload w) && (size (w_payload w) <? 2 ^ 24) = true -> wframe_ok w.
Proof.
  intros w H. repeat (apply andb_true_iff in H; destruct H as [H ?]).
  repeat match goal with X : (_ <? _) = true |- _ => apply N.ltb_lt in X end.
  unfold wframe_ok. repeat (split; [assumption|]). split; [apply octets_dec; assumption|assumption].
Qed.

(* What is claimed of one frame. *)
Definition C51_step (m : ub_mode) (limit : N) (t : table) (w : wframe) (fs : list field) (t' : table) : Prop :=
  rfc_server limit t w fs t' -> wframe_ok w ->
  forall c rest, dt_ok (c_resp c) -> Table (dt_max (c_resp c)) (dt_entries (c_resp c)) = t ->
  tls_in (c_tls c) = wire w ++ rest -> delivers (size (wire w)) (c_tls c) ->
  exists r c', receive_frame m c = (r, c') /\ reports fs r /\
    Table (dt_max (c_resp c')) (dt_entries (c_resp c')) = t'.

Definition client_of (T : dyn_table) (w : wframe) : client :=
  Client (Tls (wire w) [] (repeat (Chunk 5) 100)) default_table T.

Lemma refute_step : forall m limit T w fs t', rfc_server limit (rfc_table T) w fs t' -> wframe_ok w ->
  dt_ok T -> size (wire w) <= 100 ->
  (~ reports fs (fst (handled m T w)) \/ rfc_table (snd (handled m T w)) <> t') ->
  ~ C51_step m limit (rfc_table T) w fs t'.
Proof.
  intros m limit T w fs t' S W K L X C.
  destruct (C S W (client_of T w) [] K eq_refl) as (r & c' & R & RP & TE).
  { cbn. rewrite app_nil_r. reflexivity. }
  { apply frame_delivers. exact L. }
  destruct (receive_complete m (client_of T w) w [] 0 W) as (s' & _ & _ & _ & Q).
  { cbn. rewrite app_nil_r. reflexivity. }
  { rewrite N.add_0_r. apply frame_delivers. exact L. }
  rewrite Q in R. apply pair_equal_spec in R. destruct R as [<- <-]. cbn [c_resp client_of] in *. tauto.
Qed.

(* SETTINGS_HEADER_TABLE_SIZE from the server limits the request direction, but
   is applied to the response table. *)
Theorem C51_settings_refuted : forall m,
  ~ C51_step m 4096 (Table 4096 []) (WFrame SETTINGS 0 0 0 (settings_octets [(1, 100)])) [] (Table 4096 []).
Proof.
  intros m. apply (refute_step m 4096 default_table).
  - apply server_settings; [|exact I]. constructor; [|constructor]. split; reflexivity.
  - apply wframe_check. reflexivity.
  - apply new_table_ok.
  - discriminate.
  - right. vm_compute. discriminate.
Qed.

(* A field larger than the table empties it (RFC 7541 4.4); the client has
   undefined behaviour instead.  For every client table and every such field. *)
Theorem C51_oversized_refuted : forall m limit T n v, dt_ok T -> is_octets n -> is_octets v ->
  size n < 20 -> size v < 20 -> n <> [] -> v <> [] -> dt_max T < field_size (n, v) ->
  exists w, rfc_server limit (rfc_table T) w [(n, v)] (Table (dt_max T) []) /\ wframe_ok w /\
    fst (handled m T w) = UB EmptyBack /\
    ~ C51_step m limit (rfc_table T) w [(n, v)] (Table (dt_max T) []).
Proof.
  intros m limit T n v K On Ov Ln Lv Nn Nv B.
  set (raw := [0x40] ++ (size n :: n) ++ (size v :: v)).
  assert (R : rfc_repr raw (RLiteral Incremental (NameLiteral n) v)) by (apply repr_new; try assumption; lia).
  assert (KE : insert (rfc_table T) (n, v) = Table (dt_max T) []).
  { unfold insert. cbn [rfc_table t_max t_entries keep]. destruct (N.leb_spec (field_size (n, v)) (dt_max T)); [lia|reflexivity]. }
  pose (w := WFrame HEADERS 4 0 1 raw). exists w.
  assert (S : rfc_server limit (rfc_table T) w [(n, v)] (Table (dt_max T) [])).
  { change w with (WFrame HEADERS 4 0 1 (headers_octets 4 0 0 0 raw [])).
    apply server_headers; try reflexivity. rewrite <- (app_nil_r raw).
    change [(n, v)] with (opt_cons (Some (n, v)) (@nil field)).
    eapply rfc_block_cons; [exact R|reflexivity|rewrite KE; constructor]. }
  assert (SR : size raw = 3 + size n + size v).
  { unfold raw. rewrite !size_app, !size_cons, size_nil. lia. }
  assert (W : wframe_ok w).
  { unfold w. split; [reflexivity|]. split; [reflexivity|]. split; [reflexivity|]. split; [reflexivity|]. cbn [w_payload]. split.
    - intros b I. unfold raw in I. cbn [app In] in I. destruct I as [<-|[<-|I]]; [reflexivity|lia|].
      apply in_app_or in I. destruct I as [I|[<-|I]]; [apply On; exact I|lia|apply Ov; exact I].
    - rewrite SR. change (2 ^ 24) with 16777216. lia. }
  assert (H : fst (handled m T w) = UB EmptyBack).
  { assert (SM : small_repr raw (RLiteral Incremental (NameLiteral n) v)).
    { assert (SS : forall s, is_octets s -> size s < 20 -> small_string (size s :: s) s).
      { intros s Os Ls. change (size s :: s) with ([size s] ++ s). apply string_plain.
        - split; [split|].
          + replace (N.of_nat (length s)) with (size s mod 2 ^ 7) by (unfold size in *; apply N.mod_small; change (2 ^ 7) with 128; lia).
            apply rfc_int_short; [lia|]. change (2 ^ 7) with 128. rewrite N.mod_small; lia.
          + intros l' H. destruct H; cbn; lia.
          + unfold size in *. change (2 ^ 31) with 2147483648. lia.
        - do 2 eexists. split; [reflexivity|]. lia.
        - exact Os. }
      apply repr_literal_new_name.
      - split; [|reflexivity]. split; [exact (short_int 6 0x40 eq_refl eq_refl)|]. intros l' H. destruct H; cbn; lia.
      - do 2 eexists. split; [reflexivity|]. lia.
      - apply SS; assumption.
      - apply SS; assumption. }
    assert (D : decode_block m raw T = Ok [HEntry IncrementalIndexing (EHeader (n, v))]).
    { rewrite <- (app_nil_r raw). rewrite (decode_block_cons m raw [] T (HEntry IncrementalIndexing (EHeader (n, v)))).
      - rewrite decode_block_nil. reflexivity.
      - rewrite app_nil_r. apply octets_wf. apply W.
      - discriminate.
      - apply (C26_decoding_agrees_partial m raw _ [] T 4096 (Some (n, v)) (insert (rfc_table T) (n, v)) SM).
        + intros b [].
        + reflexivity.
        + split; [discriminate|]. split; right; assumption. }
    unfold handled, w, header_of. cbn [w_type w_flags w_reserved w_stream w_payload].
    unfold build_frame. cbn [fh_type]. change (HEADERS =? T_DATA) with false. change (HEADERS =? T_HEADERS) with true. cbv iota.
    unfold build_headers_frame, parse_headers.
    change raw with (headers_octets 4 0 0 0 raw []).
    rewrite (headers_parse_wire m T 4 _ 0 1 0 0 0 raw [] [HEntry IncrementalIndexing (EHeader (n, v))]) by (try reflexivity; exact D).
    cbn [bind]. unfold update_frame. cbn [frame_fh fh_type]. change (HEADERS =? T_HEADERS) with true. cbv iota.
    cbn [update_block update_entry e_prefix get_header e_content bind].
    rewrite (dt_push_spec T (n, v) K). rewrite entry_size_eq.
    destruct (N.leb_spec (field_size (n, v)) (dt_max T)); [lia|]. reflexivity. }
  split; [exact S|]. split; [exact W|]. split; [exact H|].
  apply (refute_step m limit T w _ _ S W K).
  - rewrite (wire_size w W). cbn [w w_payload]. rewrite SR. lia.
  - left. rewrite H. intros [].
Qed.

(* A name taken from static entry 20 (access-control-allow-origin): the client
   stores another name. *)
Theorem C51_index_20_refuted : forall m,
  ~ C51_step m 4096 (Table 4096 []) (WFrame HEADERS 4 0 1 [0x54; 1; 42])
      [(octets "access-control-allow-origin", octets "*")]
      (Table 4096 [(octets "access-control-allow-origin", octets "*")]).
Proof.
  intros m. apply (refute_step m 4096 default_table).
  - change (WFrame HEADERS 4 0 1 [0x54; 1; 42]) with (WFrame HEADERS 4 0 1 (headers_octets 4 0 0 0 ([0x54; 1; 42] ++ []) [])).
    apply server_headers; try reflexivity.
    change [(octets "access-control-allow-origin", octets "*")]
      with (opt_cons (Some (octets "access-control-allow-origin", octets "*")) (@nil field)) at 1.
    eapply rfc_block_cons; [apply (repr_named 20 [42]); try reflexivity; apply octets_dec; reflexivity|vm_compute; reflexivity|constructor].
  - apply wframe_check. reflexivity.
  - apply new_table_ok.
  - discriminate.
  - right. destruct m; vm_compute; discriminate.
Qed.

(* A name taken from an entry inserted earlier in the same block. *)
Theorem C51_late_reference_refuted : forall m,
  let old := (octets "x", octets "y") in
  ~ C51_step m 4096 (Table 4096 [old]) (WFrame HEADERS 4 0 1 [0x40; 1; 97; 1; 98; 0x7e; 1; 99])
      [(octets "a", octets "b"); (octets "a", octets "c")]
      (Table 4096 [(octets "a", octets "c"); (octets "a", octets "b"); old]).
Proof.
  intros m old. apply (refute_step m 4096 (DynTable [old] 34 4096)).
  - change (WFrame HEADERS 4 0 1 [0x40; 1; 97; 1; 98; 0x7e; 1; 99])
      with (WFrame HEADERS 4 0 1 (headers_octets 4 0 0 0 ([0x40; 1; 97; 1; 98] ++ [0x7e; 1; 99] ++ []) [])).
    apply server_headers; try reflexivity.
    change [(octets "a", octets "b"); (octets "a", octets "c")]
      with (opt_cons (Some (octets "a", octets "b")) (opt_cons (Some (octets "a", octets "c")) (@nil field))).
    eapply rfc_block_cons; [apply (repr_new [97] [98]); try reflexivity; apply octets_dec; reflexivity|vm_compute; reflexivity|].
    eapply rfc_block_cons; [apply (repr_named 62 [99]); try reflexivity; apply octets_dec; reflexivity|vm_compute; reflexivity|].
    constructor.
  - apply wframe_check. reflexivity.
  - split; [reflexivity|discriminate].
  - discriminate.
  - right. destruct m; vm_compute; discriminate.
Qed.

(* The hypotheses are met by a server that sends "a: b" with indexing and then
   refers to the new entry, over a connection that delivers five octets at a
   time. *)
Lemma run_a_b : forall m T, dt_max T = 4096 ->
  rfc_run m 4096 (rfc_table T) [0x40; 1; 97; 1; 98] [RLiteral Incremental (NameLiteral [97]) [98]]
    [HEntry IncrementalIndexing (EHeader ([97], [98]))] [([97], [98])] (insert (rfc_table T) ([97], [98])).
Proof.
  intros m T M. assert (SS : forall b, b < 256 -> small_string [1; b] [b]).
  { intros b B. change [1; b] with ([1] ++ [b]). apply string_plain.
    - split; [|reflexivity]. split; [exact (short_int 7 1 eq_refl eq_refl)|]. intros l' H. destruct H; cbn; lia.
    - do 2 eexists. split; [reflexivity|]. lia.
    - intros x [<-|[]]. exact B. }
  change [0x40; 1; 97; 1; 98] with (([0x40] ++ [1; 97] ++ [1; 98]) ++ []).
  change [([97], [98])] with (opt_cons (Some ([97], [98])) (@nil field)).
  change [HEntry IncrementalIndexing (EHeader ([97], [98]))]
    with [reported (RLiteral Incremental (NameLiteral [97]) [98]) (Some ([97], [98]))].
  eapply rfc_run_cons; [apply repr_literal_new_name|reflexivity| |constructor].
  - split; [|reflexivity]. split; [exact (short_int 6 0x40 eq_refl eq_refl)|]. intros l' H. destruct H; cbn; lia.
  - do 2 eexists. split; [reflexivity|]. lia.
  - apply SS. reflexivity.
  - apply SS. reflexivity.
  - split; [discriminate|]. split; right; discriminate.
Qed.

Lemma run_be : forall m t h, nth_error (t_entries t) 0 = Some h ->
  rfc_run m 4096 t [0xbe] [RIndexed 62] [HEntry Indexed (EHeader h)] [h] t.
Proof.
  intros m t h E. change [0xbe] with ([0xbe] ++ []). change [h] with (opt_cons (Some h) (@nil field)).
  change [HEntry Indexed (EHeader h)] with [reported (RIndexed 62) (Some h)].
  eapply rfc_run_cons; [apply repr_indexed| | |constructor].
  - split; [|reflexivity]. split; [exact (short_int 7 0xbe eq_refl eq_refl)|]. intros l' H. destruct H; cbn; lia.
  - do 2 eexists. split; [reflexivity|]. lia.
  - destruct t as [mx [|h' es]]; [discriminate E|]. injection E as ->. reflexivity.
  - split; [discriminate|exact I].
Qed.

Definition two_frames : list wframe :=
  [WFrame HEADERS 4 0 1 [0x40; 1; 97; 1; 98]; WFrame HEADERS 4 0 3 [0xbe]].

Example C51_case : forall m,
  server_history (decodable_block m 4096) no_table_size (Table 4096 []) two_frames
    [[([97], [98])]; [([97], [98])]] (Table 4096 [([97], [98])]) /\
  Forall wframe_ok two_frames /\ delivers (size (concat (map wire two_frames))) (Tls (concat (map wire two_frames)) [] (repeat (Chunk 5) 100)).
Proof.
  intros m. split; [|split].
  - eapply history_cons; [|eapply history_cons; [|constructor]].
    + change (WFrame HEADERS 4 0 1 [0x40; 1; 97; 1; 98]) with (WFrame HEADERS 4 0 1 (headers_octets 4 0 0 0 [0x40; 1; 97; 1; 98] [])).
      apply server_headers; try reflexivity. do 2 eexists. split; [exact (run_a_b m default_table eq_refl)|].
      split; [repeat split; discriminate|]. split; [discriminate|exact I].
    + change (WFrame HEADERS 4 0 3 [0xbe]) with (WFrame HEADERS 4 0 3 (headers_octets 4 0 0 0 [0xbe] [])).
      apply server_headers; try reflexivity. do 2 eexists. split; [apply (run_be m (Table 4096 [([97], [98])]) ([97], [98]) eq_refl)|].
      split; [repeat split; discriminate|]. exact I.
  - repeat constructor; apply wframe_check; reflexivity.
  - apply frame_delivers. discriminate.
Qed.

Print Assumptions C51_response_table_partial.
Print Assumptions C51_new_connection_partial.
Print Assumptions C51_settings_refuted.
Print Assumptions C51_oversized_refuted.
Print Assumptions C51_index_20_refuted.
Print Assumptions C51_late_reference_refuted.
