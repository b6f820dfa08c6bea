(* Property C88: which frames are accepted, against RFC 7540, section 6. *)
From Coq Require Import String.
From Coq Require Import ZArith NArith List Bool Lia ZifyBool ZifyNat ZifyN.
From Coq Require ListDec.
From Verif Require Import Base Arith Util HeaderType DynTable HeaderEnc HeaderDec FrameHeader Frames FrameBuilder
  SpecBits SpecHpack SpecFrame SpecValid UtilProofs DynTableProofs HeaderProofs HeaderProofs2 PropHeader FrameProofs BlockProofs
  PropFrame PropBlock.
Import ListNotations.
Local Open Scope string_scope.
Local Open Scope list_scope.
Local Open Scope N_scope.
Ltac Zify.zify_post_hook ::= Z.div_mod_to_equations.

(* What a frame object reports, next to the fields it should. *)
Definition shows (m : ub_mode) (t : dyn_table) (f : frame) (c : content) : Prop :=
  match f, c with
  | DataFrame _ p, CData data _ => p = data
  | HeadersFrame _ _ pad pr b, CHeaders prio fragment padding =>
      pad = padding /\ decode_block m fragment t = Ok b /\
      forall e d w, prio = Some (e, d, w) -> pr = Prio e d w
  | PriorityFrame _ p, CPriority e d w => p = Prio e d w
  | RstStreamFrame _ code, CReset code' => code = code'
  | SettingsFrame _ map, CSettings params => forall id, sm_find map id = last_value params id
  | PushPromiseFrame _ _ p, CPush promised fragment padding =>
      pp_promised p = promised /\ pp_padding p = padding /\ decode_block m fragment t = Ok (pp_block p)
  | PingFrame _ o, CPing data => o = data
  | GoawayFrame _ p, CGoaway last code debug => g_last_stream_id p = last /\ g_error_code p = code /\ g_debug p = debug
  | WindowUpdateFrame _ _ inc, CWindow inc' => inc = inc'
  | ContinuationFrame _ _ b, CContinuation fragment => decode_block m fragment t = Ok b
  | _, _ => False
  end.

(* The payloads that are accepted although they do not have the format, or
   whose fields are reported wrongly. *)
Inductive misread (flags : N) : N -> list N -> Prop :=
| misread_data : forall raw, has_padded flags = true -> misread flags DATA raw
| misread_ping : forall raw, length raw <> 8%nat -> misread flags PING raw
| misread_priority : forall raw, (5 < length raw)%nat -> misread flags PRIORITY raw
| misread_reset : forall raw, (4 < length raw)%nat -> misread flags RST_STREAM raw
| misread_settings : forall params, Forall (fun p => fst p < 2 ^ 16 /\ snd p < 2 ^ 32) params ->
    ~ NoDup (map fst params) -> misread flags SETTINGS (settings_octets params).

(* ---- payloads and their contents ---- *)

Lemma word_of : forall raw, wf_bytes raw -> 4 <= size raw -> exists r s rest, r < 2 /\ s < 2 ^ 31 /\
  raw = be_octets 4 (r * 2 ^ 31 + s) ++ rest.
Proof.
  intros raw W L. destruct (split4 raw L) as (l & rest & -> & S). apply wf_bytes_app in W. destruct W as [W _].
  pose proof (be4_lt l W S) as B. exists (be_value l / 2 ^ 31), (be_value l mod 2 ^ 31), rest.
  split; [apply N.div_lt_upper_bound; [discriminate|exact B]|]. split; [apply mod31_lt|].
  f_equal. rewrite N.mul_comm, <- N.div_mod by discriminate.
  pose proof (be_octets_of l W) as E. replace (length l) with 4%nat in E by (unfold size in S; lia). symmetry. exact E.
Qed.

Lemma word32_of : forall raw, wf_bytes raw -> 4 <= size raw -> exists x rest, x < 2 ^ 32 /\ raw = be_octets 4 x ++ rest.
Proof.
  intros raw W L. destruct (word_of raw W L) as (r & s & rest & R & S & E). exists (r * 2 ^ 31 + s), rest.
  split; [apply join_lt; assumption|exact E].
Qed.

Lemma padding_of : forall flags raw, wf_bytes raw ->
  (has_padded flags = true -> ~ (raw = [] \/ exists p data, raw = p :: data /\ size data < p)) ->
  exists contents padding, padding_fits flags padding /\ raw = padded_payload (has_padded flags) contents padding /\ wf_bytes contents.
Proof.
  intros flags raw W NP. destruct (has_padded flags) eqn:P.
  - destruct (C44_padding_cases_partial raw (wf_octets _ W)) as [X|(c & pad & E & L)]; [exfalso; exact (NP eq_refl X)|].
    exists c, pad. split; [split; [unfold size in L; lia|congruence]|]. split; [exact E|].
    subst raw. cbn [padded_payload app] in W. apply Forall_inv_tail in W. apply wf_bytes_app in W. tauto.
  - exists raw, []. split; [split; [cbn; lia|reflexivity]|]. split; [reflexivity|exact W].
Qed.

Lemma headers_parse_any : forall m t flags len r sid e dep w fragment padding,
  size padding < 256 -> e < 2 -> dep < 2 ^ 31 ->
  headers_decode_payload m (FH len HEADERS flags r sid) (headers_octets flags e dep w fragment padding) t =
  let* b := decode_block m fragment t in
  Ok (if has_padded flags then padding else [], if has_priority flags then Prio e dep w else Prio 0 0 0, b).
Proof.
  intros m t flags len r sid e dep w fragment padding P E D.
  unfold headers_decode_payload, headers_octets. cbn [fh_flags]. rewrite padded_flag, priority_flag.
  destruct (has_padded flags).
  - rewrite padded_split by exact P. cbn [bind]. destruct (has_priority flags).
    + rewrite split_priority by assumption. reflexivity.
    + reflexivity.
  - cbn [padded_payload bind]. destruct (has_priority flags).
    + rewrite split_priority by assumption. reflexivity.
    + reflexivity.
Qed.

Lemma push_parse_any : forall m t flags len r' sid r promised fragment padding,
  size padding < 256 -> r < 2 -> promised < 2 ^ 31 ->
  push_promise_decode_payload m (FH len PUSH_PROMISE flags r' sid) (push_promise_octets flags r promised fragment padding) t =
  let* b := decode_block m fragment t in
  Ok (PushPromise r promised b (if has_padded flags then padding else [])).
Proof.
  intros m t flags len r' sid r promised fragment padding P R D.
  assert (G : forall pad,
    (let* b0 := vget (push_promise_contents r promised fragment) 0 in
     let* x := bytes2integral 4 (push_promise_contents r promised fragment) 0 in
     let* data' := verase_front (push_promise_contents r promised fragment) 4 in
     let* b := decode_block m data' t in
     Ok (PushPromise (extract_high_bit RESERVED_BITS 8 b0) (extract_low_bit STREAM_ID_BITS x) b pad)) =
    let* b := decode_block m fragment t in Ok (PushPromise r promised b pad)).
  { intros pad. unfold push_promise_contents. destruct (be4_first r promised R D) as (b0 & tl & Q & B0 & _).
    assert (G : vget (be_octets 4 (r * 2 ^ 31 + promised) ++ fragment) 0 = Ok b0).
    { unfold vget. rewrite size_app, be_octets_size. destruct (N.ltb_spec 0 (N.of_nat 4 + size fragment)); [|lia].
      rewrite Q. reflexivity. }
    rewrite G. cbn [bind]. rewrite be4_round by (apply join_lt; assumption). cbn [bind].
    rewrite verase_front_app by (rewrite be_octets_size; reflexivity). cbn [bind].
    unfold RESERVED_BITS, STREAM_ID_BITS. rewrite high1_8, B0, low31, join_low by exact D. reflexivity. }
  unfold push_promise_decode_payload, push_promise_octets. cbn [fh_flags]. rewrite padded_flag.
  destruct (has_padded flags); [rewrite padded_split by exact P|]; cbn [bind padded_payload]; apply G.
Qed.

Definition is_raw (f : frame) : Prop := match f with RawFrame _ _ => True | _ => False end.

(* The header block fragment decodes. *)
Definition block_decodes_in (m : ub_mode) (t : dyn_table) (c : content) : Prop :=
  match c with
  | CHeaders _ fragment _ | CPush _ fragment _ | CContinuation fragment => exists b, decode_block m fragment t = Ok b
  | _ => True
  end.

Lemma fits_size : forall flags padding, padding_fits flags padding -> size padding < 256 /\ (if has_padded flags then padding else []) = padding.
Proof.
  intros flags padding [L N]. split; [unfold size; lia|]. destruct (has_padded flags); [reflexivity|]. symmetry. exact (N eq_refl).
Qed.

Lemma priority_parse : forall len fl r sid e d w rest, e < 2 -> d < 2 ^ 31 ->
  parse_priority (FH len PRIORITY fl r sid) (priority_fields e d w ++ rest) = Ok (PriorityFrame (FH len PRIORITY fl r sid) (Prio e d w)).
Proof.
  intros len fl r sid e d w rest E D. unfold parse_priority, priority_construct_payload, priority_fields.
  destruct (be4_first e d E D) as (b0 & tl & Q & B0 & _).
  rewrite <- app_assoc.
  assert (SZ : size (be_octets 4 (e * 2 ^ 31 + d) ++ [w] ++ rest) = 5 + size rest).
  { rewrite !size_app, be_octets_size, size_cons, size_nil. lia. }
  destruct (N.ltb_spec (size (be_octets 4 (e * 2 ^ 31 + d) ++ [w] ++ rest)) 5) as [L|L]; [lia|].
  assert (G : vget (be_octets 4 (e * 2 ^ 31 + d) ++ [w] ++ rest) 0 = Ok b0).
  { unfold vget. rewrite SZ. destruct (N.ltb_spec 0 (5 + size rest)); [|lia]. rewrite Q. reflexivity. }
  assert (G4 : vget (be_octets 4 (e * 2 ^ 31 + d) ++ [w] ++ rest) 4 = Ok w).
  { unfold vget. rewrite SZ. destruct (N.ltb_spec 4 (5 + size rest)); [reflexivity|lia]. }
  rewrite G. cbn [bind]. rewrite be4_round by (apply join_lt; assumption). cbn [bind]. rewrite G4. cbn [bind].
  unfold validate_priority. cbn [p_exclusive p_dependency]. unfold STREAM_ID_BITS. rewrite high1_8, B0, low31, join_low by exact D.
  destruct (N.ltb_spec 1 e); [lia|]. unfold MAX_STREAM_ID. destruct (N.ltb_spec 0x7fffffff d) as [X|X]; [|reflexivity].
  change (2 ^ 31) with 2147483648 in D. lia.
Qed.

Lemma goaway_parse : forall len fl r' sid r last code debug, r < 2 -> last < 2 ^ 31 -> code < 2 ^ 32 ->
  parse_goaway (FH len GOAWAY fl r' sid) (goaway_octets r last code debug) =
  Ok (GoawayFrame (FH len GOAWAY fl r' sid) (Goaway r last code debug)).
Proof.
  intros len fl r' sid r last code debug R L C. unfold parse_goaway, goaway_construct_payload, goaway_octets.
  pose proof (join_lt r last R L) as J.
  set (a := be_octets 4 (r * 2 ^ 31 + last)). set (b := be_octets 4 code).
  assert (SA : size a = 4) by apply be_octets_size. assert (SB : size b = 4) by apply be_octets_size.
  rewrite !size_app, SA, SB. destruct (N.ltb_spec (4 + (4 + size debug)) 8); [lia|].
  assert (V : bytes2integral 4 (a ++ b ++ debug) 4 = Ok code).
  { rewrite <- SA at 2. rewrite bytes2integral_spec; [|apply be_octets_wf|exact SB]. unfold b. rewrite be_octets_value, mod32 by exact C. reflexivity. }
  rewrite V. unfold a at 1. rewrite be4_round by exact J. cbn [bind].
  unfold RESERVED_BITS, STREAM_ID_BITS. rewrite high1_32, low31, u8_bit, join_high, join_low by assumption.
  do 2 f_equal. destruct (N.ltb_spec 8 (4 + (4 + size debug))) as [X|X].
  - reflexivity.
  - f_equal. destruct debug; [reflexivity|rewrite size_cons in X; lia].
Qed.

Lemma window_parse : forall len fl r' sid r inc, r < 2 -> inc < 2 ^ 31 ->
  parse_window_update (FH len WINDOW_UPDATE fl r' sid) (window_update_octets r inc) =
  Ok (WindowUpdateFrame (FH len WINDOW_UPDATE fl r' sid) r inc).
Proof.
  intros len fl r' sid r inc R I. unfold parse_window_update, window_update_octets.
  destruct (be4_first r inc R I) as (b0 & tl & Q & B0 & _).
  pose proof (be_octets_size 4 (r * 2 ^ 31 + inc)) as S.
  pose proof (be4_round (r * 2 ^ 31 + inc) [] (join_lt r inc R I)) as V. rewrite app_nil_r in V.
  rewrite V, S. change (N.of_nat 4 =? 4) with true. cbn [negb bind].
  rewrite Q. cbn [bind]. unfold RESERVED_BITS. rewrite high1_8, B0, low31, join_low by exact I.
  unfold validate_window_size. destruct (N.ltb_spec 0x7fffffff inc) as [X|X]; [|reflexivity].
  change (2 ^ 31) with 2147483648 in I. lia.
Qed.

(* Every payload that has the format is accepted, whatever the restrictions;
   the fields are reported except for the two kinds of misread payloads that
   have the format. *)
Theorem C88_well_formed_accepted : forall m t h raw c, layout (fh_flags h) (fh_type h) raw c -> block_decodes_in m t c ->
  exists f, build_frame m h raw t = Ok f /\ ~ is_raw f /\ (~ misread (fh_flags h) (fh_type h) raw -> shows m t f c).
Proof.
  intros m t [len ty fl r sid] raw c L BD. cbn [fh_flags fh_type] in *.
  destruct L as [data padding PF|fr padding PF PR|e d w fr padding PF PR E D W|e d w E D W|code C|ps P
    |rr pr fr padding PF R P|data L8|rr last code debug R L C|rr inc R I|fr].
  - eexists. split; [reflexivity|]. split; [exact (fun x => x)|]. intros NM. cbn [shows mk_data].
    destruct (has_padded fl) eqn:HP; [|reflexivity]. exfalso. apply NM. constructor. exact HP.
  - destruct BD as [b B]. destruct (fits_size _ _ PF) as [SZ IFP].
    pose proof (headers_parse_any m t fl len r sid 0 0 0 fr padding SZ ltac:(lia) ltac:(reflexivity)) as H.
    unfold headers_octets in H. rewrite PR, IFP, B in H. cbn [app bind] in H.
    eexists. split.
    { change (build_frame m (FH len HEADERS fl r sid) ?x t) with (build_headers_frame m (FH len HEADERS fl r sid) x t).
      unfold build_headers_frame, parse_headers. rewrite H. reflexivity. }
    split; [exact (fun x => x)|]. intros _. split; [reflexivity|]. split; [exact B|discriminate].
  - destruct BD as [b B]. destruct (fits_size _ _ PF) as [SZ IFP].
    pose proof (headers_parse_any m t fl len r sid e d w fr padding SZ E D) as H.
    unfold headers_octets in H. rewrite PR, IFP, B in H. cbn [bind] in H.
    eexists. split.
    { change (build_frame m (FH len HEADERS fl r sid) ?x t) with (build_headers_frame m (FH len HEADERS fl r sid) x t).
      unfold build_headers_frame, parse_headers. rewrite H. reflexivity. }
    split; [exact (fun x => x)|]. intros _. split; [reflexivity|]. split; [exact B|]. intros e' d' w' Q. injection Q as <- <- <-. reflexivity.
  - eexists. split.
    { change (build_frame m (FH len PRIORITY fl r sid) ?x t) with (parse_priority (FH len PRIORITY fl r sid) x).
      rewrite <- (app_nil_r (priority_fields e d w)). apply priority_parse; assumption. }
    split; [exact (fun x => x)|]. intros _. reflexivity.
  - eexists. split.
    { change (build_frame m (FH len RST_STREAM fl r sid) ?x t) with (parse_rst_stream (FH len RST_STREAM fl r sid) x).
      unfold parse_rst_stream, rst_stream_octets. rewrite be_octets_size. change (N.of_nat 4 <? 4) with false. cbv iota.
      rewrite <- (app_nil_r (be_octets 4 code)). rewrite be4_round by exact C. reflexivity. }
    split; [exact (fun x => x)|]. intros _. reflexivity.
  - eexists. split.
    { change (build_frame m (FH len SETTINGS fl r sid) ?x t) with (build_settings_frame (FH len SETTINGS fl r sid) x).
      unfold build_settings_frame. rewrite (settings_loop_spec ps) by (try exact P; apply Nat.le_refl). reflexivity. }
    split; [exact (fun x => x)|]. intros NM. cbn [shows mk_settings]. intros id. rewrite sm_find_fold by constructor. cbn [sm_find].
    apply first_last. destruct (ListDec.NoDup_dec N.eq_dec (map fst ps)) as [ND|ND]; [exact ND|].
    exfalso. apply NM. constructor; assumption.
  - destruct BD as [b B]. destruct (fits_size _ _ PF) as [SZ IFP].
    pose proof (push_parse_any m t fl len r sid rr pr fr padding SZ R P) as H. unfold push_promise_octets in H. rewrite IFP, B in H. cbn [bind] in H.
    eexists. split.
    { change (build_frame m (FH len PUSH_PROMISE fl r sid) ?x t) with (parse_push_promise m (FH len PUSH_PROMISE fl r sid) x t).
      unfold parse_push_promise. rewrite H. reflexivity. }
    split; [exact (fun x => x)|]. intros _. split; [reflexivity|]. split; [reflexivity|exact B].
  - eexists. split; [reflexivity|]. split; [exact (fun x => x)|]. intros _. reflexivity.
  - eexists. split; [exact (goaway_parse len fl r sid rr last code debug R L C)|]. split; [exact (fun x => x)|]. intros _. split; [reflexivity|split; reflexivity].
  - eexists. split; [exact (window_parse len fl r sid rr inc R I)|]. split; [exact (fun x => x)|]. intros _. reflexivity.
  - destruct BD as [b B]. eexists. split.
    { change (build_frame m (FH len CONTINUATION fl r sid) ?x t) with (parse_continuation m (FH len CONTINUATION fl r sid) x t).
      unfold parse_continuation. rewrite B. reflexivity. }
    split; [exact (fun x => x)|]. intros _. exact B.
Qed.

Lemma split_priority_size : forall raw p, headers_split_priority raw = Ok p -> 5 <= size raw.
Proof.
  intros raw p H. unfold headers_split_priority in H. apply bind_ok in H. destruct H as (dep & V & H). apply bind_ok in H. destruct H as (b0 & _ & H).
  apply bind_ok in H. destruct H as (x & _ & H). apply bind_ok in H. destruct H as (raw' & E & H).
  destruct raw' as [|w data]; [discriminate H|]. unfold verase_front in E. destruct (N.leb_spec 4 (size raw)) as [L|L]; [|discriminate E].
  apply Ok_inj in E. apply (f_equal (@length N)) in E. rewrite skipn_length in E. cbn [length] in E. unfold size in *. lia.
Qed.

Lemma headers_layout : forall m t len fl r sid raw f, wf_bytes raw ->
  parse_headers m (FH len HEADERS fl r sid) raw t = Ok f ->
  exists c, layout fl HEADERS raw c /\ block_decodes_in m t c.
Proof.
  intros m t len fl r sid raw f W H. unfold parse_headers in H. apply bind_ok in H. destruct H as ([[pad prio] b] & H & _).
  destruct (padding_of fl raw W) as (ct & padding & PF & E & WC).
  { intros P X. unfold headers_decode_payload in H. cbn [fh_flags] in H. rewrite padded_flag, P in H.
    assert (S : exists u, split_padding raw = UB u).
    { pose proof (split_padded raw W) as S. destruct X as [->|(p & data & -> & L)]; [eauto|].
      cbv beta iota in S. destruct (N.ltb_spec (size data) p); [exact S|lia]. }
    destruct S as [u S]. rewrite S in H. discriminate H. }
  destruct (fits_size _ _ PF) as [SZ IFP]. subst raw.
  destruct (has_priority fl) eqn:PR.
  - assert (S5 : 5 <= size ct).
    { unfold headers_decode_payload in H. cbn [fh_flags] in H. rewrite padded_flag, priority_flag, PR in H.
      destruct (has_padded fl); [rewrite padded_split in H by exact SZ|]; cbn [bind padded_payload] in H;
        apply bind_ok in H; destruct H as ([p d] & H & _); exact (split_priority_size ct _ H). }
    destruct (word_of ct WC ltac:(lia)) as (e & d & rest & RE & RD & ->).
    destruct rest as [|w fr]; [rewrite size_app, be_octets_size, size_nil in S5; lia|].
    exists (CHeaders (Some (e, d, w)) fr padding).
    replace (be_octets 4 (e * 2 ^ 31 + d) ++ w :: fr) with (priority_fields e d w ++ fr) in *
      by (unfold priority_fields; rewrite <- app_assoc; reflexivity).
    assert (WW : w < 2 ^ 8).
    { apply wf_bytes_app in WC. destruct WC as [WC _]. unfold priority_fields in WC. apply wf_bytes_app in WC. destruct WC as [_ WC]. exact (Forall_inv WC). }
    split; [apply layout_headers_priority; assumption|].
    pose proof (headers_parse_any m t fl len r sid e d w fr padding SZ RE RD) as Q. unfold headers_octets in Q. rewrite PR in Q.
    rewrite Q in H. apply bind_ok in H. destruct H as (b' & B & _). exists b'. exact B.
  - exists (CHeaders None ct padding). split; [apply layout_headers; assumption|].
    pose proof (headers_parse_any m t fl len r sid 0 0 0 ct padding SZ ltac:(lia) ltac:(reflexivity)) as Q. unfold headers_octets in Q. rewrite PR in Q.
    cbn [app] in Q. rewrite Q in H. apply bind_ok in H. destruct H as (b' & B & _). exists b'. exact B.
Qed.

Lemma push_layout : forall m t len fl r sid raw f, wf_bytes raw ->
  parse_push_promise m (FH len PUSH_PROMISE fl r sid) raw t = Ok f ->
  exists c, layout fl PUSH_PROMISE raw c /\ block_decodes_in m t c.
Proof.
  intros m t len fl r sid raw f W H. unfold parse_push_promise in H. apply bind_ok in H. destruct H as (pp & H & _).
  destruct (padding_of fl raw W) as (ct & padding & PF & E & WC).
  { intros P X. unfold push_promise_decode_payload in H. cbn [fh_flags] in H. rewrite padded_flag, P in H.
    assert (S : exists u, split_padding raw = UB u).
    { pose proof (split_padded raw W) as S. destruct X as [->|(p & data & -> & L)]; [eauto|].
      cbv beta iota in S. destruct (N.ltb_spec (size data) p); [exact S|lia]. }
    destruct S as [u S]. rewrite S in H. discriminate H. }
  destruct (fits_size _ _ PF) as [SZ IFP]. subst raw.
  assert (S4 : 4 <= size ct).
  { unfold push_promise_decode_payload in H. cbn [fh_flags] in H. rewrite padded_flag in H.
    destruct (has_padded fl); [rewrite padded_split in H by exact SZ|]; cbn [bind padded_payload] in H;
      apply bind_ok in H; destruct H as (b0 & _ & H); apply bind_ok in H; destruct H as (x & _ & H);
      apply bind_ok in H; destruct H as (d' & H & _); unfold verase_front in H; destruct (N.leb_spec 4 (size ct)); try discriminate H; assumption. }
  destruct (word_of ct WC S4) as (rr & pr & fr & RR & RP & ->).
  exists (CPush pr fr padding). split; [apply (layout_push fl rr); assumption|].
  pose proof (push_parse_any m t fl len r sid rr pr fr padding SZ RR RP) as Q. unfold push_promise_octets, push_promise_contents in Q.
  rewrite Q in H. apply bind_ok in H. destruct H as (b' & B & _). exists b'. exact B.
Qed.

(* A frame that is delivered as one of its type, and not misread, has the format
   of RFC 7540 and reports its fields. *)
Theorem C88_accepted_partial : forall m t h raw f, is_octets raw -> build_frame m h raw t = Ok f -> ~ is_raw f ->
  ~ misread (fh_flags h) (fh_type h) raw ->
  exists c, layout (fh_flags h) (fh_type h) raw c /\ shows m t f c.
Proof.
  intros m t h raw f O B NR NM. apply octets_wf in O.
  assert (G : exists c, layout (fh_flags h) (fh_type h) raw c /\ block_decodes_in m t c).
  { destruct h as [len ty fl r sid]. cbn [fh_flags fh_type] in *.
    pose proof (proj1 (C46_dispatch _ _ _ _ _ B)) as T9. cbn [fh_type] in T9.
    assert (C : In ty [DATA; HEADERS; PRIORITY; RST_STREAM; SETTINGS; PUSH_PROMISE; PING; GOAWAY; WINDOW_UPDATE; CONTINUATION]).
    { clear -T9. unfold DATA, HEADERS, PRIORITY, RST_STREAM, SETTINGS, PUSH_PROMISE, PING, GOAWAY, WINDOW_UPDATE, CONTINUATION. cbn. lia. }
    destruct C as [<-|[<-|[<-|[<-|[<-|[<-|[<-|[<-|[<-|[<-|[]]]]]]]]]]].
    - destruct (has_padded fl) eqn:P; [exfalso; apply NM; constructor; exact P|].
      exists (CData raw []). split; [|exact I]. replace raw with (padded_payload (has_padded fl) raw []) at 1 by (rewrite P; reflexivity).
      apply layout_data. split; [cbn; lia|reflexivity].
    - change (build_frame m (FH len HEADERS fl r sid) raw t) with (build_headers_frame m (FH len HEADERS fl r sid) raw t) in B.
      unfold build_headers_frame in B. destruct (parse_headers m (FH len HEADERS fl r sid) raw t) as [g| | |] eqn:Q; try discriminate B.
      + exact (headers_layout m t len fl r sid raw g O Q).
      + apply Ok_inj in B. subst f. exfalso. exact (NR I).
    - change (build_frame m (FH len PRIORITY fl r sid) raw t) with (parse_priority (FH len PRIORITY fl r sid) raw) in B.
      assert (S5 : size raw = 5).
      { unfold parse_priority, priority_construct_payload in B. destruct (N.ltb_spec (size raw) 5) as [L|L]; [discriminate B|].
        assert (~ (5 < length raw)%nat) by (intros X; apply NM; constructor; exact X). unfold size in *. lia. }
      destruct (word_of raw O ltac:(lia)) as (e & d & rest & RE & RD & ->). rewrite size_app, be_octets_size in S5.
      destruct rest as [|w [|x rest]]; [rewrite size_nil in S5; lia| |rewrite !size_cons in S5; lia].
      exists (CPriority e d w). split; [|exact I]. apply wf_bytes_app in O. apply layout_priority; [assumption|assumption|exact (Forall_inv (proj2 O))].
    - change (build_frame m (FH len RST_STREAM fl r sid) raw t) with (parse_rst_stream (FH len RST_STREAM fl r sid) raw) in B.
      assert (S4 : size raw = 4).
      { unfold parse_rst_stream in B. destruct (N.ltb_spec (size raw) 4) as [L|L]; [discriminate B|].
        assert (~ (4 < length raw)%nat) by (intros X; apply NM; constructor; exact X). unfold size in *. lia. }
      destruct (word32_of raw O ltac:(lia)) as (x & rest & X & ->). rewrite size_app, be_octets_size in S4.
      destruct rest; [|rewrite size_cons in S4; lia]. rewrite app_nil_r. exists (CReset x). split; [constructor; exact X|exact I].
    - destruct (C40_settings_lengths_partial m (FH len SETTINGS fl r sid) t raw eq_refl O) as [_ U].
      assert (M : size raw mod 6 = 0).
      { destruct (N.eq_dec (size raw mod 6) 0) as [M|M]; [exact M|]. destruct (U M) as [u Z]. congruence. }
      destruct (settings_of_octets (N.to_nat (size raw / 6)) raw O) as (ps & E & P & _).
      { rewrite N2Nat.id. rewrite (N.div_mod (size raw) 6) at 1 by discriminate. lia. }
      subst raw. exists (CSettings ps). split; [constructor; exact P|exact I].
    - exact (push_layout m t len fl r sid raw f O B).
    - exists (CPing raw). split; [|exact I]. constructor. destruct (Nat.eq_dec (length raw) 8) as [E|E]; [exact E|]. exfalso. apply NM. constructor. exact E.
    - change (build_frame m (FH len GOAWAY fl r sid) raw t) with (parse_goaway (FH len GOAWAY fl r sid) raw) in B.
      assert (S8 : 8 <= size raw).
      { unfold parse_goaway, goaway_construct_payload in B. destruct (N.ltb_spec (size raw) 8) as [L|L]; [discriminate B|exact L]. }
      destruct (word_of raw O ltac:(lia)) as (rr & last & rest & RR & RL & ->). rewrite size_app, be_octets_size in S8.
      apply wf_bytes_app in O. destruct (word32_of rest (proj2 O) ltac:(lia)) as (code & debug & RC & ->).
      exists (CGoaway last code debug). split; [apply (layout_goaway fl rr); assumption|exact I].
    - change (build_frame m (FH len WINDOW_UPDATE fl r sid) raw t) with (parse_window_update (FH len WINDOW_UPDATE fl r sid) raw) in B.
      assert (S4 : size raw = 4).
      { unfold parse_window_update in B. destruct raw as [|b0 raw']; [discriminate B|]. cbn [bind] in B. destruct (N.eqb_spec (size (b0 :: raw')) 4) as [X|X]; [exact X|discriminate B]. }
      destruct (word_of raw O ltac:(lia)) as (rr & inc & rest & RR & RI & ->). rewrite size_app, be_octets_size in S4.
      destruct rest; [|rewrite size_cons in S4; lia]. rewrite app_nil_r.
      exists (CWindow inc). split; [apply (layout_window fl rr); assumption|exact I].
    - change (build_frame m (FH len CONTINUATION fl r sid) raw t) with (parse_continuation m (FH len CONTINUATION fl r sid) raw t) in B.
      unfold parse_continuation in B. apply bind_ok in B. destruct B as (b & D & _). exists (CContinuation raw). split; [constructor|]. exists b. exact D. }
  destruct G as (c & L & BD). exists c. split; [exact L|].
  destruct (C88_well_formed_accepted m t h raw c L BD) as (f' & B' & _ & S). rewrite B in B'. apply Ok_inj in B'. subst f'. exact (S NM).
Qed.

(* PING frames of any size, and PRIORITY and RST_STREAM frames that are too
   long, are accepted. *)
Theorem C88_size_refuted : forall m t h raw, is_octets raw ->
  (fh_type h = PING /\ length raw <> 8%nat \/ fh_type h = PRIORITY /\ (5 < length raw)%nat \/
   fh_type h = RST_STREAM /\ (4 < length raw)%nat) ->
  (exists f, build_frame m h raw t = Ok f /\ ~ is_raw f) /\ forall c, ~ layout (fh_flags h) (fh_type h) raw c.
Proof.
  intros m t [len ty fl r sid] raw O H. cbn [fh_type fh_flags] in *. apply octets_wf in O.
  destruct H as [[-> L]|[[-> L]|[-> L]]].
  - split; [eexists; split; [reflexivity|exact (fun x => x)]|]. intros c X. inversion X. contradiction.
  - split.
    + destruct (word_of raw O ltac:(unfold size; lia)) as (e & d & rest & RE & RD & ->). rewrite app_length in L. cbn [length be_octets] in L.
      destruct rest as [|w rest]; [cbn in L; lia|]. eexists. split.
      * change (build_frame m (FH len PRIORITY fl r sid) ?x t) with (parse_priority (FH len PRIORITY fl r sid) x).
        replace (be_octets 4 (e * 2 ^ 31 + d) ++ w :: rest) with (priority_fields e d w ++ rest) by (unfold priority_fields; rewrite <- app_assoc; reflexivity).
        apply priority_parse; assumption.
      * exact (fun x => x).
    + intros c X. inversion X as [| | |e d w E D W Q| | | | | | |]. subst. unfold priority_fields in L. rewrite app_length in L. cbn in L. lia.
  - split.
    + destruct (word32_of raw O ltac:(unfold size; lia)) as (x & rest & X & ->). eexists. split.
      * change (build_frame m (FH len RST_STREAM fl r sid) ?x t) with (parse_rst_stream (FH len RST_STREAM fl r sid) x).
        unfold parse_rst_stream. rewrite size_app, be_octets_size. destruct (N.ltb_spec (N.of_nat 4 + size rest) 4); [lia|].
        rewrite be4_round by exact X. reflexivity.
      * exact (fun x => x).
    + intros c X. inversion X as [| | | |code C Q| | | | | |]. subst. unfold rst_stream_octets in L. cbn in L. lia.
Qed.

(* Padded DATA frames: the octets of the pad length and of the padding are
   reported as data; nothing checks that they fit. *)
Theorem C88_data_padding_refuted : forall m t h raw, fh_type h = DATA -> has_padded (fh_flags h) = true ->
  (exists f, build_frame m h raw t = Ok f /\ ~ is_raw f /\ forall c, layout (fh_flags h) DATA raw c -> ~ shows m t f c) /\
  ((raw = [] \/ exists p data, raw = p :: data /\ N.of_nat (length data) < p) -> forall c, ~ layout (fh_flags h) DATA raw c).
Proof.
  intros m t [len ty fl r sid] raw T P. cbn [fh_type fh_flags] in *. subst ty. split.
  - eexists. split; [reflexivity|]. split; [exact (fun x => x)|]. intros c L S. inversion L as [d pd PF Q| | | | | | | | | |]. subst.
    cbn [shows mk_data] in S. rewrite P in S. cbn [padded_payload] in S. apply (f_equal (@length N)) in S. rewrite !app_length in S. cbn [length] in S. lia.
  - intros B c L. inversion L as [d pd PF Q| | | | | | | | | |]. subst. rewrite P in B. cbn [padded_payload app] in B.
    destruct B as [B|(p & data & B & Z)]; [discriminate B|]. injection B as <- <-. rewrite app_length in Z. lia.
Qed.

(* A parameter listed twice: the first value is reported, RFC 7540 (6.5) says the
   last. *)
Theorem C88_settings_twice_refuted : forall m t h id v1 v2 rest, fh_type h = SETTINGS -> id < 2 ^ 16 -> v1 < 2 ^ 32 -> v2 < 2 ^ 32 -> v1 <> v2 ->
  Forall (fun p => fst p < 2 ^ 16 /\ snd p < 2 ^ 32) rest ->
  let params := (id, v1) :: rest ++ [(id, v2)] in
  exists f, build_frame m h (settings_octets params) t = Ok f /\ layout (fh_flags h) SETTINGS (settings_octets params) (CSettings params) /\
    ~ shows m t f (CSettings params).
Proof.
  intros m t [len ty fl r sid] id v1 v2 rest T I V1 V2 NE R params. cbn [fh_type fh_flags] in *. subst ty.
  assert (P : Forall (fun p => fst p < 2 ^ 16 /\ snd p < 2 ^ 32) params).
  { constructor; [split; assumption|]. apply Forall_app. split; [exact R|]. constructor; [split; assumption|constructor]. }
  eexists. split.
  { change (build_frame m (FH len SETTINGS fl r sid) ?x t) with (build_settings_frame (FH len SETTINGS fl r sid) x).
    unfold build_settings_frame. rewrite (settings_loop_spec params) by (try exact P; apply Nat.le_refl). reflexivity. }
  split; [constructor; exact P|]. cbn [shows mk_settings]. intros S. specialize (S id). rewrite sm_find_fold in S by constructor. cbn [sm_find] in S.
  unfold params in S. cbn [first_value fst] in S. rewrite N.eqb_refl in S.
  unfold last_value in S. cbn [fold_left] in S. rewrite fold_left_app in S. cbn [fold_left fst snd] in S. rewrite N.eqb_refl in S.
  injection S as S. contradiction.
Qed.

(* None of the restrictions on the stream and the values is checked. *)
Theorem C88_unchecked_refuted : forall m t h raw c, layout (fh_flags h) (fh_type h) raw c -> block_decodes_in m t c ->
  ~ permitted (fh_flags h) (fh_stream_id h) c ->
  exists f, build_frame m h raw t = Ok f /\ ~ is_raw f.
Proof.
  intros m t h raw c L B _. destruct (C88_well_formed_accepted m t h raw c L B) as (f & E & N & _). eauto.
Qed.

(* A frame of each type that is not permitted, and why. *)
Example C88_unpermitted :
  ~ permitted 0 0 (CData [1; 2] []) /\                                        (* stream 0 *)
  ~ permitted 0 0 (CHeaders None [0x82] []) /\
  ~ permitted 32 5 (CHeaders (Some (0, 5, 10)) [0x82] []) /\                  (* depends on itself *)
  ~ permitted 0 5 (CPriority 1 5 10) /\
  ~ permitted 0 0 (CReset 8) /\
  ~ permitted 0 1 (CSettings []) /\                                           (* not stream 0 *)
  ~ permitted 1 0 (CSettings [(3, 100)]) /\                                   (* not empty *)
  ~ permitted 0 0 (CSettings [(2, 2)]) /\ ~ permitted 0 0 (CSettings [(4, 2 ^ 31)]) /\ ~ permitted 0 0 (CSettings [(5, 100)]) /\
  ~ permitted 4 1 (CPush 3 [0x82] []) /\                                      (* an odd stream *)
  ~ permitted 0 1 (CPing [1; 2; 3; 4; 5; 6; 7; 8]) /\
  ~ permitted 0 1 (CGoaway 1 0 []) /\
  ~ permitted 0 1 (CWindow 0) /\
  ~ permitted 4 0 (CContinuation [0x82]).
Proof.
  repeat match goal with |- _ /\ _ => split end; intros H; cbn in H.
  1,2,5,15: intuition lia.
  - destruct H as [_ H]. exact (H 0 5 10 eq_refl eq_refl).
  - lia.
  - lia.
  - destruct H as (_ & H & _). discriminate (H eq_refl).
  - destruct H as (_ & _ & H). apply Forall_inv in H. destruct H as [H _]. specialize (H eq_refl). cbn in H. lia.
  - destruct H as (_ & _ & H). apply Forall_inv in H. destruct H as (_ & H & _). specialize (H eq_refl). cbn in H. lia.
  - destruct H as (_ & _ & H). apply Forall_inv in H. destruct H as (_ & _ & H). specialize (H eq_refl). cbn in H. lia.
  - destruct H as (_ & _ & H). vm_compute in H. discriminate H.
  - lia.
  - lia.
  - lia.
Qed.

Example C88_case : forall m, exists f,
  build_frame m (FH 9 HEADERS 40 0 3) [2; 0x80; 0; 0; 1; 15; 0x82; 7; 7] default_table = Ok f /\ ~ is_raw f /\
  ~ misread 40 HEADERS [2; 0x80; 0; 0; 1; 15; 0x82; 7; 7] /\
  layout 40 HEADERS [2; 0x80; 0; 0; 1; 15; 0x82; 7; 7] (CHeaders (Some (1, 1, 15)) [0x82] [7; 7]) /\
  shows m default_table f (CHeaders (Some (1, 1, 15)) [0x82] [7; 7]) /\
  permitted 40 3 (CHeaders (Some (1, 1, 15)) [0x82] [7; 7]).
Proof.
  intros m. exists (HeadersFrame [2; 0x80; 0; 0; 1; 15; 0x82; 7; 7] (FH 9 HEADERS 40 0 3) [7; 7] (Prio 1 1 15)
    [HEntry Indexed (EHeader (octets ":method", octets "GET"))]).
  split; [destruct m; vm_compute; reflexivity|]. split; [exact (fun x => x)|]. split; [intros X; inversion X|]. split; [|split].
  - apply (layout_headers_priority 40 1 1 15 [0x82] [7; 7]); try reflexivity. split; [cbn; lia|discriminate].
  - split; [reflexivity|]. split; [destruct m; vm_compute; reflexivity|]. intros e d w E. injection E as <- <- <-. reflexivity.
  - split; [discriminate|]. intros e d w E. injection E as <- <- <-. discriminate.
Qed.

Print Assumptions C88_well_formed_accepted.
Print Assumptions C88_accepted_partial.
Print Assumptions C88_size_refuted.
Print Assumptions C88_data_padding_refuted.
Print Assumptions C88_settings_twice_refuted.
Print Assumptions C88_unchecked_refuted.
