(* Properties C74 and C75: what a server can make the client store and read. *)
From Coq Require Import String.
From Coq Require Import ZArith NArith List Bool Lia ZifyBool ZifyNat ZifyN.
From Verif Require Import Base Arith Util IntRep StaticTable HeaderType DynTable HeaderEnc HeaderDec FrameHeader Frames FrameBuilder
  Ssl Client SpecBits SpecInt SpecHpack SpecFrame UtilProofs IntRepProofs IntSpecProofs SpecUnique DynTableProofs StaticProofs
  HeaderProofs HeaderProofs2 FrameProofs BlockProofs HistoryProofs PropHeader PropFrame PropBlock PropSsl PropClient PropHistory.
Import ListNotations.
Local Open Scope string_scope.
Local Open Scope list_scope.
Local Open Scope N_scope.
Ltac Zify.zify_post_hook ::= Z.div_mod_to_equations.

(* ---- one call of receive_frame ---- *)

Lemma b2i_loop_lt : forall k l shift acc, acc < 2 ^ (8 * k) -> b2i_loop k l shift acc < 2 ^ (8 * k).
Proof.
  intros k l. induction l as [|b l IH]; intros shift acc H; [exact H|]. cbn [b2i_loop]. apply IH.
  apply N.mod_lt. apply N.pow_nonzero. discriminate.
Qed.

Lemma built_length : forall raw h, build_frame_header raw = Ok h -> fh_length h < 2 ^ 24.
Proof.
  intros raw h H. unfold build_frame_header in H. apply bind_ok in H. destruct H as (x & X & H).
  apply bind_ok in H. destruct H as (ty & _ & H). apply bind_ok in H. destruct H as (fl & _ & H).
  apply bind_ok in H. destruct H as (rs & _ & H). apply Ok_inj in H. subst h. cbn [fh_length].
  unfold LENGTH_BITS. rewrite high24_32. unfold bytes2integral in X. apply bind_ok in X.
  destruct X as (l & _ & X). apply Ok_inj in X.
  assert (L : x < 2 ^ (8 * 4)) by (rewrite <- X; apply b2i_loop_lt; reflexivity).
  change (2 ^ (8 * 4)) with 4294967296 in L. change (2 ^ 24) with 16777216. clear - L. lia.
Qed.

Lemma receive_cases : forall m c r c', receive_frame m c = (r, c') ->
  exists used, tls_in (c_tls c) = used ++ tls_in (c_tls c') /\ size used < 9 + 2 ^ 24 /\
    tls_out (c_tls c') = tls_out (c_tls c) /\ c_req c' = c_req c /\
    ((c_resp c' = c_resp c /\ forall f, r <> Ok f) \/
     exists h head raw f r3, used = head ++ raw /\ size head = 9 /\ build_frame_header head = Ok h /\
       fh_length h = size raw /\ build_frame m h raw (c_resp c) = Ok f /\
       update_frame (c_resp c) f = (r3, c_resp c') /\ r = bind r3 (fun _ => Ok f)).
Proof.
  intros m c r c' H. unfold receive_frame, receive_raw_data at 1, FRAME_HEADER_BYTES in H.
  destruct (C48_read_exact (c_tls c) 9) as (k & K). destruct (ssl_read (c_tls c) 9) as [r1 s1].
  destruct K as (KL & I1 & O1 & K).
  assert (U1 : tls_in (c_tls c) = firstn k (tls_in (c_tls c)) ++ tls_in s1) by (rewrite I1; symmetry; apply firstn_skipn).
  assert (Z1 : size (firstn k (tls_in (c_tls c))) = N.of_nat k).
  { unfold size in *. rewrite firstn_length_le by (clear - KL; lia). reflexivity. }
  destruct (let* raw_fh := r1 in build_frame_header raw_fh) as [h|x|u|] eqn:B.
  2-4: injection H as <- <-; exists (firstn k (tls_in (c_tls c)));
    (split; [exact U1|]); (split; [rewrite Z1; change (2 ^ 24) with 16777216; clear - K; destruct K as [[_ K]|[_ K]]; lia|]);
    (split; [exact O1|]); (split; [reflexivity|]); left; split; [reflexivity|discriminate].
  apply bind_ok in B. destruct B as (head & RH & B). destruct K as [[KR K]|[KR K]]; [|rewrite KR in RH; discriminate RH].
  rewrite KR in RH. apply Ok_inj in RH. subst head. clear KR.
  pose proof (built_length _ _ B) as LB.
  assert (Q : exists raw s2 r2, (if 0 <? fh_length h then receive_raw_data (set_tls c s1) (fh_length h) else (Ok [], set_tls c s1))
            = (r2, set_tls c s2) /\ tls_in s1 = raw ++ tls_in s2 /\ tls_out s2 = tls_out s1 /\
            ((r2 = Ok raw /\ size raw = fh_length h) \/ (r2 = Throw RuntimeError /\ size raw < fh_length h))).
  { destruct (N.ltb_spec 0 (fh_length h)) as [P|P].
    - unfold receive_raw_data. cbn [set_tls c_tls]. destruct (C48_read_exact s1 (fh_length h)) as (j & J).
      destruct (ssl_read s1 (fh_length h)) as [r2 s2]. destruct J as (JL & I2 & O2 & J).
      assert (Z2 : size (firstn j (tls_in s1)) = N.of_nat j).
      { unfold size in *. rewrite firstn_length_le by (clear - JL; lia). reflexivity. }
      exists (firstn j (tls_in s1)), s2, r2. split; [reflexivity|]. split; [rewrite I2; symmetry; apply firstn_skipn|].
      split; [exact O2|]. rewrite Z2. exact J.
    - exists [], s1, (Ok []). split; [reflexivity|]. split; [reflexivity|]. split; [reflexivity|]. left. split; [reflexivity|].
      unfold size. cbn [length]. clear - P. lia. }
  destruct Q as (raw & s2 & r2 & Q & I2 & O2 & J). rewrite Q in H. clear Q.
  assert (ZR : size raw < 2 ^ 24) by (clear - J LB; change (2 ^ 24) with 16777216 in *; destruct J as [[_ J]|[_ J]]; lia).
  exists (firstn k (tls_in (c_tls c)) ++ raw).
  assert (SU : size (firstn k (tls_in (c_tls c)) ++ raw) < 9 + 2 ^ 24).
  { rewrite size_app, Z1, K. clear - ZR. change (2 ^ 24) with 16777216 in *. lia. }
  assert (U2 : tls_in (c_tls c) = (firstn k (tls_in (c_tls c)) ++ raw) ++ tls_in s2) by (rewrite <- app_assoc, <- I2; exact U1).
  cbn [c_resp set_tls] in H.
  destruct (let* raw := r2 in build_frame m h raw (c_resp c)) as [f|x|u|] eqn:BF.
  2-4: injection H as <- <-; (split; [exact U2|]); (split; [exact SU|]); (split; [cbn [set_tls c_tls]; congruence|]);
    (split; [reflexivity|]); left; split; [reflexivity|discriminate].
  apply bind_ok in BF. destruct BF as (raw' & R2 & BF). destruct J as [[JR J]|[JR J]]; [|rewrite JR in R2; discriminate R2].
  rewrite JR in R2. apply Ok_inj in R2. subst raw'.
  destruct (update_frame (c_resp c) f) as [r3 t] eqn:UF. injection H as <- <-.
  split; [exact U2|]. split; [exact SU|]. split; [cbn [set_tls c_tls]; congruence|]. split; [reflexivity|]. right.
  exists h, (firstn k (tls_in (c_tls c))), raw, f, r3. split; [reflexivity|]. split; [rewrite Z1; exact K|].
  split; [exact B|]. split; [symmetry; exact J|]. split; [exact BF|]. split; [exact UF|]. reflexivity.
Qed.

(* ---------------------------------------------------------------- C74 *)

(* Sizes a frame asks for. *)
Definition asks_in (b : header_block) (n : N) : Prop := In (HEntry SizeUpdate (ESize n)) b.

Definition asks_size (f : frame) (n : N) : Prop :=
  match f with
  | HeadersFrame _ _ _ _ b => asks_in b n
  | PushPromiseFrame _ _ p => asks_in (pp_block p) n
  | ContinuationFrame _ _ b => asks_in b n
  | SettingsFrame _ m => sm_find m 1 = Some n
  | _ => False
  end.

(* The table holds at most what its maximum allows, by the size of RFC 7541,
   section 4.1; its number of entries is bounded as well. *)
Definition within (t : dyn_table) : Prop :=
  total_size (dt_entries t) <= dt_max t /\ 32 * size (dt_entries t) <= dt_max t.

Lemma total_entries : forall l : list header, 32 * size l <= total_size l.
Proof.
  induction l as [|h l IH]; [cbn; lia|]. rewrite size_cons, total_cons. pose proof (field_size_ge h). lia.
Qed.

Lemma ok_within : forall t, dt_ok t -> within t.
Proof.
  intros t (S & L). pose proof (total_entries (dt_entries t)). unfold within. split; lia.
Qed.

Lemma update_block_bound : forall b t r t', dt_ok t -> update_block t b = (r, t') ->
  (forall u, r <> UB u) -> dt_ok t' /\ (dt_max t' = dt_max t \/ asks_in b (dt_max t')).
Proof.
  induction b as [|e b IH]; intros t r t' OK H NU; cbn [update_block] in H.
  - injection H as <- <-. auto.
  - assert (ST : forall t1, update_entry t e = Ok t1 -> dt_ok t1 /\ (dt_max t1 = dt_max t \/ asks_in [e] (dt_max t1))).
    { intros t1 E. destruct e as [p ct]. unfold update_entry in E. cbn [e_prefix] in E. destruct p.
      - apply Ok_inj in E. subst. auto.
      - apply Ok_inj in E. subst. auto.
      - unfold get_max_size in E. cbn [e_content] in E. destruct ct as [h|n]; [discriminate E|]. cbn [bind] in E.
        destruct (dt_update_ok _ _ _ OK E) as (OK1 & _ & M). split; [exact OK1|]. right. left. rewrite M. reflexivity.
      - unfold get_header in E. cbn [e_content] in E. destruct ct as [h|n]; [|discriminate E]. cbn [bind] in E.
        destruct (dt_push_ok _ _ _ OK E) as (OK1 & _ & _ & M). split; [exact OK1|]. left. exact M.
      - apply Ok_inj in E. subst. auto. }
    destruct (update_entry t e) as [t1|x|u|].
    + destruct (ST t1 eq_refl) as (OK1 & M1). destruct (IH t1 r t' OK1 H NU) as (OK2 & M2). split; [exact OK2|].
      destruct M2 as [M2|M2]; [|right; right; exact M2]. rewrite M2. destruct M1 as [M1|[M1|[]]]; [left; exact M1|right; left; exact M1].
    + injection H as <- <-. auto.
    + injection H as <- <-. destruct (NU u). reflexivity.
    + injection H as <- <-. auto.
Qed.

Lemma update_frame_bound : forall f t r t', dt_ok t -> update_frame t f = (r, t') ->
  (forall u, r <> UB u) -> dt_ok t' /\ (dt_max t' = dt_max t \/ asks_size f (dt_max t')).
Proof.
  intros f t r t' OK H NU. unfold update_frame in H.
  destruct (fh_type (frame_fh f) =? T_HEADERS).
  { destruct f; try (injection H as <- <-; destruct (NU NullDeref); reflexivity). eapply update_block_bound; eauto. }
  destruct (fh_type (frame_fh f) =? T_PUSH_PROMISE).
  { destruct f; try (injection H as <- <-; destruct (NU NullDeref); reflexivity). eapply update_block_bound; eauto. }
  destruct (fh_type (frame_fh f) =? T_CONTINUATION).
  { destruct f; try (injection H as <- <-; destruct (NU NullDeref); reflexivity). eapply update_block_bound; eauto. }
  destruct (fh_type (frame_fh f) =? T_SETTINGS).
  { destruct f as [| | | | |h mp| | | | |]; try (injection H as <- <-; destruct (NU NullDeref); reflexivity).
    cbn [asks_size]. destruct (sm_find mp 1) as [n|] eqn:F; [|injection H as <- <-; auto].
    destruct (dt_update_size t n) as [t1|x|u|] eqn:D; injection H as <- <-; auto.
    destruct (dt_update_ok _ _ _ OK D) as (OK1 & _ & M). rewrite M. auto. }
  injection H as <- <-. auto.
Qed.

Lemma in_skip : forall (a b : list N), is_octets (a ++ b) -> is_octets b.
Proof. intros a b H x I. apply H. apply in_or_app. right. exact I. Qed.

(* Receiving keeps the accounting of the response table, unless a call is undefined. *)
Lemma receive_keeps : forall m n c rs c', is_octets (tls_in (c_tls c)) -> dt_ok (c_resp c) ->
  receive_n m n c = (rs, c') -> (forall u, ~ In (UB u) rs) ->
  dt_ok (c_resp c') /\
  (dt_max (c_resp c') = dt_max (c_resp c) \/ exists f, In (Ok f) rs /\ asks_size f (dt_max (c_resp c'))).
Proof.
  intros m.
  induction n as [|n IH]; intros c rs c' O OK H NU; cbn [receive_n] in H; [injection H as <- <-; auto|].
  destruct (receive_frame m c) as [r c1] eqn:R. destruct (receive_n m n c1) as [rs2 c2] eqn:R2. injection H as <- <-.
  destruct (receive_cases _ _ _ _ R) as (used & U & _ & _ & _ & K).
  assert (S : dt_ok (c_resp c1) /\ (dt_max (c_resp c1) = dt_max (c_resp c) \/ exists f, r = Ok f /\ asks_size f (dt_max (c_resp c1)))).
  { destruct K as [[-> _]|(h & head & raw & f & r3 & UE & _ & _ & _ & B & UF & RE)]; [auto|].
    assert (NU3 : forall u, r3 <> UB u).
    { intros u ->. cbn [bind] in RE. apply (NU u). left. exact RE. }
    destruct (update_frame_bound f (c_resp c) r3 (c_resp c1) OK UF NU3) as (OK1 & M). split; [exact OK1|].
    destruct M as [M|M]; [left; exact M|]. right. exists f. split; [|exact M].
    assert (OR : is_octets raw).
    { rewrite U, UE in O. intros x I. apply O. apply in_or_app. left. apply in_or_app. right. exact I. }
    pose proof (built_no_throw m h raw (c_resp c) f (c_resp c) OR B) as NT. rewrite UF in NT. cbn [fst] in NT.
    destruct r3 as [[]|x|u|]; [exact RE|destruct (NT x); reflexivity|destruct (NU3 u); reflexivity|].
    exfalso. clear - UF. unfold update_frame in UF.
    assert (NB : forall b t t', update_block t b <> (NoFuel, t')).
    { induction b as [|e b IH]; intros t t' H; cbn [update_block] in H; [discriminate H|].
      destruct (update_entry t e) as [t1|x|u|] eqn:E; try discriminate H; [exact (IH _ _ H)|].
      clear - E.
      assert (NR : forall l cur mx, resize_loop l cur mx <> NoFuel).
      { induction l as [|h l IH]; intros cur mx H; cbn [resize_loop] in H; destruct (mx <? cur); try discriminate H.
        exact (IH _ _ H). }
      unfold update_entry in E. destruct (e_prefix e); try discriminate E.
      - unfold get_max_size in E. destruct (e_content e); [discriminate E|]. cbn [bind] in E.
        unfold dt_update_size, resize_table in E. pose proof (NR (rev (dt_entries t)) (dt_size t) n) as X.
        destruct (resize_loop (rev (dt_entries t)) (dt_size t) n) as [[? ?]|?|?|]; try discriminate E. destruct X; reflexivity.
      - unfold get_header in E. destruct (e_content e); [|discriminate E]. cbn [bind] in E.
        unfold dt_push, resize_table in E. pose proof (NR (rev (dt_entries t)) (dt_size t + entry_size h) (dt_max t)) as X.
        destruct (resize_loop (rev (dt_entries t)) (dt_size t + entry_size h) (dt_max t)) as [[? ?]|?|?|]; try discriminate E.
        destruct X; reflexivity. }
    repeat match type of UF with (if ?b then _ else _) = _ => destruct b end; try discriminate UF;
      destruct f; try discriminate UF; try exact (NB _ _ _ UF).
    destruct (sm_find m 1) as [n|]; [|discriminate UF].
    unfold dt_update_size, resize_table in UF.
    assert (NR : forall l cur mx, resize_loop l cur mx <> NoFuel).
    { induction l as [|h1 l IH]; intros cur mx H; cbn [resize_loop] in H; destruct (mx <? cur); try discriminate H.
      exact (IH _ _ H). }
    pose proof (NR (rev (dt_entries (c_resp c))) (dt_size (c_resp c)) n) as X.
    destruct (resize_loop (rev (dt_entries (c_resp c))) (dt_size (c_resp c)) n) as [[? ?]|?|?|]; try discriminate UF.
    destruct X; reflexivity. }
  destruct S as (OK1 & M1).
  destruct (IH c1 rs2 c2) as (OK2 & M2); auto.
  { rewrite U in O. eapply in_skip. exact O. }
  { intros u I. apply (NU u). right. exact I. }
  split; [exact OK2|]. destruct M2 as [M2|(f & F & A)].
  - rewrite M2. destruct M1 as [M1|(f & F & A)]; [left; exact M1|]. right. exists f. split; [left; exact F|exact A].
  - right. exists f. split; [right; exact F|exact A].
Qed.

(* For every stream, schedule of the TLS layer (failures included) and number of
   calls: the response table stays within its maximum, and the maximum is the
   initial one or a size asked for by a frame that was handed to the caller. *)
Theorem C74_bounded_partial : forall m n c rs c', is_octets (tls_in (c_tls c)) -> dt_ok (c_resp c) ->
  receive_n m n c = (rs, c') -> (forall u, ~ In (UB u) rs) ->
  within (c_resp c') /\
  (dt_max (c_resp c') = dt_max (c_resp c) \/ exists f, In (Ok f) rs /\ asks_size f (dt_max (c_resp c'))).
Proof.
  intros m n c rs c' O OK H NU. destruct (receive_keeps m n c rs c' O OK H NU) as (A & B). split; [apply ok_within; exact A|exact B].
Qed.

(* The limit RFC 7541, section 6.3, puts on these sizes is not enforced.  For
   every limit and every larger n (below 2^31 + 31) there is a header block that
   every decoder with that limit must reject; the client returns the frame that
   carries it and raises its table's maximum to n. *)
Theorem C74_limit_refuted : forall limit n, limit < n -> n < 2 ^ 31 + 2 ^ 5 - 1 ->
  exists payload, (forall t fs t', ~ rfc_block limit t payload fs t') /\
    wframe_ok (WFrame HEADERS 4 0 1 payload) /\
    forall m c rest, tls_in (c_tls c) = wire (WFrame HEADERS 4 0 1 payload) ++ rest ->
      delivers (size (wire (WFrame HEADERS 4 0 1 payload))) (c_tls c) -> dt_ok (c_resp c) ->
      exists f c', receive_frame m c = (Ok f, c') /\ asks_size f n /\ dt_max (c_resp c') = n.
Proof.
  intros limit n L B.
  destruct (or_prefix 5 n 1 ltac:(unfold prefix_ok; lia)) as (l & E & S & F & Z); [vm_compute; discriminate|].
  change (1 * 2 ^ 5) with 32 in *. change ((1 + 1) * 2 ^ 5) with 64 in F.
  assert (R : rfc_repr l (RResize n)) by (apply repr_resize; [apply S|exact F]).
  assert (W : wf_bytes l) by (eapply rfc_int_octets; apply S).
  assert (SZ : size l <= 11).
  { rewrite Z. apply encode_integer_length_64. eapply N.lt_trans; [exact B|reflexivity]. }
  exists l. split.
  { intros t fs t' H. inversion H as [t0 E1 E2 E3|t0 l0 r o t1 ls fs0 t2 R0 S0 B0 E1 E2 E3 E4]; subst.
    - exact (repr_nonempty _ _ R eq_refl).
    - rewrite <- (app_nil_r (l0 ++ ls)) in R.
      destruct (repr_unique (l0 ++ ls) (RResize n) l0 r [] ls) as (_ & <- & _); [rewrite app_nil_r in R; exact R|exact R0|apply app_nil_r|].
      cbn [step_in] in S0. destruct (N.leb_spec n limit); [clear - L H0; lia|discriminate S0]. }
  assert (WF : wframe_ok (WFrame HEADERS 4 0 1 l)).
  { unfold wframe_ok. cbn [w_type w_flags w_reserved w_stream w_payload]. split; [reflexivity|]. split; [reflexivity|].
    split; [reflexivity|]. split; [reflexivity|]. split; [apply wf_octets; exact W|].
    change (2 ^ 24) with 16777216. clear - SZ. lia. }
  split; [exact WF|]. intros m c rest I D OK.
  destruct (receive_complete m c _ rest 0 WF I) as (s' & _ & _ & _ & RF); [rewrite N.add_0_r; exact D|].
  assert (DB : decode_block m l (c_resp c) = Ok [HEntry SizeUpdate (ESize n)]).
  { destruct (C19_size_update_roundtrip_partial m n ModeNone (c_resp c) [] (wf_octets [] (Forall_nil _)) B) as (out & EO & DO).
    unfold encode_header in EO. cbn [e_prefix get_max_size e_content bind] in EO.
    change (hprefix_eqb SizeUpdate SizeUpdate) with true in EO. cbv iota in EO. unfold encode_max_size in EO.
    change (prefix_val SizeUpdate) with 32 in EO. rewrite E in EO. apply Ok_inj in EO. subst out.
    pose proof (decode_block_cons m l [] (c_resp c) (HEntry SizeUpdate (ESize n))) as X. rewrite app_nil_r in X, DO.
    rewrite X; [reflexivity|exact W|exact (repr_nonempty _ _ R)|exact DO]. }
  unfold handled in RF. cbn [w_payload] in RF.
  assert (BF : build_frame m (header_of (WFrame HEADERS 4 0 1 l)) l (c_resp c) =
    Ok (HeadersFrame l (header_of (WFrame HEADERS 4 0 1 l)) [] (Prio 0 0 0) [HEntry SizeUpdate (ESize n)])).
  { unfold build_frame, header_of. cbn [w_type w_payload w_flags w_reserved w_stream fh_type].
    change (HEADERS =? T_DATA) with false. change (HEADERS =? T_HEADERS) with true. cbv iota.
    unfold build_headers_frame, parse_headers.
    pose proof (headers_parse_wire m (c_resp c) 4 (size l) 0 1 0 0 0 l [] [HEntry SizeUpdate (ESize n)]) as X.
    change (headers_octets 4 0 0 0 l []) with l in X. rewrite X; [reflexivity|reflexivity|reflexivity|reflexivity|exact DB]. }
  rewrite BF in RF. unfold update_frame in RF. cbn [frame_fh header_of fh_type w_type] in RF.
  change (HEADERS =? T_HEADERS) with true in RF. cbv iota in RF.
  cbn [update_block update_entry e_prefix get_max_size e_content bind] in RF.
  unfold update_entry in RF. cbn [e_prefix get_max_size e_content bind] in RF.
  rewrite dt_update_spec in RF by exact OK. cbn [fst snd bind] in RF.
  eexists _, _. split; [exact RF|]. split; [left; reflexivity|reflexivity].
Qed.

(* ---------------------------------------------------------------- C75 *)

(* One call takes less than 9 + 2^24 octets from the stream, whatever the
   stream and the TLS layer, and writes nothing. *)
Theorem C75_bounded_read_partial : forall m c r c', is_octets (tls_in (c_tls c)) -> receive_frame m c = (r, c') ->
  exists used, tls_in (c_tls c) = used ++ tls_in (c_tls c') /\ size used < 9 + 2 ^ 24 /\
    tls_out (c_tls c') = tls_out (c_tls c) /\
    (forall f, r = Ok f -> exists len rest payload, used = len ++ rest ++ payload /\ length len = 3%nat /\ length rest = 6%nat /\
       be_value len = size payload).
Proof.
  intros m c r c' OI H. destruct (receive_cases m c r c' H) as (used & U & L & O & _ & K).
  exists used. split; [exact U|]. split; [exact L|]. split; [exact O|]. intros f RE.
  destruct K as [[_ K]|(h & head & raw & g & r3 & UE & HS & HB & HL & _)]; [destruct (K f RE)|].
  assert (W : wf_bytes head).
  { apply octets_wf. intros x I. apply OI. rewrite U, UE. apply in_or_app. left. apply in_or_app. left. exact I. }
  destruct head as [|b0 [|b1 [|b2 [|b3 [|b4 [|b5 [|b6 [|b7 [|b8 [|b9 head]]]]]]]]]];
    try (exfalso; clear - HS; unfold size in HS; cbn [length] in HS; lia).
  exists [b0; b1; b2], [b3; b4; b5; b6; b7; b8], raw. split; [exact UE|]. split; [reflexivity|]. split; [reflexivity|].
  rewrite <- HL. change [b0; b1; b2; b3; b4; b5; b6; b7; b8] with ([b0; b1; b2] ++ [b3; b4] ++ [b5; b6; b7; b8] ++ []) in HB.
  rewrite build_fh_spec in HB; [|exact W|reflexivity|reflexivity]. apply Ok_inj in HB. subst h. reflexivity.
Qed.

(* RFC 7540, section 4.2: a frame above SETTINGS_MAX_FRAME_SIZE (2^14 unless the
   receiver raised it) must be treated as an error.  The client returns every
   DATA frame, whatever its size. *)
Theorem C75_oversized_refuted : forall m c flags sid payload rest,
  flags < 2 ^ 8 -> sid < 2 ^ 31 -> is_octets payload -> 2 ^ 14 < size payload < 2 ^ 24 ->
  tls_in (c_tls c) = wire (WFrame DATA flags 0 sid payload) ++ rest ->
  delivers (size (wire (WFrame DATA flags 0 sid payload))) (c_tls c) ->
  exists c', receive_frame m c = (Ok (mk_data flags sid payload), c') /\ tls_in (c_tls c') = rest.
Proof.
  intros m c flags sid payload rest F S O (_ & L) I D.
  assert (WF : wframe_ok (WFrame DATA flags 0 sid payload)).
  { unfold wframe_ok. cbn [w_type w_flags w_reserved w_stream w_payload]. split; [reflexivity|]. split; [exact F|].
    split; [reflexivity|]. split; [exact S|]. split; [exact O|exact L]. }
  destruct (receive_complete m c _ rest 0 WF I) as (s' & I' & _ & _ & RF); [rewrite N.add_0_r; exact D|].
  unfold handled in RF. cbn [w_payload] in RF.
  change (build_frame m (header_of (WFrame DATA flags 0 sid payload)) payload (c_resp c)) with
    (Ok (mk_data flags sid payload)) in RF.
  change (update_frame (c_resp c) (mk_data flags sid payload)) with (@Ok unit tt, c_resp c) in RF.
  cbn [fst snd bind] in RF. eexists. split; [exact RF|exact I'].
Qed.

(* A client whose server sends SETTINGS with table size 100, then a HEADERS frame
   that asks for size 1000 and adds a field, then a header of 2^24-1 octets of
   which only two arrive. *)
Definition bound_stream : list N :=
  wire (WFrame SETTINGS 0 0 0 [0; 1; 0; 0; 0; 100]) ++
  wire (WFrame HEADERS 4 0 1 [63; 201; 7; 64; 1; 120; 1; 121]) ++
  [255; 255; 255; 0; 0; 0; 0; 0; 1; 7; 7].

Example C74_case :
  let c := new_client (Tls bound_stream [] (repeat (Chunk 3) 40)) in
  is_octets (tls_in (c_tls c)) /\ dt_ok (c_resp c) /\
  (let '(rs, c') := receive_n Strict 3 c in
   (exists f g, rs = [Ok f; Ok g; Throw RuntimeError] /\ asks_size f 100 /\ asks_size g 1000) /\
   dt_max (c_resp c') = 1000 /\ dt_entries (c_resp c') = [([120], [121])] /\ tls_in (c_tls c') = []).
Proof.
  cbv zeta. split; [apply octets_dec; vm_compute; reflexivity|]. split; [apply new_table_ok|].
  vm_compute. split; [|auto]. eexists _, _. split; [reflexivity|]. split; [reflexivity|left; reflexivity].
Qed.

Example C75_case :
  let payload := repeat 65 (N.to_nat 16385) in let w := WFrame DATA 1 0 3 payload in
  let s := Tls (wire w ++ [1]) [] (repeat (Chunk 20000) (N.to_nat 17000)) in
  2 ^ 14 < size payload < 2 ^ 24 /\ is_octets payload /\ delivers (size (wire w)) s.
Proof.
  cbv zeta. split; [split; vm_compute; reflexivity|]. split.
  - intros b I. apply repeat_spec in I. subst b. reflexivity.
  - exists (repeat (Chunk 20000) (N.to_nat 17000)), []. split; [symmetry; apply app_nil_r|]. split.
    + apply Forall_forall. intros x I. apply repeat_spec in I. subst x. discriminate.
    + vm_compute. discriminate.
Qed.

Print Assumptions C74_bounded_partial.
Print Assumptions C74_limit_refuted.
Print Assumptions C75_bounded_read_partial.
Print Assumptions C75_oversized_refuted.
