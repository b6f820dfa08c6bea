(* Property C91, continued: whole sequences of received frames.  Which frame of a
   sequence is the first to lead to undefined behaviour depends on what the
   frames before it have made of the response table. *)
From Coq Require Import String.
From Coq Require Import ZArith NArith List Bool Lia ZifyBool ZifyNat ZifyN.
From Verif Require Import Base Arith Util IntRep Huffman StaticTable HeaderType DynTable HeaderEnc HeaderDec
  FrameHeader Frames FrameBuilder Ssl Client SpecBits SpecHuffman SpecInt SpecHpack SpecFrame SpecValid
  UtilProofs DynTableProofs FrameProofs HeaderProofs HeaderProofs2 BlockProofs PropFrame PropBlock PropSsl PropClient PropEntry PropMore PropTerm
  PropAccept PropValid PropThrow PropBound PropDefined.
From Verif Require PropHistory.
Import ListNotations.
Local Open Scope string_scope.
Local Open Scope list_scope.
Local Open Scope N_scope.
Ltac Zify.zify_post_hook ::= Z.div_mod_to_equations.

(* ---- what harmless frames do to the table ---- *)

(* A field block has the effects of its entries, in order; a settings frame with
   a SETTINGS_HEADER_TABLE_SIZE (identifier 1) resizes the table, to the first
   value if there are several; nothing else has an effect. *)
Inductive table_after (m : ub_mode) (t : table) (w : wframe) : table -> Prop :=
| after_fields : forall c fragment b, layout (w_flags w) (w_type w) (w_payload w) c -> fragment_of c = Some fragment ->
    block_read m t fragment b -> table_after m t w (fold_left entry_effect b t)
| after_resize : forall params n, layout (w_flags w) (w_type w) (w_payload w) (CSettings params) ->
    first_value params 1 = Some n -> table_after m t w (resize t n)
| after_settings : forall params, layout (w_flags w) (w_type w) (w_payload w) (CSettings params) ->
    first_value params 1 = None -> table_after m t w t
| after_other : ~ In (w_type w) [HEADERS; PUSH_PROMISE; CONTINUATION; SETTINGS] -> table_after m t w t
| after_rejection : forall x, frame_rejected m t (w_type w) (w_flags w) (w_payload w) x -> table_after m t w t.

(* A sequence of frames none of which is dangerous when its turn comes. *)
Inductive harmless (m : ub_mode) : table -> list wframe -> table -> Prop :=
| harmless_nil : forall t, harmless m t [] t
| harmless_cons : forall t w t1 ws t2, ~ misbehaves m t (w_type w) (w_flags w) (w_payload w) -> table_after m t w t1 ->
    harmless m t1 ws t2 -> harmless m t (w :: ws) t2.

(* ---- proofs ---- *)

Lemma update_fitting : forall b T, dt_ok T -> Forall (fun e => ~ mismatched e) b -> ~ overflows (rfc_table T) b ->
  exists T', update_block T b = (Ok tt, T') /\ dt_ok T' /\ rfc_table T' = fold_left entry_effect b (rfc_table T).
Proof.
  induction b as [|e b IH]; intros T K C N.
  - exists T. split; [reflexivity|]. split; [exact K|reflexivity].
  - cbn [update_block fold_left]. destruct (update_entry_cases T e K) as [(T1 & U & K1 & R1 & NM & NO)|[(M & U)|(O & U)]]; rewrite U.
    + destruct (IH T1 K1 (Forall_inv_tail C)) as (T' & U' & K' & R').
      { intros (applied & e' & rest & -> & O). apply N. exists (e :: applied), e', rest. split; [reflexivity|]. cbn [fold_left]. rewrite <- R1. exact O. }
      exists T'. split; [exact U'|]. split; [exact K'|]. rewrite R', R1. reflexivity.
    + destruct (Forall_inv C M).
    + destruct N. exists [], e, b. split; [reflexivity|exact O].
Qed.

Lemma fragment_type : forall fl ty raw c fr, layout fl ty raw c -> fragment_of c = Some fr ->
  In ty [HEADERS; PUSH_PROMISE; CONTINUATION].
Proof. intros fl ty raw c fr L F. destruct L; try discriminate F; cbn; auto. Qed.

Lemma settings_type : forall fl ty raw ps, layout fl ty raw (CSettings ps) -> ty = SETTINGS.
Proof. intros fl ty raw ps L. inversion L. reflexivity. Qed.

Lemma settings_build : forall m t h raw ps, layout (fh_flags h) (fh_type h) raw (CSettings ps) ->
  exists h' mp, build_frame m h raw t = Ok (SettingsFrame h' mp) /\ forall id, sm_find mp id = first_value ps id.
Proof.
  intros m t h raw ps L. pose proof (settings_type _ _ _ _ L) as T. inversion L as [| | | | |ps' P Q1 Q2 Q3| | | | |].
  subst ps'. apply (C39_first_wins_refuted ps); assumption.
Qed.

Lemma settings_cases : forall fl raw, wf_bytes raw ->
  (exists ps, layout fl SETTINGS raw (CSettings ps)) \/ forall c, ~ layout fl SETTINGS raw c.
Proof.
  intros fl raw W. destruct (N.eq_dec (size raw mod 6) 0) as [M|M]; [left|right; apply settings_none; assumption].
  destruct (settings_of_octets (N.to_nat (size raw / 6)) raw W) as (ps & E & P & _).
  { rewrite N2Nat.id. rewrite (N.div_mod (size raw) 6) at 1 by discriminate. lia. }
  exists ps. rewrite E. apply layout_settings. exact P.
Qed.

(* The frame objects of a frame with fields. *)
Lemma fields_built : forall m T w c fr b, wframe_ok w -> layout (w_flags w) (w_type w) (w_payload w) c -> fragment_of c = Some fr ->
  decode_block m fr T = Ok b -> exists f, build_frame m (header_of w) (w_payload w) T = Ok f.
Proof.
  intros m T w c fr b WO L F D. assert (BD : block_decodes_in m T c) by (destruct c; cbn [fragment_of] in F; try discriminate F; exists b; congruence).
  destruct (C88_well_formed_accepted m T (header_of w) (w_payload w) c L BD) as (f & Q & _). exists f. exact Q.
Qed.

(* When a frame with fields is handled without undefined behaviour, its block is
   applied. *)
Lemma fields_updated : forall m T w f, wframe_ok w -> dt_ok T -> In (w_type w) [HEADERS; PUSH_PROMISE; CONTINUATION] ->
  ~ misbehaves m (rfc_table T) (w_type w) (w_flags w) (w_payload w) ->
  build_frame m (header_of w) (w_payload w) T = Ok f ->
  exists c fr b, layout (w_flags w) (w_type w) (w_payload w) c /\ fragment_of c = Some fr /\ is_octets fr /\ decode_block m fr T = Ok b /\
    update_frame T f = update_block T b.
Proof.
  intros m T [ty fl r sid raw] f WO K TY NM B. cbn [w_type w_flags w_payload] in *. assert (O : is_octets raw) by apply WO.
  pose proof (octets_wf _ O) as W. unfold header_of in B. cbn [w_type w_flags w_reserved w_stream w_payload] in B.
  destruct (C46_dispatch _ _ _ _ _ B) as (_ & _ & FT & _). cbn [fh_type] in FT. unfold update_frame. rewrite FT.
  destruct TY as [<-|[<-|[<-|[]]]].
  - change (HEADERS =? T_HEADERS) with true. cbv iota. set (h := FH _ HEADERS _ _ _) in B.
    change (build_frame m h raw T) with (build_headers_frame m h raw T) in B.
    unfold build_headers_frame, parse_headers, h in B.
    destruct (headers_cases m T (size raw) fl r sid raw W) as [(c & fr & pad & prio & L & F & WF & Q)|(N & [u S])]; [|rewrite S in B; discriminate B].
    exists c, fr. rewrite Q in B. destruct (decode_block m fr T) as [b|x|u|] eqn:D; cbn [bind] in B; try discriminate B; apply Ok_inj in B; subst f.
    + exists b. split; [exact L|]. split; [exact F|]. split; [apply wf_octets; exact WF|]. split; reflexivity.
    + destruct NM. apply (misbehaves_rejected _ _ _ _ _ c fr x eq_refl L F). apply C89_block; [apply wf_octets; exact WF|exact D].
  - change (PUSH_PROMISE =? T_HEADERS) with false. change (PUSH_PROMISE =? T_PUSH_PROMISE) with true. cbv iota.
    set (h := FH _ PUSH_PROMISE _ _ _) in B.
    change (build_frame m h raw T) with (parse_push_promise m h raw T) in B. unfold parse_push_promise, h in B.
    destruct (push_cases m T (size raw) fl r sid raw W) as [(c & fr & rr & pr & pad & L & F & WF & Q)|(N & [u S])]; [|rewrite S in B; discriminate B].
    rewrite Q in B. destruct (decode_block m fr T) as [b|x|u|] eqn:D; cbn [bind] in B; try discriminate B. apply Ok_inj in B. subst f.
    exists c, fr, b. split; [exact L|]. split; [exact F|]. split; [apply wf_octets; exact WF|]. split; [exact D|reflexivity].
  - change (CONTINUATION =? T_HEADERS) with false. change (CONTINUATION =? T_PUSH_PROMISE) with false. change (CONTINUATION =? T_CONTINUATION) with true. cbv iota.
    set (h := FH _ CONTINUATION _ _ _) in B.
    change (build_frame m h raw T) with (parse_continuation m h raw T) in B.
    unfold parse_continuation, h in B. destruct (decode_block m raw T) as [b|x|u|] eqn:D; cbn [bind] in B; try discriminate B. apply Ok_inj in B. subst f.
    exists (CContinuation raw), raw, b. split; [constructor|]. split; [reflexivity|]. split; [exact O|]. split; [exact D|reflexivity].
Qed.

(* The table after a frame that is not dangerous is the one of the
   specification, and that is the only one. *)
Lemma handled_after : forall m T w, wframe_ok w -> dt_ok T -> ~ misbehaves m (rfc_table T) (w_type w) (w_flags w) (w_payload w) ->
  dt_ok (snd (handled m T w)) /\ forall t', table_after m (rfc_table T) w t' <-> t' = rfc_table (snd (handled m T w)).
Proof.
  intros m T w WO K NM. assert (O : is_octets (w_payload w)) by apply WO.
  destruct (build_frame m (header_of w) (w_payload w) T) as [f|x|u|] eqn:B.
  - assert (NR : forall x, ~ frame_rejected m (rfc_table T) (w_type w) (w_flags w) (w_payload w) x).
    { intros x R. apply (C89_frame m (header_of w) (w_payload w) T x O) in R. congruence. }
    assert (HU : snd (handled m T w) = snd (update_frame T f)).
    { unfold handled. rewrite B. destruct (update_frame T f) as [r t']. reflexivity. }
    rewrite HU.
    destruct (in_dec N.eq_dec (w_type w) [HEADERS; PUSH_PROMISE; CONTINUATION]) as [TY|TY].
    + destruct (fields_updated m T w f WO K TY NM B) as (c & fr & b & L & F & OF & D & U). rewrite U.
      destruct (update_fitting b T K (decoded_matched _ _ _ _ OF D)) as (T' & U' & K' & R').
      { intros V. apply NM. apply (misbehaves_update _ _ _ _ _ c fr b L F); [apply block_read_iff; assumption|exact V]. }
      rewrite U'. split; [exact K'|]. cbn [snd]. rewrite R'. intros t'. split.
      * intros A. destruct A as [c' fr' b' L' F' BR|ps n L'|ps L'|NI|x R].
        -- rewrite <- (fragment_unique _ _ _ _ _ _ _ L L' F F') in BR. apply block_read_iff in BR; [|exact OF].
           rewrite D in BR. apply Ok_inj in BR. subst b'. reflexivity.
        -- apply settings_type in L'. rewrite L' in TY. cbn in TY. destruct TY as [E|[E|[E|[]]]]; discriminate E.
        -- apply settings_type in L'. rewrite L' in TY. cbn in TY. destruct TY as [E|[E|[E|[]]]]; discriminate E.
        -- destruct NI. cbn in TY |- *. tauto.
        -- destruct (NR x R).
      * intros ->. apply (after_fields m (rfc_table T) w c fr b L F). apply block_read_iff; assumption.
    + assert (NF : forall c fr, layout (w_flags w) (w_type w) (w_payload w) c -> fragment_of c <> Some fr).
      { intros c fr L F. exact (TY (fragment_type _ _ _ _ _ L F)). }
      destruct (C46_dispatch _ _ _ _ _ B) as (_ & _ & FT & _ & _ & _ & _ & S). cbn [header_of fh_type] in FT, S.
      destruct (N.eq_dec (w_type w) SETTINGS) as [ES|NS].
      * destruct (S ES) as (mp & ->).
        assert (LS : exists ps, layout (w_flags w) (w_type w) (w_payload w) (CSettings ps)).
        { assert (NB : ~ frame_broken m (rfc_table T) (w_type w) (w_flags w) (w_payload w)) by (intros X; apply NM, misbehaves_parsing, X).
          destruct (settings_cases (w_flags w) (w_payload w) (octets_wf _ O)) as [(ps & L)|N].
          - exists ps. rewrite ES. exact L.
          - destruct NB. apply broken_format; [rewrite ES; cbn; auto|]. intros c L. rewrite ES in L. exact (N c L). }
        destruct LS as (ps & L). destruct (settings_build m T (header_of w) (w_payload w) ps L) as (h' & mp' & B' & FV).
        assert (EM : mp' = mp) by (rewrite B in B'; apply Ok_inj in B'; unfold mk_settings in B'; congruence). subst mp'.
        assert (UF : update_frame T (mk_settings (fh_flags (header_of w)) (fh_stream_id (header_of w)) mp) =
          match sm_find mp 1 with Some n => (Ok tt, DynTable (keep n (dt_entries T)) (total_size (keep n (dt_entries T))) n) | None => (Ok tt, T) end).
        { unfold update_frame. cbn [mk_settings frame_fh fh_type]. change (T_SETTINGS =? T_HEADERS) with false.
          change (T_SETTINGS =? T_PUSH_PROMISE) with false. change (T_SETTINGS =? T_CONTINUATION) with false.
          change (T_SETTINGS =? T_SETTINGS) with true. cbv iota. destruct (sm_find mp 1) as [n|]; [rewrite dt_update_spec by exact K|]; reflexivity. }
        assert (SAME : forall ps', layout (w_flags w) (w_type w) (w_payload w) (CSettings ps') -> first_value ps' 1 = sm_find mp 1).
        { intros ps' L'. destruct (settings_build m T (header_of w) (w_payload w) ps' L') as (h2 & mp2 & B2 & FV2).
          rewrite B' in B2. apply Ok_inj in B2. assert (mp2 = mp) by congruence. subst mp2. symmetry. apply FV2. }
        rewrite UF. pose proof (SAME ps L) as E1. destruct (sm_find mp 1) as [n|].
        -- cbn [snd]. split; [apply (dt_update_ok T n _ K), dt_update_spec, K|]. intros t'. split.
           ++ intros A. destruct A as [c' fr' b' L' F' BR|ps' n' L' V|ps' L' V|NI|x R].
              ** destruct (NF c' fr' L' F').
              ** rewrite (SAME ps' L') in V. injection V as <-. reflexivity.
              ** rewrite (SAME ps' L') in V. discriminate V.
              ** destruct NI. rewrite ES. cbn. tauto.
              ** destruct (NR x R).
           ++ intros ->. exact (after_resize m (rfc_table T) w ps n L E1).
        -- cbn [snd]. split; [exact K|]. intros t'. split.
           ++ intros A. destruct A as [c' fr' b' L' F' BR|ps' n' L' V|ps' L' V|NI|x R]; try reflexivity.
              ** destruct (NF c' fr' L' F').
              ** rewrite (SAME ps' L') in V. discriminate V.
           ++ intros ->. exact (after_settings m (rfc_table T) w ps L E1).
      * assert (UF : update_frame T f = (Ok tt, T)).
        { unfold update_frame. rewrite FT. change T_HEADERS with HEADERS. change T_PUSH_PROMISE with PUSH_PROMISE.
          change T_CONTINUATION with CONTINUATION. change T_SETTINGS with SETTINGS.
          rewrite (proj2 (N.eqb_neq _ _) NS). destruct (N.eqb_spec (w_type w) HEADERS) as [E|_]; [destruct TY; rewrite E; cbn; tauto|].
          destruct (N.eqb_spec (w_type w) PUSH_PROMISE) as [E|_]; [destruct TY; rewrite E; cbn; tauto|].
          destruct (N.eqb_spec (w_type w) CONTINUATION) as [E|_]; [destruct TY; rewrite E; cbn; tauto|]. reflexivity. }
        rewrite UF. cbn [snd]. split; [exact K|]. intros t'. split.
        -- intros A. destruct A as [c' fr' b' L' F' BR|ps' n' L' V|ps' L' V|NI|x R]; try reflexivity.
           ++ destruct (NF c' fr' L' F').
           ++ destruct (NS (settings_type _ _ _ _ L')).
        -- intros ->. apply after_other. intros I. cbn in I, TY. destruct I as [E|[E|[E|[E|[]]]]]; [apply TY; tauto|apply TY; tauto|apply TY; tauto|congruence].
  - unfold handled. rewrite B. cbn [snd]. split; [exact K|].
    pose proof (proj1 (C89_frame m (header_of w) (w_payload w) T x O) B) as R. cbn [header_of fh_type fh_flags] in R. intros t'. split.
    + intros A. destruct A as [c' fr' b' L' F' BR|ps' n' L' V|ps' L' V|NI|y R']; try reflexivity.
      * apply block_read_iff in BR; [|apply wf_octets; eapply fragment_wf; eauto using octets_wf].
        destruct (fields_built m T w c' fr' b' WO L' F' BR) as (f & Q). congruence.
      * destruct (settings_build m T (header_of w) (w_payload w) ps' L') as (h' & mp & Q & _). congruence.
    + intros ->. exact (after_rejection m (rfc_table T) w x R).
  - destruct NM. apply misbehaves_parsing. apply (C91_frame m (header_of w) (w_payload w) T O). eauto.
  - destruct (C64_build_frame m (header_of w) (w_payload w) T O B).
Qed.

(* However many frames arrive: none of the calls that receive them is undefined
   exactly if none of the frames is dangerous when its turn comes, and then the
   response table is the one that the frames describe. *)
Theorem C91_session : forall m ws c rest, Forall wframe_ok ws -> dt_ok (c_resp c) ->
  tls_in (c_tls c) = concat (map wire ws) ++ rest -> delivers (size (concat (map wire ws))) (c_tls c) ->
  let t := Table (dt_max (c_resp c)) (dt_entries (c_resp c)) in
  exists rs c', receive_n m (length ws) c = (rs, c') /\ tls_in (c_tls c') = rest /\
    ((forall u, ~ In (UB u) rs) <-> exists t', harmless m t ws t') /\
    (forall t', harmless m t ws t' -> dt_ok (c_resp c') /\ Table (dt_max (c_resp c')) (dt_entries (c_resp c')) = t').
Proof.
  intros m ws. induction ws as [|w ws IH]; intros c rest F K E D t.
  - exists [], c. cbn [map concat app length receive_n] in *. split; [reflexivity|]. split; [exact E|]. split.
    + split; [intros _; exists t; constructor|intros _ u []].
    + intros t' H. inversion H. subst. split; [exact K|reflexivity].
  - cbn [map concat length receive_n] in *. pose proof (Forall_inv F) as W. rewrite <- app_assoc in E. rewrite size_app in D.
    destruct (receive_complete m c w _ _ W E D) as (s1 & I1 & O1 & D1 & R1). rewrite R1.
    set (c1 := Client s1 (c_req c) (snd (handled m (c_resp c) w))) in *.
    pose proof (handled_ub m (c_resp c) w W K) as HM. change (rfc_table (c_resp c)) with t in HM.
    destruct (fst (handled m (c_resp c) w)) as [f|x|u|] eqn:R.
    3:{ destruct (receive_n m (length ws) c1) as [rs c'] eqn:RN. exists (UB u :: rs), c'. split; [reflexivity|].
        assert (M : misbehaves m t (w_type w) (w_flags w) (w_payload w)) by (apply HM; eexists; reflexivity).
        assert (NH : forall t', ~ harmless m t (w :: ws) t') by (intros t' H; inversion H; contradiction).
        split; [|split].
        - destruct (C49_frames_in_order m ws c1 rest (Forall_inv_tail F) I1 D1) as (rs' & c2 & RN' & I2 & _). rewrite RN in RN'. congruence.
        - split; [intros N; destruct (N u); left; reflexivity|intros (t' & H); destruct (NH t' H)].
        - intros t' H. destruct (NH t' H). }
    all: assert (NM : ~ misbehaves m t (w_type w) (w_flags w) (w_payload w)) by (intros M; apply HM in M; destruct M as [v M]; discriminate M).
    all: destruct (handled_after m (c_resp c) w W K NM) as (K1 & A1); change (rfc_table (c_resp c)) with t in A1.
    3:{ destruct (handled_real m (c_resp c) w W R). }
    all: destruct (IH c1 rest (Forall_inv_tail F) K1 I1 D1) as (rs & c' & RN & I2 & IFF & TAB); rewrite RN.
    all: eexists _, c'; split; [reflexivity|]; split; [exact I2|].
    all: change (Table (dt_max (c_resp c1)) (dt_entries (c_resp c1))) with (rfc_table (snd (handled m (c_resp c) w))) in IFF, TAB.
    all: split; [split|].
    1,4: intros N; assert (N' : forall u, ~ In (UB u) rs) by (intros v V; apply (N v); right; exact V); apply IFF in N'; destruct N' as (t' & H);
         exists t'; econstructor; [exact NM|apply A1; reflexivity|exact H].
    1,3: intros (t' & H) u V; inversion H as [|t0 w0 t1 ws0 t2 NM' A H']; subst; apply A1 in A; subst t1;
         destruct V as [V|V]; [discriminate V|]; revert u V; apply IFF; exists t'; exact H'.
    all: intros t' H; inversion H as [|t0 w0 t1 ws0 t2 NM' A H']; subst; apply A1 in A; subst t1; exact (TAB t' H').
Qed.

(* Where it goes wrong: if nothing dangerous comes before a frame, the call that
   receives it is undefined exactly if that frame is dangerous. *)
Theorem C91_first_danger : forall m ws w c rest t1, Forall wframe_ok (ws ++ [w]) -> dt_ok (c_resp c) ->
  tls_in (c_tls c) = concat (map wire (ws ++ [w])) ++ rest -> delivers (size (concat (map wire (ws ++ [w])))) (c_tls c) ->
  harmless m (Table (dt_max (c_resp c)) (dt_entries (c_resp c))) ws t1 ->
  exists rs c1, receive_n m (length ws) c = (rs, c1) /\ (forall u, ~ In (UB u) rs) /\
    ((exists u c2, receive_frame m c1 = (UB u, c2)) <-> misbehaves m t1 (w_type w) (w_flags w) (w_payload w)).
Proof.
  intros m ws w c rest t1 F K E D H. apply Forall_app in F. destruct F as [F FW]. apply Forall_inv in FW.
  rewrite map_app, concat_app in E, D. cbn [map concat] in E, D. rewrite app_nil_r in E, D. rewrite <- app_assoc in E. rewrite size_app in D.
  assert (G : forall ws c, Forall wframe_ok ws -> tls_in (c_tls c) = concat (map wire ws) ++ wire w ++ rest ->
    delivers (size (concat (map wire ws)) + size (wire w)) (c_tls c) ->
    delivers (size (wire w)) (c_tls (snd (receive_n m (length ws) c)))).
  { clear - m. induction ws as [|v ws IH]; intros c F E D.
    - cbn [map concat length receive_n snd]. eapply delivers_mono; [|exact D]. lia.
    - cbn [map concat length receive_n] in *. rewrite <- app_assoc in E. rewrite size_app, <- N.add_assoc in D.
      destruct (receive_complete m c v _ _ (Forall_inv F) E D) as (s1 & I1 & O1 & D1 & R1). rewrite R1.
      specialize (IH (Client s1 (c_req c) (snd (handled m (c_resp c) v))) (Forall_inv_tail F) I1 D1).
      destruct (receive_n m (length ws) _) as [rs c']. exact IH. }
  assert (D' : delivers (size (concat (map wire ws))) (c_tls c)) by (eapply delivers_mono; [|exact D]; lia).
  destruct (C91_session m ws c (wire w ++ rest) F K E D') as (rs & c1 & RN & I1 & IFF & TAB).
  destruct (TAB t1 H) as (K1 & ET). exists rs, c1. split; [exact RN|]. split; [apply IFF; exists t1; exact H|].
  pose proof (G ws c F E D) as D1. rewrite RN in D1. cbn [snd] in D1.
  destruct (receive_complete m c1 w rest 0 FW I1) as (s2 & _ & _ & _ & R2); [rewrite N.add_0_r; exact D1|].
  pose proof (handled_ub m (c_resp c1) w FW K1) as HM. change (rfc_table (c_resp c1)) with (Table (dt_max (c_resp c1)) (dt_entries (c_resp c1))) in HM.
  rewrite ET in HM. rewrite <- HM, R2. split.
  - intros (u & c2 & X). exists u. congruence.
  - intros (u & X). exists u. rewrite X. eexists. reflexivity.
Qed.

(* Three frames: an entry is added, referred to, and a table size of 0 is
   announced.  All are harmless in this order; the second on its own is not, and
   neither is the first after the third. *)
Example C91_session_case :
  let add := WFrame HEADERS 4 0 1 [0x40; 1; 97; 1; 98] in
  let use := WFrame HEADERS 4 0 3 [0xbe] in
  let none := WFrame SETTINGS 0 0 0 [0; 1; 0; 0; 0; 0] in
  Forall wframe_ok [add; use; none] /\
  harmless Strict (Table 4096 []) [add; use; none] (Table 0 []) /\
  (forall t', ~ harmless Strict (Table 4096 []) [use] t') /\
  (forall t', ~ harmless Strict (Table 4096 []) [none; add] t') /\
  delivers (size (concat (map wire [add; use; none]))) (Tls (concat (map wire [add; use; none])) [] (repeat (Chunk 5) 100)).
Proof.
  intros add use none.
  assert (WF : Forall wframe_ok [add; use; none]).
  { repeat (apply Forall_cons; [apply PropHistory.wframe_check; vm_compute; reflexivity|]). apply Forall_nil. }
  pose (s := fun ws => Tls (concat (map wire ws)) [] (repeat (Chunk 5) 100)).
  assert (DL : forall ws, size (concat (map wire ws)) <= 100 -> delivers (size (concat (map wire ws))) (s ws)).
  { intros ws L. exists (repeat (Chunk 5) 100), []. split; [symmetry; apply app_nil_r|]. split; [|unfold size in *; rewrite repeat_length; lia].
    apply Forall_forall. intros e X. apply repeat_spec in X. subst e. discriminate. }
  assert (R : forall ws, Forall wframe_ok ws -> size (concat (map wire ws)) <= 100 ->
    exists rs c', receive_n Strict (length ws) (new_client (s ws)) = (rs, c') /\ tls_in (c_tls c') = [] /\
    ((forall u, ~ In (UB u) rs) <-> exists t', harmless Strict (Table 4096 []) ws t') /\
    (forall t', harmless Strict (Table 4096 []) ws t' -> dt_ok (c_resp c') /\ Table (dt_max (c_resp c')) (dt_entries (c_resp c')) = t')).
  { intros ws F L. apply (C91_session Strict ws (new_client (s ws)) [] F (new_table_ok 4096)); [symmetry; apply app_nil_r|exact (DL ws L)]. }
  inversion WF as [|? ? W1 WF2]; subst. inversion WF2 as [|? ? W2 WF3]; subst. inversion WF3 as [|? ? W3 _]; subst.
  split; [exact WF|]. split; [|split; [|split]].
  - destruct (R [add; use; none] WF ltac:(vm_compute; discriminate)) as (rs & c' & RN & _ & IFF & TAB).
    assert (N : forall u, ~ In (UB u) rs).
    { intros u. apply (f_equal fst) in RN. cbn [fst] in RN. rewrite <- RN. vm_compute. intros [E|[E|[E|[]]]]; discriminate E. }
    apply IFF in N. destruct N as (t' & H). destruct (TAB t' H) as (_ & E).
    assert (T0 : t' = Table 0 []) by (rewrite <- E; apply (f_equal snd) in RN; cbn [snd] in RN; rewrite <- RN; vm_compute; reflexivity).
    rewrite T0 in H. exact H.
  - destruct (R [use] (Forall_cons _ W2 (Forall_nil _)) ltac:(vm_compute; discriminate)) as (rs & c' & RN & _ & IFF & _).
    intros t' H. apply (proj2 IFF (ex_intro _ t' H) NullDeref). apply (f_equal fst) in RN. cbn [fst] in RN. rewrite <- RN. vm_compute. tauto.
  - destruct (R [none; add] (Forall_cons _ W3 (Forall_cons _ W1 (Forall_nil _))) ltac:(vm_compute; discriminate)) as (rs & c' & RN & _ & IFF & _).
    intros t' H. apply (proj2 IFF (ex_intro _ t' H) EmptyBack). apply (f_equal fst) in RN. cbn [fst] in RN. rewrite <- RN. vm_compute. tauto.
  - apply DL. vm_compute. discriminate.
Qed.

Print Assumptions C91_session.
Print Assumptions C91_first_danger.
