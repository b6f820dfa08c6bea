(* Property C101: header lists received in HEADERS or PUSH_PROMISE and
   CONTINUATION frames. *)
From Coq Require Import String.
From Coq Require Import ZArith NArith List Bool Lia ZifyBool ZifyNat ZifyN.
From Verif Require Import Base Arith Util StaticTable HeaderType DynTable HeaderEnc HeaderDec FrameHeader Frames FrameBuilder Ssl Client
  SpecBits SpecHpack SpecFrame SpecUnique UtilProofs DynTableProofs StaticProofs HeaderProofs HeaderProofs2 FrameProofs BlockProofs
  HistoryProofs PropHeader PropFrame PropBlock PropSsl PropClient PropHistory PropParts.
Import ListNotations.
Local Open Scope string_scope.
Local Open Scope list_scope.
Local Open Scope N_scope.
Ltac Zify.zify_post_hook ::= Z.div_mod_to_equations.

(* ---- specification: RFC 7540, sections 4.3, 6.2, 6.6 and 6.10 ---- *)

(* A frame carries a fragment of a header block. *)
Inductive carries : wframe -> list N -> Prop :=
| carries_headers : forall flags sid e dep wt fragment padding, size padding < 256 -> e < 2 -> dep < 2 ^ 31 ->
    carries (WFrame HEADERS flags 0 sid (headers_octets flags e dep wt fragment padding)) fragment
| carries_push_promise : forall flags sid r promised fragment padding, size padding < 256 -> r < 2 -> promised < 2 ^ 31 ->
    carries (WFrame PUSH_PROMISE flags 0 sid (push_promise_octets flags r promised fragment padding)) fragment
| carries_continuation : forall flags sid fragment, carries (WFrame CONTINUATION flags 0 sid fragment) fragment.

(* CONTINUATION frames of stream sid, END_HEADERS on the last only. *)
Inductive continuations (sid : N) : list wframe -> list (list N) -> Prop :=
| continuations_last : forall w x, w_type w = CONTINUATION -> w_stream w = sid -> ends_headers (w_flags w) = true ->
    carries w x -> continuations sid [w] [x]
| continuations_more : forall w x ws xs, w_type w = CONTINUATION -> w_stream w = sid -> ends_headers (w_flags w) = false ->
    carries w x -> continuations sid ws xs -> continuations sid (w :: ws) (x :: xs).

(* The frames of one header list and the fragments they carry; joined, these are
   the header block. *)
Inductive list_frames : list wframe -> list (list N) -> Prop :=
| list_in_one : forall w x, w_type w <> CONTINUATION -> ends_headers (w_flags w) = true -> carries w x -> list_frames [w] [x]
| list_in_more : forall w x ws xs, w_type w <> CONTINUATION -> ends_headers (w_flags w) = false -> carries w x ->
    continuations (w_stream w) ws xs -> list_frames (w :: ws) (x :: xs).

(* The fragments end where a field ends: each is a header block by itself. *)
Inductive cut_between_fields (limit : N) : table -> list (list N) -> list (list field) -> table -> Prop :=
| cut_nil : forall t, cut_between_fields limit t [] [] t
| cut_cons : forall t x fs t1 xs fss t2, rfc_block limit t x fs t1 -> cut_between_fields limit t1 xs fss t2 ->
    cut_between_fields limit t (x :: xs) (fs :: fss) t2.

(* The same, the fragments avoiding what the library is known to misread (C51). *)
Inductive decodable_parts (m : ub_mode) (limit : N) : table -> list (list N) -> list (list field) -> table -> Prop :=
| parts_nil : forall t, decodable_parts m limit t [] [] t
| parts_cons : forall t x fs t1 xs fss t2, decodable_block m limit t x fs t1 -> decodable_parts m limit t1 xs fss t2 ->
    decodable_parts m limit t (x :: xs) (fs :: fss) t2.

(* ---- proofs ---- *)

Lemma list_frames_carry : forall ws xs, list_frames ws xs -> Forall2 carries ws xs.
Proof.
  assert (G : forall sid ws xs, continuations sid ws xs -> Forall2 carries ws xs).
  { intros sid ws xs H. induction H; constructor; auto; constructor. }
  intros ws xs [w x _ _ C|w x ws' xs' _ _ C H]; constructor; auto; try constructor. exact (G _ _ _ H).
Qed.

(* What the client makes of a frame whose fragment decodes... *)
Lemma carried_ok : forall m limit t w x fs t' T, carries w x -> decodable_block m limit t x fs t' ->
  wframe_ok w -> dt_ok T -> rfc_table T = t ->
  exists f, fst (handled m T w) = Ok f /\ frame_fields f = fs /\
    dt_ok (snd (handled m T w)) /\ rfc_table (snd (handled m T w)) = t'.
Proof.
  intros m limit t w x fs t' T C B W K E.
  assert (S : server_frame (decodable_block m limit) no_table_size t w fs t') by (destruct C; constructor; assumption).
  destruct (handled_server m limit t w fs t' T S W K E) as (K' & E' & R).
  destruct B as (rs & b & R0 & NL & IF). subst t.
  destruct (C28_block_decoding_partial m limit T x rs b fs t' R0 NL) as (D & F & _).
  destruct (update_block_spec b T K IF) as (T' & U & _).
  assert (Q : exists f, fst (handled m T w) = Ok f).
  { destruct C; unfold handled, header_of; cbn [w_type w_flags w_reserved w_stream w_payload].
    - unfold build_frame. cbn [fh_type]. change (HEADERS =? T_DATA) with false. change (HEADERS =? T_HEADERS) with true. cbv iota.
      unfold build_headers_frame, parse_headers.
      rewrite (headers_parse_wire m T flags _ 0 sid e dep wt fragment padding b) by assumption. cbn [bind].
      unfold update_frame. cbn [frame_fh fh_type]. change (HEADERS =? T_HEADERS) with true. cbv iota.
      rewrite U. cbn. eauto.
    - change (build_frame m (FH ?len PUSH_PROMISE flags 0 sid) ?raw T) with (parse_push_promise m (FH len PUSH_PROMISE flags 0 sid) raw T).
      unfold parse_push_promise.
      rewrite (push_parse_wire m T flags _ 0 sid r promised fragment padding b) by assumption. cbn [bind].
      unfold update_frame. cbn [frame_fh fh_type pp_block]. change (PUSH_PROMISE =? T_HEADERS) with false.
      change (PUSH_PROMISE =? T_PUSH_PROMISE) with true. cbv iota.
      rewrite U. cbn. eauto.
    - change (build_frame m (FH ?len CONTINUATION flags 0 sid) ?raw T) with (parse_continuation m (FH len CONTINUATION flags 0 sid) raw T).
      unfold parse_continuation. rewrite D. cbn [bind].
      unfold update_frame. cbn [frame_fh fh_type]. change (CONTINUATION =? T_HEADERS) with false.
      change (CONTINUATION =? T_PUSH_PROMISE) with false. change (CONTINUATION =? T_CONTINUATION) with true. cbv iota.
      rewrite U. cbn. eauto. }
  destruct Q as (f & Q). exists f. rewrite Q in R. cbn in R. auto.
Qed.

(* ... and of one whose fragment does not. *)
Lemma headers_parse_any : forall m t flags len r sid e dep w fragment padding,
  size padding < 256 -> e < 2 -> dep < 2 ^ 31 ->
  headers_decode_payload m (FH len HEADERS flags r sid) (headers_octets flags e dep w fragment padding) t =
  let* b := decode_block m fragment t in
  Ok (if has_padded flags then padding else [],
      if has_priority flags then Prio e dep w else Prio 0 0 0, b).
Proof.
  intros m t flags len r sid e dep w fragment padding P E D.
  unfold headers_decode_payload, headers_octets. cbn [fh_flags]. rewrite padded_flag, priority_flag.
  destruct (has_padded flags).
  - rewrite padded_split by exact P. cbn [bind]. destruct (has_priority flags).
    + rewrite split_priority by assumption. reflexivity.
    + reflexivity.
  - cbn [padded_payload bind]. destruct (has_priority flags).
    + rewrite split_priority by assumption. reflexivity.
    + reflexivity.
Qed.

Lemma carried_bad : forall m T w x, carries w x -> is_octets x -> (forall b, decode_block m x T <> Ok b) ->
  (forall f, fst (handled m T w) <> Ok f) /\ (w_type w = HEADERS -> exists u, fst (handled m T w) = UB u).
Proof.
  intros m T w x C O N.
  pose proof (C24_block_terminates m x T O) as NF.
  destruct C; unfold handled, header_of; cbn [w_type w_flags w_reserved w_stream w_payload].
  - unfold build_frame. cbn [fh_type]. change (HEADERS =? T_DATA) with false. change (HEADERS =? T_HEADERS) with true. cbv iota.
    unfold build_headers_frame, parse_headers. rewrite headers_parse_any by assumption.
    destruct (decode_block m fragment T) as [b|ex|u|]; [destruct (N b eq_refl)| | |contradiction]; cbn [bind].
    + unfold update_frame. cbn [frame_fh fh_type]. change (HEADERS =? T_HEADERS) with true. cbv iota.
      cbn. split; [discriminate|eauto].
    + cbn. split; [discriminate|eauto].
  - change (build_frame m (FH ?len PUSH_PROMISE flags 0 sid) ?raw T) with (parse_push_promise m (FH len PUSH_PROMISE flags 0 sid) raw T).
    split; [|discriminate]. intros f Q.
    destruct (parse_push_promise m (FH (size (push_promise_octets flags r promised fragment padding)) PUSH_PROMISE flags 0 sid)
      (push_promise_octets flags r promised fragment padding) T) as [g|ex|u|] eqn:PP; try discriminate Q.
    unfold parse_push_promise in PP. apply bind_ok in PP. destruct PP as (p & PP & _).
    unfold push_promise_decode_payload, push_promise_octets in PP. cbn [fh_flags] in PP. rewrite padded_flag in PP.
    assert (G : forall padding', (let* b0 := vget (push_promise_contents r promised fragment) 0 in
       let* x := bytes2integral 4 (push_promise_contents r promised fragment) 0 in
       let* data' := verase_front (push_promise_contents r promised fragment) 4 in
       let* b := decode_block m data' T in
       Ok (PushPromise (extract_high_bit RESERVED_BITS 8 b0) (extract_low_bit STREAM_ID_BITS x) b padding')) = Ok p -> False).
    { intros padding' G. apply bind_ok in G. destruct G as (b0 & _ & G). apply bind_ok in G. destruct G as (x & _ & G).
      unfold push_promise_contents in G. rewrite verase_front_app in G by (rewrite be_octets_size; reflexivity). cbn [bind] in G.
      apply bind_ok in G. destruct G as (b & G & _). exact (N b G). }
    destruct (has_padded flags).
    + rewrite padded_split in PP by assumption. cbn [bind] in PP. exact (G _ PP).
    + cbn [padded_payload bind] in PP. exact (G _ PP).
  - change (build_frame m (FH ?len CONTINUATION flags 0 sid) ?raw T) with (parse_continuation m (FH len CONTINUATION flags 0 sid) raw T).
    unfold parse_continuation. split; [|discriminate]. intros f Q.
    destruct (decode_block m fragment T) as [b|ex|u|]; [destruct (N b eq_refl)| | |]; discriminate Q.
Qed.

(* A block the library can decode, cut into x and y: either the cut is between
   two fields, or x is no header block and does not decode. *)
Lemma cut_block : forall m limit t raw rs b fs t', rfc_run m limit t raw rs b fs t' ->
  forall changed x y, raw = x ++ y -> no_late_reference changed rs -> inserts_fit (t_max t) b ->
  (exists rs1 b1 fs1 t1 rs2 b2 fs2, rfc_run m limit t x rs1 b1 fs1 t1 /\ rfc_run m limit t1 y rs2 b2 fs2 t' /\
     fs = fs1 ++ fs2 /\ no_late_reference changed rs1 /\ no_late_reference false rs2 /\
     inserts_fit (t_max t) b1 /\ inserts_fit (t_max t1) b2) \/
  ((forall fs1 t1, ~ rfc_block limit t x fs1 t1) /\
   (forall T b', (changed = false -> t = rfc_table T) -> decode_block m x T <> Ok b')).
Proof.
  intros m limit t raw rs b fs t' H. induction H as [t|t l r o t1 ls rs b fs t2 SR ST SU H IH]; intros changed x y E NL IF.
  - symmetry in E. apply app_eq_nil in E. destruct E as [-> ->]. left.
    exists [], [], [], t, [], [], []. repeat split; constructor.
  - pose proof (small_rfc _ _ SR) as RR. pose proof (small_repr_octets _ _ SR) as [Wl NE].
    pose proof (rfc_run_octets _ _ _ _ _ _ _ _ H) as Wls.
    destruct x as [|x0 x'] eqn:EX.
    { left. exists [], [], [], t, (r :: rs), (reported r o :: b), (opt_cons o fs). cbn [app] in E. subst y.
      split; [constructor|]. split; [econstructor; eassumption|]. split; [reflexivity|]. split; [exact I|].
      split; [|split; [exact I|exact IF]].
      clear -NL. assert (G : forall rs c, no_late_reference c rs -> no_late_reference false rs).
      { induction rs0 as [|q qs IHq]; intros c Q; [exact I|]. cbn [no_late_reference] in *. destruct Q as [_ Q].
        split; [discriminate|]. cbn [orb]. destruct (changes_table q); [rewrite orb_true_r in Q; exact Q|exact (IHq _ Q)]. }
      exact (G _ _ NL). }
    assert (NX : x <> []) by (rewrite EX; discriminate). rewrite <- EX in *. clear x0 x' EX.
    cbn [no_late_reference] in NL. destruct NL as [NL1 NL2].
    destruct (Nat.le_gt_cases (length l) (length x)) as [LE|GT].
    + assert (X : exists x', x = l ++ x' /\ ls = x' ++ y).
      { exists (skipn (length l) x). assert (F : firstn (length l) x = l).
        { assert (A : firstn (length l) (l ++ ls) = firstn (length l) (x ++ y)) by (rewrite E; reflexivity).
          rewrite !firstn_app, firstn_all, Nat.sub_diag in A. cbn [firstn] in A. rewrite app_nil_r in A.
          replace (length l - length x)%nat with 0%nat in A by lia. cbn [firstn] in A. rewrite app_nil_r in A. symmetry. exact A. }
        assert (X : x = l ++ skipn (length l) x) by (rewrite <- F at 1; apply eq_sym, firstn_skipn).
        split; [exact X|]. rewrite X in E at 1. rewrite <- app_assoc in E. apply app_inv_head in E. exact E. }
      destruct X as (x' & -> & EL). clear E LE NX.
      assert (IF' : inserts_fit (t_max t1) b).
      { clear -ST IF. unfold step in ST. destruct r as [i|k n v|n]; cbn [step_in reported] in *.
        - destruct (resolve_in rfc_static t i); [|discriminate ST]. injection ST as <- <-. exact IF.
        - destruct (name_of rfc_static t n); [|discriminate ST]. injection ST as <- <-. destruct k; cbn in *; try exact IF. apply IF.
        - destruct (n <=? limit); [|discriminate ST]. injection ST as <- <-. exact IF. }
      destruct (IH (changed || changes_table r) x' y EL NL2 IF') as [(rs1 & b1 & fs1 & t1' & rs2 & b2 & fs2 & R1 & R2 & EF & N1 & N2 & I1 & I2)|[NB ND]].
      * left. exists (r :: rs1), (reported r o :: b1), (opt_cons o fs1), t1', rs2, b2, fs2.
        split; [econstructor; eassumption|]. split; [exact R2|]. split; [subst fs; destruct o; reflexivity|].
        split; [split; assumption|]. split; [exact N2|]. split; [|exact I2].
        clear -ST IF I1. unfold step in ST. destruct r as [i|k n v|n]; cbn [step_in reported] in *.
        -- destruct (resolve_in rfc_static t i); [|discriminate ST]. injection ST as <- <-. exact I1.
        -- destruct (name_of rfc_static t n); [|discriminate ST]. injection ST as <- <-. destruct k; cbn in *; try exact I1.
           split; [apply IF|exact I1].
        -- destruct (n <=? limit); [|discriminate ST]. injection ST as <- <-. exact I1.
      * right. subst ls. apply wf_bytes_app in Wls. destruct Wls as [Wx' Wy]. split.
        -- intros gs u B. inversion B as [t0 Q1 Q2 Q3|t0 l' r' o' t1' ls' fs' t2' RR' ST' B' Q1 Q2 Q3 Q4].
           { symmetry in Q2. apply app_eq_nil in Q2. destruct Q2 as [Q2 _]. contradiction. }
           destruct (repr_unique _ _ _ _ _ _ RR RR' (eq_sym Q2)) as (<- & <- & <-).
           change (step limit t r = Some (o', t1')) in ST'. rewrite ST in ST'. injection ST' as <- <-. exact (NB _ _ B').
        -- intros T b' CH D.
           destruct (step_field_any limit t (rfc_table T) r o t1 ST) as [t1' ST'].
           { destruct changed; [left; apply NL1; reflexivity|right; apply CH; reflexivity]. }
           assert (DH : decode_header m (l ++ x') T = Ok (reported r o, size l)).
           { eapply C26_decoding_agrees_partial; try eassumption. apply wf_octets; exact Wx'. }
           rewrite (decode_block_cons m l x' T (reported r o)) in D; [|apply wf_bytes_app; split; assumption|exact NE|exact DH].
           apply bind_ok in D. destruct D as (b2 & D & _). revert D. apply ND. intros C.
           apply orb_false_iff in C. destruct C as [-> C]. rewrite (step_no_change limit t r o t1 ST C). apply CH. reflexivity.
    + right. assert (X : exists q, l = x ++ q /\ q <> []).
      { exists (skipn (length x) l). assert (F : firstn (length x) l = x).
        { assert (A : firstn (length x) (l ++ ls) = firstn (length x) (x ++ y)) by (rewrite E; reflexivity).
          rewrite !firstn_app, firstn_all, Nat.sub_diag in A. cbn [firstn] in A. rewrite app_nil_r in A.
          replace (length x - length l)%nat with 0%nat in A by lia. cbn [firstn] in A. rewrite app_nil_r in A. exact A. }
        split; [rewrite <- F at 1; apply eq_sym, firstn_skipn|]. intros Z. apply (f_equal (@length N)) in Z.
        rewrite skipn_length in Z. cbn in Z. lia. }
      destruct X as (q & EL & NQ). split.
      * intros gs u B. inversion B as [t0 Q1 Q2 Q3|t0 l' r' o' t1' ls' fs' t2' RR' ST' B' Q1 Q2 Q3 Q4]; [congruence|].
        assert (A : l ++ [] = l' ++ ls' ++ q) by (rewrite app_nil_r, EL, <- Q2, app_assoc; reflexivity).
        destruct (repr_unique _ _ _ _ _ _ RR RR' A) as (_ & _ & Z). symmetry in Z. apply app_eq_nil in Z. destruct Z as [_ Z]. contradiction.
      * intros T b' CH D. rewrite EL in Wl. apply wf_bytes_app in Wl. destruct Wl as [Wx Wq].
        destruct (step_field_any limit t (rfc_table T) r o t1 ST) as [t1' ST'].
        { destruct changed; [left; apply NL1; reflexivity|right; apply CH; reflexivity]. }
        assert (DH : decode_header m (l ++ []) T = Ok (reported r o, size l)).
        { eapply C26_decoding_agrees_partial; try eassumption. intros z []. }
        rewrite decode_block_step in D by assumption. apply bind_ok in D. destruct D as ([e n] & DX & _).
        pose proof (decode_header_bounds _ _ _ _ _ Wx DX) as [[_ BN] _].
        apply (decode_header_app _ _ _ _ q) in DX. rewrite <- EL in DX. rewrite app_nil_r, DX in DH. apply Ok_inj in DH.
        injection DH as _ ->. rewrite EL, size_app in BN. destruct q; [contradiction|]. rewrite size_cons in BN. clear -BN. lia.
Qed.

Lemma decodable_rfc : forall m limit t x fs t', decodable_block m limit t x fs t' -> rfc_block limit t x fs t'.
Proof. intros m limit t x fs t' (rs & b & R & _). exact (proj1 (rfc_run_block _ _ _ _ _ _ _ _ R)). Qed.

(* ---- theorems ---- *)

(* The fragments end where fields end, each avoids what the library misreads: no
   call fails, and the fields of the returned frames, joined, are the header
   list the server sent.  References to entries inserted by an earlier frame of
   the same list are resolved. *)
Theorem C101_whole_list_partial : forall m limit ws xs fss t t' c rest, list_frames ws xs -> Forall wframe_ok ws ->
  decodable_parts m limit t xs fss t' -> dt_ok (c_resp c) -> Table (dt_max (c_resp c)) (dt_entries (c_resp c)) = t ->
  tls_in (c_tls c) = concat (map wire ws) ++ rest -> delivers (size (concat (map wire ws))) (c_tls c) ->
  rfc_block limit t (concat xs) (concat fss) t' /\
  exists frs c', receive_n m (length ws) c = (map Ok frs, c') /\ flat_map frame_fields frs = concat fss /\
    tls_in (c_tls c') = rest /\ c_req c' = c_req c /\ dt_ok (c_resp c') /\ Table (dt_max (c_resp c')) (dt_entries (c_resp c')) = t'.
Proof.
  intros m limit ws xs fss t t' c rest L F P K E I D. apply list_frames_carry in L. split.
  - clear -P. induction P as [t|t x fs t1 xs fss t2 B P IH]; [constructor|]. cbn [concat].
    eapply rfc_block_join; [exact (decodable_rfc _ _ _ _ _ _ B)|exact IH].
  - revert c ws L F K E I D. induction P as [t|t x fs t1 xs fss t2 B P IH]; intros c ws L F K E I D.
    + inversion L; subst. exists [], c. cbn in *. auto 10.
    + inversion L as [|w x' ws' xs' C L' Q1 Q2]; subst. cbn [map concat length receive_n] in *. pose proof (Forall_inv F) as W.
      rewrite <- app_assoc in I. rewrite size_app in D.
      destruct (receive_complete m c w _ _ W I D) as (s1 & I1 & O1 & D1 & R1). rewrite R1.
      destruct (carried_ok m limit _ w x fs t1 (c_resp c) C B W K eq_refl) as (f & Hf & Ff & K1 & T1).
      destruct (IH (Client s1 (c_req c) (snd (handled m (c_resp c) w))) ws' L' (Forall_inv_tail F) K1 T1 I1 D1)
        as (frs & c' & R & FF & I' & Q & K' & T').
      rewrite R, Hf. exists (f :: frs), c'. split; [reflexivity|]. cbn [flat_map]. rewrite Ff, FF. auto 10.
Qed.

(* A list the library decodes when it comes in one frame, cut anywhere: the
   frames are all returned if and only if every cut is between two fields, and
   then their fields are the list. *)
Theorem C101_cuts_partial : forall m limit ws xs fs t t' c rest, list_frames ws xs -> Forall wframe_ok ws ->
  decodable_block m limit t (concat xs) fs t' -> dt_ok (c_resp c) -> Table (dt_max (c_resp c)) (dt_entries (c_resp c)) = t ->
  tls_in (c_tls c) = concat (map wire ws) ++ rest -> delivers (size (concat (map wire ws))) (c_tls c) ->
  exists rs c', receive_n m (length ws) c = (rs, c') /\
    ((exists frs, rs = map Ok frs) <-> exists fss, cut_between_fields limit t xs fss t') /\
    forall frs, rs = map Ok frs -> flat_map frame_fields frs = fs /\ tls_in (c_tls c') = rest /\ c_req c' = c_req c /\
      dt_ok (c_resp c') /\ Table (dt_max (c_resp c')) (dt_entries (c_resp c')) = t'.
Proof.
  intros m limit ws xs fs t t' c rest L F B. apply list_frames_carry in L. revert c t fs F B.
  induction L as [|w x ws xs C L IH]; intros c t fs F B K E I D.
  - cbn [concat] in B. apply decodable_rfc in B.
    destruct (rfc_block_unique _ _ _ _ _ B [] t ltac:(constructor)) as [-> ->].
    exists [], c. split; [reflexivity|]. split.
    + split; intros _; [exists []; constructor|exists []; reflexivity].
    + intros frs Q. destruct frs; [|discriminate Q]. cbn in *. auto.
  - cbn [map concat length receive_n] in *. pose proof (Forall_inv F) as W.
    rewrite <- app_assoc in I. rewrite size_app in D.
    destruct (receive_complete m c w _ _ W I D) as (s1 & I1 & O1 & D1 & R1). rewrite R1.
    destruct B as (rs & b & R & NL & IF).
    destruct (cut_block _ _ _ _ _ _ _ _ R false x (concat xs) eq_refl NL IF)
      as [(rs1 & b1 & fs1 & t1 & rs2 & b2 & fs2 & X1 & X2 & EF & N1 & N2 & F1 & F2)|[NB ND]].
    + assert (B1 : decodable_block m limit t x fs1 t1) by (exists rs1, b1; auto).
      assert (B2 : decodable_block m limit t1 (concat xs) fs2 t') by (exists rs2, b2; auto).
      destruct (carried_ok m limit t w x fs1 t1 (c_resp c) C B1 W K E) as (f & Hf & Ff & K1 & T1).
      destruct (IH (Client s1 (c_req c) (snd (handled m (c_resp c) w))) t1 fs2 (Forall_inv_tail F) B2 K1 T1 I1 D1)
        as (us & c' & R' & IFF & ALL).
      rewrite R', Hf. exists (Ok f :: us), c'. split; [reflexivity|]. split.
      * split.
        -- intros (frs & Q). destruct frs as [|g frs]; [discriminate Q|]. injection Q as <- Q.
           destruct (proj1 IFF (ex_intro _ frs Q)) as (fss & CB). exists (fs1 :: fss). econstructor; [|exact CB].
           exact (decodable_rfc _ _ _ _ _ _ B1).
        -- intros (fss & CB). inversion CB as [|t0 x0 gs u xs0 gss t2 RB CB' Q1 Q2 Q3 Q4]; subst.
           destruct (rfc_block_unique _ _ _ _ _ RB _ _ (decodable_rfc _ _ _ _ _ _ B1)) as [-> ->].
           destruct (proj2 IFF (ex_intro _ _ CB')) as (frs & Q). exists (f :: frs). rewrite Q. reflexivity.
      * intros frs Q. destruct frs as [|g frs]; [discriminate Q|]. injection Q as <- Q.
        destruct (ALL frs Q) as (FF & A). cbn [flat_map]. rewrite Ff, FF, EF. auto.
    + assert (O : is_octets x).
      { apply rfc_run_octets in R. apply wf_bytes_app in R. apply wf_octets. apply R. }
      destruct (carried_bad m (c_resp c) w x C O (fun b' => ND (c_resp c) b' (fun _ => eq_sym E))) as [NO _].
      destruct (receive_n m (length ws) _) as [us c'] eqn:RN. exists (fst (handled m (c_resp c) w) :: us), c'.
      split; [reflexivity|]. assert (NA : forall frs, fst (handled m (c_resp c) w) :: us <> map Ok frs).
      { intros frs Q. destruct frs as [|g frs]; [discriminate Q|]. cbn [map] in Q. apply (f_equal (hd (Throw RuntimeError))) in Q. exact (NO g Q). }
      split; [|intros frs Q; destruct (NA frs Q)]. split.
      * intros (frs & Q). destruct (NA frs Q).
      * intros (fss & CB). inversion CB as [|t0 x0 gs u xs0 gss t2 RB CB' Q1 Q2 Q3 Q4]; subst. destruct (NB _ _ RB).
Qed.

(* A HEADERS frame that ends inside a field, in a list the library decodes when
   it comes in one frame: undefined behaviour. *)
Theorem C101_cut_inside_refuted : forall m limit w x more fs t' c rest, w_type w = HEADERS -> carries w x -> wframe_ok w ->
  let t := Table (dt_max (c_resp c)) (dt_entries (c_resp c)) in
  decodable_block m limit t (x ++ more) fs t' -> (forall fs1 t1, ~ rfc_block limit t x fs1 t1) ->
  tls_in (c_tls c) = wire w ++ rest -> delivers (size (wire w)) (c_tls c) ->
  exists u c', receive_frame m c = (UB u, c').
Proof.
  intros m limit w x more fs t' c rest TY C W t (rs & b & R & NL & IF) NB I D.
  destruct (receive_complete m c w rest 0 W I) as (s' & _ & _ & _ & Q); [rewrite N.add_0_r; exact D|]. rewrite Q.
  destruct (cut_block _ _ _ _ _ _ _ _ R false x more eq_refl NL IF)
    as [(rs1 & b1 & fs1 & t1 & rs2 & b2 & fs2 & X1 & _)|[_ ND]].
  - destruct (NB fs1 t1 (proj1 (rfc_run_block _ _ _ _ _ _ _ _ X1))).
  - assert (O : is_octets x).
    { apply rfc_run_octets in R. apply wf_bytes_app in R. apply wf_octets. apply R. }
    destruct (carried_bad m (c_resp c) w x C O (fun b' => ND (c_resp c) b' (fun _ => eq_refl))) as [_ U].
    destruct (U TY) as (u & ->). eauto.
Qed.

(* "a: b" with indexing in HEADERS, the same by reference in CONTINUATION. *)
Definition gathered : list wframe := [WFrame HEADERS 0 0 1 [0x40; 1; 97; 1; 98]; WFrame CONTINUATION 4 0 1 [0xbe]].

Example C101_case : forall m,
  list_frames gathered [[0x40; 1; 97; 1; 98]; [0xbe]] /\ Forall wframe_ok gathered /\
  decodable_parts m 4096 (Table 4096 []) [[0x40; 1; 97; 1; 98]; [0xbe]] [[([97], [98])]; [([97], [98])]] (Table 4096 [([97], [98])]) /\
  delivers (size (concat (map wire gathered))) (Tls (concat (map wire gathered)) [] (repeat (Chunk 5) 100)).
Proof.
  intros m. split; [|split; [|split]].
  - apply list_in_more; [discriminate|reflexivity| |].
    + change (WFrame HEADERS 0 0 1 [0x40; 1; 97; 1; 98]) with (WFrame HEADERS 0 0 1 (headers_octets 0 0 0 0 [0x40; 1; 97; 1; 98] [])).
      apply carries_headers; reflexivity.
    + apply continuations_last; try reflexivity. constructor.
  - repeat constructor; apply wframe_check; reflexivity.
  - eapply parts_cons; [|eapply parts_cons; [|constructor]].
    + do 2 eexists. split; [exact (run_a_b m default_table eq_refl)|].
      split; [repeat split; discriminate|]. split; [discriminate|exact I].
    + do 2 eexists. split; [apply (run_be m (Table 4096 [([97], [98])]) ([97], [98]) eq_refl)|].
      split; [repeat split; discriminate|]. exact I.
  - apply frame_delivers. discriminate.
Qed.

(* The field "a: b" cut after its name. *)
Definition cut_name : list wframe := [WFrame HEADERS 0 0 1 [0x40; 1; 97]; WFrame CONTINUATION 4 0 1 [1; 98]].

Example C101_cut_case : forall m,
  list_frames cut_name [[0x40; 1; 97]; [1; 98]] /\ Forall wframe_ok cut_name /\
  decodable_block m 4096 (Table 4096 []) ([0x40; 1; 97] ++ [1; 98]) [([97], [98])] (Table 4096 [([97], [98])]) /\
  (forall fs1 t1, ~ rfc_block 4096 (Table 4096 []) [0x40; 1; 97] fs1 t1) /\
  delivers (size (concat (map wire cut_name))) (Tls (concat (map wire cut_name)) [] (repeat (Chunk 5) 100)) /\
  fst (receive_frame m (new_client (Tls (concat (map wire cut_name)) [] (repeat (Chunk 5) 100)))) = UB OobRead.
Proof.
  intros m. split; [|split; [|split; [|split; [|split]]]].
  - apply list_in_more; [discriminate|reflexivity| |].
    + change (WFrame HEADERS 0 0 1 [0x40; 1; 97]) with (WFrame HEADERS 0 0 1 (headers_octets 0 0 0 0 [0x40; 1; 97] [])).
      apply carries_headers; reflexivity.
    + apply continuations_last; try reflexivity. constructor.
  - repeat constructor; apply wframe_check; reflexivity.
  - do 2 eexists. split; [exact (run_a_b m default_table eq_refl)|].
    split; [repeat split; discriminate|]. split; [discriminate|exact I].
  - destruct (cut_block _ _ _ _ _ _ _ _ (run_a_b m default_table eq_refl) false [0x40; 1; 97] [1; 98] eq_refl)
      as [(rs1 & b1 & fs1 & t1 & rs2 & b2 & fs2 & X1 & _ & _ & N1 & _)|[NB _]].
    + repeat split; discriminate.
    + split; [discriminate|exact I].
    + destruct (C28_block_decoding_partial m 4096 default_table _ _ _ _ _ X1 N1) as (D & _). destruct m; vm_compute in D; discriminate D.
    + exact NB.
  - apply frame_delivers. discriminate.
  - destruct m; vm_compute; reflexivity.
Qed.

Print Assumptions C101_whole_list_partial.
Print Assumptions C101_cuts_partial.
Print Assumptions C101_cut_inside_refuted.
