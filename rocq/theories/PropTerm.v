(* Property C64: every call comes to an end.  The model's loops are fuelled by a
   bound linear in the data; a loop that would go on past its bound is NoFuel. *)
From Coq Require Import ZArith NArith List Bool Lia ZifyBool ZifyNat ZifyN.
From Verif Require Import Base Arith Util IntRep Huffman HeaderType DynTable HeaderEnc HeaderDec FrameHeader Frames FrameBuilder
  Ssl Client Dump Sample SpecBits SpecHuffman SpecFrame HuffmanProofs HeaderProofs HeaderProofs2 PropHeader PropFrame PropSsl PropClient PropHistory PropSample.
Import ListNotations.
Local Open Scope N_scope.
Ltac Zify.zify_post_hook ::= Z.div_mod_to_equations.

Ltac no_fuel := let X := fresh in intros X; discriminate X.
Ltac real_step :=
  match goal with
  | |- real (bind _ _) => apply real_bind; [|let a := fresh "a" in let E := fresh "E" in intros a E]
  | |- real (let '(_, _) := ?x in _) => destruct x
  | |- real (if ?b then _ else _) => destruct b
  | |- real (match ?x with _ => _ end) => destruct x
  | |- real (vget _ _) => apply vget_real
  | |- real (vrange _ _ _) => apply vrange_real
  | |- real (verase_front _ _) => apply verase_real
  | |- real (address_of _ _ _) => apply address_real
  | |- real _ => no_fuel
  end.
Ltac real := repeat real_step.

Lemma b2i_real : forall k v o, real (bytes2integral k v o).
Proof. intros. unfold bytes2integral. real. Qed.

Definition block_octets (b : header_block) : Prop :=
  Forall (fun e => match e_content e with EHeader h => is_octets (fst h) /\ is_octets (snd h) | ESize _ => True end) b.

Lemma encode_string_real : forall s mode, is_octets s -> real (encode_string s mode).
Proof.
  intros s mode O. unfold encode_string. apply real_bind.
  - destruct mode; [no_fuel|]. destruct (huffman_encode_spec s (octets_wf _ O)) as (e & pad & -> & _). no_fuel.
  - intros enc _. apply real_bind; [|intros; no_fuel]. unfold or_first. destruct (encode_integer_value 7 (size enc)); no_fuel.
Qed.

Lemma encode_index_real : forall i p, real (encode_index i p).
Proof. intros i p. destruct p; unfold encode_index, or_first; real. Qed.

Lemma encode_header_real : forall e mode t,
  match e_content e with EHeader h => is_octets (fst h) /\ is_octets (snd h) | ESize _ => True end ->
  real (encode_header e mode t).
Proof.
  intros [p c] mode t O. unfold encode_header. cbn [e_prefix e_content] in *.
  destruct (hprefix_eqb p SizeUpdate).
  - unfold get_max_size, encode_max_size, or_first. cbn [e_content]. destruct c; cbn [bind]; real.
  - unfold get_header. cbn [e_content]. destruct c as [h|n]; cbn [bind]; [|no_fuel]. destruct O as [On Ov].
    destruct (match reverse_static_find h with Some i => if 0 <? size (snd h) then Some i else None | None => None end);
      [apply encode_index_real|].
    destruct (find_index (dt_entries t) h); [apply encode_index_real|].
    destruct (reverse_static_find (fst h, [])).
    + apply real_bind; [apply encode_index_real|]. intros. apply real_bind; [apply encode_string_real; assumption|]. intros; no_fuel.
    + apply real_bind; [apply encode_index_real|]. intros. apply real_bind; [apply encode_string_real; assumption|]. intros.
      apply real_bind; [apply encode_string_real; assumption|]. intros; no_fuel.
Qed.

(* Encoding. *)
Theorem C64_encode : forall b mode t, block_octets b -> encode_block b mode t <> NoFuel.
Proof.
  intros b mode t. induction b as [|e b IH]; intros O; [no_fuel|]. cbn [encode_block].
  apply real_bind; [apply encode_header_real; exact (Forall_inv O)|]. intros. apply real_bind; [exact (IH (Forall_inv_tail O))|].
  intros; no_fuel.
Qed.

(* The constructors that encode a header block. *)
Theorem C64_constructors : forall host flags sid b mode t padding prio r promised, block_octets b ->
  mk_headers flags sid b mode t padding prio <> NoFuel /\
  mk_push_promise host flags sid (PushPromise r promised b padding) mode t <> NoFuel /\
  mk_continuation flags sid b mode t <> NoFuel.
Proof.
  intros host flags sid b mode t padding prio r promised O. pose proof (C64_encode b mode t O) as E. split; [|split].
  - unfold mk_headers, headers_construct_payload, shl31. apply real_bind; [|intros; no_fuel]. apply real_bind; [real|]. intros.
    apply real_bind; [exact E|]. intros; no_fuel.
  - unfold mk_push_promise, push_promise_construct_payload. apply real_bind; [|intros; no_fuel].
    apply real_bind; [exact E|]. intros; no_fuel.
  - unfold mk_continuation. apply real_bind; [exact E|]. intros; no_fuel.
Qed.

Lemma octets_sub : forall a b, (forall x, In x a -> In x b) -> is_octets b -> is_octets a.
Proof. intros a b I O x J. apply O, I, J. Qed.

Lemma in_skipn : forall A n (l : list A) x, In x (skipn n l) -> In x l.
Proof. intros A n l x I. rewrite <- (firstn_skipn n l). apply in_or_app. auto. Qed.

Lemma in_firstn : forall A n (l : list A) x, In x (firstn n l) -> In x l.
Proof. intros A n l x I. rewrite <- (firstn_skipn n l). apply in_or_app. auto. Qed.

Lemma split_padding_octets : forall raw p d, is_octets raw -> split_padding raw = Ok (p, d) -> is_octets d.
Proof.
  intros raw p d O H. unfold split_padding in H. destruct raw as [|x raw]; [discriminate H|].
  destruct (size (x :: raw) <? x); [discriminate H|]. cbv zeta in H.
  destruct (firstn _ (x :: raw)) as [|y data] eqn:F; [discriminate H|]. apply Ok_inj in H. injection H as <- <-.
  intros z I. apply O. eapply in_firstn. rewrite F. right. exact I.
Qed.

Lemma split_padding_real : forall raw, real (split_padding raw).
Proof. intros raw. unfold split_padding. real. Qed.

Lemma erase_octets : forall v n v', is_octets v -> verase_front v n = Ok v' -> is_octets v'.
Proof.
  intros v n v' O H. unfold verase_front in H. destruct (n <=? size v); [|discriminate H]. apply Ok_inj in H. subst v'.
  intros z I. eapply O, in_skipn, I.
Qed.

Lemma parse_headers_real : forall m h raw t, is_octets raw -> real (parse_headers m h raw t).
Proof.
  intros m h raw t O. unfold parse_headers. apply real_bind; [|intros [[? ?] ?] _; no_fuel]. unfold headers_decode_payload.
  apply real_bind; [destruct (is_flag_set (fh_flags h) F_PADDED); [apply split_padding_real|no_fuel]|]. intros [pad d] E.
  assert (Od : is_octets d).
  { destruct (is_flag_set (fh_flags h) F_PADDED); [eapply split_padding_octets; eassumption|]. apply Ok_inj in E. injection E as <- <-. exact O. }
  apply real_bind.
  { destruct (is_flag_set (fh_flags h) F_PRIORITY); [|no_fuel]. unfold headers_split_priority.
    apply real_bind; [apply vrange_real|]. intros. apply real_bind; [apply vget_real|]. intros. apply real_bind; [apply b2i_real|]. intros. real. }
  intros [pr d'] E2. apply real_bind; [|intros; no_fuel]. apply C24_block_terminates.
  destruct (is_flag_set (fh_flags h) F_PRIORITY); [|apply Ok_inj in E2; injection E2 as <- <-; exact Od].
  unfold headers_split_priority in E2. apply bind_ok in E2. destruct E2 as (dep & _ & E2). apply bind_ok in E2.
  destruct E2 as (b0 & _ & E2). apply bind_ok in E2. destruct E2 as (x & _ & E2). apply bind_ok in E2.
  destruct E2 as (raw' & ER & E2). destruct raw' as [|w data]; [discriminate E2|]. apply Ok_inj in E2. injection E2 as <- <-.
  pose proof (erase_octets _ _ _ Od ER) as X. intros z I. apply X. right. exact I.
Qed.

Lemma settings_loop_real : forall fuel raw m, (length raw <= fuel)%nat -> real (settings_loop fuel raw m).
Proof.
  induction fuel as [|fuel IH]; intros raw m L; destruct raw as [|x raw]; try no_fuel.
  - cbn in L. lia.
  - cbn [settings_loop]. apply real_bind; [apply b2i_real|]. intros. apply real_bind; [apply b2i_real|]. intros.
    apply real_bind; [apply verase_real|]. intros raw' E. apply IH. unfold verase_front in E.
    destruct (6 <=? size (x :: raw)) eqn:S; [|discriminate E]. apply Ok_inj in E. subst raw'. rewrite skipn_length.
    cbn [length] in *. lia.
Qed.

(* Interpreting received octets, whatever they are. *)
Theorem C64_build_frame : forall m h raw t, is_octets raw -> build_frame m h raw t <> NoFuel.
Proof.
  intros m h raw t O. unfold build_frame.
  repeat match goal with |- (if ?c then _ else _) <> NoFuel => destruct c end; try no_fuel.
  - unfold build_headers_frame. pose proof (parse_headers_real m h raw t O) as R.
    destruct (parse_headers m h raw t); try no_fuel. exact R.
  - unfold parse_priority, priority_construct_payload, validate_priority. apply real_bind; [|intros; real].
    destruct (size raw <? 5); [no_fuel|]. apply real_bind; [apply vget_real|]. intros. apply real_bind; [apply b2i_real|]. intros. real.
  - unfold parse_rst_stream. destruct (size raw <? 4); [no_fuel|]. apply real_bind; [apply b2i_real|]. intros; no_fuel.
  - unfold build_settings_frame. apply real_bind; [apply settings_loop_real; lia|]. intros; no_fuel.
  - unfold parse_push_promise. apply real_bind; [|intros; no_fuel]. unfold push_promise_decode_payload.
    apply real_bind; [destruct (is_flag_set (fh_flags h) F_PADDED); [apply split_padding_real|no_fuel]|]. intros [pad d] E.
    assert (Od : is_octets d).
    { destruct (is_flag_set (fh_flags h) F_PADDED); [eapply split_padding_octets; eassumption|]. apply Ok_inj in E. injection E as <- <-. exact O. }
    apply real_bind; [apply vget_real|]. intros. apply real_bind; [apply b2i_real|]. intros. apply real_bind; [apply verase_real|].
    intros d' E'. apply real_bind; [|intros; no_fuel]. apply C24_block_terminates. eapply erase_octets; eassumption.
  - unfold parse_goaway, goaway_construct_payload. apply real_bind; [|intros; no_fuel].
    destruct (size raw <? 8); [no_fuel|]. apply real_bind; [apply b2i_real|]. intros. apply real_bind; [apply b2i_real|]. intros; no_fuel.
  - unfold parse_window_update, validate_window_size. apply real_bind; [real|]. intros. apply real_bind; [|intros; real].
    destruct (negb (size raw =? 4)); [no_fuel|]. apply real_bind; [apply b2i_real|]. intros; no_fuel.
  - unfold parse_continuation. apply real_bind; [|intros; no_fuel]. apply C24_block_terminates. exact O.
Qed.

Lemma resize_loop_real : forall es c mx, real (resize_loop es c mx).
Proof. induction es as [|e es IH]; intros c mx; cbn [resize_loop]; destruct (mx <? c); try no_fuel. apply IH. Qed.

Lemma resize_real : forall es c mx, real (resize_table es c mx).
Proof. intros. unfold resize_table. apply real_bind; [apply resize_loop_real|]. intros [] ?; no_fuel. Qed.

Lemma push_real : forall t h, real (dt_push t h).
Proof. intros. unfold dt_push. apply real_bind; [apply resize_real|]. intros [] ?; no_fuel. Qed.

Lemma update_size_real : forall t n, real (dt_update_size t n).
Proof. intros. unfold dt_update_size. apply real_bind; [apply resize_real|]. intros [] ?; no_fuel. Qed.

Lemma update_block_real : forall b t, real (fst (update_block t b)).
Proof.
  induction b as [|e b IH]; intros t; [no_fuel|]. cbn [update_block].
  assert (R : real (update_entry t e)).
  { unfold update_entry, get_header, get_max_size. destruct (e_prefix e); try no_fuel.
    all: apply real_bind; [real|]; intros; first [apply push_real|apply update_size_real]. }
  destruct (update_entry t e); try no_fuel; [apply IH|]. destruct R. reflexivity.
Qed.

(* Reporting a sent block, changing the size of the request table. *)
Theorem C64_table_updates : forall c b n,
  fst (update_request_dynamic_table c b) <> NoFuel /\ fst (update_request_table_size c n) <> NoFuel.
Proof.
  intros c b n. split.
  - unfold update_request_dynamic_table. pose proof (update_block_real b (c_req c)) as R. destruct (update_block (c_req c) b). exact R.
  - unfold update_request_table_size. pose proof (update_size_real (c_req c) n) as R.
    destruct (dt_update_size (c_req c) n); try no_fuel. destruct R. reflexivity.
Qed.

Lemma update_frame_real : forall t f, real (fst (update_frame t f)).
Proof.
  intros t f. unfold update_frame.
  repeat match goal with |- real (fst (if ?c then _ else _)) => destruct c end; try no_fuel; destruct f; try no_fuel; try apply update_block_real.
  destruct (sm_find m 1) as [n|]; [|no_fuel]. pose proof (update_size_real t n) as R.
  destruct (dt_update_size t n); try no_fuel. destruct R. reflexivity.
Qed.

Lemma raw_read : forall c n, exists r c', receive_raw_data c n = (r, c') /\ real r /\
  (is_octets (tls_in (c_tls c)) -> is_octets (tls_in (c_tls c')) /\ forall d, r = Ok d -> is_octets d) /\
  (length (tls_in (c_tls c')) <= length (tls_in (c_tls c)))%nat /\
  (forall d, r = Ok d -> (length (tls_in (c_tls c')) + N.to_nat n = length (tls_in (c_tls c)))%nat).
Proof.
  intros c n. unfold receive_raw_data. destruct (C48_read_exact (c_tls c) n) as (k & H).
  destruct (ssl_read (c_tls c) n) as [r s]. destruct H as (K & I & _ & R). exists r, (set_tls c s). split; [reflexivity|].
  cbn [set_tls c_tls]. split; [destruct R as [[-> _]|[-> _]]; no_fuel|]. rewrite I. split; [|split].
  - intros O. split; [intros x J; eapply O, in_skipn, J|]. intros d E. destruct R as [[-> _]|[-> _]]; [|discriminate E].
    apply Ok_inj in E. subst d. intros x J. eapply O, in_firstn, J.
  - rewrite skipn_length. lia.
  - intros d E. destruct R as [[-> KE]|[-> _]]; [|discriminate E]. rewrite skipn_length. unfold size in K. lia.
Qed.

Lemma receive_step : forall m c, is_octets (tls_in (c_tls c)) ->
  exists r c', receive_frame m c = (r, c') /\ real r /\ is_octets (tls_in (c_tls c')) /\
  (forall f, r = Ok f -> (length (tls_in (c_tls c')) < length (tls_in (c_tls c)))%nat).
Proof.
  intros m c O. unfold receive_frame. destruct (raw_read c FRAME_HEADER_BYTES) as (r1 & c1 & -> & R1 & O1 & L1 & G1).
  destruct (O1 O) as [O1' _]. destruct r1 as [raw|x|u|]; cbn [bind];
    try (eexists _, _; split; [reflexivity|]; split; [first [no_fuel|destruct (R1 eq_refl)]|]; split; [exact O1'|]; intros f E; discriminate E).
  assert (FR : real (build_frame_header raw)).
  { unfold build_frame_header. apply real_bind; [apply b2i_real|]. intros. apply real_bind; [apply vget_real|]. intros.
    apply real_bind; [apply vget_real|]. intros. apply real_bind; [apply b2i_real|]. intros; no_fuel. }
  destruct (build_frame_header raw) as [fh|x|u|];
    try (eexists _, _; split; [reflexivity|]; split; [first [no_fuel|destruct (FR eq_refl)]|]; split; [exact O1'|]; intros f E; discriminate E).
  specialize (G1 raw eq_refl). change (N.to_nat FRAME_HEADER_BYTES) with 9%nat in G1.
  assert (Q : exists r2 c2, (if 0 <? fh_length fh then receive_raw_data c1 (fh_length fh) else (Ok [], c1)) = (r2, c2) /\ real r2 /\
    is_octets (tls_in (c_tls c2)) /\ (forall d, r2 = Ok d -> is_octets d) /\ (length (tls_in (c_tls c2)) <= length (tls_in (c_tls c1)))%nat).
  { destruct (0 <? fh_length fh).
    - destruct (raw_read c1 (fh_length fh)) as (r2 & c2 & E2 & R2 & O2 & L2 & _). destruct (O2 O1') as [P Q]. eauto 8.
    - eexists _, _. split; [reflexivity|]. split; [no_fuel|]. split; [exact O1'|]. split; [|lia].
      intros d E. apply Ok_inj in E. subst d. intros x []. }
  destruct Q as (r2 & c2 & -> & R2 & O2 & D2 & L2).
  destruct r2 as [p|x|u|]; cbn [bind];
    try (eexists _, _; split; [reflexivity|]; split; [first [no_fuel|destruct (R2 eq_refl)]|]; split; [exact O2|]; intros f E; discriminate E).
  pose proof (C64_build_frame m fh p (c_resp c2) (D2 p eq_refl)) as B.
  destruct (build_frame m fh p (c_resp c2)) as [f|x|u|];
    try (eexists _, _; split; [reflexivity|]; split; [first [no_fuel|destruct (B eq_refl)]|]; split; [exact O2|]; intros f E; discriminate E).
  pose proof (update_frame_real (c_resp c2) f) as U. destruct (update_frame (c_resp c2) f) as [r3 t]. cbn [fst] in U.
  eexists _, _. split; [reflexivity|]. cbn [c_tls]. split; [apply real_bind; [exact U|intros; no_fuel]|]. split; [exact O2|].
  intros; lia.
Qed.

(* Receiving and sending, for every stream of octets and every behaviour of the
   TLS layer. *)
Theorem C64_receive : forall m c, is_octets (tls_in (c_tls c)) -> fst (receive_frame m c) <> NoFuel.
Proof. intros m c O. destruct (receive_step m c O) as (r & c' & -> & R & _). exact R. Qed.

Theorem C64_send : forall host c o, fst (send host c o) <> NoFuel.
Proof.
  intros host c o. destruct (send host c o) as [r c'] eqn:E. cbn [fst].
  destruct (C54_send_exact host c o r c' E) as (_ & _ & _ & [(d & _ & -> & _)|[(d & k & _ & -> & _)|(N & _)]]); try no_fuel.
  destruct o as [f|d|]; cbn [send] in E.
  - unfold send_frame in E. unfold to_send in N.
    assert (R : real (serialize host f)).
    { unfold serialize. apply real_bind; [|intros; no_fuel]. destruct f; try no_fuel. cbn [payload_bytes].
      unfold goaway_payload_bytes, shl31. apply real_bind; [real|]. intros; no_fuel. }
    destruct (serialize host f) as [raw|x|u|]; [destruct (N raw eq_refl)| | |].
    + injection E as <- _. no_fuel.
    + injection E as <- _. no_fuel.
    + destruct R. reflexivity.
  - destruct (N d). reflexivity.
  - destruct (N preface_octets). reflexivity.
Qed.

(* Printing. *)
Theorem C64_print : forall m hex f, dump m hex f <> NoFuel.
Proof.
  intros m hex f.
  assert (NA : forall l k, real (name_at l k)).
  { induction l as [|[k' s] l IH]; intros k; cbn [name_at]; [no_fuel|]. destruct (k =? k'); [no_fuel|apply IH]. }
  assert (EC : forall c, real (dump_error_code c)).
  { intros c. unfold dump_error_code. destruct (c <? UNKNOWN_ERROR); (apply real_bind; [apply NA|intros; no_fuel]). }
  assert (BL : forall b, real (dump_block b)).
  { intros b. unfold dump_block. apply real_bind; [|intros; no_fuel]. induction b as [|e b IH]; [no_fuel|]. cbn [dump_entries].
    apply real_bind; [|intros; apply real_bind; [exact IH|intros; no_fuel]].
    unfold dump_entry, get_max_size, get_header. destruct (hprefix_eqb (e_prefix e) SizeUpdate); destruct (e_content e); no_fuel. }
  destruct f; cbn [dump]; try no_fuel.
  - unfold dump_data. cbv zeta. set (pd := is_flag_set (fh_flags h) F_PADDED).
    apply real_bind; [destruct pd; [apply vget_real|no_fuel]|]. intros. apply real_bind; [apply address_real|]. intros.
    apply real_bind; [|intros; real].
    match goal with |- real (match vrange ?a ?b ?c with _ => _ end) => pose proof (vrange_real a b c) as R; destruct (vrange a b c); try no_fuel; exact R end.
  - apply real_bind; [apply BL|]. intros; no_fuel.
  - apply real_bind; [apply EC|]. intros; no_fuel.
  - apply real_bind; [|intros; no_fuel]. induction m0 as [|[k v] ps IH]; [no_fuel|]. cbn [dump_settings].
    apply real_bind; [|intros; apply real_bind; [exact IH|intros; no_fuel]].
    destruct ((k <? 1) || (SETTINGS_UNKNOWN <=? k)); (apply real_bind; [apply NA|intros; no_fuel]).
  - apply real_bind; [apply BL|]. intros; no_fuel.
  - apply real_bind; [apply EC|]. intros. apply real_bind; [|intros; no_fuel].
    destruct (size (g_debug p) =? 0); [no_fuel|]. induction (g_debug p) as [|x l IH]; [no_fuel|]. cbn [put_c_string].
    destruct (x =? 0); [no_fuel|]. apply real_bind; [exact IH|]. intros; no_fuel.
  - apply real_bind; [apply BL|]. intros; no_fuel.
Qed.

(* The sample's receive loop does not go on for ever on a stream of finite
   length, and neither does the sample. *)
Theorem C64_receive_loop : forall m s, is_octets (tls_in (c_tls (mc_client s))) -> fst (receive_frames m s) <> NoFuel.
Proof.
  intros m s O. unfold receive_frames.
  assert (G : forall fuel s, is_octets (tls_in (c_tls (mc_client s))) -> (length (tls_in (c_tls (mc_client s))) < fuel)%nat ->
    fst (receive_loop m fuel s) <> NoFuel); [|apply G; [exact O|lia]].
  clear. induction fuel as [|fuel IH]; intros s O L; [lia|].
  cbn [receive_loop]. unfold seqp at 1, on_client. destruct (receive_step m (mc_client s) O) as (r & c & -> & R & O' & G).
  destruct r as [f|x|u|]; try no_fuel; [|destruct R; reflexivity]. specialize (G f eq_refl).
  unfold seqp, print. cbn [mc_hex mc_client mc_text]. pose proof (C64_print m (mc_hex s) f) as P.
  destruct (dump m (mc_hex s) f) as [[x hex]|x|u|]; try no_fuel; [|destruct P; reflexivity].
  destruct (is_more_data (frame_fh f)); [|no_fuel]. apply IH; cbn [mc_client]; [exact O'|lia].
Qed.

Definition ends {A} (p : prog A) : Prop := forall s, is_octets (tls_in (c_tls (mc_client s))) ->
  real (fst (p s)) /\ is_octets (tls_in (c_tls (mc_client (snd (p s))))).

Lemma ends_seq : forall A B (p : prog A) (q : A -> prog B), ends p -> (forall a, ends (q a)) -> ends (do x <- p; q x).
Proof.
  intros A B p q P Q s O. unfold seqp. destruct (P s O) as [R O']. destruct (p s) as [r s']. cbn [fst snd] in *.
  destruct r; try (split; [first [no_fuel|destruct (R eq_refl)]|exact O']). apply Q. exact O'.
Qed.

Lemma ends_send : forall host f, ends (on_client (fun c => send_frame host c f)).
Proof.
  intros host f s O. unfold on_client. pose proof (C64_send host (mc_client s) (SendFrame f)) as R. cbn [send] in R.
  destruct (send_frame host (mc_client s) f) as [r c] eqn:E. cbn [fst snd mc_client] in *. split; [exact R|].
  destruct (C54_send_exact host (mc_client s) (SendFrame f) r c E) as (-> & _). exact O.
Qed.

Lemma ends_receive : forall m, ends (on_client (receive_frame m)).
Proof. intros m s O. unfold on_client. destruct (receive_step m (mc_client s) O) as (r & c & -> & R & O' & _). auto. Qed.

Lemma ends_print : forall m f, ends (print m f).
Proof.
  intros m f s O. unfold print. pose proof (C64_print m (mc_hex s) f) as P.
  destruct (dump m (mc_hex s) f) as [[x hex]|x|u|]; (split; [first [no_fuel|destruct (P eq_refl)]|exact O]).
Qed.

Lemma ends_loop : forall m, ends (receive_frames m).
Proof.
  intros m s O. split; [apply C64_receive_loop; exact O|]. unfold receive_frames. set (fuel := Datatypes.S _). clearbody fuel.
  revert s O. induction fuel as [|fuel IH]; intros s O; [exact O|]. cbn [receive_loop]. unfold seqp at 1.
  destruct (ends_receive m s O) as [_ O1]. destruct (on_client (receive_frame m) s) as [[f|x|u|] s1]; try exact O1.
  unfold seqp. destruct (ends_print m f s1 O1) as [_ O2]. destruct (print m f s1) as [[[]|x|u|] s2]; try exact O2.
  destruct (is_more_data (frame_fh f)); [apply IH; exact O2|exact O2].
Qed.

Theorem C64_sample : forall host m s, is_octets (tls_in (c_tls (mc_client s))) -> fst (sample_main host m s) <> NoFuel.
Proof.
  intros host m s O. assert (E : ends (sample_main host m)); [|exact (proj1 (E s O))]. clear s O. unfold sample_main.
  apply ends_seq; [|intros _].
  { intros s O. unfold on_client, send_connection_preface.
    destruct (send_raw_exact (mc_client s) connection_preface) as (k & X). destruct (send_raw_data (mc_client s) connection_preface) as [r c].
    destruct X as (_ & I & _ & _ & R). cbn [fst snd mc_client]. rewrite I. split; [|exact O]. destruct R as [[-> _]|[-> _]]; no_fuel. }
  apply ends_seq; [apply ends_send|intros _]. apply ends_seq; [|intros _].
  { intros s O. unfold on_client. pose proof (proj2 (C64_table_updates (mc_client s) [] sample_table_size)) as R.
    unfold update_request_table_size in *. destruct (dt_update_size (c_req (mc_client s)) sample_table_size); (split; [exact R|exact O]). }
  apply ends_seq; [apply ends_receive|intros f]. apply ends_seq; [apply ends_print|intros _].
  apply ends_seq; [apply ends_send|intros _].
  assert (OB : block_octets sample_block).
  { apply Forall_forall. intros e I. vm_compute in I. repeat destruct I as [<-|I]; try destruct I;
      (split; apply octets_dec; vm_compute; reflexivity). }
  rewrite sample_block_eq. intros s O. unfold seqp at 1, lift.
  apply (ends_seq _ _ (fun s => (mk_headers (make_frame_header_flags F_END_STREAM [F_END_HEADERS]) 1 sample_block ModeHuffman
                        (get_request_dynamic_table (mc_client s)) [] (Prio 0 0 0), s))); [|intros hf|exact O].
  { intros s' O'. split; [|exact O']. apply (C64_constructors LittleEndian _ 1 sample_block ModeHuffman _ [] (Prio 0 0 0) 0 0 OB). }
  apply ends_seq; [apply ends_send|intros _]. apply ends_seq; [|intros _].
  { intros s' O'. unfold on_client. pose proof (proj1 (C64_table_updates (mc_client s') sample_block 0)) as R.
    unfold update_request_dynamic_table in *. destruct (update_block (c_req (mc_client s')) sample_block); (split; [exact R|exact O']). }
  apply ends_seq; [apply ends_loop|intros last]. destruct (negb (last =? T_GOAWAY)); [apply ends_send|].
  intros s' O'. split; [no_fuel|exact O'].
Qed.

(* A stream that is cut short, one that carries a header block full of
   continuation octets, a block with an empty Huffman string. *)
Example C64_case :
  let s input := Machine (new_client (Tls input [] (repeat (Chunk 9) 60))) [] false in
  let bad := wire (WFrame CONTINUATION 4 0 1 (0x7f :: repeat 0xff 30)) in
  is_octets bad /\ is_octets (firstn 12 bad) /\
  fst (receive_frames Strict (s (firstn 12 bad))) = Throw RuntimeError /\
  fst (receive_frames Strict (s bad)) = UB SignedOverflow /\
  block_octets [HEntry NeverIndexed (EHeader ([97], []))].
Proof.
  cbv zeta. split; [apply octets_dec; reflexivity|]. split; [apply octets_dec; reflexivity|].
  split; [vm_compute; reflexivity|]. split; [vm_compute; reflexivity|].
  constructor; [|constructor]. split; apply octets_dec; reflexivity.
Qed.

Print Assumptions C64_encode.
Print Assumptions C64_constructors.
Print Assumptions C64_build_frame.
Print Assumptions C64_table_updates.
Print Assumptions C64_receive.
Print Assumptions C64_send.
Print Assumptions C64_print.
Print Assumptions C64_receive_loop.
Print Assumptions C64_sample.
