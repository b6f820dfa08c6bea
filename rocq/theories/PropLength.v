(* Property C120: what the number of octets sent tells about header values that are
   kept out of indexing. *)
From Coq Require Import String Ascii.
From Coq Require Import ZArith NArith List Bool Lia ZifyBool ZifyNat ZifyN.
From Verif Require Import Base Arith Util IntRep Huffman StaticTable HeaderType DynTable HeaderEnc FrameHeader Frames FrameBuilder Ssl Client
  SpecBits SpecHuffman SpecHpack SpecFrame UtilProofs IntRepProofs DynTableProofs StaticProofs HeaderProofs HeaderProofs2 FrameProofs BlockProofs HistoryProofs
  PropHuffman PropHeader PropFrame PropBlock PropSsl PropClient PropHistory PropRequest PropReqHistory PropSecret PropSize DumpProofs PropDump.
Import ListNotations.
Local Open Scope string_scope.
Local Open Scope list_scope.
Local Open Scope N_scope.
Ltac Zify.zify_post_hook ::= Z.div_mod_to_equations.

(* ---- specification ---- *)

(* The octets a string takes on the wire: its length, or the sum of the code lengths
   of RFC 7541, Appendix B in whole octets. *)
Definition room (mode : encode_mode) (v : list N) : N :=
  match mode with ModeNone => size v | ModeHuffman => (code_bits v + 7) / 8 end.

(* The representations without indexing and never indexed (RFC 7541, 6.2.2, 6.2.3). *)
Definition kept_out (p : hprefix) : Prop := p = WithoutIndexing \/ p = NeverIndexed.

(* Two entries that are the same but for a secret value that takes as much room. *)
Inductive alike (mode : encode_mode) : hentry -> hentry -> Prop :=
| alike_same : forall e, alike mode e e
| alike_secret : forall p name v1 v2, kept_out p -> is_octets v1 -> is_octets v2 -> room mode v1 = room mode v2 ->
    alike mode (HEntry p (EHeader (name, v1))) (HEntry p (EHeader (name, v2))).

Definition alike_requests (q1 q2 : request) : Prop :=
  q_flags q1 = q_flags q2 /\ q_stream q1 = q_stream q2 /\ q_mode q1 = q_mode q2 /\ q_padding q1 = q_padding q2 /\
  q_exclusive q1 = q_exclusive q2 /\ q_dependency q1 = q_dependency q2 /\ q_weight q1 = q_weight q2 /\
  Forall2 (alike (q_mode q1)) (q_block q1) (q_block q2).

(* No header of the requests that is kept out of indexing is in a table (RFC 7541,
   Appendix A, and the entries given), and none is inserted by one of the requests. *)
Definition secrets_unknown (entries : list field) (qs : list request) : Prop :=
  forall q p h, In q qs -> In (HEntry p (EHeader h)) (q_block q) -> kept_out p ->
    ~ (In h (map snd static_table_entries) /\ snd h <> []) /\ ~ In h entries /\ not_inserted h qs.

Lemma pair_inj : forall (A B : Type) (a a' : A) (b b' : B), (a, b) = (a', b') -> a = a' /\ b = b'.
Proof. intros A B a a' b b' H. injection H as -> ->. auto. Qed.

(* ---- one entry ---- *)

Lemma literal_encoding : forall p name v mode t, p <> SizeUpdate -> ~ in_tables t (name, v) ->
  encode_header (HEntry p (EHeader (name, v))) mode t =
  match reverse_static_find (name, []) with
  | Some i => let* ix := encode_index i p in let* x := encode_header_value v mode in Ok (ix ++ x)
  | None => let* ix := encode_index 0 p in let* n := encode_header_name name mode in let* x := encode_header_value v mode in Ok (ix ++ n ++ x)
  end.
Proof.
  intros p name v mode t P NT. destruct (chosen_cases Never (name, v) t) as [(I & _)|(_ & CC)]; [contradiction|].
  assert (C : forall i, chosen Never (name, v) t <> RIndexed i). { intros i Q. destruct CC as (n & Q1 & _). rewrite Q in Q1. discriminate Q1. }
  unfold chosen in C. cbn [fst snd] in C. unfold encode_header. cbn [e_prefix get_header e_content bind fst snd].
  replace (hprefix_eqb p SizeUpdate) with false by (destruct p; try reflexivity; exfalso; apply P; reflexivity).
  destruct (match reverse_static_find (name, v) with
     | Some i => if 0 <? size v then Some i else None | None => None end) as [i|]; [exfalso; exact (C _ eq_refl)|].
  destruct (find_index (dt_entries t) (name, v)) as [i|]; [exfalso; exact (C _ eq_refl)|]. reflexivity.
Qed.

Lemma string_size : forall mode v x, is_octets v -> encode_string v mode = Ok x ->
  size x = size (encode_integer_value 7 (room mode v)) + room mode v.
Proof.
  intros [|] v x O E; cbn [room].
  - apply plain_string_size. exact E.
  - rewrite <- bits_total. apply huffman_string_size; assumption.
Qed.

Lemma string_some : forall mode v, is_octets v -> exists x, encode_string v mode = Ok x.
Proof.
  intros mode v O. unfold encode_string.
  assert (X : exists e, match mode with ModeHuffman => huffman_encode v | ModeNone => Ok v end = Ok e).
  { destruct mode; [eauto|]. destruct (C07_huffman_encoder_output v O) as (e & E & _). eauto. }
  destruct X as (e & ->). cbn [bind]. pose proof (encode_integer_pos 7 (size e)) as P.
  destruct (encode_integer_value 7 (size e)) as [|a l]; [unfold size in P; cbn in P; lia|]. cbn [or_first bind]. eauto.
Qed.

(* Two results with as many octets, or the same failure. *)
Definition as_long (a b : res bytes) : Prop :=
  match a with Ok x => exists y, b = Ok y /\ size x = size y | _ => b = a end.

Lemma as_long_refl : forall a, as_long a a.
Proof. intros [x|x|u|]; cbn [as_long]; eauto. Qed.

Lemma as_long_bind : forall (T : Type) (a : res T) f g, (forall x, a = Ok x -> as_long (f x) (g x)) -> as_long (bind a f) (bind a g).
Proof. intros T [x|x|u|] f g H; cbn [bind as_long]; try reflexivity. apply H. reflexivity. Qed.

Lemma as_long_app : forall a b f g, as_long a b -> (forall x y, size x = size y -> as_long (f x) (g y)) -> as_long (bind a f) (bind b g).
Proof.
  intros [x|x|u|] b f g A H; cbn [as_long] in A; try (subst b; cbn [bind as_long]; reflexivity).
  destruct A as (y & -> & S). cbn [bind]. apply H. exact S.
Qed.

Lemma value_alike : forall mode v1 v2, is_octets v1 -> is_octets v2 -> room mode v1 = room mode v2 ->
  as_long (encode_header_value v1 mode) (encode_header_value v2 mode).
Proof.
  intros mode v1 v2 O1 O2 R. unfold encode_header_value. destruct (string_some mode v1 O1) as (x & X). destruct (string_some mode v2 O2) as (y & Y).
  rewrite X, Y. cbn [as_long]. exists y. split; [reflexivity|]. rewrite (string_size mode v1 x O1 X), (string_size mode v2 y O2 Y), R. reflexivity.
Qed.

(* the header of an entry that is kept out is in no table *)
Definition unknown (t : dyn_table) (e : hentry) : Prop :=
  forall p h, e = HEntry p (EHeader h) -> kept_out p -> ~ in_tables t h.

Lemma entry_alike : forall mode t e1 e2, alike mode e1 e2 -> unknown t e1 -> unknown t e2 ->
  as_long (encode_header e1 mode t) (encode_header e2 mode t).
Proof.
  intros mode t e1 e2 [e|p name v1 v2 P O1 O2 R] U1 U2; [apply as_long_refl|].
  assert (NS : p <> SizeUpdate) by (destruct P; subst p; discriminate).
  rewrite (literal_encoding p name v1 mode t NS (U1 _ _ eq_refl P)), (literal_encoding p name v2 mode t NS (U2 _ _ eq_refl P)).
  destruct (reverse_static_find (name, [])) as [i|]; apply as_long_bind; intros ix _; [|apply as_long_bind; intros n _];
    (apply as_long_app; [apply value_alike; assumption|]); intros x y S; cbn [as_long]; eexists; (split; [reflexivity|]); rewrite !size_app, S; reflexivity.
Qed.

Lemma block_alike : forall mode t b1 b2, Forall2 (alike mode) b1 b2 -> Forall (unknown t) b1 -> Forall (unknown t) b2 ->
  as_long (encode_block b1 mode t) (encode_block b2 mode t).
Proof.
  intros mode t b1 b2 A. induction A as [|e1 e2 b1 b2 E A IH]; intros U1 U2; [apply as_long_refl|].
  inversion U1; subst. inversion U2; subst. cbn [encode_block]. apply as_long_app; [apply entry_alike; assumption|]. intros x y S.
  apply as_long_app; [apply IH; assumption|]. intros x' y' S'. cbn [as_long]. eexists. split; [reflexivity|]. rewrite !size_app. lia.
Qed.

Lemma update_alike : forall mode b1 b2, Forall2 (alike mode) b1 b2 -> forall t, update_block t b1 = update_block t b2.
Proof.
  intros mode b1 b2 A. induction A as [|e1 e2 b1 b2 E A IH]; intros t; [reflexivity|]. cbn [update_block].
  assert (X : update_entry t e1 = update_entry t e2) by (destruct E as [e|p name v1 v2 [-> | ->] _ _ _]; reflexivity).
  rewrite X. destruct (update_entry t e2); try reflexivity. apply IH.
Qed.

(* ---- one request ---- *)

(* Two connections between which the number of octets sent does not distinguish. *)
Definition tls_alike (s1 s2 : tls) : Prop :=
  tls_in s1 = tls_in s2 /\ size (tls_out s1) = size (tls_out s2) /\ tls_sched s1 = tls_sched s2.

Lemma write_alike : forall fuel s1 s2 d1 d2, tls_alike s1 s2 -> size d1 = size d2 ->
  fst (write_loop fuel s1 d1) = fst (write_loop fuel s2 d2) /\ tls_alike (snd (write_loop fuel s1 d1)) (snd (write_loop fuel s2 d2)).
Proof.
  induction fuel as [|f IH]; intros s1 s2 d1 d2 A S; destruct d1 as [|a1 d1], d2 as [|a2 d2]; cbn [write_loop fst snd];
    try (rewrite size_cons in S; unfold size in S; cbn in S; lia); auto.
  revert S. generalize (a1 :: d1), (a2 :: d2). clear a1 d1 a2 d2. intros d1 d2 S.
  assert (PA : tls_alike (pop_sched s1) (pop_sched s2)).
  { destruct A as (I & O & C). unfold tls_alike, pop_sched. cbn [tls_in tls_out tls_sched]. rewrite C. auto. }
  destruct A as (I & O & C). unfold bio_write. rewrite C, S.
  destruct (tls_sched s2) as [|[c|] sc]; [cbn [fst snd]; auto| |cbn [fst snd]; auto].
  destruct (to_positive_int (size d2)) as [k|]; [|cbn [fst snd]; auto]. apply IH.
  - split; [exact I|]. split; [|reflexivity]. cbn [tls_out]. rewrite !size_app, O. f_equal. unfold size in *. rewrite !firstn_length. lia.
  - unfold size in *. rewrite !skipn_length. lia.
Qed.

Lemma ssl_write_alike : forall s1 s2 d1 d2, tls_alike s1 s2 -> size d1 = size d2 ->
  fst (ssl_write s1 d1) = fst (ssl_write s2 d2) /\ tls_alike (snd (ssl_write s1 d1)) (snd (ssl_write s2 d2)).
Proof. intros s1 s2 d1 d2 A S. unfold ssl_write. replace (length d2) with (length d1) by (unfold size in S; lia). apply write_alike; assumption. Qed.

Definition client_alike (c1 c2 : client) : Prop :=
  tls_alike (c_tls c1) (c_tls c2) /\ c_req c1 = c_req c2 /\ c_resp c1 = c_resp c2.

Lemma request_alike : forall host c1 c2 q1 q2, client_alike c1 c2 -> alike_requests q1 q2 ->
  Forall (unknown (c_req c1)) (q_block q1) -> Forall (unknown (c_req c1)) (q_block q2) ->
  fst (perform host c1 q1) = fst (perform host c2 q2) /\ client_alike (snd (perform host c1 q1)) (snd (perform host c2 q2)).
Proof.
  intros host c1 c2 q1 q2 (T & RQ & RS) (F & S & M & P & X & D & W & B) U1 U2.
  unfold perform, get_request_dynamic_table. rewrite <- F, <- S, <- M, <- P, <- X, <- D, <- W, <- RQ. unfold mk_headers.
  set (p1 := headers_construct_payload (q_flags q1) (q_block q1) _ _ _ _).
  set (p2 := headers_construct_payload (q_flags q1) (q_block q2) _ _ _ _).
  assert (A : as_long p1 p2).
  { subst p1 p2. unfold headers_construct_payload. cbv zeta. apply as_long_bind. intros pr _. apply as_long_app; [apply block_alike; assumption|].
    intros x y Z. cbn [as_long]. eexists. split; [reflexivity|]. rewrite !size_app, Z. reflexivity. }
  clearbody p1 p2. destruct p1 as [e1|x|u|]; cbn [as_long] in A; try (subst p2; cbn [bind fst snd]; unfold client_alike; auto; fail).
  destruct A as (e2 & -> & Z). cbn [bind]. unfold send_frame, serialize. cbn [payload_bytes bind frame_fh]. rewrite <- Z.
  set (h := serialize_fh host _). unfold send_raw_data.
  destruct (ssl_write_alike (c_tls c1) (c_tls c2) (h ++ e1) (h ++ e2) T ltac:(rewrite !size_app, Z; reflexivity)) as [R T'].
  destruct (ssl_write (c_tls c1) (h ++ e1)) as [r1 s1]. destruct (ssl_write (c_tls c2) (h ++ e2)) as [r2 s2]. cbn [fst snd] in R, T'. subst r2.
  destruct r1 as [[]|x|u|]; cbn [fst snd]; try (split; [reflexivity|]; unfold client_alike, set_tls; cbn [c_tls c_req c_resp]; auto; fail).
  unfold update_request_dynamic_table, set_tls. cbn [c_req c_tls c_resp]. rewrite <- RQ, (update_alike _ _ _ B (c_req c1)).
  destruct (update_block (c_req c1) (q_block q2)) as [r t]. cbn [fst snd]. split; [reflexivity|]. unfold client_alike; cbn [c_tls c_req c_resp]. auto.
Qed.

(* ---- C120 ---- *)

Lemma perform_all_alike : forall host qs1 qs2, Forall2 alike_requests qs1 qs2 -> forall c1 c2, client_alike c1 c2 ->
  secrets_unknown (dt_entries (c_req c1)) qs1 -> secrets_unknown (dt_entries (c_req c1)) qs2 ->
  fst (perform_all host c1 qs1) = fst (perform_all host c2 qs2) /\ client_alike (snd (perform_all host c1 qs1)) (snd (perform_all host c2 qs2)).
Proof.
  intros host qs1 qs2 A. induction A as [|q1 q2 qs1 qs2 Q A IH]; intros c1 c2 CA K1 K2; cbn [perform_all]; [auto|].
  assert (U : forall qs q, In q qs -> secrets_unknown (dt_entries (c_req c1)) qs -> Forall (unknown (c_req c1)) (q_block q)).
  { intros qs q I K. apply Forall_forall. intros e J p h -> P [T|T]; destruct (K q p h I J P) as (S & D & _); contradiction. }
  destruct (request_alike host c1 c2 q1 q2 CA Q (U (q1 :: qs1) q1 (or_introl eq_refl) K1) (U (q2 :: qs2) q2 (or_introl eq_refl) K2)) as [R C]. clear U.
  assert (N : forall q qs c r c', perform host c q = (r, c') ->
      secrets_unknown (dt_entries (c_req c)) (q :: qs) -> secrets_unknown (dt_entries (c_req c')) qs).
  { intros q qs c r c' P K q' p h I J KO. destruct (K q' p h (or_intror I) J KO) as (S & D & NI). split; [exact S|]. split.
    - intros X. destruct (perform_sub _ _ _ _ _ P h X) as [Y|Y]; [exact (D Y)|]. exact (NI q (or_introl eq_refl) Y).
    - intros q'' I'' J''. exact (NI q'' (or_intror I'') J''). }
  destruct (perform host c1 q1) as [r1 c1'] eqn:P1. destruct (perform host c2 q2) as [r2 c2'] eqn:P2. cbn [fst snd] in R, C. subst r2.
  destruct r1 as [[]|x|u|]; cbn [fst snd]; auto.
  assert (E : c_req c1' = c_req c2') by (destruct C as (_ & C & _); exact C).
  apply IH; [exact C| |].
  - exact (N q1 qs1 c1 _ _ P1 K1).
  - rewrite E. apply (N q2 qs2 c2 _ _ P2). replace (c_req c2) with (c_req c1) by (destruct CA as (_ & CA & _); exact CA). exact K2.
Qed.

(* Whatever becomes of the requests (r1 is any outcome), for every behaviour of the
   TLS layer: values that take the same room cannot be told apart by the number of
   octets sent, by what becomes of the calls or by the tables that are left. *)
Theorem C120_sizes_partial : forall host qs1 qs2 c r1 c1 r2 c2, Forall2 alike_requests qs1 qs2 ->
  secrets_unknown (dt_entries (c_req c)) qs1 -> secrets_unknown (dt_entries (c_req c)) qs2 ->
  perform_all host c qs1 = (r1, c1) -> perform_all host c qs2 = (r2, c2) ->
  r1 = r2 /\ size (tls_out (c_tls c1)) = size (tls_out (c_tls c2)) /\ tls_sched (c_tls c1) = tls_sched (c_tls c2) /\ c_req c1 = c_req c2.
Proof.
  intros host qs1 qs2 c r1 c1 r2 c2 A K1 K2 P1 P2. assert (CA : client_alike c c) by (unfold client_alike, tls_alike; auto).
  destruct (perform_all_alike host qs1 qs2 A c c CA K1 K2) as [R C]. rewrite P1, P2 in R, C. cbn [fst snd] in R, C.
  destruct C as ((_ & O & S) & Q & _). auto.
Qed.

Lemma sizes_apart : forall a b, a <> b -> size (encode_integer_value 7 a) + a <> size (encode_integer_value 7 b) + b.
Proof.
  intros a b N. destruct (N.lt_ge_cases a b) as [L|L].
  - pose proof (encode_integer_mono 7 a b ltac:(lia)). lia.
  - pose proof (encode_integer_mono 7 b a L). lia.
Qed.

(* Only then: the length of a header in no table tells the room of its value, for
   every representation, and nothing else about it. *)
Theorem C120_room_exact : forall p name v1 v2 mode t x1 x2, p <> SizeUpdate -> is_octets v1 -> is_octets v2 ->
  ~ in_tables t (name, v1) -> ~ in_tables t (name, v2) ->
  encode_header (HEntry p (EHeader (name, v1))) mode t = Ok x1 -> encode_header (HEntry p (EHeader (name, v2))) mode t = Ok x2 ->
  (size x1 = size x2 <-> room mode v1 = room mode v2).
Proof.
  intros p name v1 v2 mode t x1 x2 P O1 O2 N1 N2 E1 E2. rewrite literal_encoding in E1, E2 by assumption.
  assert (V : forall a b, encode_header_value v1 mode = Ok a -> encode_header_value v2 mode = Ok b -> (size a = size b <-> room mode v1 = room mode v2)).
  { intros a b A B. rewrite (string_size mode v1 a O1 A), (string_size mode v2 b O2 B). split; [|intros ->; reflexivity].
    intros S. destruct (N.eq_dec (room mode v1) (room mode v2)) as [E|E]; [exact E|]. destruct (sizes_apart _ _ E S). }
  destruct (reverse_static_find (name, [])) as [i|].
  - apply bind_ok in E1. destruct E1 as (ix & X & E1). apply bind_ok in E1. destruct E1 as (a & A & E1). apply Ok_inj in E1. subst x1.
    rewrite X in E2. cbn [bind] in E2. apply bind_ok in E2. destruct E2 as (b & B & E2). apply Ok_inj in E2. subst x2.
    rewrite !size_app, <- (V a b A B). lia.
  - apply bind_ok in E1. destruct E1 as (ix & X & E1). apply bind_ok in E1. destruct E1 as (n & NM & E1). apply bind_ok in E1. destruct E1 as (a & A & E1). apply Ok_inj in E1. subst x1.
    rewrite X in E2. cbn [bind] in E2. rewrite NM in E2. cbn [bind] in E2. apply bind_ok in E2. destruct E2 as (b & B & E2). apply Ok_inj in E2. subst x2.
    rewrite !size_app, <- (V a b A B). lia.
Qed.

(* A length beyond that of every value in a list. *)
Lemma beyond_all : forall l : list field, exists n, 3 < n /\ forall h, In h l -> size (snd h) < n.
Proof.
  induction l as [|a l (n & G & IH)]; [exists 4; split; [lia|intros h []]|]. exists (n + size (snd a) + 1). split; [lia|].
  intros h [->|I]; [lia|]. specialize (IH h I). lia.
Qed.

(* What a request adds to its header block: frame header, padding, priority. *)
Definition extra (q : request) : N :=
  9 + (if is_flag_set (q_flags q) F_PADDED then 1 + size (q_padding q) else 0) + (if is_flag_set (q_flags q) F_PRIORITY then 5 else 0).

Lemma perform_size : forall host c q c', perform host c q = (Ok tt, c') ->
  exists enc, encode_block (q_block q) (q_mode q) (c_req c) = Ok enc /\ size (tls_out (c_tls c')) = size (tls_out (c_tls c)) + extra q + size enc /\
    update_block (c_req c) (q_block q) = (Ok tt, c_req c').
Proof.
  intros host c q c' P. unfold perform, get_request_dynamic_table, mk_headers in P.
  destruct (headers_construct_payload (q_flags q) (q_block q) (q_mode q) (c_req c) (q_padding q) _) as [e|x|u|] eqn:H; cbn [bind] in P; try discriminate P.
  destruct (send_frame host c _) as [r c1] eqn:S. destruct r as [[]|x|u|]; try discriminate P.
  assert (SR : serialize host (HeadersFrame e (FH (cast_to_fh_length (size e)) T_HEADERS (q_flags q) 0 (q_stream q)) (q_padding q)
    (Prio (q_exclusive q) (q_dependency q) (q_weight q)) (q_block q)) =
    Ok (serialize_fh host (FH (cast_to_fh_length (size e)) T_HEADERS (q_flags q) 0 (q_stream q)) ++ e)) by reflexivity.
  destruct (sent_ok host c _ _ c1 SR S) as [O Q]. clear SR S.
  unfold headers_construct_payload in H. cbv zeta in H. apply bind_ok in H. destruct H as (pr & PR & H). apply bind_ok in H. destruct H as (enc & E & H).
  apply Ok_inj in H. exists enc. split; [exact E|].
  unfold update_request_dynamic_table in P. rewrite Q in P. destruct (update_block (c_req c) (q_block q)) as [r t] eqn:U.
  apply pair_inj in P. destruct P as [-> <-]. cbn [c_req c_tls]. split; [|reflexivity].
  assert (L : size pr = if is_flag_set (q_flags q) F_PRIORITY then 5 else 0).
  { destruct (is_flag_set (q_flags q) F_PRIORITY).
    - apply bind_ok in PR. destruct PR as (x & _ & PR). apply Ok_inj in PR. subst pr. rewrite size_app, integral2bytes_size. reflexivity.
    - apply Ok_inj in PR. subst pr. reflexivity. }
  rewrite O, size_app, size_app, serialize_fh_size, <- H, !size_app, L. unfold extra.
  destruct (is_flag_set (q_flags q) F_PADDED); unfold size; cbn [length]; lia.
Qed.

Lemma block_one : forall e mode t, encode_block [e] mode t = encode_header e mode t.
Proof.
  intros e mode t. cbn [encode_block]. destruct (encode_header e mode t) as [x|x|u|]; cbn [bind]; try reflexivity. rewrite app_nil_r. reflexivity.
Qed.

Lemma bits_repeat : forall b n, code_bits (repeat b n) = rfc_code_length b * N.of_nat n.
Proof. intros b n. induction n as [|n IH]; [cbn; lia|]. cbn [repeat code_bits fold_right]. fold (code_bits (repeat b n)). rewrite IH. lia. Qed.

(* With Huffman coding the number of octets tells values of the same length apart: for
   every client, name, representation and form of the request. *)
Theorem C120_huffman_refuted : forall host c p name flags stream padding ex dep w, p <> SizeUpdate ->
  exists v1 v2, is_octets v1 /\ is_octets v2 /\ size v1 = size v2 /\ ~ in_tables (c_req c) (name, v1) /\ ~ in_tables (c_req c) (name, v2) /\
  let request v := Request flags stream [HEntry p (EHeader (name, v))] ModeHuffman padding ex dep w in
  forall c1 c2, perform host c (request v1) = (Ok tt, c1) -> perform host c (request v2) = (Ok tt, c2) ->
    size (tls_out (c_tls c1)) <> size (tls_out (c_tls c2)).
Proof.
  intros host c p name flags stream padding ex dep w P.
  destruct (beyond_all (map snd static_table_entries ++ dt_entries (c_req c))) as (n & G & B).
  assert (NT : forall b, ~ in_tables (c_req c) (name, repeat b (N.to_nat n))).
  { intros b I. assert (J : size (snd (name, repeat b (N.to_nat n))) < n) by (apply B; apply in_or_app; destruct I as [[I _]|I]; [left|right]; exact I).
    cbn [snd] in J. unfold size in J. rewrite repeat_length in J. lia. }
  assert (OC : forall b k, b < 256 -> is_octets (repeat b k)) by (intros b k L x I; apply repeat_spec in I; subst x; exact L).
  clear B. exists (repeat 48 (N.to_nat n)), (repeat 38 (N.to_nat n)).
  split; [apply OC; lia|]. split; [apply OC; lia|]. split; [unfold size; rewrite !repeat_length; reflexivity|]. split; [apply NT|]. split; [apply NT|].
  cbv zeta. intros c1 c2 P1 P2 S.
  destruct (perform_size _ _ _ _ P1) as (e1 & E1 & S1 & _). destruct (perform_size _ _ _ _ P2) as (e2 & E2 & S2 & _).
  cbn [q_block q_mode] in E1, E2. rewrite block_one in E1, E2. unfold extra in S1, S2. cbn [q_flags q_padding] in S1, S2.
  assert (R : room ModeHuffman (repeat 48 (N.to_nat n)) = room ModeHuffman (repeat 38 (N.to_nat n))).
  { apply (C120_room_exact p name _ _ ModeHuffman (c_req c) e1 e2); auto; try (apply OC; lia). lia. }
  cbn [room] in R. rewrite !bits_repeat in R. change (rfc_code_length 48) with 5 in R. change (rfc_code_length 38) with 8 in R. lia.
Qed.

(* A header that is never indexed is written as an index if an earlier header with the
   same name and value is in the table.  So somebody who can make the client send a
   header of the same name with incremental indexing and can count octets finds out
   whether they have guessed the value: for every client, name, value and guess. *)
Theorem C120_guess_refuted : forall host c name secret guess mode1 flags1 stream1 padding1 ex1 dep1 w1 p mode flags stream padding ex dep w c1 c2,
  kept_out p -> ~ in_tables (c_req c) (name, secret) ->
  perform host c (Request flags1 stream1 [HEntry IncrementalIndexing (EHeader (name, guess))] mode1 padding1 ex1 dep1 w1) = (Ok tt, c1) ->
  let q := Request flags stream [HEntry p (EHeader (name, secret))] mode padding ex dep w in perform host c1 q = (Ok tt, c2) ->
  (guess = secret <-> size (tls_out (c_tls c2)) = size (tls_out (c_tls c1)) + extra q + 1).
Proof.
  intros host c name secret guess mode1 flags1 stream1 padding1 ex1 dep1 w1 p mode flags stream padding ex dep w c1 c2 KO NT P1 q P2.
  assert (NS : p <> SizeUpdate) by (destruct KO; subst p; discriminate).
  destruct (perform_size _ _ _ _ P1) as (e1 & _ & _ & U). cbn [q_block update_block] in U.
  destruct (perform_size _ _ _ _ P2) as (e2 & E2 & S2 & _). subst q. cbn [q_block q_mode] in E2. rewrite block_one in E2. rewrite S2. clear S2 P1 P2.
  assert (T : exists rest, dt_entries (c_req c1) = (name, guess) :: rest /\ (forall h, In h rest -> In h (dt_entries (c_req c)))).
  { cbn [update_entry e_prefix get_header e_content bind] in U. unfold dt_push in U.
    destruct (resize_table (dt_entries (c_req c)) (dt_size (c_req c) + entry_size (name, guess)) (dt_max (c_req c))) as [[es sz]|x|u|] eqn:R; cbn [bind] in U; try discriminate U.
    apply pair_inj in U. destruct U as [_ <-]. exists es. split; [reflexivity|]. intros h. eapply resize_table_sub; exact R. }
  destruct T as (rest & T & SUB). split.
  - intros ->. assert (size e2 = 1); [|lia]. unfold encode_header in E2. cbn [e_prefix get_header e_content bind fst snd] in E2.
    replace (hprefix_eqb p SizeUpdate) with false in E2 by (destruct KO; subst p; reflexivity).
    assert (SF : match reverse_static_find (name, secret) with Some i => if 0 <? size secret then Some i else None | None => None end = None).
    { destruct (reverse_static_find (name, secret)) as [i|] eqn:F; [|reflexivity]. destruct (N.ltb_spec 0 (size secret)) as [L|L]; [|reflexivity].
      exfalso. apply NT. left. split; [apply in_static; eauto|]. intros Z. cbn [snd] in Z. subst secret. unfold size in L. cbn in L. lia. }
    rewrite SF, T in E2. cbn [find_index] in E2. rewrite header_eqb_refl in E2. apply or_first_size in E2. rewrite E2, static_size. vm_compute. reflexivity.
  - intros S. assert (L : size e2 = 1) by lia. clear S.
    destruct (list_eq_dec N.eq_dec guess secret) as [E|E]; [exact E|]. exfalso.
    assert (NT1 : ~ in_tables (c_req c1) (name, secret)).
    { intros [I|I]; [apply NT; left; exact I|]. rewrite T in I. destruct I as [I|I]; [apply E; congruence|]. apply NT. right. exact (SUB _ I). }
    rewrite (literal_encoding p name secret mode _ NS NT1) in E2.
    assert (X : forall v x, encode_string v mode = Ok x -> 1 <= size x).
    { intros v x H. unfold encode_string in H. apply bind_ok in H. destruct H as (en & _ & H). apply bind_ok in H. destruct H as (l & LL & H). apply Ok_inj in H. subst x.
      apply or_first_size in LL. rewrite size_app. pose proof (encode_integer_pos 7 (size en)). lia. }
    assert (Y : forall i x, encode_index i p = Ok x -> 1 <= size x).
    { intros i x H. destruct KO; subst p; cbn [encode_index] in H; apply or_first_size in H; rewrite H; apply encode_integer_pos. }
    destruct (reverse_static_find (name, [])) as [i|].
    + apply bind_ok in E2. destruct E2 as (ix & IX & E2). apply bind_ok in E2. destruct E2 as (a & A & E2). apply Ok_inj in E2. subst e2.
      rewrite size_app in L. apply X in A. apply Y in IX. lia.
    + apply bind_ok in E2. destruct E2 as (ix & IX & E2). apply bind_ok in E2. destruct E2 as (nm & _ & E2). apply bind_ok in E2. destruct E2 as (a & A & E2). apply Ok_inj in E2. subst e2.
      rewrite !size_app in L. apply X in A. apply Y in IX. lia.
Qed.

(* a request without padding and priority, in plain coding *)
Definition plainly (stream : N) (b : header_block) : request := Request 5 stream b ModeNone [] 0 0 0.

Example C120_case :
  let c := new_client (Tls [] [] (repeat (Chunk 100) 9)) in
  let name := octets "authorization" in
  let q v := plainly 1 [HEntry IncrementalIndexing (EHeader (octets "a", octets "b")); HEntry NeverIndexed (EHeader (name, v))] in
  let secret := octets "Basic eA==" in let other := octets "Basic eQ==" in
  Forall2 alike_requests [q secret; q secret] [q other; q secret] /\
  secrets_unknown (dt_entries (c_req c)) [q secret; q secret] /\ secrets_unknown (dt_entries (c_req c)) [q other; q secret] /\
  (exists c1, perform_all LittleEndian c [q secret; q secret] = (Ok tt, c1) /\ size (tls_out (c_tls c1)) = 50) /\
  (exists c1 c2, perform LittleEndian c (plainly 1 [HEntry IncrementalIndexing (EHeader (name, secret))]) = (Ok tt, c1) /\
     perform LittleEndian c1 (plainly 3 [HEntry NeverIndexed (EHeader (name, secret))]) = (Ok tt, c2) /\
     size (tls_out (c_tls c2)) = size (tls_out (c_tls c1)) + 10) /\
  room ModeHuffman (octets "00000000") = 5 /\ room ModeHuffman (octets "&&&&&&&&") = 8.
Proof.
  cbv zeta. assert (O : forall p : string, is_octets (octets p)) by (intros p b I; apply in_map_iff in I; destruct I as (a & <- & _); apply N_ascii_bounded).
  assert (A : forall v1 v2 : string, size (octets v1) = size (octets v2) -> forall e1,
    alike_requests (plainly 1 [e1; HEntry NeverIndexed (EHeader (octets "authorization", octets v1))]) (plainly 1 [e1; HEntry NeverIndexed (EHeader (octets "authorization", octets v2))])).
  { intros v1 v2 S e1. repeat (split; [reflexivity|]). apply Forall2_cons; [apply alike_same|]. apply Forall2_cons; [|apply Forall2_nil].
    apply alike_secret; [right; reflexivity|apply O|apply O|exact S]. }
  assert (K : forall v1 v2 : string, ~ In (octets "authorization", octets v1) (map snd static_table_entries) -> ~ In (octets "authorization", octets v2) (map snd static_table_entries) ->
    secrets_unknown [] [plainly 1 [HEntry IncrementalIndexing (EHeader (octets "a", octets "b")); HEntry NeverIndexed (EHeader (octets "authorization", octets v1))];
                        plainly 1 [HEntry IncrementalIndexing (EHeader (octets "a", octets "b")); HEntry NeverIndexed (EHeader (octets "authorization", octets v2))]]).
  { intros v1 v2 S1 S2 q p h I J KO.
    assert (H : h = (octets "authorization", octets v1) \/ h = (octets "authorization", octets v2)).
    { destruct I as [<-|[<-|[]]]; destruct J as [J|[J|[]]]; injection J as <- <-; auto; destruct KO as [KO|KO]; discriminate KO. }
    split; [destruct H as [-> | ->]; intros [X _]; contradiction|]. split; [intros []|].
    intros q' [<-|[<-|[]]] [E|[E|[]]]; destruct H as [-> | ->]; discriminate E. }
  split; [apply Forall2_cons; [apply A; reflexivity|apply Forall2_cons; [apply A; reflexivity|apply Forall2_nil]]|].
  assert (S1 : ~ In (octets "authorization", octets "Basic eA==") (map snd static_table_entries)) by (intros I; revert I; vm_compute; intuition discriminate).
  assert (S2 : ~ In (octets "authorization", octets "Basic eQ==") (map snd static_table_entries)) by (intros I; revert I; vm_compute; intuition discriminate).
  split; [apply K; assumption|]. split; [apply K; assumption|].
  split; [eexists; split; vm_compute; reflexivity|]. split; [do 2 eexists; split; [vm_compute; reflexivity|split; vm_compute; reflexivity]|].
  split; vm_compute; reflexivity.
Qed.

Print Assumptions C120_sizes_partial.
Print Assumptions C120_room_exact.
Print Assumptions C120_huffman_refuted.
Print Assumptions C120_guess_refuted.
