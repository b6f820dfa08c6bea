(* Property C78: a whole session between two instances of the library. *)
From Coq Require Import Ascii String.
From Coq Require Import ZArith NArith List Bool Lia ZifyBool ZifyNat ZifyN Sorted.
From Verif Require Import Base Arith Util StaticTable HeaderType DynTable HeaderEnc HeaderDec FrameHeader Frames FrameBuilder Ssl Client
  SpecBits SpecHpack SpecFrame UtilProofs DynTableProofs StaticProofs HeaderProofs HeaderProofs2 FrameProofs BlockProofs HistoryProofs
  PropHeader PropFrame PropBlock PropSsl PropClient PropHistory PropRequest PropPeer.
Import ListNotations.
Local Open Scope string_scope.
Local Open Scope list_scope.
Local Open Scope N_scope.
Ltac Zify.zify_post_hook ::= Z.div_mod_to_equations.

(* What the first instance does: send a frame without a header block, make a
   request (send HEADERS, then update_request_dynamic_table), change the table
   size the way the sample does: send SETTINGS with SETTINGS_HEADER_TABLE_SIZE (1),
   then update_request_table_size; or send CONTINUATION or PUSH_PROMISE, then
   update_request_dynamic_table. *)
Inductive action :=
| Frame (f : frame)
| Ask (q : request)
| Resize (flags stream : N) (params : list (N * N)) (n : N)
| Continue (flags stream : N) (b : header_block) (mode : encode_mode)
| Promise (flags stream : N) (p : push_promise_payload) (mode : encode_mode).

(* Send the frame if it could be built, then report its block. *)
Definition send_block (host : endian) (c : client) (made : res frame) (b : header_block) : res unit * client :=
  match made with
  | Ok f =>
      let '(r, c1) := send_frame host c f in
      match r with Ok _ => update_request_dynamic_table c1 b | _ => (r, c1) end
  | Throw x => (Throw x, c)
  | UB u => (UB u, c)
  | NoFuel => (NoFuel, c)
  end.

Definition act (host : endian) (c : client) (a : action) : res unit * client :=
  match a with
  | Frame f => send_frame host c f
  | Ask q => perform host c q
  | Resize flags stream params n =>
      let '(r, c1) := send_frame host c (mk_settings flags stream params) in
      match r with Ok _ => update_request_table_size c1 n | _ => (r, c1) end
  | Continue flags stream b mode =>
      send_block host c (mk_continuation flags stream b mode (get_request_dynamic_table c)) b
  | Promise flags stream p mode =>
      send_block host c (mk_push_promise host flags stream p mode (get_request_dynamic_table c)) (pp_block p)
  end.

Fixpoint act_all (host : endian) (c : client) (l : list action) : res unit * client :=
  match l with
  | [] => (Ok tt, c)
  | a :: l' => let '(r, c') := act host c a in match r with Ok _ => act_all host c' l' | _ => (r, c') end
  end.

(* Frames without a header block from the public constructors, arguments within
   the ranges of their fields. *)
Inductive simple_frame : frame -> Prop :=
| simple_data : forall flags sid payload, flags < 2 ^ 8 -> sid < 2 ^ 31 -> size payload < 2 ^ 24 -> is_octets payload ->
    simple_frame (mk_data flags sid payload)
| simple_priority : forall sid e dep w f, sid < 2 ^ 31 -> e < 2 -> dep < 2 ^ 31 -> w < 2 ^ 8 ->
    mk_priority sid (Prio e dep w) = Ok f -> simple_frame f
| simple_rst_stream : forall sid code, sid < 2 ^ 31 -> code < 2 ^ 32 -> simple_frame (mk_rst_stream sid code)
| simple_settings : forall flags sid params, flags < 2 ^ 8 -> sid < 2 ^ 31 -> std_map params -> ~ In 1 (map fst params) ->
    simple_frame (mk_settings flags sid params)
| simple_ping : forall flags d f, flags < 2 ^ 8 -> is_octets d -> mk_ping flags d = Ok f -> simple_frame f
| simple_goaway : forall r last code debug, r < 2 -> last < 2 ^ 31 -> code < 2 ^ 32 -> 8 + size debug < 2 ^ 24 ->
    is_octets debug -> simple_frame (mk_goaway (Goaway r last code debug))
| simple_window_update : forall sid r inc f, sid < 2 ^ 31 -> r < 2 -> inc < 2 ^ 31 ->
    mk_window_update sid r inc = Ok f -> simple_frame f.

(* Blocks as in C71: entries that can be encoded and read back, insertions that
   fit, and none of a header that is already in a table. *)
Definition block_ok (m : ub_mode) (t : table) (b : header_block) : Prop :=
  Forall (sendable m (of_table t)) b /\ size (t_entries t) < 2 ^ 30 /\ inserts_fit (t_max t) b /\
  forall h, In (HEntry IncrementalIndexing (EHeader h)) b -> ~ in_tables (of_table t) h.

Definition action_ok (m : ub_mode) (t : table) (a : action) : Prop :=
  match a with
  | Frame f => simple_frame f
  | Ask q => peer_request m t q
  | Resize flags stream params n => flags < 2 ^ 8 /\ stream < 2 ^ 31 /\ std_map params /\ In (1, n) params
  | Continue flags stream b mode =>
      flags < 2 ^ 8 /\ stream < 2 ^ 31 /\ block_ok m t b /\
      forall raw, encode_block b mode (of_table t) = Ok raw -> size raw < 2 ^ 24
  | Promise flags stream (PushPromise r promised b padding) mode =>
      flags < 2 ^ 8 /\ stream < 2 ^ 31 /\ r < 2 /\ promised < 2 ^ 31 /\ size padding <= 255 /\ is_octets padding /\
      block_ok m t b /\
      forall raw, encode_block b mode (of_table t) = Ok raw -> size (push_promise_octets flags r promised raw padding) < 2 ^ 24
  end.

Definition table_then (t : table) (a : action) : table :=
  match a with
  | Frame _ => t
  | Ask q => table_after t (q_block q)
  | Resize _ _ _ n => resize t n
  | Continue _ _ b _ => table_after t b
  | Promise _ _ p _ => table_after t (pp_block p)
  end.

Fixpoint actions_ok (m : ub_mode) (t : table) (l : list action) : Prop :=
  match l with
  | [] => True
  | a :: l' => action_ok m t a /\ actions_ok m (table_then t a) l'
  end.

(* What the second instance gets for it: the same frame. *)
Definition got (a : action) (r : res frame) : Prop :=
  match a with
  | Frame f => r = Ok f
  | Ask q => delivered q r
  | Resize flags stream params _ => r = Ok (mk_settings flags stream params)
  | Continue flags stream b _ =>
      exists encoded len b', r = Ok (ContinuationFrame encoded (FH len CONTINUATION flags 0 stream) b') /\
        fields_of b' = fields_of b
  | Promise flags stream (PushPromise reserved promised b padding) _ =>
      exists encoded len b',
        r = Ok (PushPromiseFrame encoded (FH len PUSH_PROMISE flags 0 stream)
                  (PushPromise reserved promised b' (if has_padded flags then padding else []))) /\
        fields_of b' = fields_of b
  end.

Lemma reads_back_wire : forall m t w f, wframe_ok w -> reads_back m t (wire w) f ->
  build_frame m (header_of w) (w_payload w) t = Ok f.
Proof.
  intros m t w f W (head & payload & h & E & S & H & L & B). destruct (wire_split w W) as (head' & E' & S' & H').
  rewrite E' in E. assert (X : length head' = length head) by (unfold size in *; lia).
  apply app_split in E; [|exact X]. destruct E as [<- <-]. rewrite H' in H. apply Ok_inj in H. subst h. exact B.
Qed.

Lemma be_is_octets : forall k x, is_octets (be_octets k x).
Proof. intros. apply wf_octets, be_octets_wf. Qed.

Lemma app_octets : forall a b, is_octets a -> is_octets b -> is_octets (a ++ b).
Proof. intros a b A B x I. apply in_app_or in I. destruct I as [I|I]; auto. Qed.

Lemma settings_is_octets : forall params, is_octets (settings_octets params).
Proof.
  intros params x I. unfold settings_octets in I. apply in_flat_map in I. destruct I as (p & _ & I).
  exact (app_octets _ _ (be_is_octets _ _) (be_is_octets _ _) x I).
Qed.

Lemma settings_frame_wire : forall host m t flags sid params, flags < 2 ^ 8 -> sid < 2 ^ 31 -> std_map params ->
  let w := WFrame SETTINGS flags 0 sid (settings_octets params) in
  wframe_ok w /\ serialize host (mk_settings flags sid params) = Ok (wire w) /\
  build_frame m (header_of w) (w_payload w) t = Ok (mk_settings flags sid params).
Proof.
  intros host m t flags sid params F S P w.
  assert (W : wframe_ok w).
  { split; [reflexivity|]. split; [exact F|]. split; [reflexivity|]. split; [exact S|]. split; [apply settings_is_octets|].
    destruct P as [O P]. pose proof (settings_map_size params O P) as B. cbn [w w_payload]. rewrite settings_size.
    change (2 ^ 16) with 65536 in B. change (2 ^ 24) with 16777216. lia. }
  destruct (C38_settings_roundtrip host m t flags sid params F S P) as [Z R].
  split; [exact W|]. split; [exact Z|]. apply reads_back_wire; assumption.
Qed.

Lemma simple_wire : forall host m t f, simple_frame f -> exists w, wframe_ok w /\ serialize host f = Ok (wire w) /\
  build_frame m (header_of w) (w_payload w) t = Ok f /\ update_frame t f = (Ok tt, t).
Proof.
  assert (U : forall t f, fh_type (frame_fh f) <> T_HEADERS -> fh_type (frame_fh f) <> T_PUSH_PROMISE ->
    fh_type (frame_fh f) <> T_CONTINUATION -> fh_type (frame_fh f) <> T_SETTINGS -> update_frame t f = (Ok tt, t)).
  { intros t f A B C D. unfold update_frame. apply N.eqb_neq in A, B, C, D. rewrite A, B, C, D. reflexivity. }
  intros host m t f H. destruct H as [flags sid payload F S L O|sid e dep w f S E D W M|sid code S C|flags sid params F S P NI|flags d f F O M
    |r last code debug R L C Z O|sid r inc f S R I M].
  - destruct (C32_data_roundtrip host m t flags sid payload F S L) as [Z R]. exists (WFrame DATA flags 0 sid payload).
    assert (W : wframe_ok (WFrame DATA flags 0 sid payload)) by (repeat split; assumption || reflexivity).
    split; [exact W|]. split; [exact Z|]. split; [apply reads_back_wire; assumption|]. apply U; discriminate.
  - destruct (C36_priority_roundtrip host m t sid e dep w S E D W) as (f' & M' & Z & R). rewrite M in M'. apply Ok_inj in M'. subst f'.
    exists (WFrame PRIORITY 0 0 sid (priority_fields e dep w)).
    assert (K : wframe_ok (WFrame PRIORITY 0 0 sid (priority_fields e dep w))).
    { repeat split; try assumption; try reflexivity. apply app_octets; [apply be_is_octets|]. intros x [<-|[]]. exact W. }
    split; [exact K|]. split; [exact Z|]. split; [apply reads_back_wire; assumption|].
    unfold mk_priority in M. apply bind_ok in M. destruct M as (u & _ & M). apply Ok_inj in M. subst f. apply U; discriminate.
  - destruct (C35_rst_stream_roundtrip host m t sid code S C) as [Z R]. exists (WFrame RST_STREAM 0 0 sid (rst_stream_octets code)).
    assert (K : wframe_ok (WFrame RST_STREAM 0 0 sid (rst_stream_octets code))).
    { repeat split; try assumption; try reflexivity. apply be_is_octets. }
    split; [exact K|]. split; [exact Z|]. split; [apply reads_back_wire; assumption|]. apply U; discriminate.
  - destruct (settings_frame_wire host m t flags sid params F S P) as (W & Z & B). eexists. split; [exact W|]. split; [exact Z|]. split; [exact B|].
    unfold update_frame, mk_settings. cbn [frame_fh fh_type]. change (T_SETTINGS =? T_HEADERS) with false.
    change (T_SETTINGS =? T_PUSH_PROMISE) with false. change (T_SETTINGS =? T_CONTINUATION) with false.
    change (T_SETTINGS =? T_SETTINGS) with true. cbv iota.
    replace (sm_find params 1) with (@None N); [reflexivity|]. symmetry. clear -NI. induction params as [|[k v] l IH]; [reflexivity|].
    cbn [sm_find]. cbn [map fst In] in NI. destruct (N.eqb_spec 1 k) as [<-|_]; [exfalso; apply NI; left; reflexivity|]. apply IH. tauto.
  - assert (L : size d <= 8).
    { destruct (N.leb_spec (size d) 8) as [L|L]; [exact L|]. rewrite (C33_ping_too_long flags d L) in M. discriminate M. }
    destruct (C33_ping_roundtrip host m t flags d F L) as (f' & M' & zeros & ZZ & S8 & Z & R). rewrite M in M'. apply Ok_inj in M'. subst f'.
    exists (WFrame PING flags 0 0 (d ++ zeros)).
    assert (K : wframe_ok (WFrame PING flags 0 0 (d ++ zeros))).
    { repeat split; try assumption; try reflexivity.
      - apply app_octets; [exact O|]. intros x I. rewrite Forall_forall in ZZ. rewrite <- (ZZ x I). reflexivity.
      - cbn [w_payload]. rewrite S8. reflexivity. }
    split; [exact K|]. split; [exact Z|]. split; [apply reads_back_wire; assumption|].
    unfold mk_ping in M. apply bind_ok in M. destruct M as (u & _ & M). apply Ok_inj in M. subst f. apply U; discriminate.
  - destruct (C34_goaway_roundtrip host m t r last code debug R L C Z) as [Y Q]. exists (WFrame GOAWAY 0 0 0 (goaway_octets r last code debug)).
    assert (K : wframe_ok (WFrame GOAWAY 0 0 0 (goaway_octets r last code debug))).
    { repeat split; try assumption; try reflexivity.
      - unfold goaway_octets. repeat apply app_octets; try apply be_is_octets. exact O.
      - cbn [w_payload]. unfold goaway_octets. rewrite !size_app, !be_octets_size. lia. }
    split; [exact K|]. split; [exact Y|]. split; [apply reads_back_wire; assumption|]. apply U; discriminate.
  - destruct (C37_window_update_roundtrip host m t sid r inc S R I) as (f' & M' & Z & Q). rewrite M in M'. apply Ok_inj in M'. subst f'.
    exists (WFrame WINDOW_UPDATE 0 0 sid (window_update_octets r inc)).
    assert (K : wframe_ok (WFrame WINDOW_UPDATE 0 0 sid (window_update_octets r inc))).
    { repeat split; try assumption; try reflexivity. apply be_is_octets. }
    split; [exact K|]. split; [exact Z|]. split; [apply reads_back_wire; assumption|].
    unfold mk_window_update in M. apply bind_ok in M. destruct M as (u & _ & M). apply Ok_inj in M. subst f. apply U; discriminate.
Qed.

Lemma settings_value : forall params n, StronglySorted N.lt (map fst params) -> In (1, n) params -> sm_find params 1 = Some n.
Proof.
  induction params as [|[k v] l IH]; intros n O I; [destruct I|]. cbn [sm_find]. inversion O as [|? ? O1 O2]; subst.
  destruct I as [E|I]; [injection E as -> ->; reflexivity|].
  destruct (N.eqb_spec 1 k) as [<-|_]; [|apply IH; assumption].
  exfalso. rewrite Forall_forall in O2. apply (in_map fst) in I. specialize (O2 _ I). cbn in O2. lia.
Qed.

(* A frame with a header block that is read back with block b'. *)
Lemma block_step : forall host m T w f b b' (again : frame), dt_ok T -> block_ok m (rfc_table T) b -> wframe_ok w ->
  serialize host f = Ok (wire w) -> Forall2 (received T) b b' ->
  build_frame m (header_of w) (w_payload w) T = Ok again -> (forall t, update_frame t again = update_block t b') ->
  fields_of b' = fields_of b /\
  exists T', dt_ok T' /\ rfc_table T' = table_after (rfc_table T) b /\ handled m T w = (Ok again, T') /\
    forall c, c_req c = T -> send_block host c (Ok f) b = let '(r, c1) := send_raw_data c (wire w) in
      match r with Ok _ => (Ok tt, Client (c_tls c1) T' (c_resp c1)) | _ => (r, c1) end.
Proof.
  intros host m T w f b b' again K (S & _ & FI & NI) W Z R B U. rewrite (of_rfc_table _ K) in *.
  destruct (received_update T m _ _ T R S NI) as [UE FE]. split; [exact FE|].
  destruct (update_block_spec b T K FI) as (T' & UB & K' & R'). exists T'. split; [exact K'|]. split; [exact R'|]. split.
  - unfold handled. rewrite B, U, UE, UB. reflexivity.
  - intros c E. unfold send_block, send_frame. rewrite Z. unfold send_raw_data. destruct (ssl_write _ _) as [r s].
    destruct r as [[]|x|u|]; try reflexivity. unfold update_request_dynamic_table, set_tls. cbn [c_tls c_req c_resp].
    rewrite E, UB. reflexivity.
Qed.

Lemma fragment_octets : forall m T mode b raw, Forall (sendable m T) b -> size (dt_entries T) < 2 ^ 30 ->
  encode_block b mode T = Ok raw -> size raw < 2 ^ 24 -> is_octets raw.
Proof.
  intros m T mode b raw S N30 E L.
  destruct (block_roundtrip m T mode b S N30 raw E) as (W & _). { change (2 ^ 24) with 16777216 in L. change (2 ^ 31) with 2147483648. lia. }
  apply wf_octets. exact W.
Qed.

(* One action: the octets written, the frame and table at the other end. *)
Lemma action_step : forall host m T a, dt_ok T -> action_ok m (rfc_table T) a ->
  exists w T', wframe_ok w /\ size (wire w) < 2 ^ 31 /\ dt_ok T' /\ rfc_table T' = table_then (rfc_table T) a /\
    got a (fst (handled m T w)) /\ snd (handled m T w) = T' /\
    forall c, c_req c = T -> act host c a = let '(r, c1) := send_raw_data c (wire w) in
      match r with Ok _ => (Ok tt, Client (c_tls c1) T' (c_resp c1)) | _ => (r, c1) end.
Proof.
  intros host m T a K A.
  assert (LW : forall w, wframe_ok w -> size (wire w) < 2 ^ 31).
  { intros w W. rewrite (wire_size _ W). destruct W as (_ & _ & _ & _ & _ & L). change (2 ^ 24) with 16777216 in L. change (2 ^ 31) with 2147483648. lia. }
  destruct a as [f|q|flags sid params n|flags sid b mode|flags sid [r promised b padding] mode]; cbn [action_ok table_then got act] in *.
  - destruct (simple_wire host m T f A) as (w & W & Z & B & U). exists w, T.
    split; [exact W|]. split; [exact (LW w W)|]. split; [exact K|]. split; [reflexivity|].
    unfold handled. rewrite B, U. split; [reflexivity|]. split; [reflexivity|].
    intros c E. unfold send_frame. rewrite Z. unfold send_raw_data. destruct (ssl_write _ _) as [r s].
    destruct r as [[]|x|u|]; try reflexivity. unfold set_tls. cbn [c_tls c_resp]. rewrite E. reflexivity.
  - destruct (peer_step host m T q K A) as (w & T' & W & L & K' & R' & D & H & P). exists w, T'. repeat (split; [assumption|]). exact P.
  - destruct A as (F & S & P & I). destruct (settings_frame_wire host m T flags sid params F S P) as (W & Z & B).
    set (w := WFrame SETTINGS flags 0 sid (settings_octets params)) in *.
    pose proof (dt_update_spec T n K) as X. exists w. eexists.
    destruct (dt_update_ok T n _ K X) as (K' & R' & _).
    split; [exact W|]. split; [exact (LW w W)|]. split; [exact K'|]. split; [exact R'|].
    assert (H : handled m T w = (Ok (mk_settings flags sid params), DynTable (keep n (dt_entries T)) (total_size (keep n (dt_entries T))) n)).
    { unfold handled. rewrite B. unfold update_frame, mk_settings. cbn [frame_fh fh_type]. change (T_SETTINGS =? T_HEADERS) with false.
      change (T_SETTINGS =? T_PUSH_PROMISE) with false. change (T_SETTINGS =? T_CONTINUATION) with false.
      change (T_SETTINGS =? T_SETTINGS) with true. cbv iota. rewrite (settings_value params n (proj1 P) I), X. reflexivity. }
    rewrite H. split; [reflexivity|]. split; [reflexivity|].
    intros c E. unfold send_frame. rewrite Z. unfold send_raw_data. destruct (ssl_write _ _) as [r s].
    destruct r as [[]|x|u|]; try reflexivity. unfold update_request_table_size, set_tls. cbn [c_tls c_req c_resp]. rewrite E, X. reflexivity.
  - destruct A as (F & S & OK & SZ). pose proof OK as (SB & N30 & _ & _). rewrite (of_rfc_table _ K) in *.
    change (t_entries (rfc_table T)) with (dt_entries T) in N30.
    destruct (C43_continuation_roundtrip host m T flags sid b mode F S SB N30) as (f & fragment & M & E & RT).
    specialize (SZ fragment E). destruct (RT SZ) as (Z & b' & R & RB).
    set (w := WFrame CONTINUATION flags 0 sid fragment).
    assert (W : wframe_ok w).
    { repeat split; try assumption; try reflexivity. exact (fragment_octets m T mode b fragment SB N30 E SZ). }
    destruct (block_step host m T w f b b' _ K OK W Z R (reads_back_wire m T w _ W RB)) as (FE & T' & K' & R' & H & P); [reflexivity|].
    exists w, T'. split; [exact W|]. split; [exact (LW w W)|]. split; [exact K'|]. split; [exact R'|]. rewrite H. cbn [fst snd].
    split; [do 3 eexists; split; [reflexivity|exact FE]|]. split; [reflexivity|].
    intros c C. unfold get_request_dynamic_table. rewrite C, M. exact (P c C).
  - destruct A as (F & S & LR & LP & PD & OP & OK & SZ). pose proof OK as (SB & N30 & _ & _). rewrite (of_rfc_table _ K) in *.
    change (t_entries (rfc_table T)) with (dt_entries T) in N30. cbn [pp_block].
    destruct (C42_push_promise_roundtrip host m T flags sid b mode padding r promised F S PD LR LP SB N30) as (f & fragment & M & E & RT).
    cbv zeta in RT. specialize (SZ fragment E). destruct (RT SZ) as (Z & b' & R & RB).
    set (payload := push_promise_octets flags r promised fragment padding) in *.
    set (w := WFrame PUSH_PROMISE flags 0 sid payload).
    assert (SF : size fragment <= size payload).
    { unfold payload, push_promise_octets, push_promise_contents, padded_payload. destruct (has_padded flags); rewrite ?size_app; lia. }
    assert (OF : is_octets fragment).
    { apply (fragment_octets m T mode b fragment SB N30 E). change (2 ^ 24) with 16777216 in *. lia. }
    assert (W : wframe_ok w).
    { repeat split; try assumption; try reflexivity. cbn [w w_payload].
      unfold payload, push_promise_octets, push_promise_contents, padded_payload.
      destruct (has_padded flags); repeat apply app_octets; try apply be_is_octets; try assumption.
      intros x [<-|[]]. unfold size in PD. lia. }
    destruct (block_step host m T w f b b' _ K OK W Z R (reads_back_wire m T w _ W RB)) as (FE & T' & K' & R' & H & P); [reflexivity|].
    exists w, T'. split; [exact W|]. split; [exact (LW w W)|]. split; [exact K'|]. split; [exact R'|]. rewrite H. cbn [fst snd].
    split; [do 3 eexists; split; [reflexivity|exact FE]|]. split; [reflexivity|].
    intros c C. unfold get_request_dynamic_table. rewrite C, M. exact (P c C).
Qed.

(* Any number of actions, any chunking on either side. *)
Theorem C78_session_partial : forall host m l T, dt_ok T -> actions_ok m (Table (dt_max T) (dt_entries T)) l ->
  exists out T',
    (forall a, c_req a = T -> delivers (size out) (c_tls a) ->
       exists a', act_all host a l = (Ok tt, a') /\ tls_out (c_tls a') = tls_out (c_tls a) ++ out /\ c_req a' = T') /\
    (forall b rest, c_resp b = T -> tls_in (c_tls b) = out ++ rest -> delivers (size out) (c_tls b) ->
       exists rs b', receive_n m (length l) b = (rs, b') /\ tls_in (c_tls b') = rest /\ c_resp b' = T' /\
         Forall2 got l rs).
Proof.
  intros host m l. induction l as [|x l IH]; intros T K P.
  - exists [], T. split.
    + intros a A _. exists a. rewrite app_nil_r. auto.
    + intros b rest B I _. exists [], b. cbn. auto.
  - destruct P as [Q P]. destruct (action_step host m T x K Q) as (w & T1 & W & LW & K1 & R1 & DL & HT & PF).
    fold (rfc_table T) in P. rewrite <- R1 in P. destruct (IH T1 K1 P) as (out & T' & A & B).
    exists (wire w ++ out), T'. split.
    + intros a AE D. rewrite size_app in D. destruct (send_raw_more a (wire w) (size out) LW D) as (a1 & S & D1 & O1 & _).
      cbn [act_all]. rewrite (PF a AE), S.
      destruct (A (Client (c_tls a1) T1 (c_resp a1)) eq_refl D1) as (a' & X & O' & T2).
      exists a'. split; [exact X|]. cbn [c_tls] in O'. rewrite O', O1, <- app_assoc. auto.
    + intros b rest BE I D. rewrite <- app_assoc in I. rewrite size_app in D.
      destruct (receive_complete m b w _ _ W I D) as (s1 & I1 & O1 & D1 & X1).
      cbn [length receive_n]. rewrite X1, BE.
      destruct (B (Client s1 (c_req b) (snd (handled m T w))) rest HT I1 D1) as (rs & b' & X & I2 & T2 & F).
      rewrite X. eexists _, b'. split; [reflexivity|]. split; [exact I2|]. split; [exact T2|]. constructor; assumption.
Qed.

(* Whatever the sender's TLS layer does: the other end gets the first [done]
   actions, its table is the sender's, and if the sender was told of a failure
   and the connection ends there, the next receive_frame throws. *)
Theorem C78_interrupted_partial : forall host m l a r a', dt_ok (c_req a) ->
  actions_ok m (Table (dt_max (c_req a)) (dt_entries (c_req a))) l -> act_all host a l = (r, a') ->
  exists sent done, tls_out (c_tls a') = tls_out (c_tls a) ++ sent /\ (done <= length l)%nat /\
    (r = Ok tt /\ done = length l \/ r = Throw RuntimeError /\ (done < length l)%nat) /\
    forall b rest, c_resp b = c_req a -> tls_in (c_tls b) = sent ++ rest -> delivers (size sent) (c_tls b) ->
      exists rs b', receive_n m done b = (rs, b') /\ c_resp b' = c_req a' /\ Forall2 got (firstn done l) rs /\
        (r = Throw RuntimeError -> rest = [] -> exists b'', receive_frame m b' = (Throw RuntimeError, b'') /\ c_resp b'' = c_resp b').
Proof.
  intros host m l. induction l as [|x l IH]; intros a r a' K P H.
  - cbn in H. injection H as <- <-. exists [], 0%nat. rewrite app_nil_r. split; [reflexivity|]. split; [cbn; lia|]. split; [left; auto|].
    intros b rest B _ _. exists [], b. cbn. split; [reflexivity|]. split; [exact B|]. split; [constructor|discriminate].
  - destruct P as [Q P]. destruct (action_step host m (c_req a) x K Q) as (w & T1 & W & LW & K1 & R1 & DL & HT & PF).
    cbn [act_all] in H. rewrite (PF a eq_refl) in H.
    destruct (send_raw_exact a (wire w)) as (k & S). destruct (send_raw_data a (wire w)) as [r1 a1].
    destruct S as (O & _ & TQ & _ & [[-> F]|[-> KL]]).
    + rewrite F in O. fold (rfc_table (c_req a)) in P. rewrite <- R1 in P.
      destruct (IH (Client (c_tls a1) T1 (c_resp a1)) r a' K1 P H) as (sent & done & O' & L & RD & B).
      exists (wire w ++ sent), (Datatypes.S done). cbn [c_tls] in O'. rewrite O', O, <- app_assoc. split; [reflexivity|].
      split; [cbn; lia|]. split. { destruct RD as [[-> ->]|[-> X]]; [left|right]; split; try reflexivity. cbn. lia. }
      intros b rest BE I D. rewrite <- app_assoc in I. rewrite size_app in D.
      destruct (receive_complete m b w _ _ W I D) as (s1 & I1 & O1 & D1 & X1).
      cbn [receive_n firstn]. rewrite X1, BE.
      destruct (B (Client s1 (c_req b) (snd (handled m (c_req a) w))) rest HT I1 D1) as (rs & b' & X & T2 & F2 & TR).
      rewrite X. eexists _, b'. split; [reflexivity|]. split; [exact T2|]. split; [constructor; assumption|exact TR].
    + injection H as <- <-. exists (firstn k (wire w)), 0%nat. split; [exact O|]. split; [lia|]. split; [right; split; [reflexivity|cbn; lia]|].
      intros b rest BE I _. exists [], b. cbn [receive_n firstn]. split; [reflexivity|]. split; [rewrite TQ; exact BE|]. split; [constructor|].
      intros _ ->. rewrite app_nil_r in I. destruct (C49_truncated m b w k W KL I) as (b'' & X & _ & Y). exists b''. auto.
Qed.

(* SETTINGS with SETTINGS_HEADER_TABLE_SIZE alone, without update_request_table_size:
   the tables of the two ends differ, for every other size than the current one. *)
Theorem C78_settings_alone_refuted : forall host m T flags sid params n, dt_ok T ->
  flags < 2 ^ 8 -> sid < 2 ^ 31 -> std_map params -> In (1, n) params -> n <> dt_max T ->
  exists out, forall a, c_req a = T -> delivers (size out) (c_tls a) ->
    exists a', send_frame host a (mk_settings flags sid params) = (Ok tt, a') /\ tls_out (c_tls a') = tls_out (c_tls a) ++ out /\
      forall b rest, c_resp b = T -> tls_in (c_tls b) = out ++ rest -> delivers (size out) (c_tls b) ->
        exists b', receive_frame m b = (Ok (mk_settings flags sid params), b') /\ c_resp b' <> c_req a'.
Proof.
  intros host m T flags sid params n K F S P I NE.
  destruct (settings_frame_wire host m T flags sid params F S P) as (W' & Z & B).
  set (v := WFrame SETTINGS flags 0 sid (settings_octets params)) in *.
  pose proof (dt_update_spec T n K) as X.
  assert (HV : handled m T v = (Ok (mk_settings flags sid params), DynTable (keep n (dt_entries T)) (total_size (keep n (dt_entries T))) n)).
  { unfold handled. rewrite B. unfold update_frame, mk_settings. cbn [frame_fh fh_type]. change (T_SETTINGS =? T_HEADERS) with false.
    change (T_SETTINGS =? T_PUSH_PROMISE) with false. change (T_SETTINGS =? T_CONTINUATION) with false.
    change (T_SETTINGS =? T_SETTINGS) with true. cbv iota. rewrite (settings_value params n (proj1 P) I), X. reflexivity. }
  assert (LV : size (wire v) < 2 ^ 31).
  { rewrite (wire_size _ W'). destruct W' as (_ & _ & _ & _ & _ & L). change (2 ^ 24) with 16777216 in L. change (2 ^ 31) with 2147483648. lia. }
  exists (wire v). intros a AE D.
  destruct (send_raw_more a (wire v) 0 LV) as (a1 & SR & _ & O1 & TQ). { rewrite N.add_0_r. exact D. }
  exists a1. unfold send_frame. rewrite Z. split; [exact SR|]. split; [exact O1|].
  intros b rest BE IN D2. destruct (receive_complete m b v rest 0 W' IN) as (s1 & _ & _ & _ & Y). { rewrite N.add_0_r. exact D2. }
  rewrite Y, BE, HV. eexists. split; [reflexivity|]. cbn [c_resp snd]. rewrite TQ, AE. intros E. apply (f_equal dt_max) in E. exact (NE E).
Qed.

Example C78_case :
  let h := (octets "x", octets "yz") in
  let q e := Request 4 1 [e] ModeHuffman [] 0 0 0 in
  let l := [Resize 0 0 [(1, 8192); (4, 65535)] 8192; Ask (q (HEntry IncrementalIndexing (EHeader h)));
            Continue 4 1 [HEntry Indexed (EHeader h)] ModeNone; Promise 4 1 (PushPromise 0 2 [HEntry Indexed (EHeader h)] []) ModeNone;
            Frame (mk_data 1 1 [104; 105]); Frame (mk_goaway (Goaway 0 1 0 [])); Resize 0 0 [(1, 0)] 0] in
  actions_ok Strict (Table 4096 []) l /\
  (let a := act_all LittleEndian (new_client (Tls [] [] (repeat (Chunk 3) 200))) l in
   let b := receive_n Strict 7 (new_client (Tls (tls_out (c_tls (snd a))) [] (repeat (Chunk 1) 200))) in
   fst a = Ok tt /\ exists f1 f2 c p f3 f4 f5, fst b = [Ok f1; Ok f2; Ok c; Ok p; Ok f3; Ok f4; Ok f5] /\ f3 = mk_data 1 1 [104; 105] /\
     c_resp (snd b) = c_req (snd a) /\ dt_max (c_resp (snd b)) = 0).
Proof.
  cbv zeta. split.
  - assert (O : forall p : string, is_octets (octets p)) by (intros p b I; apply in_map_iff in I; destruct I as (a & <- & _); apply N_ascii_bounded).
    assert (M : forall l, forallb (fun p => (fst p <? 65536) && (snd p <? 4294967296)) l = true ->
              Forall (fun p => fst p < 2 ^ 16 /\ snd p < 2 ^ 32) l).
    { intros l H. rewrite forallb_forall in H. apply Forall_forall. intros p I. specialize (H p I).
      change (2 ^ 16) with 65536. change (2 ^ 32) with 4294967296. lia. }
    assert (BK : block_ok Strict (Table 8192 [(octets "x", octets "yz")]) [HEntry Indexed (EHeader (octets "x", octets "yz"))]).
    { split; [|split; [reflexivity|split; [exact I|intros h [E|[]]; discriminate E]]].
      constructor; [|constructor]. apply send_indexed; [apply O|apply O|]. right. left. reflexivity. }
    cbn [actions_ok action_ok]. split; [|split; [|split; [|split; [|split; [|split; [|split; [|exact I]]]]]]].
    + repeat split; try reflexivity; [|apply M; reflexivity|left; reflexivity]. repeat constructor.
    + split; [split; [eapply request_okb; [vm_compute; reflexivity|vm_compute; reflexivity]|]|].
      * split; [reflexivity|]. split; [reflexivity|]. split; [intros b []|]. split.
        { constructor; [|constructor]. apply (send_literal Strict _ Incremental); [apply O|apply O|]. right. split; discriminate. }
        split; [reflexivity|]. split; [discriminate|exact I].
      * intros h [E|[]]. injection E as <-. apply in_tablesb_false. vm_compute. reflexivity.
    + split; [reflexivity|]. split; [reflexivity|]. split; [exact BK|].
      intros raw E. vm_compute in E. injection E as <-. reflexivity.
    + split; [reflexivity|]. split; [reflexivity|]. split; [reflexivity|]. split; [reflexivity|]. split; [discriminate|].
      split; [intros b []|]. split; [exact BK|]. intros raw E. vm_compute in E. injection E as <-. reflexivity.
    + constructor; try reflexivity. intros b [<-|[<-|[]]]; reflexivity.
    + constructor; try reflexivity. intros b [].
    + repeat split; try reflexivity; [|apply M; reflexivity|left; reflexivity]. repeat constructor.
  - split; [vm_compute; reflexivity|]. eexists _, _, _, _, _, _, _. split; [vm_compute; reflexivity|]. split; [reflexivity|]. split; vm_compute; reflexivity.
Qed.

Print Assumptions C78_session_partial.
Print Assumptions C78_interrupted_partial.
Print Assumptions C78_settings_alone_refuted.
