(* Property C73: requests and responses do not interfere. *)
From Coq Require Import String.
From Coq Require Import ZArith NArith List Bool Lia ZifyBool ZifyNat ZifyN.
From Verif Require Import Base Arith Util StaticTable HeaderType DynTable HeaderEnc HeaderDec FrameHeader Frames FrameBuilder Ssl Client
  SpecBits SpecHpack SpecFrame DynTableProofs StaticProofs HeaderProofs HeaderProofs2 FrameProofs BlockProofs HistoryProofs
  PropHeader PropFrame PropBlock PropSsl PropClient PropHistory PropRequest.
Import ListNotations.
Local Open Scope string_scope.
Local Open Scope list_scope.
Local Open Scope N_scope.
Ltac Zify.zify_post_hook ::= Z.div_mod_to_equations.

(* A call on a client: the public functions, and building, sending and reporting
   a request (perform). *)
Inductive call :=
| CallRequest (q : request)
| CallSend (f : frame)
| CallRaw (data : list N)
| CallPreface
| CallUpdate (b : header_block)
| CallResize (n : N)
| CallReceive.

Definition is_receive (k : call) : bool := match k with CallReceive => true | _ => false end.

(* What a call returns; exceptions are caught and the next call is made. *)
Inductive returned := Received (r : res frame) | Returned (r : res unit).
Definition returned_receive (r : returned) : bool := match r with Received _ => true | Returned _ => false end.

Definition make_call (host : endian) (m : ub_mode) (c : client) (k : call) : returned * client :=
  let unit_call p := (Returned (fst p), snd p) in
  match k with
  | CallRequest q => unit_call (perform host c q)
  | CallSend f => unit_call (send_frame host c f)
  | CallRaw d => unit_call (send_raw_data c d)
  | CallPreface => unit_call (send_connection_preface c)
  | CallUpdate b => unit_call (update_request_dynamic_table c b)
  | CallResize n => unit_call (update_request_table_size c n)
  | CallReceive => let p := receive_frame m c in (Received (fst p), snd p)
  end.

Fixpoint make_calls (host : endian) (m : ub_mode) (c : client) (ks : list call) : list returned * client :=
  match ks with
  | [] => ([], c)
  | k :: ks' =>
      let '(r, c1) := make_call host m c k in
      let '(rs, c2) := make_calls host m c1 ks' in (r :: rs, c2)
  end.

(* The octets a call hands to the TLS layer when the request table is T, and the
   table afterwards. *)
Definition written (host : endian) (T : dyn_table) (k : call) : list N * dyn_table :=
  let octets_of r := match r with Ok d => d | _ => [] end in
  match k with
  | CallRequest q =>
      match mk_headers (q_flags q) (q_stream q) (q_block q) (q_mode q) T (q_padding q)
              (Prio (q_exclusive q) (q_dependency q) (q_weight q)) with
      | Ok f => match serialize host f with Ok d => (d, snd (update_block T (q_block q))) | _ => ([], T) end
      | _ => ([], T)
      end
  | CallSend f => (octets_of (serialize host f), T)
  | CallRaw d => (d, T)
  | CallPreface => (connection_preface, T)
  | CallUpdate b => ([], snd (update_block T b))
  | CallResize n => ([], match dt_update_size T n with Ok t => t | _ => T end)
  | CallReceive => ([], T)
  end.

Fixpoint all_written (host : endian) (T : dyn_table) (ks : list call) : list (list N) :=
  match ks with
  | [] => []
  | k :: ks' => fst (written host T k) :: all_written host (snd (written host T k)) ks'
  end.

(* What a writing call returns, given the request table. *)
Definition answer (host : endian) (T : dyn_table) (k : call) : res unit :=
  match k with
  | CallRequest q =>
      match mk_headers (q_flags q) (q_stream q) (q_block q) (q_mode q) T (q_padding q)
              (Prio (q_exclusive q) (q_dependency q) (q_weight q)) with
      | Ok f => let* _ := serialize host f in fst (update_block T (q_block q))
      | Throw x => Throw x | UB u => UB u | NoFuel => NoFuel
      end
  | CallSend f => let* _ := serialize host f in Ok tt
  | CallUpdate b => fst (update_block T b)
  | CallResize n => let* _ := dt_update_size T n in Ok tt
  | _ => Ok tt
  end.

Lemma send_raw_quiet : forall c data n, size data < 2 ^ 31 -> delivers (size data + n) (c_tls c) ->
  exists s', send_raw_data c data = (Ok tt, Client s' (c_req c) (c_resp c)) /\ delivers n s' /\
    tls_out s' = tls_out (c_tls c) ++ data /\ tls_in s' = tls_in (c_tls c).
Proof.
  intros c data n L D. destruct (send_raw_more c data n L D) as (c' & S & D' & O & _).
  destruct (send_raw_exact c data) as (k & H). rewrite S in H. destruct H as (_ & I & _).
  unfold send_raw_data in *. destruct (ssl_write (c_tls c) data) as [r s]. injection S as -> <-. unfold set_tls in *. cbn [c_tls] in *.
  exists s. split; [reflexivity|]. split; [exact D'|]. split; [exact O|exact I].
Qed.

Lemma write_call : forall host m c k n, is_receive k = false ->
  size (fst (written host (c_req c) k)) < 2 ^ 31 -> delivers (size (fst (written host (c_req c) k)) + n) (c_tls c) ->
  exists s', make_call host m c k = (Returned (answer host (c_req c) k), Client s' (snd (written host (c_req c) k)) (c_resp c)) /\
    delivers n s' /\ tls_out s' = tls_out (c_tls c) ++ fst (written host (c_req c) k) /\ tls_in s' = tls_in (c_tls c).
Proof.
  intros host m [s T R] k n NR L D. cbn [c_tls c_req c_resp] in *.
  assert (Q : forall r, delivers (size (@nil N) + n) s -> exists s', (Returned r, Client s T R) = (Returned r, Client s' T R) /\ delivers n s' /\
    tls_out s' = tls_out s ++ [] /\ tls_in s' = tls_in s).
  { intros r D0. exists s. rewrite app_nil_r. repeat split. exact D0. }
  destruct k; try discriminate NR; cbn [make_call written answer fst snd] in *.
  - unfold perform, get_request_dynamic_table. cbn [c_req]. destruct (mk_headers _ _ _ _ _ _ _) as [f|x|u|]; cbn [fst snd] in *; try (apply Q; exact D).
    unfold send_frame. destruct (serialize host f) as [d|x|u|]; cbn [fst snd bind] in *; try (apply Q; exact D).
    destruct (send_raw_quiet (Client s T R) d n L D) as (s' & S & D' & O & I). rewrite S. cbn [c_req c_resp c_tls].
    unfold update_request_dynamic_table. cbn [c_req c_tls c_resp]. destruct (update_block T (q_block q)) as [r t]. exists s'. auto.
  - unfold send_frame. destruct (serialize host f) as [d|x|u|]; cbn [fst snd bind] in *; try (apply Q; exact D).
    destruct (send_raw_quiet (Client s T R) d n L D) as (s' & S & D' & O & I). rewrite S. exists s'. auto.
  - destruct (send_raw_quiet (Client s T R) data n L D) as (s' & S & D' & O & I). rewrite S. exists s'. auto.
  - unfold send_connection_preface. destruct (send_raw_quiet (Client s T R) connection_preface n L D) as (s' & S & D' & O & I). rewrite S. exists s'. auto.
  - unfold update_request_dynamic_table. cbn [c_req c_tls c_resp]. destruct (update_block T b) as [r t]. exists s. rewrite app_nil_r. repeat split. exact D.
  - unfold update_request_table_size. cbn [c_req c_tls c_resp]. destruct (dt_update_size T n0); cbn [bind fst snd]; exists s; rewrite app_nil_r; repeat split; exact D.
Qed.

(* Frames to come for the receive calls; all pieces below the TLS call limit
   (C48). *)
Definition pending (ks : list call) (ws : list wframe) : Prop :=
  length ws = length (filter is_receive ks) /\ Forall wframe_ok ws.
Definition small_pieces (l : list (list N)) : Prop := Forall (fun d => size d < 2 ^ 31) l.

(* Any interleaving of sending and receiving calls, on a TLS layer that does not
   fail: the frames received and the response table are those of the receiving
   calls alone, the results of the other calls, the octets sent and the request
   table those of the other calls alone. The three clients may see different
   chunkings. *)
Theorem C73_interleaving : forall host m ks c cr cw ws rest, pending ks ws ->
  tls_in (c_tls c) = concat (map wire ws) ++ rest -> tls_in (c_tls cr) = tls_in (c_tls c) ->
  tls_out (c_tls cw) = tls_out (c_tls c) -> c_req cw = c_req c -> c_resp cr = c_resp c ->
  let sent := all_written host (c_req c) ks in
  small_pieces sent ->
  delivers (size (concat (map wire ws)) + size (concat sent)) (c_tls c) ->
  delivers (size (concat (map wire ws))) (c_tls cr) -> delivers (size (concat sent)) (c_tls cw) ->
  exists rs c' rr cr' rw cw',
    make_calls host m c ks = (rs, c') /\
    make_calls host m cr (filter is_receive ks) = (rr, cr') /\
    make_calls host m cw (filter (fun k => negb (is_receive k)) ks) = (rw, cw') /\
    filter returned_receive rs = rr /\ filter (fun r => negb (returned_receive r)) rs = rw /\
    map returned_receive rs = map is_receive ks /\
    tls_in (c_tls c') = tls_in (c_tls cr') /\ c_resp c' = c_resp cr' /\
    tls_out (c_tls c') = tls_out (c_tls cw') /\ c_req c' = c_req cw'.
Proof.
  intros host m. induction ks as [|k ks IH]; intros c cr cw ws rest [LW FW] IN INR OUT RQ RS sent SM D DR DW.
  - exists [], c, [], cr, [], cw. cbn. repeat split; congruence.
  - cbn [all_written] in sent. subst sent. apply Forall_inv in SM as SM1. apply Forall_inv_tail in SM.
    cbn [concat] in D, DW. rewrite size_app in D, DW.
    destruct (is_receive k) eqn:KR.
    + destruct k; try discriminate KR. cbn [written fst snd] in *. cbn [size length N.of_nat] in D, DW.
      destruct ws as [|w ws]; [discriminate LW|]. cbn [filter is_receive length] in LW. injection LW as LW.
      apply Forall_inv in FW as W1. apply Forall_inv_tail in FW. cbn [map concat] in IN, D, DR. rewrite <- app_assoc in IN. rewrite size_app in D, DR.
      destruct (receive_complete m c w (concat (map wire ws) ++ rest) (size (concat (map wire ws)) + size (concat (all_written host (c_req c) ks))) W1 IN) as (s1 & I1 & O1 & D1 & X1).
      { eapply delivers_mono; [|exact D]. lia. }
      rewrite IN in INR. destruct (receive_complete m cr w (concat (map wire ws) ++ rest) (size (concat (map wire ws))) W1 INR DR) as (s2 & I2 & O2 & D2 & X2).
      rewrite RS in X2. set (T := c_resp c) in *.
      destruct (IH (Client s1 (c_req c) (snd (handled m T w))) (Client s2 (c_req cr) (snd (handled m T w))) cw ws rest) as
        (rs & c' & rr & cr' & rw & cw' & E1 & E2 & E3 & F1 & F2 & F3 & G); try assumption; cbn [c_tls c_req c_resp]; try congruence.
      { split; assumption. }
      exists (Received (fst (handled m T w)) :: rs), c', (Received (fst (handled m T w)) :: rr), cr', rw, cw'.
      cbn [filter is_receive negb make_calls make_call]. rewrite X1, X2. cbn [fst snd]. rewrite E1, E2, E3.
      split; [reflexivity|]. split; [reflexivity|]. split; [reflexivity|].
      cbn [filter returned_receive negb map is_receive]. rewrite F1, F2, F3. auto.
    + pose proof (write_call host m c k (size (concat (map wire ws)) + size (concat (all_written host (snd (written host (c_req c) k)) ks))) KR SM1) as P1.
      destruct P1 as (s1 & X1 & D1 & O1 & I1). { eapply delivers_mono; [|exact D]. lia. }
      pose proof (write_call host m cw k (size (concat (all_written host (snd (written host (c_req c) k)) ks))) KR) as P2. rewrite RQ in P2.
      destruct (P2 SM1 DW) as (s2 & X2 & D2 & O2 & I2). clear P2.
      set (T := c_req c) in *. set (T' := snd (written host T k)) in *.
      destruct (IH (Client s1 T' (c_resp c)) cr (Client s2 T' (c_resp cw)) ws rest) as
        (rs & c' & rr & cr' & rw & cw' & E1 & E2 & E3 & F1 & F2 & F3 & G); try assumption; cbn [c_tls c_req c_resp]; try congruence.
      { split; [|exact FW]. cbn [filter] in LW. rewrite KR in LW. exact LW. }
      exists (Returned (answer host T k) :: rs), c', rr, cr', (Returned (answer host T k) :: rw), cw'.
      cbn [filter]. rewrite KR. cbn [negb make_calls]. rewrite X1, X2, E1, E2, E3.
      split; [reflexivity|]. split; [reflexivity|]. split; [reflexivity|].
      cbn [filter returned_receive negb map]. rewrite KR, F1, F2, F3. auto.
Qed.

Example C73_case :
  let settings := WFrame SETTINGS 0 0 0 (settings_octets [(1, 100)]) in
  let ping := WFrame PING 0 0 0 [1; 2; 3; 4; 5; 6; 7; 8] in
  let ks := [CallPreface; CallReceive; CallRequest (ask 1 [HEntry IncrementalIndexing (EHeader (octets "a", octets "b"))]);
             CallReceive; CallResize 0; CallSend (mk_rst_stream 1 8)] in
  let c k := new_client (Tls (wire settings ++ wire ping) [] (repeat (Chunk k) 500)) in
  pending ks [settings; ping] /\ small_pieces (all_written LittleEndian default_table ks) /\
  delivers (size (concat (map wire [settings; ping])) + size (concat (all_written LittleEndian default_table ks))) (c_tls (c 3)) /\
  length (filter returned_receive (fst (make_calls LittleEndian Strict (c 3) ks))) = 2%nat /\
  tls_out (c_tls (snd (make_calls LittleEndian Strict (c 3) ks))) =
  tls_out (c_tls (snd (make_calls LittleEndian Strict (c 77) (filter (fun k => negb (is_receive k)) ks)))).
Proof.
  cbv zeta. split; [|split; [|split; [|split]]].
  - split; [reflexivity|]. repeat constructor; try reflexivity; apply octets_dec; reflexivity.
  - apply Forall_forall. intros d I. apply N.ltb_lt. revert d I. apply forallb_forall. vm_compute. reflexivity.
  - exists (repeat (Chunk 3) 500), []. split; [reflexivity|]. split; [apply Forall_forall; intros e I; apply repeat_spec in I; subst; discriminate|].
    vm_compute. discriminate.
  - vm_compute. reflexivity.
  - vm_compute. reflexivity.
Qed.

Print Assumptions C73_interleaving.
