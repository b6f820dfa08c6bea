(* Properties C52 and C58: what an RFC 7541 server makes of the requests sent. *)
From Coq Require Import String.
From Coq Require Import ZArith NArith List Bool Lia ZifyBool ZifyNat ZifyN.
From Verif Require Import Base Arith Util IntRep StaticTable HeaderType DynTable HeaderEnc HeaderDec FrameHeader Frames
  FrameBuilder Ssl Client SpecBits SpecInt SpecHpack SpecFrame SpecUnique IntRepProofs DynTableProofs StaticProofs
  HeaderProofs HeaderProofs2 FrameProofs BlockProofs PropHeader PropFrame PropBlock PropSsl PropClient HistoryProofs
  PropHistory.
Import ListNotations.
Local Open Scope string_scope.
Local Open Scope list_scope.
Local Open Scope N_scope.
Ltac Zify.zify_post_hook ::= Z.div_mod_to_equations.

(* ---------------------------------------------------------------- C58 *)

(* What an encoded header means: an RFC 7541 decoder that holds table t reads
   out as the single field h and then holds table t'; there is no other reading. *)
Definition means (t : table) (out : list N) (h : field) (t' : table) : Prop :=
  forall limit, rfc_block limit t out [h] t' /\
    forall fs t2, rfc_block limit t out fs t2 -> fs = [h] /\ t2 = t'.

Lemma means_intro : forall t out h t', (forall limit, rfc_block limit t out [h] t') -> means t out h t'.
Proof.
  intros t out h t' H limit. split; [apply H|]. intros fs t2 H2.
  destruct (rfc_block_unique _ _ _ _ _ (H limit) _ _ H2) as [<- <-]. auto.
Qed.

Lemma one_repr : forall limit t out r h t', rfc_repr out r -> step_in rfc_static limit t r = Some (Some h, t') ->
  rfc_block limit t out [h] t'.
Proof.
  intros limit t out r h t' R S. rewrite <- (app_nil_r out). change [h] with (opt_cons (Some h) (@nil field)).
  eapply rfc_block_cons; [exact R|exact S|constructor].
Qed.

(* A header in a table is read back and changes nothing; any other is read back
   and, with incremental indexing, inserted.  Missing: headers in neither table
   with the name of static entry 20 as the library spells it. *)
Theorem C58_means_header_partial : forall k h mode t, is_octets (fst h) -> is_octets (snd h) ->
  in_tables t h \/ fst h <> octets "accept-control-allow-origin" ->
  exists out, encode_header (HEntry (lib_prefix k) (EHeader h)) mode t = Ok out /\
    (in_tables t h -> means (rfc_table t) out h (rfc_table t)) /\
    (~ in_tables t h -> means (rfc_table t) out h
       (match k with Incremental => insert (rfc_table t) h | _ => rfc_table t end)).
Proof.
  intros k h mode t On Ov C. destruct (chosen_cases k h t) as [(I & _)|(NI & _)].
  - destruct (indexed_means (lib_prefix k) h mode t) as (out & i & E & R & S & _); [destruct k; discriminate|exact I|].
    exists out. split; [exact E|]. split; [intros _|intros X; contradiction].
    apply means_intro. intros limit. apply (one_repr _ _ _ _ _ _ R). cbn [step_in].
    change (resolve_in rfc_static (rfc_table t) i) with (resolve (rfc_table t) i). rewrite S. reflexivity.
  - destruct C as [I|NM]; [contradiction|].
    destruct (literal_means k h mode t On Ov NI NM) as (out & n & E & R & S).
    exists out. split; [exact E|]. split; [intros X; contradiction|intros _].
    apply means_intro. intros limit. apply (one_repr _ _ _ _ _ _ R). cbn [step_in]. rewrite S. destruct h, k; reflexivity.
Qed.

(* The excluded name is read as another one, for every value, table and mode. *)
Theorem C58_misspelt_refuted : forall k v mode t, is_octets v ->
  let h := (octets "accept-control-allow-origin", v) in
  ~ in_tables t h ->
  exists out t', encode_header (HEntry (lib_prefix k) (EHeader h)) mode t = Ok out /\
    means (rfc_table t) out (octets "access-control-allow-origin", v) t'.
Proof.
  intros k v mode t Ov h NI.
  assert (On : is_octets (fst h)) by (apply octets_dec; reflexivity).
  destruct (encode_header_spec k h mode t (octets_wf _ On) (octets_wf _ Ov)) as (out & E & M).
  destruct (chosen_cases k h t) as [(I & _)|(_ & n & C & _ & D)]; [contradiction|]. rewrite C in M.
  assert (N20 : n = NameIndex 20).
  { unfold chosen in C.
    assert (X : reverse_static_find (fst h, []) = Some 20) by (vm_compute; reflexivity).
    rewrite X in C.
    destruct (match reverse_static_find h with Some i => if 0 <? size (snd h) then Some i else None | None => None end); [discriminate|].
    destruct (find_index (dt_entries t) h); [discriminate|]. injection C as <-. reflexivity. }
  subst n. exists out. eexists. split; [exact E|]. apply means_intro. intros limit.
  apply (one_repr _ _ _ _ _ _ (minimal_rfc _ _ M)). cbn [step_in snd h].
  replace (name_of rfc_static (rfc_table t) (NameIndex 20)) with (Some (octets "access-control-allow-origin"));
    [reflexivity|]. cbn [name_of].
  change (resolve_in rfc_static (rfc_table t) 20) with (resolve (rfc_table t) 20).
  rewrite (resolve_static_any (rfc_table t) (Table 0 []) 20) by lia. reflexivity.
Qed.

Example C58_case :
  let h := (octets "cookie", octets "a=b") in
  (is_octets (fst h) /\ is_octets (snd h) /\ (in_tables default_table h \/ fst h <> octets "accept-control-allow-origin")) /\
  encode_header (HEntry NeverIndexed (EHeader h)) ModeNone default_table = Ok [0x1f; 0x11; 3; 97; 61; 98].
Proof.
  cbv zeta. split; [|vm_compute; reflexivity]. split; [apply octets_dec; reflexivity|]. split; [apply octets_dec; reflexivity|].
  right. discriminate.
Qed.

(* ---------------------------------------------------------------- C52 *)

(* One request: arguments of the headers_frame constructor. *)
Record request := Request {
  q_flags : N;
  q_stream : N;
  q_block : header_block;
  q_mode : encode_mode;
  q_padding : list N;
  q_exclusive : N;
  q_dependency : N;
  q_weight : N
}.

(* The calls a user makes for it: build the frame with the client's request
   table, send it, report the block. *)
Definition perform (host : endian) (c : client) (q : request) : res unit * client :=
  match mk_headers (q_flags q) (q_stream q) (q_block q) (q_mode q) (get_request_dynamic_table c) (q_padding q)
          (Prio (q_exclusive q) (q_dependency q) (q_weight q)) with
  | Ok f =>
      let '(r, c1) := send_frame host c f in
      match r with
      | Ok _ => update_request_dynamic_table c1 (q_block q)
      | _ => (r, c1)
      end
  | Throw x => (Throw x, c)
  | UB u => (UB u, c)
  | NoFuel => (NoFuel, c)
  end.

Fixpoint perform_all (host : endian) (c : client) (qs : list request) : res unit * client :=
  match qs with
  | [] => (Ok tt, c)
  | q :: qs' =>
      let '(r, c') := perform host c q in
      match r with Ok _ => perform_all host c' qs' | _ => (r, c') end
  end.

(* An RFC 7540/7541 server reading a sequence of HEADERS frames: the field lists
   it recovers and its table at the end. *)
Inductive server_reads (limit : N) : table -> list N -> list (list field) -> table -> Prop :=
| reads_nil : forall t, server_reads limit t [] [] t
| reads_headers : forall t flags r sid e dep w fragment padding fs t1 rest fss t2,
    let payload := headers_octets flags e dep w fragment padding in
    size payload < 2 ^ 24 -> rfc_block limit t fragment fs t1 -> server_reads limit t1 rest fss t2 ->
    server_reads limit t (wire_frame HEADERS flags r sid payload ++ rest) (fs :: fss) t2.

Lemma be_octets_len : forall k x, length (be_octets k x) = k.
Proof. induction k; intros x; cbn; [reflexivity|]. rewrite IHk. reflexivity. Qed.

Lemma wire_frame_inj : forall ty flags r sid p x ty' flags' r' sid' p' x',
  size p < 2 ^ 24 -> size p' < 2 ^ 24 ->
  wire_frame ty flags r sid p ++ x = wire_frame ty' flags' r' sid' p' ++ x' ->
  ty = ty' /\ flags = flags' /\ p = p' /\ x = x'.
Proof.
  intros ty flags r sid p x ty' flags' r' sid' p' x' L L' E. unfold wire_frame, wire_header in E. rewrite <- !app_assoc in E.
  apply app_len_inj in E; [|rewrite !be_octets_len; reflexivity]. destruct E as [EL E].
  apply app_len_inj in E; [|reflexivity]. destruct E as [ET E]. injection ET as -> ->.
  apply app_len_inj in E; [|rewrite !be_octets_len; reflexivity]. destruct E as [_ E].
  assert (SZ : size p = size p').
  { fold (size p) (size p') in EL. change (2 ^ 24) with 16777216 in *. cbn [be_octets] in EL.
    change (256 ^ N.of_nat 2) with 65536 in EL. change (256 ^ N.of_nat 1) with 256 in EL. change (256 ^ N.of_nat 0) with 1 in EL.
    injection EL as E1 E2 E3. lia. }
  apply app_len_inj in E; [|unfold size in SZ; lia]. destruct E as [-> ->]. auto.
Qed.

Lemma headers_octets_inj : forall flags e dep w fr pad e' dep' w' fr' pad',
  headers_octets flags e dep w fr pad = headers_octets flags e' dep' w' fr' pad' -> fr = fr'.
Proof.
  intros flags e dep w fr pad e' dep' w' fr' pad' E. unfold headers_octets, padded_payload in E.
  assert (P : forall x x', (if has_priority flags then priority_fields e dep w else []) ++ x =
    (if has_priority flags then priority_fields e' dep' w' else []) ++ x' -> x = x').
  { intros x x' H. apply app_len_inj in H; [apply H|].
    destruct (has_priority flags); [|reflexivity]. unfold priority_fields. rewrite !app_length, !be_octets_len. reflexivity. }
  destruct (has_padded flags).
  - cbn [app] in E. injection E as LE E. rewrite <- !app_assoc in E. apply P in E.
    assert (L : length fr = length fr').
    { assert (Q : length (fr ++ pad) = length (fr' ++ pad')) by (rewrite E; reflexivity). rewrite !app_length in Q. lia. }
    apply app_len_inj in E; [apply E|exact L].
  - apply P. exact E.
Qed.

Lemma server_reads_unique : forall limit t out fss t2, server_reads limit t out fss t2 ->
  forall fss' t2', server_reads limit t out fss' t2' -> fss = fss' /\ t2 = t2'.
Proof.
  intros limit t out fss t2 H. induction H as [t|t flags r sid e dep w fr pad fs t1 rest fss t2 payload L B H IH]; intros fss' t2' H'.
  - inversion H'; subst. auto.
  - remember (wire_frame HEADERS flags r sid payload ++ rest) as out eqn:E2.
    destruct H' as [t0|t flags' r' sid' e' dep' w' fr' pad' fs' t1' rest' fss0 t20 payload' L' B' H0].
    + discriminate E2.
    + symmetry in E2. apply (wire_frame_inj _ _ _ _ _ _ _ _ _ _ _ _ L L') in E2. destruct E2 as (_ & <- & EP & <-).
      apply headers_octets_inj in EP. subst fr'.
      destruct (rfc_block_unique _ _ _ _ _ B _ _ B') as [<- <-].
      destruct (IH _ _ H0) as [<- <-]. auto.
Qed.

(* The dynamic table with the contents of an RFC table. *)
Definition of_table (t : table) : dyn_table := DynTable (t_entries t) (total_size (t_entries t)) (t_max t).

Lemma of_rfc_table : forall T, dt_ok T -> of_table (rfc_table T) = T.
Proof. intros [es s mx] [S _]. cbn in S. subst s. reflexivity. Qed.

(* Argument ranges, and a payload below 2^24 octets. *)
Definition request_ok (t : table) (q : request) : Prop :=
  q_stream q < 2 ^ 31 /\ size (q_padding q) < 256 /\ q_exclusive q < 2 /\ q_dependency q < 2 ^ 31 /\
  forall raw, encode_block (q_block q) (q_mode q) (of_table t) = Ok raw ->
    size (headers_octets (q_flags q) (q_exclusive q) (q_dependency q) (q_weight q) raw (q_padding q)) < 2 ^ 24.

(* Requests whose blocks avoid the deviations refuted below. *)
Fixpoint plain_requests (limit : N) (t : table) (qs : list request) : Prop :=
  match qs with
  | [] => True
  | q :: qs' =>
      request_ok t q /\ plain_block limit (of_table t) (t_max t) false (q_block q) /\
      plain_requests limit (table_after t (q_block q)) qs'
  end.

Lemma perform_plain : forall host limit T q, dt_ok T -> request_ok (rfc_table T) q ->
  plain_block limit (of_table (rfc_table T)) (dt_max T) false (q_block q) ->
  exists out T', (forall rest fss t2, server_reads limit (rfc_table T') rest fss t2 ->
      server_reads limit (rfc_table T) (out ++ rest) (fields_of (q_block q) :: fss) t2) /\
    dt_ok T' /\ rfc_table T' = table_after (rfc_table T) (q_block q) /\ size out < 2 ^ 31 /\
    forall c, c_req c = T -> perform host c q = let '(r, c1) := send_raw_data c out in
      match r with Ok _ => (Ok tt, Client (c_tls c1) T' (c_resp c1)) | _ => (r, c1) end.
Proof.
  intros host limit T q K (Ls & Lp & Le & Ld & SZ) P. rewrite (of_rfc_table _ K) in *.
  destruct (block_means limit T (q_mode q) (q_block q) (rfc_table T) false P ltac:(reflexivity)) as (raw & E & B).
  specialize (SZ raw E).
  destruct (update_block_spec (q_block q) T K (plain_fits _ _ _ _ _ P)) as (T' & U & K' & R').
  exists (wire_frame HEADERS (q_flags q) 0 (q_stream q)
    (headers_octets (q_flags q) (q_exclusive q) (q_dependency q) (q_weight q) raw (q_padding q))), T'.
  split; [|split; [exact K'|split; [exact R'|split]]].
  - intros rest fss t2 H. rewrite R' in H. eapply reads_headers; [exact SZ|exact B|exact H].
  - unfold wire_frame, wire_header. rewrite !size_app. unfold size at 1 2 3. rewrite !be_octets_len. cbn [length].
    change (2 ^ 24) with 16777216 in SZ. change (2 ^ 31) with 2147483648. clear -SZ. lia.
  - intros c CE. unfold perform, mk_headers, get_request_dynamic_table. rewrite CE.
    rewrite (headers_payload_wire (q_flags q) (q_block q) (q_mode q) T (q_padding q) (q_exclusive q) (q_dependency q)
      (q_weight q) raw) by (try assumption; lia). cbn [bind]. unfold send_frame.
    rewrite (serialize_wire host (HeadersFrame _ _ _ _ _)
      (headers_octets (q_flags q) (q_exclusive q) (q_dependency q) (q_weight q) raw (q_padding q)));
      cbn [frame_fh fh_stream_id fh_length fh_reserved fh_type fh_flags payload_bytes]; try reflexivity; try assumption.
    + change T_HEADERS with HEADERS. unfold send_raw_data. destruct (ssl_write _ _) as [r s]. destruct r; try reflexivity.
      unfold update_request_dynamic_table, set_tls. cbn [c_req c_tls c_resp]. rewrite CE, U. reflexivity.
    + apply u32_small. change (2 ^ 24) with 16777216 in SZ. change (2 ^ 32) with 4294967296. clear -SZ. lia.
Qed.

(* Whenever the calls return, whatever the TLS layer does. *)
Theorem C52_request_table_partial : forall host limit qs c c', perform_all host c qs = (Ok tt, c') ->
  dt_ok (c_req c) -> plain_requests limit (Table (dt_max (c_req c)) (dt_entries (c_req c))) qs ->
  let before := Table (dt_max (c_req c)) (dt_entries (c_req c)) in
  let after := Table (dt_max (c_req c')) (dt_entries (c_req c')) in
  let submitted := map (fun q => fields_of (q_block q)) qs in
  exists out, tls_out (c_tls c') = tls_out (c_tls c) ++ out /\ server_reads limit before out submitted after /\
    (forall fss t, server_reads limit before out fss t -> fss = submitted /\ t = after).
Proof.
  intros host limit qs c c' H K P before after submitted.
  assert (G : exists out, tls_out (c_tls c') = tls_out (c_tls c) ++ out /\ server_reads limit before out submitted after).
  { subst before after submitted. revert c H K P. induction qs as [|q qs IH]; intros c H K P.
    - cbn in H. injection H as <-. exists []. rewrite app_nil_r. split; [reflexivity|constructor].
    - destruct P as (Q & PB & P). cbn [perform_all] in H.
      destruct (perform_plain host limit (c_req c) q K Q PB) as (out & T' & SR & K' & R' & _ & E). rewrite (E c eq_refl) in H. clear E.
      destruct (send_raw_exact c out) as (k & S). destruct (send_raw_data c out) as [r c1].
      destruct S as (O & _ & _ & _ & [[-> F]|[-> _]]); [|discriminate H]. rewrite F in O.
      destruct (IH (Client (c_tls c1) T' (c_resp c1)) H K') as (out' & O' & SR').
      { cbn [c_req]. fold (rfc_table T'). rewrite R'. exact P. }
      exists (out ++ out'). cbn [c_tls c_req] in O', SR'. rewrite O', O, <- app_assoc. split; [reflexivity|].
      cbn [map]. apply SR. exact SR'. }
  destruct G as (out & O & S). exists out. split; [exact O|]. split; [exact S|].
  intros fss t S'. destruct (server_reads_unique _ _ _ _ _ S _ _ S') as [<- <-]. auto.
Qed.

(* ---- the calls return when the TLS layer does not fail ---- *)

Lemma write_loop_more : forall fuel s data n, (length data <= fuel)%nat -> size data < 2 ^ 31 -> delivers (size data + n) s ->
  exists s', write_loop fuel s data = (Ok tt, s') /\ delivers n s'.
Proof.
  induction fuel as [|fuel IH]; intros s data n L B D.
  - destruct data; [cbn; exists s; split; [reflexivity|exact D]|cbn in L; lia].
  - assert (C : data = [] \/ 0 < size data) by (destruct data; [left; reflexivity|right; rewrite size_cons; lia]).
    destruct C as [->|SD]; [cbn; exists s; split; [reflexivity|exact D]|]. rename data into d.
    destruct (delivers_next (size d - 1 + n) s) as (c & sc & SC & N).
    { replace (size d - 1 + n + 1) with (size d + n) by lia. exact D. }
    rewrite write_loop_step by exact SD. unfold bio_write. rewrite SC, positive_small by assumption.
    set (j := N.min (c + 1) (size d)). assert (J : 0 < j <= size d) by lia.
    apply IH.
    + rewrite skipn_length. unfold size in J. lia.
    + rewrite size_skipn. lia.
    + rewrite size_skipn. eapply delivers_mono; [|apply N]. lia.
Qed.

Lemma send_raw_more : forall c data n, size data < 2 ^ 31 -> delivers (size data + n) (c_tls c) ->
  exists c', send_raw_data c data = (Ok tt, c') /\ delivers n (c_tls c') /\
    tls_out (c_tls c') = tls_out (c_tls c) ++ data /\ c_req c' = c_req c.
Proof.
  intros c data n L D. destruct (write_loop_more (length data) (c_tls c) data n (Nat.le_refl _) L D) as (s' & W & D').
  destruct (send_raw_exact c data) as (k & H). unfold send_raw_data, ssl_write in *. rewrite W in *.
  eexists. split; [reflexivity|]. destruct H as (O & _ & Q & _ & [[_ F]|[X _]]); [|discriminate X].
  rewrite F in O. split; [exact D'|]. auto.
Qed.

(* Every history of plain requests has an output that the server reads as the
   submitted headers, and the calls return having sent it. *)
Theorem C52_requests_complete_partial : forall host limit qs T, dt_ok T ->
  plain_requests limit (Table (dt_max T) (dt_entries T)) qs ->
  exists out t, server_reads limit (Table (dt_max T) (dt_entries T)) out (map (fun q => fields_of (q_block q)) qs) t /\
    forall c, c_req c = T -> delivers (size out) (c_tls c) ->
    exists c', perform_all host c qs = (Ok tt, c') /\ tls_out (c_tls c') = tls_out (c_tls c) ++ out /\
      Table (dt_max (c_req c')) (dt_entries (c_req c')) = t.
Proof.
  intros host limit. induction qs as [|q qs IH]; intros T K P.
  - exists [], (rfc_table T). split; [constructor|]. intros c E _. exists c. cbn. rewrite app_nil_r, E. auto.
  - destruct P as (Q & PB & P). destruct (perform_plain host limit T q K Q PB) as (out & T' & SR & K' & R' & L & E).
    fold (rfc_table T) in P. rewrite <- R' in P. destruct (IH T' K' P) as (out' & t & SR' & H).
    exists (out ++ out'), t. split; [apply SR; exact SR'|]. intros c CE D. rewrite size_app in D.
    destruct (send_raw_more c out (size out') L D) as (c1 & S & D1 & O1 & _).
    cbn [perform_all]. rewrite (E c CE), S.
    destruct (H (Client (c_tls c1) T' (c_resp c1)) eq_refl D1) as (c' & X & O' & T2).
    exists c'. split; [exact X|]. cbn [c_tls] in O'. rewrite O', O1, <- app_assoc. auto.
Qed.

(* From the first request of a connection on: the server's table has the initial
   size of RFC 7540 section 6.5.2, 4096 octets, and is empty. *)
Theorem C52_new_connection_partial : forall host limit qs s c', perform_all host (new_client s) qs = (Ok tt, c') ->
  plain_requests limit (Table 4096 []) qs ->
  let after := Table (dt_max (c_req c')) (dt_entries (c_req c')) in
  let submitted := map (fun q => fields_of (q_block q)) qs in
  exists out, tls_out (c_tls c') = tls_out s ++ out /\ server_reads limit (Table 4096 []) out submitted after /\
    (forall fss t, server_reads limit (Table 4096 []) out fss t -> fss = submitted /\ t = after).
Proof.
  intros host limit qs s c' H P. exact (C52_request_table_partial host limit qs (new_client s) c' H (new_table_ok _) P).
Qed.

(* ---- counterexamples to the unrestricted claim ---- *)

(* What is claimed of one request from a client with request table T. *)
Definition C52_step (host : endian) (limit : N) (T : dyn_table) (q : request) : Prop :=
  exists out, forall c, c_req c = T -> delivers (size out) (c_tls c) ->
    exists c', perform host c q = (Ok tt, c') /\ tls_out (c_tls c') = tls_out (c_tls c) ++ out /\
      server_reads limit (Table (dt_max T) (dt_entries T)) out [fields_of (q_block q)]
        (Table (dt_max (c_req c')) (dt_entries (c_req c'))).

Lemma step_reading : forall host limit T q raw, dt_ok T -> request_ok (rfc_table T) q ->
  encode_block (q_block q) (q_mode q) T = Ok raw -> C52_step host limit T q ->
  exists T', update_block T (q_block q) = (Ok tt, T') /\
    rfc_block limit (rfc_table T) raw (fields_of (q_block q)) (rfc_table T').
Proof.
  intros host limit T q raw K (Ls & Lp & Le & Ld & SZ) E (out & C).
  rewrite (of_rfc_table T K) in SZ. specialize (SZ raw E).
  set (payload := headers_octets (q_flags q) (q_exclusive q) (q_dependency q) (q_weight q) raw (q_padding q)) in *.
  pose (n := N.to_nat (size out)).
  destruct (C (Client (Tls [] [] (repeat (Chunk 0) n)) T default_table) eq_refl) as (c' & P & O & S).
  { exists (repeat (Chunk 0) n), []. rewrite app_nil_r. split; [reflexivity|]. split.
    - apply Forall_forall. intros e I. apply repeat_spec in I. subst. discriminate.
    - unfold size at 2. rewrite repeat_length. lia. }
  cbn [c_tls tls_out app] in O. unfold perform, mk_headers, get_request_dynamic_table in P. cbn [c_req] in P.
  rewrite (headers_payload_wire (q_flags q) (q_block q) (q_mode q) T (q_padding q) (q_exclusive q) (q_dependency q)
    (q_weight q) raw) in P by assumption. fold payload in P. cbn [bind] in P. unfold send_frame in P.
  assert (U : cast_to_fh_length (size payload) = size payload).
  { apply u32_small. change (2 ^ 24) with 16777216 in SZ. change (2 ^ 32) with 4294967296. clear -SZ. lia. }
  rewrite (serialize_wire host (HeadersFrame _ _ _ _ _) payload) in P by (try reflexivity; try exact Ls; exact U).
  cbn [frame_fh fh_stream_id fh_length fh_reserved fh_type fh_flags] in P. change T_HEADERS with HEADERS in P.
  set (w := wire_frame HEADERS (q_flags q) 0 (q_stream q) payload) in *.
  destruct (send_raw_exact (Client (Tls [] [] (repeat (Chunk 0) n)) T default_table) w) as (k & H).
  destruct (send_raw_data _ w) as [r c1]. destruct H as (O1 & _ & Q1 & _ & R).
  destruct R as [[-> F]|[-> _]]; [|discriminate P]. rewrite F in O1. cbn [c_tls tls_out app c_req] in O1, Q1.
  unfold update_request_dynamic_table in P. rewrite Q1 in P. destruct (update_block T (q_block q)) as [r T'] eqn:UB.
  injection P as -> <-. cbn [c_tls c_req] in O, S. assert (OW : out = w) by congruence. rewrite OW in S.
  exists T'. split; [reflexivity|]. clear - S SZ. rewrite <- (app_nil_r w) in S. remember (w ++ []) as x eqn:EX.
  fold (rfc_table T) (rfc_table T') in S. remember [fields_of (q_block q)] as fss eqn:EF. remember (rfc_table T') as t2 eqn:ET.
  destruct S as [t|t flags r sid e dep wt fr pad fs t1 rest fss t2 payload' L' B' H]; [discriminate EF|].
  injection EF as -> ->. apply (wire_frame_inj _ _ _ _ _ _ _ _ _ _ _ _ L' SZ) in EX. destruct EX as (_ & -> & EP & ->).
  apply headers_octets_inj in EP. subst fr t2. inversion H; subst. exact B'.
Qed.

Lemma refute_reading : forall host limit T q raw, dt_ok T -> request_ok (rfc_table T) q ->
  encode_block (q_block q) (q_mode q) T = Ok raw ->
  (forall T', update_block T (q_block q) = (Ok tt, T') -> ~ rfc_block limit (rfc_table T) raw (fields_of (q_block q)) (rfc_table T')) ->
  ~ C52_step host limit T q.
Proof.
  intros host limit T q raw K Q E X S. destruct (step_reading host limit T q raw K Q E S) as (T' & U & B). exact (X T' U B).
Qed.

Lemma refute_request : forall host limit T q raw fs t', dt_ok T -> request_ok (rfc_table T) q ->
  encode_block (q_block q) (q_mode q) T = Ok raw -> rfc_block limit (rfc_table T) raw fs t' ->
  (forall T', update_block T (q_block q) = (Ok tt, T') -> fs <> fields_of (q_block q) \/ rfc_table T' <> t') ->
  ~ C52_step host limit T q.
Proof.
  intros host limit T q raw fs t' K Q E B X. apply (refute_reading host limit T q raw K Q E).
  intros T' U B'. destruct (rfc_block_unique _ _ _ _ _ B _ _ B') as [-> ->]. destruct (X T' U) as [Z|Z]; apply Z; reflexivity.
Qed.

(* A field submitted with indexing that is already in the dynamic table is sent
   as an index, which inserts nothing at the server, but pushed again at the
   client: the tables differ, for every table with room for it. *)
Theorem C52_duplicate_refuted : forall host limit T h q, dt_ok T -> request_ok (Table (dt_max T) (dt_entries T)) q ->
  In h (dt_entries T) -> dt_size T + field_size h <= dt_max T ->
  q_block q = [HEntry IncrementalIndexing (EHeader h)] -> ~ C52_step host limit T q.
Proof.
  intros host limit T h q K Q I L B.
  destruct (indexed_means IncrementalIndexing h (q_mode q) T) as (out & i & E & R & S & _); [discriminate|right; exact I|].
  apply (refute_request host limit T q out [h] (rfc_table T) K Q).
  - rewrite B. cbn [encode_block]. rewrite E. cbn [bind]. rewrite app_nil_r. reflexivity.
  - apply (one_repr _ _ _ _ _ _ R). cbn [step_in].
    change (resolve_in rfc_static (rfc_table T) i) with (resolve (rfc_table T) i). rewrite S. reflexivity.
  - intros T' U. right. rewrite B in U. destruct (update_block_spec [HEntry IncrementalIndexing (EHeader h)] T K)
      as (T2 & U2 & _ & R2). { cbn. split; [lia|exact Logic.I]. }
    rewrite U in U2. injection U2 as <-. rewrite R2. cbn [table_after]. unfold insert, rfc_table. cbn [t_max t_entries keep].
    destruct (N.leb_spec (field_size h) (dt_max T)); [|lia].
    intros X. injection X as X. destruct K as [KS KM].
    assert (KP : keep (dt_max T - field_size h) (dt_entries T) = dt_entries T).
    { apply keep_all. lia. }
    rewrite KP in X. assert (LE : length (h :: dt_entries T) = length (dt_entries T)) by (rewrite X; reflexivity). cbn in LE. lia.
Qed.

(* An index computed before the block's own insertions: the newest entry of the
   table, sent after a new field, is read as that new field. *)
Theorem C52_late_reference_refuted : forall host limit T h old es q, dt_ok T ->
  request_ok (Table (dt_max T) (dt_entries T)) q ->
  dt_entries T = old :: es -> ~ In old (map snd static_table_entries) ->
  is_octets (fst h) -> is_octets (snd h) -> ~ in_tables T h -> fst h <> octets "accept-control-allow-origin" ->
  field_size h <= dt_max T ->
  q_block q = [HEntry IncrementalIndexing (EHeader h); HEntry Indexed (EHeader old)] -> ~ C52_step host limit T q.
Proof.
  intros host limit T h old es q K Q TE NS On Ov NI NM L B.
  destruct (literal_means Incremental h (q_mode q) T On Ov NI NM) as (out & n & E & R & S).
  assert (E2 : encode_header (HEntry Indexed (EHeader old)) (q_mode q) T = Ok [0xbe]).
  { unfold encode_header. cbn [e_prefix get_header e_content bind]. change (hprefix_eqb Indexed SizeUpdate) with false. cbv iota.
    destruct (reverse_static_find old) as [i|] eqn:RS; [exfalso; apply NS, in_static; eauto|].
    rewrite TE. cbn [find_index]. rewrite (proj2 (header_eqb_eq old old) eq_refl). vm_compute. reflexivity. }
  apply (refute_request host limit T q (out ++ [0xbe] ++ []) [h; h] (insert (rfc_table T) h) K Q).
  - rewrite B. cbn [encode_block]. cbn [lib_prefix] in E. rewrite E, E2. reflexivity.
  - change [h; h] with (opt_cons (Some h) (opt_cons (Some h) (@nil field))).
    eapply rfc_block_cons; [exact R|cbn [step_in]; rewrite S; destruct h; reflexivity|].
    eapply rfc_block_cons; [apply repr_indexed| |constructor].
    + exact (short_int 7 0xbe eq_refl eq_refl).
    + do 2 eexists. split; [reflexivity|]. lia.
    + change (0xbe mod 2 ^ 7) with 62. cbn [step_in].
      replace (resolve_in rfc_static (insert (rfc_table T) h) 62) with (Some h); [reflexivity|].
      unfold insert, rfc_table. cbn [t_max t_entries keep]. destruct (N.leb_spec (field_size h) (dt_max T)); [reflexivity|lia].
  - intros T' _. left. rewrite B. cbn [fields_of flat_map]. intros X. apply NI. right. rewrite TE. left.
    vm_compute in X. congruence.
Qed.

(* A new field larger than the table: RFC 7541 empties the table, the client does
   not get that far (C15). *)
Theorem C52_oversized_refuted : forall host limit T h q, dt_ok T -> request_ok (Table (dt_max T) (dt_entries T)) q ->
  is_octets (fst h) -> is_octets (snd h) -> dt_max T < field_size h ->
  q_block q = [HEntry IncrementalIndexing (EHeader h)] -> ~ C52_step host limit T q.
Proof.
  intros host limit T h q K Q On Ov L B.
  destruct (encode_header_spec Incremental h (q_mode q) T (octets_wf _ On) (octets_wf _ Ov)) as (out & E & _).
  apply (refute_reading host limit T q out K Q).
  - rewrite B. cbn [encode_block]. cbn [lib_prefix] in E. rewrite E. cbn [bind]. rewrite app_nil_r. reflexivity.
  - intros T' U. exfalso. rewrite B in U. cbn [update_block update_entry e_prefix get_header e_content bind] in U.
    rewrite (dt_push_spec T h K), entry_size_eq in U. destruct (N.leb_spec (field_size h) (dt_max T)); [lia|]. discriminate U.
Qed.

(* The misspelt name (C11): the server recovers another one. *)
Theorem C52_misspelt_refuted : forall host limit T k v q, dt_ok T -> request_ok (Table (dt_max T) (dt_entries T)) q ->
  is_octets v -> let h := (octets "accept-control-allow-origin", v) in ~ in_tables T h ->
  q_block q = [HEntry (lib_prefix k) (EHeader h)] -> ~ C52_step host limit T q.
Proof.
  intros host limit T k v q K Q Ov h NI B.
  destruct (C58_misspelt_refuted k v (q_mode q) T Ov NI) as (out & t' & E & M).
  destruct (M limit) as [R _]. apply (refute_request host limit T q out _ _ K Q) with (2 := R).
  - rewrite B. cbn [encode_block]. fold h in E. rewrite E. cbn [bind]. rewrite app_nil_r. reflexivity.
  - intros T' _. left. rewrite B. discriminate.
Qed.

(* A field submitted as indexed although no table has it or its name: the server
   cannot decode the block. *)
Theorem C52_indexed_absent_refuted : forall host limit T h q, dt_ok T -> request_ok (Table (dt_max T) (dt_entries T)) q ->
  is_octets (fst h) -> is_octets (snd h) -> ~ in_tables T h -> ~ In h (map snd static_table_entries) ->
  ~ In (fst h, []) (map snd static_table_entries) ->
  q_block q = [HEntry Indexed (EHeader h)] ->
  ~ C52_step host limit T q /\ forall raw fs t', encode_block (q_block q) (q_mode q) T = Ok raw ->
    ~ rfc_block limit (Table (dt_max T) (dt_entries T)) raw fs t'.
Proof.
  intros host limit T h q K Q On Ov NI NS NN B.
  assert (E : exists x, encode_header (HEntry Indexed (EHeader h)) (q_mode q) T = Ok (0x80 :: x)).
  { unfold encode_header. cbn [e_prefix get_header e_content bind]. change (hprefix_eqb Indexed SizeUpdate) with false. cbv iota.
    destruct (reverse_static_find h) as [i|] eqn:RS; [exfalso; apply NS, in_static; eauto|].
    destruct (find_index (dt_entries T) h) as [j|] eqn:F.
    { exfalso. apply NI. right. apply find_index_some in F. eapply nth_error_In; eassumption. }
    destruct (reverse_static_find (fst h, [])) as [i|] eqn:RN; [exfalso; apply NN, in_static; eauto|].
    unfold encode_header_name, encode_header_value.
    destruct (encode_string_spec (fst h) (q_mode q) (octets_wf _ On)) as (ns & -> & _).
    destruct (encode_string_spec (snd h) (q_mode q) (octets_wf _ Ov)) as (vs & -> & _). eexists. reflexivity. }
  destruct E as (x & E).
  assert (X : forall fs t', ~ rfc_block limit (rfc_table T) (0x80 :: x) fs t').
  { intros fs t' H. remember (0x80 :: x) as l eqn:EL. destruct H as [t|t l r o t1 ls fs t2 R S _]; [discriminate EL|].
    assert (R0 : rfc_repr [0x80] (RIndexed 0)).
    { apply repr_indexed; [exact (short_int 7 0x80 eq_refl eq_refl)|]. do 2 eexists. split; [reflexivity|]. lia. }
    destruct (repr_unique _ _ _ _ _ x R R0 EL) as (-> & -> & _). discriminate S. }
  assert (EB : encode_block (q_block q) (q_mode q) T = Ok (0x80 :: x)).
  { rewrite B. cbn [encode_block]. rewrite E. cbn [bind]. rewrite app_nil_r. reflexivity. }
  split.
  - apply (refute_reading host limit T q (0x80 :: x) K Q EB). intros T' _. apply X.
  - intros raw fs t' E'. rewrite EB in E'. apply Ok_inj in E'. subst raw. apply X.
Qed.

(* Three requests: a new field, the same field by index, then a smaller table;
   and cases that meet the hypotheses of the counterexamples. *)
Definition ask (stream : N) (b : header_block) : request := Request 0x2c stream b ModeHuffman [0; 0] 1 0 15.
Definition three_requests : list request :=
  [ask 1 [HEntry Indexed (EHeader (octets ":method", octets "GET")); HEntry IncrementalIndexing (EHeader (octets "a", octets "b"))];
   ask 3 [HEntry Indexed (EHeader (octets "a", octets "b")); HEntry NeverIndexed (EHeader (octets "k", octets "v"))];
   ask 5 [HEntry SizeUpdate (ESize 20); HEntry WithoutIndexing (EHeader (octets "a", octets "c"))]].

Definition in_tablesb (t : dyn_table) (h : header) : bool :=
  (existsb (header_eqb h) (map snd static_table_entries) && negb (bytes_eqb (snd h) [])) || existsb (header_eqb h) (dt_entries t).

Lemma in_tablesb_false : forall t h, in_tablesb t h = false -> ~ in_tables t h.
Proof.
  intros t h H I. apply orb_false_iff in H. destruct H as [H1 H2].
  assert (EX : forall l, In h l -> existsb (header_eqb h) l = true).
  { intros l J. apply existsb_exists. exists h. split; [exact J|]. apply header_eqb_eq. reflexivity. }
  destruct I as [[I NE]|I].
  - rewrite (EX _ I) in H1. cbn [andb] in H1. apply negb_false_iff, bytes_eqb_eq in H1. contradiction.
  - rewrite (EX _ I) in H2. discriminate.
Qed.

Lemma request_okb : forall t q raw, encode_block (q_block q) (q_mode q) (of_table t) = Ok raw ->
  (q_stream q <? 2 ^ 31) && (size (q_padding q) <? 256) && (q_exclusive q <? 2) && (q_dependency q <? 2 ^ 31) &&
  (size (headers_octets (q_flags q) (q_exclusive q) (q_dependency q) (q_weight q) raw (q_padding q)) <? 2 ^ 24) = true ->
  request_ok t q.
Proof.
  intros t q raw E H. repeat (apply andb_true_iff in H; destruct H as [H ?]).
  repeat match goal with X : (_ <? _) = true |- _ => apply N.ltb_lt in X end.
  unfold request_ok. repeat (split; [assumption|]). intros raw' E'. rewrite E in E'. apply Ok_inj in E'. subst. assumption.
Qed.

Lemma fresh_check : forall t h, in_tablesb t h = false -> bytes_eqb (fst h) misspelt = false ->
  forallb (fun b => b <? 256) (fst h) && forallb (fun b => b <? 256) (snd h) = true -> fresh t h.
Proof.
  intros t h I M O. apply andb_true_iff in O. destruct O as [On Ov]. split; [apply in_tablesb_false; exact I|].
  split; [intros E; apply bytes_eqb_eq in E; congruence|]. split; apply octets_dec; assumption.
Qed.

Example C52_case : plain_requests 4096 (Table 4096 []) three_requests.
Proof.
  assert (ST : in_static_valued (octets ":method", octets "GET")).
  { split; [|discriminate]. vm_compute. right; left. reflexivity. }
  cbn [three_requests plain_requests].
  split; [eapply request_okb; [vm_compute; reflexivity|vm_compute; reflexivity]|]. split.
  { split; [left; exact ST|]. split; [apply fresh_check; vm_compute; reflexivity|]. split; [discriminate|exact I]. }
  split; [eapply request_okb; [vm_compute; reflexivity|vm_compute; reflexivity]|]. split.
  { split; [right; split; [reflexivity|]; left; reflexivity|]. split; [right; apply fresh_check; vm_compute; reflexivity|exact I]. }
  split; [eapply request_okb; [vm_compute; reflexivity|vm_compute; reflexivity]|]. split; [|exact I].
  split; [discriminate|]. split; [right; apply fresh_check; vm_compute; reflexivity|exact I].
Qed.

Example C52_refuted_case :
  let T := DynTable [(octets "x", octets "y")] 34 4096 in
  dt_ok T /\
  request_ok (rfc_table T) (ask 1 [HEntry IncrementalIndexing (EHeader (octets "x", octets "y"))]) /\
  request_ok (rfc_table T) (ask 1 [HEntry IncrementalIndexing (EHeader (octets "a", octets "b")); HEntry Indexed (EHeader (octets "x", octets "y"))]) /\
  request_ok (rfc_table T) (ask 1 [HEntry NeverIndexed (EHeader (octets "accept-control-allow-origin", octets "*"))]) /\
  request_ok (rfc_table T) (ask 1 [HEntry Indexed (EHeader (octets "p", octets "q"))]).
Proof.
  cbv zeta. split; [split; [reflexivity|discriminate]|].
  split; [eapply request_okb; [vm_compute; reflexivity|vm_compute; reflexivity]|].
  split; [eapply request_okb; [vm_compute; reflexivity|vm_compute; reflexivity]|].
  split; (eapply request_okb; [vm_compute; reflexivity|vm_compute; reflexivity]).
Qed.

Print Assumptions C58_means_header_partial.
Print Assumptions C58_misspelt_refuted.
Print Assumptions C52_request_table_partial.
Print Assumptions C52_requests_complete_partial.
Print Assumptions C52_new_connection_partial.
Print Assumptions C52_duplicate_refuted.
Print Assumptions C52_late_reference_refuted.
Print Assumptions C52_oversized_refuted.
Print Assumptions C52_misspelt_refuted.
Print Assumptions C52_indexed_absent_refuted.
