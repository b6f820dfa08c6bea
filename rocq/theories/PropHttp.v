(* Property C109: only well-formed requests are sent, and only well-formed
   responses are returned. *)
From Coq Require Import String.
From Coq Require Import ZArith NArith List Bool Lia ZifyBool ZifyNat ZifyN.
From Verif Require Import Base Arith Util HeaderType StaticTable DynTable HeaderEnc HeaderDec FrameHeader Frames FrameBuilder Ssl Client
  SpecBits SpecHpack SpecFrame SpecValid SpecUnique IntSpecProofs UtilProofs DynTableProofs StaticProofs FrameProofs HeaderProofs BlockProofs HistoryProofs
  PropHeader PropFrame PropBlock PropSsl PropClient PropHistory PropRequest PropEntry PropValid PropThrow PropReceived PropSample PropMade PropDefined.
Import ListNotations.
Local Open Scope string_scope.
Local Open Scope list_scope.
Local Open Scope N_scope.
Ltac Zify.zify_post_hook ::= Z.div_mod_to_equations.

(* ---- specification: RFC 7540 section 8.1.2 ---- *)

(* Section 10.3: characters that end a field elsewhere are not allowed. *)
Definition valid_value (v : list N) : Prop := forall c, In c v -> c <> 0 /\ c <> 10 /\ c <> 13.

(* A field that is not a pseudo-header field: its name is in lower case (8.1.2),
   does not begin with a colon (8.1.2.1), and is not about the connection; TE
   says only "trailers" (8.1.2.2). *)
Definition regular (f : field) : Prop :=
  fst f <> [] /\ (forall rest, fst f <> 58 :: rest) /\ (forall c, In c (fst f) -> ~ (65 <= c <= 90)) /\ valid_value (snd f) /\
  ~ In (fst f) [octets "connection"; octets "keep-alive"; octets "proxy-connection"; octets "transfer-encoding"; octets "upgrade"] /\
  (fst f = octets "te" -> snd f = octets "trailers").

Definition has (name : string) (fs : list field) : Prop := In (octets name) (map fst fs).

(* 8.1.2.3 and 8.3: the pseudo-header fields come first, each at most once;
   :method, :scheme and a :path that is not empty are there, but for CONNECT,
   which has :method and :authority only. *)
Definition well_formed_request (hs : list field) : Prop :=
  exists ps rs, hs = ps ++ rs /\ Forall regular rs /\ NoDup (map fst ps) /\
    (forall f, In f ps -> In (fst f) [octets ":method"; octets ":scheme"; octets ":authority"; octets ":path"] /\ valid_value (snd f)) /\
    has ":method" ps /\
    ((In (octets ":method", octets "CONNECT") ps /\ has ":authority" ps /\ ~ has ":scheme" ps /\ ~ has ":path" ps) \/
     (~ In (octets ":method", octets "CONNECT") ps /\ has ":scheme" ps /\ has ":path" ps /\ ~ In (octets ":path", []) ps)).

(* 8.1.2.4: the :status pseudo-header field comes first, and is the only one. *)
Definition well_formed_response (hs : list field) : Prop :=
  exists a b c rs, hs = (octets ":status", [a; b; c]) :: rs /\ Forall regular rs /\
    forall d, In d [a; b; c] -> 48 <= d <= 57.

(* ---- deciding it, for the examples and the sample ---- *)

Definition regularb (f : field) : bool :=
  negb (bytes_eqb (fst f) []) && negb (match fst f with b :: _ => b =? 58 | [] => false end) &&
  forallb (fun c => negb ((65 <=? c) && (c <=? 90))) (fst f) &&
  forallb (fun c => negb ((c =? 0) || (c =? 10) || (c =? 13))) (snd f) &&
  negb (existsb (bytes_eqb (fst f)) [octets "connection"; octets "keep-alive"; octets "proxy-connection"; octets "transfer-encoding"; octets "upgrade"]) &&
  (negb (bytes_eqb (fst f) (octets "te")) || bytes_eqb (snd f) (octets "trailers")).

Lemma valid_valueb : forall v, forallb (fun c => negb ((c =? 0) || (c =? 10) || (c =? 13))) v = true -> valid_value v.
Proof. intros v H c I. apply (proj1 (forallb_forall _ _) H) in I. lia. Qed.

Lemma regularb_ok : forall f, regularb f = true -> regular f.
Proof.
  intros f H. unfold regularb in H. repeat (apply andb_true_iff in H; let H' := fresh "H" in destruct H as [H H']).
  unfold regular. split; [|split; [|split; [|split; [|split]]]].
  - intros E. rewrite E in H. discriminate H.
  - intros rest E. rewrite E in H4. cbn in H4. discriminate H4.
  - intros c I. apply (proj1 (forallb_forall _ _) H3) in I. lia.
  - apply valid_valueb. assumption.
  - intros I. apply negb_true_iff in H1. apply not_true_iff_false in H1. apply H1. apply existsb_exists. exists (fst f). split; [exact I|].
    apply bytes_eqb_eq. reflexivity.
  - intros E. rewrite E in H0. apply orb_true_iff in H0. destruct H0 as [H0|H0]; [exfalso; revert H0; vm_compute; discriminate|apply bytes_eqb_eq; exact H0].
Qed.

(* ---------------------------------------------------------------- C109 *)

(* The request of the sample program (C62_request_meaning says that it is what
   the server reads) is well formed. *)
Theorem C109_sample : well_formed_request get_fields.
Proof.
  exists get_fields, []. split; [symmetry; apply app_nil_r|]. split; [constructor|].
  split; [|split; [|split]].
  - unfold get_fields. cbn [map fst].
    repeat (apply NoDup_cons; [vm_compute; intros X; repeat (destruct X as [X|X]; [discriminate X|]); exact X|]). apply NoDup_nil.
  - intros f I. unfold get_fields in I. cbn [In] in I.
    repeat (destruct I as [<-|I]; [split; [cbn [fst]; cbn [In]; tauto|apply valid_valueb; vm_compute; reflexivity]|]). destruct I.
  - unfold has, get_fields. cbn [map fst In]. tauto.
  - right. unfold has, get_fields. cbn [map fst In]. split; [|split; [tauto|split; [tauto|]]];
      intros X; repeat (destruct X as [X|X]; [vm_compute in X; discriminate X|]); exact X.
Qed.

(* Every list of header fields, submitted without indexing, is sent, and the
   server reads it as it was submitted. *)
Lemma sent_as_submitted : forall host c p hs mode flags sid e dep w limit,
  p = WithoutIndexing \/ p = NeverIndexed -> flags < 2 ^ 8 -> sid < 2 ^ 31 -> e < 2 -> dep < 2 ^ 31 -> w < 2 ^ 8 ->
  Forall (fun h => is_octets (fst h) /\ is_octets (snd h) /\ fst h <> octets "accept-control-allow-origin") hs ->
  let t := Table (dt_max (c_req c)) (dt_entries (c_req c)) in
  exists b f fragment, make_header_block p hs = Ok b /\
    mk_headers flags sid b mode (get_request_dynamic_table c) [] (Prio e dep w) = Ok f /\
    (forall fs t', rfc_block limit t fragment fs t' <-> fs = hs /\ t' = t) /\
    let payload := headers_octets flags e dep w fragment [] in
    (size payload < 2 ^ 24 -> delivers (9 + size payload) (c_tls c) ->
     exists c', send_frame host c f = (Ok tt, c') /\
       tls_out (c_tls c') = tls_out (c_tls c) ++ wire_frame HEADERS flags 0 sid payload).
Proof.
  intros host c p hs mode flags sid e dep w limit P F S E D W O t.
  destruct (C65_block_means_headers p hs mode (c_req c) limit P O) as (b & fragment & M & X & B & U).
  exists b. eexists. exists fragment. split; [exact M|]. unfold mk_headers, get_request_dynamic_table.
  rewrite (headers_payload_wire flags b mode (c_req c) [] e dep w fragment) by (try assumption; cbn; lia).
  cbn [bind]. split; [reflexivity|]. split.
  { intros fs t'. split; [apply U|]. intros [-> ->]. exact B. }
  cbv zeta. set (payload := headers_octets flags e dep w fragment []). intros L DL.
  assert (LU : cast_to_fh_length (size payload) = size payload).
  { apply u32_small. change (2 ^ 32) with 4294967296. change (2 ^ 24) with 16777216 in L. lia. }
  assert (SZ : serialize host (HeadersFrame payload (FH (cast_to_fh_length (size payload)) T_HEADERS flags 0 sid) [] (Prio e dep w) b) =
    Ok (wire_frame HEADERS flags 0 sid payload)).
  { rewrite (serialize_wire host _ payload); cbn; try assumption; reflexivity. }
  assert (WS : size (wire_frame HEADERS flags 0 sid payload) = 9 + size payload).
  { apply PropMade.sent_size. }
  destruct (C54_send_completes host c (SendFrame (HeadersFrame payload (FH (cast_to_fh_length (size payload)) T_HEADERS flags 0 sid) [] (Prio e dep w) b)) _ SZ)
    as (c' & SE).
  { rewrite WS. change (2 ^ 31) with 2147483648. change (2 ^ 24) with 16777216 in L. lia. }
  { rewrite WS. exact DL. }
  exists c'. split; [exact SE|]. destruct (C54_send_exact _ _ _ _ _ SE) as (_ & _ & _ & [(d & TS & _ & TO)|[(d & k & _ & X' & _)|(_ & X' & _)]]).
  - cbn [to_send] in TS. rewrite SZ in TS. injection TS as <-. exact TO.
  - discriminate X'.
  - destruct X'. reflexivity.
Qed.

(* So a request that is well formed arrives well formed ... *)
Theorem C109_request_kept_partial : forall host c p hs mode flags sid e dep w limit,
  p = WithoutIndexing \/ p = NeverIndexed -> flags < 2 ^ 8 -> sid < 2 ^ 31 -> e < 2 -> dep < 2 ^ 31 -> w < 2 ^ 8 ->
  Forall (fun h => is_octets (fst h) /\ is_octets (snd h) /\ fst h <> octets "accept-control-allow-origin") hs ->
  well_formed_request hs ->
  let t := Table (dt_max (c_req c)) (dt_entries (c_req c)) in
  exists b f fragment, make_header_block p hs = Ok b /\
    mk_headers flags sid b mode (get_request_dynamic_table c) [] (Prio e dep w) = Ok f /\
    (exists fs t', rfc_block limit t fragment fs t') /\
    (forall fs t', rfc_block limit t fragment fs t' -> fs = hs /\ well_formed_request fs) /\
    let payload := headers_octets flags e dep w fragment [] in
    (size payload < 2 ^ 24 -> delivers (9 + size payload) (c_tls c) ->
     exists c', send_frame host c f = (Ok tt, c') /\
       tls_out (c_tls c') = tls_out (c_tls c) ++ wire_frame HEADERS flags 0 sid payload).
Proof.
  intros host c p hs mode flags sid e dep w limit P F S E D W O WF t.
  destruct (sent_as_submitted host c p hs mode flags sid e dep w limit P F S E D W O) as (b & f & fragment & M & H & R & X).
  exists b, f, fragment. split; [exact M|]. split; [exact H|]. split; [exists hs, t; apply R; auto|]. split; [|exact X].
  intros fs t' B. apply R in B. destruct B as [-> _]. auto.
Qed.

(* ... but one that is not is sent all the same, whatever is wrong with it. *)
Theorem C109_request_refuted : forall host c p hs mode flags sid e dep w limit,
  p = WithoutIndexing \/ p = NeverIndexed -> flags < 2 ^ 8 -> sid < 2 ^ 31 -> e < 2 -> dep < 2 ^ 31 -> w < 2 ^ 8 ->
  Forall (fun h => is_octets (fst h) /\ is_octets (snd h) /\ fst h <> octets "accept-control-allow-origin") hs ->
  ~ well_formed_request hs ->
  let t := Table (dt_max (c_req c)) (dt_entries (c_req c)) in
  exists b f fragment, make_header_block p hs = Ok b /\
    mk_headers flags sid b mode (get_request_dynamic_table c) [] (Prio e dep w) = Ok f /\
    (exists fs t', rfc_block limit t fragment fs t') /\
    (forall fs t', rfc_block limit t fragment fs t' -> fs = hs /\ ~ well_formed_request fs) /\
    let payload := headers_octets flags e dep w fragment [] in
    (size payload < 2 ^ 24 -> delivers (9 + size payload) (c_tls c) ->
     exists c', send_frame host c f = (Ok tt, c') /\
       tls_out (c_tls c') = tls_out (c_tls c) ++ wire_frame HEADERS flags 0 sid payload).
Proof.
  intros host c p hs mode flags sid e dep w limit P F S E D W O WF t.
  destruct (sent_as_submitted host c p hs mode flags sid e dep w limit P F S E D W O) as (b & f & fragment & M & H & R & X).
  exists b, f, fragment. split; [exact M|]. split; [exact H|]. split; [exists hs, t; apply R; auto|]. split; [|exact X].
  intros fs t' B. apply R in B. destruct B as [-> _]. auto.
Qed.

(* And with indexing a request that is well formed can arrive as one that is
   not: the path of an earlier request, used again with a new authority, is read
   as a second authority. *)
Theorem C109_stale_refuted : forall limit T v es a mode, dt_ok T ->
  let path := (octets ":path", v) in let authority := (octets ":authority", a) in
  dt_entries T = path :: es -> ~ In path (map snd static_table_entries) -> ~ in_tables T authority ->
  is_octets v -> valid_value v -> v <> [] -> is_octets a -> valid_value a -> field_size authority <= dt_max T ->
  let get := (octets ":method", octets "GET") in let https := (octets ":scheme", octets "https") in
  let b := [HEntry Indexed (EHeader get); HEntry Indexed (EHeader https);
            HEntry IncrementalIndexing (EHeader authority); HEntry IncrementalIndexing (EHeader path)] in
  well_formed_request [get; https; authority; path] /\ ~ well_formed_request [get; https; authority; authority] /\
  exists fragment, encode_block b mode T = Ok fragment /\
    forall fs t', rfc_block limit (Table (dt_max T) (dt_entries T)) fragment fs t' <->
      fs = [get; https; authority; authority] /\ t' = insert (Table (dt_max T) (dt_entries T)) authority.
Proof.
  intros limit T v es a mode K path authority TE NS NI Ov Vv Nv Oa Va L get https b.
  split; [|split].
  - exists [get; https; authority; path], []. split; [reflexivity|]. split; [constructor|]. split; [|split; [|split]].
    + cbn [map fst get https authority path].
      repeat (apply NoDup_cons; [vm_compute; intros X; repeat (destruct X as [X|X]; [discriminate X|]); exact X|]). apply NoDup_nil.
    + intros f I. cbn [In] in I. destruct I as [<-|[<-|[<-|[<-|[]]]]]; (split; [cbn [fst get https authority path In]; tauto|]);
        [apply valid_valueb; vm_compute; reflexivity|apply valid_valueb; vm_compute; reflexivity|exact Va|exact Vv].
    + unfold has. cbn [map fst get In]. tauto.
    + right. unfold has. cbn [map fst get https authority path In]. split; [|split; [tauto|split; [tauto|]]];
        intros X; repeat (destruct X as [X|X]; [try (vm_compute in X; discriminate X)|]); try exact X.
      apply (f_equal snd) in X. exact (Nv X).
  - intros (ps & rs & E & R & ND & PS & _ & _).
    assert (G : forall f, In f [get; https; authority; authority] -> ~ regular f).
    { intros f I (_ & N & _). cbn [In] in I. destruct I as [<-|[<-|[<-|[<-|[]]]]]; eapply N; vm_compute; reflexivity. }
    assert (rs = []).
    { destruct rs as [|r rs]; [reflexivity|]. exfalso. apply (G r); [rewrite E; apply in_or_app; right; left; reflexivity|exact (Forall_inv R)]. }
    subst rs. rewrite app_nil_r in E. subst ps. cbn [map fst get https authority] in ND.
    inversion ND as [|x l _ ND1]; subst. inversion ND1 as [|x l _ ND2]; subst. inversion ND2 as [|x l X _]; subst. apply X. left. reflexivity.
  - destruct (literal_means Incremental authority mode T) as (out & n & E & R & S);
      [apply octets_dec; vm_compute; reflexivity|exact Oa|exact NI|vm_compute; discriminate|].
    assert (E2 : encode_header (HEntry IncrementalIndexing (EHeader path)) mode T = Ok [0xbe]).
    { unfold encode_header. cbn [e_prefix get_header e_content bind]. change (hprefix_eqb IncrementalIndexing SizeUpdate) with false. cbv iota.
      destruct (reverse_static_find path) as [i|] eqn:RS; [exfalso; apply NS, in_static; eauto|].
      rewrite TE. cbn [find_index]. rewrite (proj2 (header_eqb_eq path path) eq_refl). vm_compute. reflexivity. }
    assert (E0 : encode_header (HEntry Indexed (EHeader get)) mode T = Ok [0x82]) by (vm_compute; reflexivity).
    assert (E1 : encode_header (HEntry Indexed (EHeader https)) mode T = Ok [0x87]) by (vm_compute; reflexivity).
    exists ([0x82] ++ [0x87] ++ out ++ [0xbe] ++ []). split.
    { unfold b. cbn [encode_block]. cbn [lib_prefix] in E. rewrite E0, E1, E, E2. reflexivity. }
    assert (B : rfc_block limit (rfc_table T) ([0x82] ++ [0x87] ++ out ++ [0xbe] ++ []) [get; https; authority; authority] (insert (rfc_table T) authority)).
    { change [get; https; authority; authority] with (opt_cons (Some get) (opt_cons (Some https) (opt_cons (Some authority) (opt_cons (Some authority) (@nil field))))).
      eapply rfc_block_cons; [apply repr_indexed; [exact (short_int 7 0x82 eq_refl eq_refl)|do 2 eexists; split; [reflexivity|lia]]|reflexivity|].
      eapply rfc_block_cons; [apply repr_indexed; [exact (short_int 7 0x87 eq_refl eq_refl)|do 2 eexists; split; [reflexivity|lia]]|reflexivity|].
      eapply rfc_block_cons with (t1 := insert (rfc_table T) authority); [exact R|cbn [step_in]; rewrite S; reflexivity|].
      eapply rfc_block_cons; [apply repr_indexed| |constructor].
      + exact (short_int 7 0xbe eq_refl eq_refl).
      + do 2 eexists. split; [reflexivity|]. lia.
      + change (0xbe mod 2 ^ 7) with 62. cbn [step_in].
        replace (resolve_in rfc_static (insert (rfc_table T) authority) 62) with (Some authority); [reflexivity|].
        unfold insert, rfc_table. cbn [t_max t_entries keep]. destruct (N.leb_spec (field_size authority) (dt_max T)); [reflexivity|lia]. }
    intros fs t'. split.
    + intros B'. destruct (rfc_block_unique _ _ _ _ _ B _ _ B') as [<- <-]. auto.
    + intros [-> ->]. exact B.
Qed.

(* ---- responses ---- *)

Lemma tells_fields : forall f x fragment, tells f x -> fragment_of (msg_content x) = Some fragment -> frame_fields f = msg_fields x.
Proof.
  intros f x fragment (_ & _ & _ & H) F. destruct x as [w c fs]. cbn [msg_frame msg_content msg_fields] in *.
  destruct f, c; try contradiction; try discriminate F; cbn [frame_fields]; tauto.
Qed.

(* What is returned is well formed exactly if what the server sent is: nothing
   is refused, and nothing is broken. *)
Theorem C109_response_partial : forall m limit t x t' c rest fragment,
  server_sends m limit t x t' -> fragment_of (msg_content x) = Some fragment -> wframe_ok (msg_frame x) ->
  dt_ok (c_resp c) -> Table (dt_max (c_resp c)) (dt_entries (c_resp c)) = t ->
  tls_in (c_tls c) = wire (msg_frame x) ++ rest -> delivers (size (wire (msg_frame x))) (c_tls c) ->
  exists f c', receive_frame m c = (Ok f, c') /\ frame_fields f = msg_fields x /\
    (well_formed_response (frame_fields f) <-> well_formed_response (msg_fields x)).
Proof.
  intros m limit t x t' c rest fragment S F W K E I D.
  destruct (C93_received_as_sent_partial m limit [x] t t' c rest) as (fs & c' & R & T & _); auto.
  - econstructor; [exact S|constructor].
  - cbn [map]. constructor; [exact W|constructor].
  - cbn [map concat]. rewrite app_nil_r. exact I.
  - cbn [map concat]. rewrite app_nil_r. exact D.
  - inversion T as [|f y fs' l TF T' Q1 Q2]; subst. inversion T'; subst. cbn [length receive_n map] in R.
    destruct (receive_frame m c) as [r c1] eqn:RF. injection R as -> <-. exists f, c1. split; [reflexivity|].
    pose proof (tells_fields f x fragment TF F) as FF. split; [exact FF|]. rewrite FF. reflexivity.
Qed.

(* So a response that is not well formed is returned like any other. *)
Theorem C109_response_refuted : forall m limit t x t' c rest fragment,
  server_sends m limit t x t' -> fragment_of (msg_content x) = Some fragment -> wframe_ok (msg_frame x) ->
  dt_ok (c_resp c) -> Table (dt_max (c_resp c)) (dt_entries (c_resp c)) = t ->
  tls_in (c_tls c) = wire (msg_frame x) ++ rest -> delivers (size (wire (msg_frame x))) (c_tls c) ->
  ~ well_formed_response (msg_fields x) ->
  exists f c', receive_frame m c = (Ok f, c') /\ frame_fields f = msg_fields x /\ ~ well_formed_response (frame_fields f).
Proof.
  intros m limit t x t' c rest fragment S F W K E I D N.
  destruct (C109_response_partial m limit t x t' c rest fragment S F W K E I D) as (f & c' & R & FF & Q).
  exists f, c'. split; [exact R|]. split; [exact FF|]. rewrite Q. exact N.
Qed.

(* A request with a line end in a value, and a response of the field "a: b"
   alone, from a server as in C93. *)
Example C109_case :
  ~ well_formed_request [(octets ":method", octets "GET"); (octets ":scheme", octets "https"); (octets ":path", octets "/");
                         (octets "cookie", octets "a=b" ++ [13; 10] ++ octets "x: y")] /\
  well_formed_response [(octets ":status", octets "200"); (octets "server", octets "x")] /\
  let x := Message (WFrame HEADERS 4 0 1 [0x40; 1; 97; 1; 98]) (CHeaders None [0x40; 1; 97; 1; 98] []) [([97], [98])] in
  server_sends Strict 4096 (Table 4096 []) x (Table 4096 [([97], [98])]) /\ wframe_ok (msg_frame x) /\ ~ well_formed_response (msg_fields x).
Proof.
  assert (NR : forall v, ~ valid_value v -> forall n, ~ regular (n, v)) by (intros v V n (_ & _ & _ & X & _); exact (V X)).
  split; [|split].
  - intros (ps & rs & E & R & _ & PS & _).
    assert (I : In (octets "cookie", octets "a=b" ++ [13; 10] ++ octets "x: y") (ps ++ rs)) by (rewrite <- E; cbn [In]; tauto).
    assert (V : ~ valid_value (octets "a=b" ++ [13; 10] ++ octets "x: y")).
    { intros V. destruct (V 13) as (_ & _ & X); [apply in_or_app; right; left; reflexivity|]. apply X. reflexivity. }
    apply in_app_or in I. destruct I as [I|I].
    + apply PS in I. exact (V (proj2 I)).
    + exact (NR _ V _ (proj1 (Forall_forall _ _) R _ I)).
  - exists 50, 48, 48, [(octets "server", octets "x")]. split; [reflexivity|]. split; [constructor; [apply regularb_ok; vm_compute; reflexivity|constructor]|].
    intros d I. cbn [In] in I. lia.
  - cbv zeta. assert (NP : padding_fits 4 []) by (split; [cbn; lia|reflexivity]). split; [|split].
    + eapply sends_fields; [exact (layout_headers 4 [0x40; 1; 97; 1; 98] [] NP eq_refl)|reflexivity|].
      do 2 eexists. split; [exact (run_a_b Strict default_table eq_refl)|].
      split; [repeat split; discriminate|]. split; [discriminate|exact I].
    + apply wframe_check. vm_compute. reflexivity.
    + intros (a & b & c & rs & E & _). discriminate E.
Qed.

Example C109_stale_case : let path := (octets ":path", octets "/a") in let T := DynTable [path] 39 4096 in
  dt_ok T /\ dt_entries T = path :: [] /\ ~ In path (map snd static_table_entries) /\
  ~ in_tables T (octets ":authority", octets "b") /\ valid_value (octets "/a") /\ field_size (octets ":authority", octets "b") <= dt_max T.
Proof.
  cbv zeta. split; [split; [vm_compute; reflexivity|vm_compute; discriminate]|]. split; [reflexivity|].
  assert (NS : forall h, existsb (header_eqb h) (map snd static_table_entries) = false -> ~ In h (map snd static_table_entries)).
  { intros h E I. apply not_true_iff_false in E. apply E. apply existsb_exists. exists h. split; [exact I|]. apply header_eqb_eq. reflexivity. }
  split; [apply NS; vm_compute; reflexivity|]. split.
  - intros [I|I]; [|destruct I as [I|[]]; vm_compute in I; discriminate I]. revert I. 
    intros [I _]. revert I. apply NS. vm_compute. reflexivity.
  - split; [apply valid_valueb; vm_compute; reflexivity|vm_compute; discriminate].
Qed.

Print Assumptions C109_sample.
Print Assumptions C109_request_kept_partial.
Print Assumptions C109_request_refuted.
Print Assumptions C109_stale_refuted.
Print Assumptions C109_response_partial.
Print Assumptions C109_response_refuted.
