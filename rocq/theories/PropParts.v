(* Property C100: header lists sent in HEADERS and CONTINUATION frames. *)
From Coq Require Import String.
From Coq Require Import ZArith NArith List Bool Lia ZifyBool ZifyNat ZifyN.
From Verif Require Import Base Arith Util StaticTable HeaderType DynTable HeaderEnc HeaderDec FrameHeader Frames FrameBuilder Ssl Client
  SpecBits SpecHpack SpecFrame SpecUnique UtilProofs DynTableProofs StaticProofs HeaderProofs HeaderProofs2 FrameProofs BlockProofs
  HistoryProofs PropHeader PropFrame PropBlock PropSsl PropClient PropHistory PropRequest PropAhead PropPeer.
Import ListNotations.
Local Open Scope string_scope.
Local Open Scope list_scope.
Local Open Scope N_scope.
Ltac Zify.zify_post_hook ::= Z.div_mod_to_equations.

(* ---- specification: RFC 7540, sections 4.3, 6.2 and 6.10 ---- *)

Definition ends_headers (flags : N) : bool := N.testbit flags 2.

(* CONTINUATION frames on stream sid up to the first with END_HEADERS: their
   octets, and their fragments joined. *)
Inductive continued (sid : N) : list N -> list N -> Prop :=
| continued_last : forall flags r fragment, ends_headers flags = true -> r < 2 -> size fragment < 2 ^ 24 ->
    continued sid (wire_frame CONTINUATION flags r sid fragment) fragment
| continued_more : forall flags r fragment w more, ends_headers flags = false -> r < 2 -> size fragment < 2 ^ 24 ->
    continued sid w more -> continued sid (wire_frame CONTINUATION flags r sid fragment ++ w) (fragment ++ more).

(* The frames (octets w) that complete a HEADERS frame with the given flags and
   fragment, and the whole header block. *)
Definition completes (flags sid : N) (fragment w block : list N) : Prop :=
  (ends_headers flags = true /\ w = [] /\ block = fragment) \/
  (ends_headers flags = false /\ exists more, continued sid w more /\ block = fragment ++ more).

(* A server reading a sequence of header lists: each with its stream; the server
   decodes a header block when it has all of it. *)
Inductive server_assembles (limit : N) : table -> list N -> list (N * list field) -> table -> Prop :=
| assembles_nil : forall t, server_assembles limit t [] [] t
| assembles_headers : forall t flags r sid e dep wt fragment padding w block fs t1 rest fss t2,
    let payload := headers_octets flags e dep wt fragment padding in
    r < 2 -> sid < 2 ^ 31 -> size payload < 2 ^ 24 -> completes flags sid fragment w block ->
    rfc_block limit t block fs t1 -> server_assembles limit t1 rest fss t2 ->
    server_assembles limit t (wire_frame HEADERS flags r sid payload ++ w ++ rest) ((sid, fs) :: fss) t2.

(* ---- what the user does ---- *)

(* A CONTINUATION frame: arguments of its constructor except the stream. *)
Record part := Part { p_flags : N; p_block : header_block; p_mode : encode_mode }.

(* A header list: what goes into HEADERS, and what goes into CONTINUATION frames. *)
Record long_request := Long { l_first : request; l_more : list part }.

Definition l_stream (q : long_request) : N := q_stream (l_first q).
Definition l_block (q : long_request) : header_block := q_block (l_first q) ++ flat_map p_block (l_more q).

(* First way: every frame is built with the request table, sent, and reported
   with update_request_dynamic_table before the next is built. *)
Fixpoint send_parts (host : endian) (sid : N) (c : client) (ps : list part) : res unit * client :=
  match ps with
  | [] => (Ok tt, c)
  | p :: ps' =>
      match mk_continuation (p_flags p) sid (p_block p) (p_mode p) (get_request_dynamic_table c) with
      | Ok f =>
          let '(r, c1) := send_frame host c f in
          match r with
          | Ok _ =>
              let '(r2, c2) := update_request_dynamic_table c1 (p_block p) in
              match r2 with Ok _ => send_parts host sid c2 ps' | _ => (r2, c2) end
          | _ => (r, c1)
          end
      | Throw x => (Throw x, c)
      | UB u => (UB u, c)
      | NoFuel => (NoFuel, c)
      end
  end.

Definition perform_in_turn (host : endian) (c : client) (q : long_request) : res unit * client :=
  let '(r, c1) := perform host c (l_first q) in
  match r with Ok _ => send_parts host (l_stream q) c1 (l_more q) | _ => (r, c1) end.

(* Second way: all frames are built with the request table as it is, sent, and
   the whole list is reported at the end. *)
Fixpoint build_parts (T : dyn_table) (sid : N) (ps : list part) : res (list frame) :=
  match ps with
  | [] => Ok []
  | p :: ps' =>
      let* f := mk_continuation (p_flags p) sid (p_block p) (p_mode p) T in
      let* fs := build_parts T sid ps' in
      Ok (f :: fs)
  end.

Fixpoint send_frames (host : endian) (c : client) (fs : list frame) : res unit * client :=
  match fs with
  | [] => (Ok tt, c)
  | f :: fs' => let '(r, c1) := send_frame host c f in match r with Ok _ => send_frames host c1 fs' | _ => (r, c1) end
  end.

Definition perform_at_once (host : endian) (c : client) (q : long_request) : res unit * client :=
  let T := get_request_dynamic_table c in
  match (let* f := build_request T (l_first q) in let* fs := build_parts T (l_stream q) (l_more q) in Ok (f :: fs)) with
  | Ok fs =>
      let '(r, c1) := send_frames host c fs in
      match r with Ok _ => update_request_dynamic_table c1 (l_block q) | _ => (r, c1) end
  | Throw x => (Throw x, c)
  | UB u => (UB u, c)
  | NoFuel => (NoFuel, c)
  end.

Fixpoint all_in_order (one : client -> long_request -> res unit * client) (c : client) (qs : list long_request) : res unit * client :=
  match qs with
  | [] => (Ok tt, c)
  | q :: qs' => let '(r, c') := one c q in match r with Ok _ => all_in_order one c' qs' | _ => (r, c') end
  end.

(* ---- which header lists ---- *)

(* END_HEADERS is on the last frame and on no other. *)
Fixpoint flags_ok (flags : list N) : Prop :=
  match flags with
  | [] => False
  | [f] => ends_headers f = true
  | f :: fs => ends_headers f = false /\ flags_ok fs
  end.

Definition part_fits (t : table) (p : part) : Prop :=
  forall raw, encode_block (p_block p) (p_mode p) (of_table t) = Ok raw -> size raw < 2 ^ 24.

(* First way: no part has one of the deviations of C52 in the table there is
   when it is built. *)
Fixpoint parts_in_turn (limit : N) (t : table) (ps : list part) : Prop :=
  match ps with
  | [] => True
  | p :: ps' =>
      part_fits t p /\ plain_block limit (of_table t) (t_max t) false (p_block p) /\
      parts_in_turn limit (table_after t (p_block p)) ps'
  end.

Definition long_in_turn (limit : N) (t : table) (q : long_request) : Prop :=
  flags_ok (q_flags (l_first q) :: map p_flags (l_more q)) /\ request_ok t (l_first q) /\
  plain_block limit (of_table t) (t_max t) false (q_block (l_first q)) /\
  parts_in_turn limit (table_after t (q_block (l_first q))) (l_more q).

(* Second way: the whole list has none of them. *)
Definition long_at_once (limit : N) (t : table) (q : long_request) : Prop :=
  flags_ok (q_flags (l_first q) :: map p_flags (l_more q)) /\ request_ok t (l_first q) /\
  plain_block limit (of_table t) (t_max t) false (l_block q) /\ Forall (part_fits t) (l_more q).

Fixpoint long_requests (ok : table -> long_request -> Prop) (t : table) (qs : list long_request) : Prop :=
  match qs with
  | [] => True
  | q :: qs' => ok t q /\ long_requests ok (table_after t (l_block q)) qs'
  end.

(* ---- the specification is deterministic ---- *)

Lemma be4_inj : forall x y, x < 2 ^ 32 -> y < 2 ^ 32 -> be_octets 4 x = be_octets 4 y -> x = y.
Proof.
  intros x y X Y E. pose proof (be4_round x [] X) as A. rewrite E, (be4_round y [] Y) in A. apply Ok_inj in A. symmetry. exact A.
Qed.

Lemma wire_frame_stream : forall ty flags r sid p x ty' flags' r' sid' p' x',
  size p < 2 ^ 24 -> size p' < 2 ^ 24 -> r < 2 -> r' < 2 -> sid < 2 ^ 31 -> sid' < 2 ^ 31 ->
  wire_frame ty flags r sid p ++ x = wire_frame ty' flags' r' sid' p' ++ x' ->
  ty = ty' /\ flags = flags' /\ sid = sid' /\ p = p' /\ x = x'.
Proof.
  intros ty flags r sid p x ty' flags' r' sid' p' x' L L' R R' S S' E.
  destruct (wire_frame_inj _ _ _ _ _ _ _ _ _ _ _ _ L L' E) as (-> & -> & -> & ->).
  unfold wire_frame, wire_header in E. rewrite <- !app_assoc in E.
  apply app_inv_head in E. apply app_inv_head in E. apply app_inv_tail in E.
  apply be4_inj in E; change (2 ^ 31) with 2147483648 in *; change (2 ^ 32) with 4294967296; try lia.
  repeat split; try reflexivity. lia.
Qed.

Lemma continued_unique : forall sid w more, sid < 2 ^ 31 -> continued sid w more ->
  forall w' more' x x', continued sid w' more' -> w ++ x = w' ++ x' -> w = w' /\ more = more' /\ x = x'.
Proof.
  intros sid w more S H. induction H as [flags r fr E R L|flags r fr w more E R L H IH]; intros w' more' x x' H' EQ.
  - destruct H' as [flags' r' fr' E' R' L'|flags' r' fr' w' more' E' R' L' H'].
    + destruct (wire_frame_inj _ _ _ _ _ _ _ _ _ _ _ _ L L' EQ) as (_ & -> & -> & ->).
      apply app_inv_tail in EQ. auto.
    + rewrite <- app_assoc in EQ. destruct (wire_frame_inj _ _ _ _ _ _ _ _ _ _ _ _ L L' EQ) as (_ & -> & _). congruence.
  - destruct H' as [flags' r' fr' E' R' L'|flags' r' fr' w' more' E' R' L' H'].
    + rewrite <- app_assoc in EQ. destruct (wire_frame_inj _ _ _ _ _ _ _ _ _ _ _ _ L L' EQ) as (_ & -> & _). congruence.
    + rewrite <- !app_assoc in EQ.
      destruct (wire_frame_inj _ _ _ _ _ _ _ _ _ _ _ _ L L' EQ) as (_ & -> & -> & EQ2).
      destruct (IH _ _ _ _ H' EQ2) as (-> & -> & ->).
      apply app_inv_tail in EQ. rewrite EQ. auto.
Qed.

Lemma server_assembles_unique : forall limit t out fss t2, server_assembles limit t out fss t2 ->
  forall fss' t2', server_assembles limit t out fss' t2' -> fss = fss' /\ t2 = t2'.
Proof.
  intros limit t out fss t2 H.
  induction H as [t|t flags r sid e dep wt fr pad w block fs t1 rest fss t2 payload R S L C B H IH]; intros fss' t2' H'.
  - remember (@nil N) as out eqn:EO. destruct H' as [t0|]; [auto|]. discriminate EO.
  - remember (wire_frame HEADERS flags r sid payload ++ w ++ rest) as out eqn:E2.
    destruct H' as [t0|t flags' r' sid' e' dep' wt' fr' pad' w' block' fs' t1' rest' fss0 t20 payload' R' S' L' C' B' H0].
    + discriminate E2.
    + symmetry in E2. destruct (wire_frame_stream _ _ _ _ _ _ _ _ _ _ _ _ L L' R R' S S' E2) as (_ & <- & <- & EP & ER).
      apply headers_octets_inj in EP. subst fr'.
      assert (X : w = w' /\ block = block' /\ rest = rest').
      { destruct C as [(EF & -> & ->)|(EF & more & C & ->)]; destruct C' as [(EF' & -> & ->)|(EF' & more' & C' & ->)]; try congruence.
        - auto.
        - destruct (continued_unique _ _ _ S C _ _ _ _ C' ER) as (-> & -> & ->). auto. }
      destruct X as (_ & <- & <-). destruct (rfc_block_unique _ _ _ _ _ B _ _ B') as [<- <-].
      destruct (IH _ _ H0) as [<- <-]. auto.
Qed.

(* ---- tools ---- *)

Lemma rfc_block_join : forall limit t a fs t1, rfc_block limit t a fs t1 ->
  forall b gs t2, rfc_block limit t1 b gs t2 -> rfc_block limit t (a ++ b) (fs ++ gs) t2.
Proof.
  intros limit t a fs t1 H. induction H as [t|t l r o t1 ls fs t2 R S H IH]; intros b gs t3 B; [exact B|].
  rewrite <- app_assoc. replace (opt_cons o fs ++ gs) with (opt_cons o (fs ++ gs)) by (destruct o; reflexivity).
  eapply rfc_block_cons; [exact R|exact S|]. apply IH. exact B.
Qed.

Lemma table_after_app : forall a b t, table_after t (a ++ b) = table_after (table_after t a) b.
Proof. induction a as [|[p [h|n]] a IH]; intros b t; [reflexivity|..]; destruct p; cbn [app table_after]; apply IH. Qed.

Lemma fields_of_app : forall a b, fields_of (a ++ b) = fields_of a ++ fields_of b.
Proof. intros. unfold fields_of. apply flat_map_app. Qed.

Lemma plain_app : forall limit t a b ts changed, plain_block limit t (t_max ts) changed (a ++ b) ->
  (changed = false -> ts = rfc_table t) ->
  plain_block limit t (t_max ts) changed a /\
  exists ch, plain_block limit t (t_max (table_after ts a)) ch b /\ (ch = false -> table_after ts a = rfc_table t).
Proof.
  intros limit t. induction a as [|[p [h|n]] a IH]; intros b ts changed P C.
  - split; [exact I|]. exists changed. auto.
  - assert (G : forall A : Prop, A /\ plain_block limit t (t_max ts) changed (a ++ b) ->
      (A /\ plain_block limit t (t_max ts) changed a) /\
      exists ch, plain_block limit t (t_max (table_after ts a)) ch b /\ (ch = false -> table_after ts a = rfc_table t)).
    { intros A [X Y]. destruct (IH b ts changed Y C) as [P1 P2]. auto. }
    destruct p; cbn [app plain_block table_after] in *; try contradiction; try (apply G; exact P).
    destruct P as (F & L & P). destruct (IH b (insert ts h) true P ltac:(discriminate)) as [P1 P2]. auto.
  - destruct p; cbn [app plain_block table_after] in *; try contradiction.
    destruct P as (L & P). destruct (IH b (resize ts n) true P ltac:(discriminate)) as [P1 P2]. auto.
Qed.

(* From request table T the calls put out on the connection and leave the table
   T': whenever they return, and they do when the TLS layer does not fail. *)
Definition behaves (run : client -> res unit * client) (T : dyn_table) (out : list N) (T' : dyn_table) : Prop :=
  (forall c n, c_req c = T -> delivers (size out + n) (c_tls c) ->
     exists c', run c = (Ok tt, c') /\ delivers n (c_tls c') /\ tls_out (c_tls c') = tls_out (c_tls c) ++ out /\ c_req c' = T') /\
  (forall c c', c_req c = T -> run c = (Ok tt, c') -> tls_out (c_tls c') = tls_out (c_tls c) ++ out /\ c_req c' = T').

Lemma behaves_ext : forall run run' T out T', (forall c, c_req c = T -> run' c = run c) -> behaves run T out T' -> behaves run' T out T'.
Proof.
  intros run run' T out T' E [A B]. split.
  - intros c n C D. rewrite (E c C). auto.
  - intros c c' C R. rewrite (E c C) in R. auto.
Qed.

Lemma behaves_ret : forall T, behaves (fun c => (Ok tt, c)) T [] T.
Proof.
  intros T. split.
  - intros c n C D. exists c. rewrite app_nil_r. auto.
  - intros c c' C R. injection R as <-. rewrite app_nil_r. auto.
Qed.

Lemma behaves_seq : forall run1 run2 T o1 T1 o2 T2, behaves run1 T o1 T1 -> behaves run2 T1 o2 T2 ->
  behaves (fun c => let '(r, c1) := run1 c in match r with Ok _ => run2 c1 | _ => (r, c1) end) T (o1 ++ o2) T2.
Proof.
  intros run1 run2 T o1 T1 o2 T2 [A1 B1] [A2 B2]. split.
  - intros c n C D. rewrite size_app, <- N.add_assoc in D. destruct (A1 c _ C D) as (c1 & R1 & D1 & O1 & C1).
    destruct (A2 c1 n C1 D1) as (c2 & R2 & D2 & O2 & C2). exists c2. rewrite R1, R2, O2, O1, app_assoc. auto.
  - intros c c' C R. destruct (run1 c) as [r c1] eqn:R1. destruct r as [[]| | |]; try discriminate R.
    destruct (B1 c c1 C R1) as [O1 C1]. destruct (B2 c1 c' C1 R) as [O2 C2]. rewrite O2, O1, app_assoc. auto.
Qed.

Lemma behaves_raw : forall T out, size out < 2 ^ 31 -> behaves (fun c => send_raw_data c out) T out T.
Proof.
  intros T out L. split.
  - intros c n C D. destruct (send_raw_more c out n L D) as (c' & R & D' & O & Q). exists c'. rewrite Q. auto.
  - intros c c' C R. destruct (send_raw_exact c out) as (k & S). rewrite R in S.
    destruct S as (O & _ & Q & _ & [[_ F]|[X _]]); [|discriminate X]. rewrite F in O. rewrite Q. auto.
Qed.

Lemma behaves_frame : forall host T f w, serialize host f = Ok w -> size w < 2 ^ 31 -> behaves (fun c => send_frame host c f) T w T.
Proof.
  intros host T f w S L. eapply behaves_ext; [|apply behaves_raw; exact L]. intros c _. unfold send_frame. rewrite S. reflexivity.
Qed.

Lemma behaves_update : forall T b T', update_block T b = (Ok tt, T') -> behaves (fun c => update_request_dynamic_table c b) T [] T'.
Proof.
  intros T b T' U. split.
  - intros c n C D. unfold update_request_dynamic_table. rewrite C, U. eexists. split; [reflexivity|].
    cbn [c_tls c_req]. rewrite app_nil_r. auto.
  - intros c c' C R. unfold update_request_dynamic_table in R. rewrite C, U in R. injection R as <-.
    cbn [c_tls c_req]. rewrite app_nil_r. auto.
Qed.

Lemma wire_small : forall ty flags r sid p, size p < 2 ^ 24 -> size (wire_frame ty flags r sid p) < 2 ^ 31.
Proof.
  intros ty flags r sid p L. unfold wire_frame, wire_header. rewrite !size_app. unfold size at 1 2 3. rewrite !be_octets_len. cbn [length].
  change (2 ^ 24) with 16777216 in L. change (2 ^ 31) with 2147483648. lia.
Qed.

(* One CONTINUATION frame. *)
Lemma part_frame : forall host limit T ts changed sid p, sid < 2 ^ 31 ->
  plain_block limit T (t_max ts) changed (p_block p) -> (changed = false -> ts = rfc_table T) ->
  (forall raw, encode_block (p_block p) (p_mode p) T = Ok raw -> size raw < 2 ^ 24) ->
  exists raw f, size raw < 2 ^ 24 /\ mk_continuation (p_flags p) sid (p_block p) (p_mode p) T = Ok f /\
    serialize host f = Ok (wire_frame CONTINUATION (p_flags p) 0 sid raw) /\
    rfc_block limit ts raw (fields_of (p_block p)) (table_after ts (p_block p)).
Proof.
  intros host limit T ts changed sid p S P C F.
  destruct (block_means limit T (p_mode p) (p_block p) ts changed P C) as (raw & E & B). specialize (F raw E).
  exists raw. eexists. split; [exact F|]. split; [unfold mk_continuation; rewrite E; reflexivity|]. split; [|exact B].
  rewrite (serialize_wire host (ContinuationFrame _ _ _) raw);
    cbn [frame_fh fh_stream_id fh_length fh_reserved fh_type fh_flags payload_bytes]; try reflexivity; try assumption.
  apply u32_small. change (2 ^ 24) with 16777216 in F. change (2 ^ 32) with 4294967296. clear - F. lia.
Qed.

(* ---- first way ---- *)

Lemma flags_tail : forall f g fs, flags_ok (f :: g :: fs) -> ends_headers f = false /\ flags_ok (g :: fs).
Proof. intros f g fs H. exact H. Qed.

Lemma parts_turn : forall host limit sid ps T, sid < 2 ^ 31 -> dt_ok T -> parts_in_turn limit (rfc_table T) ps ->
  flags_ok (map p_flags ps) ->
  exists out fragment T', continued sid out fragment /\
    rfc_block limit (rfc_table T) fragment (fields_of (flat_map p_block ps)) (rfc_table T') /\
    dt_ok T' /\ rfc_table T' = table_after (rfc_table T) (flat_map p_block ps) /\
    behaves (fun c => send_parts host sid c ps) T out T'.
Proof.
  intros host limit sid. induction ps as [|p ps IH]; intros T S K P FL; [destruct FL|].
  destruct P as (F & PB & P). unfold part_fits in F. rewrite (of_rfc_table _ K) in *.
  destruct (part_frame host limit T (rfc_table T) false sid p S PB ltac:(reflexivity) F) as (raw & f & L & M & SE & B).
  destruct (update_block_spec (p_block p) T K (plain_fits _ _ _ _ _ PB)) as (T1 & U & K1 & R1).
  rewrite <- R1 in P, B.
  pose proof (behaves_seq _ _ _ _ _ _ _ (behaves_frame host T f _ SE (wire_small _ _ _ _ _ L)) (behaves_update _ _ _ U)) as H1.
  assert (H2 : forall run out T', behaves run T1 out T' -> (forall c, run c = send_parts host sid c ps) ->
    behaves (fun c => send_parts host sid c (p :: ps)) T (wire_frame CONTINUATION (p_flags p) 0 sid raw ++ out) T').
  { intros run out T' H E. rewrite app_nil_r in H1. eapply behaves_ext; [|apply (behaves_seq _ _ _ _ _ _ _ H1 H)].
    intros c C. cbn [send_parts]. unfold get_request_dynamic_table. rewrite C, M.
    destruct (send_frame host c f) as [r c1]. destruct r; try reflexivity.
    destruct (update_request_dynamic_table c1 (p_block p)) as [r2 c2]. destruct r2; try reflexivity. rewrite E. reflexivity. }
  destruct ps as [|p2 ps].
  - exists (wire_frame CONTINUATION (p_flags p) 0 sid raw), raw, T1. cbn [flat_map map] in *. rewrite !app_nil_r.
    split; [apply continued_last; [exact FL|reflexivity|exact L]|]. split; [exact B|]. split; [exact K1|]. split; [exact R1|].
    specialize (H2 _ _ _ (behaves_ret T1) ltac:(reflexivity)). rewrite app_nil_r in H2. exact H2.
  - cbn [map] in FL. apply flags_tail in FL. destruct FL as [FF FL].
    destruct (IH T1 S K1 P FL) as (out & fragment & T' & C & B' & K' & R' & H).
    exists (wire_frame CONTINUATION (p_flags p) 0 sid raw ++ out), (raw ++ fragment), T'.
    split; [apply continued_more; [exact FF|reflexivity|exact L|exact C]|].
    split. { cbn [flat_map]. rewrite fields_of_app. eapply rfc_block_join; [exact B|exact B']. }
    split; [exact K'|]. split; [cbn [flat_map]; rewrite table_after_app, <- R1; exact R'|].
    exact (H2 _ _ _ H ltac:(reflexivity)).
Qed.

Lemma first_frame : forall host T q raw, dt_ok T -> request_ok (rfc_table T) q -> encode_block (q_block q) (q_mode q) T = Ok raw ->
  let payload := headers_octets (q_flags q) (q_exclusive q) (q_dependency q) (q_weight q) raw (q_padding q) in
  size payload < 2 ^ 24 /\
  exists f, build_request T q = Ok f /\ serialize host f = Ok (wire_frame HEADERS (q_flags q) 0 (q_stream q) payload).
Proof.
  intros host T q raw K Q E payload. destruct (request_wire host T q raw K Q E) as (L & _ & F). auto.
Qed.

Lemma turn_behaves : forall host limit T q, dt_ok T -> long_in_turn limit (rfc_table T) q ->
  exists out T', (forall rest fss t2, server_assembles limit (rfc_table T') rest fss t2 ->
      server_assembles limit (rfc_table T) (out ++ rest) ((l_stream q, fields_of (l_block q)) :: fss) t2) /\
    dt_ok T' /\ rfc_table T' = table_after (rfc_table T) (l_block q) /\
    behaves (fun c => perform_in_turn host c q) T out T'.
Proof.
  intros host limit T [q ps] K (FL & Q & PB & PS). cbn [l_first l_more] in *. unfold l_stream, l_block. cbn [l_first l_more].
  rewrite (of_rfc_table _ K) in PB.
  destruct (block_means limit T (q_mode q) (q_block q) (rfc_table T) false PB ltac:(reflexivity)) as (raw & E & B).
  destruct (first_frame host T q raw K Q E) as (L & f & M & SE).
  destruct (update_block_spec (q_block q) T K (plain_fits _ _ _ _ _ PB)) as (T1 & U & K1 & R1).
  rewrite <- R1 in PS, B.
  pose proof (behaves_seq _ _ _ _ _ _ _ (behaves_frame host T f _ SE (wire_small _ _ _ _ _ L)) (behaves_update _ _ _ U)) as H1.
  rewrite app_nil_r in H1.
  set (w0 := wire_frame HEADERS (q_flags q) 0 (q_stream q)
        (headers_octets (q_flags q) (q_exclusive q) (q_dependency q) (q_weight q) raw (q_padding q))) in *.
  assert (H1' : behaves (fun c => perform host c q) T w0 T1).
  { eapply behaves_ext; [|exact H1]. intros c C. apply perform_built. rewrite C. exact M. }
  assert (SID : q_stream q < 2 ^ 31) by apply Q.
  destruct ps as [|p ps].
  - cbn [flat_map map] in *. rewrite app_nil_r. exists w0, T1. split; [|split; [exact K1|split; [exact R1|]]].
    + intros rest fss t2 H. change rest with ([] ++ rest) at 1.
      eapply assembles_headers; [reflexivity|exact SID|exact L| |exact B|exact H]. left. split; [exact FL|]. auto.
    + eapply behaves_ext; [|exact H1']. intros c _. unfold perform_in_turn. cbn [l_first l_more send_parts].
      destruct (perform host c q) as [r c1]. destruct r as [[]| | |]; reflexivity.
  - cbn [map] in FL. apply flags_tail in FL. destruct FL as [FF FL].
    destruct (parts_turn host limit (q_stream q) (p :: ps) T1 SID K1 PS FL) as (out & fragment & T' & C & B' & K' & R' & H).
    exists (w0 ++ out), T'. split; [|split; [exact K'|split; [rewrite table_after_app, <- R1; exact R'|]]].
    + intros rest fss t2 H2.
      rewrite <- app_assoc. rewrite fields_of_app.
      eapply assembles_headers; [reflexivity|exact SID|exact L| |eapply rfc_block_join; [exact B|exact B']|exact H2].
      right. split; [exact FF|]. eauto.
    + exact (behaves_seq _ _ _ _ _ _ _ H1' H).
Qed.

(* ---- second way ---- *)

Lemma frames_behave : forall host T fs ws, Forall2 (fun f w => serialize host f = Ok w /\ size w < 2 ^ 31) fs ws ->
  behaves (fun c => send_frames host c fs) T (concat ws) T.
Proof.
  intros host T fs ws F. induction F as [|f w fs ws [S L] F IH]; [apply behaves_ret|].
  exact (behaves_seq _ _ _ _ _ _ _ (behaves_frame host T f w S L) IH).
Qed.

Lemma parts_once : forall host limit T sid ps ts changed, sid < 2 ^ 31 ->
  plain_block limit T (t_max ts) changed (flat_map p_block ps) -> (changed = false -> ts = rfc_table T) ->
  Forall (fun p => forall raw, encode_block (p_block p) (p_mode p) T = Ok raw -> size raw < 2 ^ 24) ps -> flags_ok (map p_flags ps) ->
  exists fs ws fragment, build_parts T sid ps = Ok fs /\
    Forall2 (fun f w => serialize host f = Ok w /\ size w < 2 ^ 31) fs ws /\ continued sid (concat ws) fragment /\
    rfc_block limit ts fragment (fields_of (flat_map p_block ps)) (table_after ts (flat_map p_block ps)).
Proof.
  intros host limit T sid. induction ps as [|p ps IH]; intros ts changed S P C F FL; [destruct FL|].
  cbn [flat_map] in P. destruct (plain_app _ _ _ _ _ _ P C) as (P1 & ch & P2 & C2).
  destruct (part_frame host limit T ts changed sid p S P1 C (Forall_inv F)) as (raw & f & L & M & SE & B).
  destruct ps as [|p2 ps].
  - exists [f], [wire_frame CONTINUATION (p_flags p) 0 sid raw], raw. cbn [build_parts]. rewrite M. split; [reflexivity|].
    split; [constructor; [split; [exact SE|apply wire_small; exact L]|constructor]|].
    cbn [concat flat_map]. rewrite !app_nil_r. split; [apply continued_last; [exact FL|reflexivity|exact L]|exact B].
  - cbn [map] in FL. apply flags_tail in FL. destruct FL as [FF FL].
    destruct (IH _ _ S P2 C2 (Forall_inv_tail F) FL) as (fs & ws & fragment & BP & W & CO & B').
    exists (f :: fs), (wire_frame CONTINUATION (p_flags p) 0 sid raw :: ws), (raw ++ fragment).
    set (ps' := p2 :: ps) in *. cbn [build_parts]. rewrite M, BP. split; [reflexivity|].
    split; [constructor; [split; [exact SE|apply wire_small; exact L]|exact W]|].
    split; [cbn [concat]; apply continued_more; [exact FF|reflexivity|exact L|exact CO]|].
    cbn [flat_map]. rewrite fields_of_app, table_after_app. eapply rfc_block_join; [exact B|exact B'].
Qed.

Lemma once_behaves : forall host limit T q, dt_ok T -> long_at_once limit (rfc_table T) q ->
  exists out T', (forall rest fss t2, server_assembles limit (rfc_table T') rest fss t2 ->
      server_assembles limit (rfc_table T) (out ++ rest) ((l_stream q, fields_of (l_block q)) :: fss) t2) /\
    dt_ok T' /\ rfc_table T' = table_after (rfc_table T) (l_block q) /\
    behaves (fun c => perform_at_once host c q) T out T'.
Proof.
  intros host limit T [q ps] K (FL & Q & PB & PF). unfold l_stream, l_block in *. cbn [l_first l_more] in *.
  rewrite (of_rfc_table _ K) in PB.
  assert (PF' : Forall (fun p => forall raw, encode_block (p_block p) (p_mode p) T = Ok raw -> size raw < 2 ^ 24) ps).
  { unfold part_fits in PF. rewrite (of_rfc_table _ K) in PF. exact PF. }
  destruct (update_block_spec (q_block q ++ flat_map p_block ps) T K (plain_fits _ _ _ _ _ PB)) as (T' & U & K' & R').
  destruct (plain_app limit T (q_block q) (flat_map p_block ps) (rfc_table T) false PB ltac:(reflexivity)) as (P1 & ch & P2 & C2).
  destruct (block_means limit T (q_mode q) (q_block q) (rfc_table T) false P1 ltac:(reflexivity)) as (raw & E & B).
  destruct (first_frame host T q raw K Q E) as (L & f & M & SE).
  assert (SID : q_stream q < 2 ^ 31) by apply Q.
  set (w0 := wire_frame HEADERS (q_flags q) 0 (q_stream q)
        (headers_octets (q_flags q) (q_exclusive q) (q_dependency q) (q_weight q) raw (q_padding q))) in *.
  assert (G : exists fs ws block, build_parts T (q_stream q) ps = Ok fs /\
    Forall2 (fun f w => serialize host f = Ok w /\ size w < 2 ^ 31) fs ws /\
    completes (q_flags q) (q_stream q) raw (concat ws) block /\
    rfc_block limit (rfc_table T) block (fields_of (q_block q ++ flat_map p_block ps)) (rfc_table T')).
  { destruct ps as [|p ps].
    - exists [], [], raw. cbn [flat_map] in *. rewrite app_nil_r in *. split; [reflexivity|]. split; [constructor|].
      split; [left; split; [exact FL|auto]|]. rewrite R'. exact B.
    - cbn [map] in FL. apply flags_tail in FL. destruct FL as [FF FL].
      destruct (parts_once host limit T (q_stream q) (p :: ps) _ _ SID P2 C2 PF' FL) as (fs & ws & fragment & BP & W & CO & B').
      exists fs, ws, (raw ++ fragment). split; [exact BP|]. split; [exact W|]. split; [right; split; [exact FF|eauto]|].
      rewrite fields_of_app, R', table_after_app. eapply rfc_block_join; [exact B|exact B']. }
  destruct G as (fs & ws & block & BP & W & CO & B').
  exists (w0 ++ concat ws), T'. split; [|split; [exact K'|split; [exact R'|]]].
  - intros rest fss t2 H. rewrite <- app_assoc. eapply assembles_headers; [reflexivity|exact SID|exact L|exact CO|exact B'|exact H].
  - pose proof (behaves_seq _ _ _ _ _ _ _ (frames_behave host T (f :: fs) (w0 :: ws)
      (Forall2_cons _ _ (conj SE (wire_small _ _ _ _ _ L)) W)) (behaves_update _ _ _ U)) as H1.
    rewrite app_nil_r in H1. eapply behaves_ext; [|exact H1]. intros c C. unfold perform_at_once, get_request_dynamic_table.
    cbn [l_first l_more]. unfold l_stream, l_block. cbn [l_first l_more]. rewrite C, M, BP. reflexivity.
Qed.

(* ---- any number of header lists ---- *)

Lemma assembled : forall limit one (ok : table -> long_request -> Prop), (forall T q, dt_ok T -> ok (rfc_table T) q ->
    exists out T', (forall rest fss t2, server_assembles limit (rfc_table T') rest fss t2 ->
        server_assembles limit (rfc_table T) (out ++ rest) ((l_stream q, fields_of (l_block q)) :: fss) t2) /\
      dt_ok T' /\ rfc_table T' = table_after (rfc_table T) (l_block q) /\ behaves (fun c => one c q) T out T') ->
  forall qs T, dt_ok T -> long_requests ok (rfc_table T) qs ->
  exists out T', server_assembles limit (rfc_table T) out (map (fun q => (l_stream q, fields_of (l_block q))) qs) (rfc_table T') /\
    behaves (fun c => all_in_order one c qs) T out T'.
Proof.
  intros limit one ok H. induction qs as [|q qs IH]; intros T K P.
  - exists [], T. split; [constructor|apply behaves_ret].
  - destruct P as [Q P]. destruct (H T q K Q) as (out & T1 & SA & K1 & R1 & B). rewrite <- R1 in P.
    destruct (IH T1 K1 P) as (out' & T' & SA' & B'). exists (out ++ out'), T'. split; [apply SA; exact SA'|].
    exact (behaves_seq _ _ _ _ _ _ _ B B').
Qed.

Definition C100_claim (limit : N) (one : client -> long_request -> res unit * client) (qs : list long_request) (T : dyn_table) : Prop :=
  let before := Table (dt_max T) (dt_entries T) in
  let submitted := map (fun q => (l_stream q, fields_of (l_block q))) qs in
  exists out,
    (* the calls return when the TLS layer does not fail *)
    (forall c, c_req c = T -> delivers (size out) (c_tls c) -> exists c', all_in_order one c qs = (Ok tt, c')) /\
    (* whenever they return, this was sent, and the server reads what was submitted and has the same table *)
    (forall c c', c_req c = T -> all_in_order one c qs = (Ok tt, c') ->
       let after := Table (dt_max (c_req c')) (dt_entries (c_req c')) in
       tls_out (c_tls c') = tls_out (c_tls c) ++ out /\ server_assembles limit before out submitted after /\
       (forall fss t, server_assembles limit before out fss t -> fss = submitted /\ t = after)).

Lemma claim_intro : forall limit one (ok : table -> long_request -> Prop), (forall T q, dt_ok T -> ok (rfc_table T) q ->
    exists out T', (forall rest fss t2, server_assembles limit (rfc_table T') rest fss t2 ->
        server_assembles limit (rfc_table T) (out ++ rest) ((l_stream q, fields_of (l_block q)) :: fss) t2) /\
      dt_ok T' /\ rfc_table T' = table_after (rfc_table T) (l_block q) /\ behaves (fun c => one c q) T out T') ->
  forall qs T, dt_ok T -> long_requests ok (rfc_table T) qs -> C100_claim limit one qs T.
Proof.
  intros limit one ok H qs T K P. destruct (assembled limit one ok H qs T K P) as (out & T' & SA & A & B).
  exists out. split.
  - intros c C D. destruct (A c 0 C) as (c' & R & _); [rewrite N.add_0_r; exact D|]. eauto.
  - intros c c' C R after. destruct (B c c' C R) as [O Q]. split; [exact O|]. subst after. rewrite Q. split; [exact SA|].
    intros fss t X. destruct (server_assembles_unique _ _ _ _ _ SA _ _ X) as [<- <-]. auto.
Qed.

(* The list is cut between fields in any way into any number of frames; each is
   built, sent and reported in turn. *)
Theorem C100_in_turn_partial : forall host limit qs T, dt_ok T ->
  long_requests (long_in_turn limit) (Table (dt_max T) (dt_entries T)) qs ->
  C100_claim limit (perform_in_turn host) qs T.
Proof. intros host limit. apply claim_intro. intros T q. apply turn_behaves. Qed.

(* All frames are built, then all are sent, then the list is reported. *)
Theorem C100_at_once_partial : forall host limit qs T, dt_ok T ->
  long_requests (long_at_once limit) (Table (dt_max T) (dt_entries T)) qs ->
  C100_claim limit (perform_at_once host) qs T.
Proof. intros host limit. apply claim_intro. intros T q. apply once_behaves. Qed.

(* Frames built at once, whatever the table: HEADERS inserts a field, the
   CONTINUATION frame refers to what was the newest entry when it was built.  The
   calls return, and the server reads the new field twice. *)
Theorem C100_at_once_refuted : forall host limit T h old es q p, dt_ok T ->
  let t := Table (dt_max T) (dt_entries T) in
  request_ok t q -> flags_ok [q_flags q; p_flags p] ->
  dt_entries T = old :: es -> ~ In old (map snd static_table_entries) ->
  is_octets (fst h) -> is_octets (snd h) -> ~ in_tables T h -> fst h <> octets "accept-control-allow-origin" ->
  field_size h <= dt_max T ->
  q_block q = [HEntry IncrementalIndexing (EHeader h)] -> p_block p = [HEntry Indexed (EHeader old)] ->
  exists out,
    (forall c, c_req c = T -> delivers (size out) (c_tls c) ->
       exists c', perform_at_once host c (Long q [p]) = (Ok tt, c') /\ tls_out (c_tls c') = tls_out (c_tls c) ++ out) /\
    server_assembles limit t out [(q_stream q, [h; h])] (insert t h) /\
    (forall fss t', server_assembles limit t out fss t' -> fss <> [(q_stream q, [h; old])]).
Proof.
  intros host limit T h old es q p K t Q [F1 F2] TE NS On Ov NI NM L B1 B2. subst t. fold (rfc_table T) in *.
  destruct (literal_means Incremental h (q_mode q) T On Ov NI NM) as (o1 & n & E1 & R & S). cbn [lib_prefix] in E1.
  assert (E2 : encode_header (HEntry Indexed (EHeader old)) (p_mode p) T = Ok [0xbe]).
  { unfold encode_header. cbn [e_prefix get_header e_content bind]. change (hprefix_eqb Indexed SizeUpdate) with false. cbv iota.
    destruct (reverse_static_find old) as [i|] eqn:RS; [exfalso; apply NS, in_static; eauto|].
    rewrite TE. cbn [find_index]. rewrite (proj2 (header_eqb_eq old old) eq_refl). vm_compute. reflexivity. }
  assert (X1 : encode_block (q_block q) (q_mode q) T = Ok o1).
  { rewrite B1. cbn [encode_block]. rewrite E1. cbn [bind]. rewrite app_nil_r. reflexivity. }
  assert (X2 : encode_block (p_block p) (p_mode p) T = Ok [0xbe]).
  { rewrite B2. cbn [encode_block]. rewrite E2. reflexivity. }
  destruct (first_frame host T q o1 K Q X1) as (P1 & f1 & M1 & S1).
  set (w1 := wire_frame HEADERS (q_flags q) 0 (q_stream q)
        (headers_octets (q_flags q) (q_exclusive q) (q_dependency q) (q_weight q) o1 (q_padding q))) in *.
  assert (SID : q_stream q < 2 ^ 31) by apply Q.
  set (w2 := wire_frame CONTINUATION (p_flags p) 0 (q_stream q) [0xbe]).
  set (f2 := ContinuationFrame [0xbe] (FH 1 T_CONTINUATION (p_flags p) 0 (q_stream q)) (p_block p)).
  assert (M2 : mk_continuation (p_flags p) (q_stream q) (p_block p) (p_mode p) T = Ok f2).
  { unfold mk_continuation. rewrite X2. reflexivity. }
  assert (S2 : serialize host f2 = Ok w2).
  { rewrite (serialize_wire host f2 [0xbe]); try reflexivity. exact SID. }
  assert (SA : server_assembles limit (rfc_table T) (w1 ++ w2) [(q_stream q, [h; h])] (insert (rfc_table T) h)).
  { rewrite <- (app_nil_r w2).
    eapply (assembles_headers _ _ (q_flags q) 0 (q_stream q) _ _ _ o1 _ w2 (o1 ++ [0xbe]) _ (insert (rfc_table T) h));
      [reflexivity|exact SID|exact P1| | |constructor].
    - right. split; [exact F1|]. exists [0xbe]. split; [|reflexivity]. apply continued_last; [exact F2|reflexivity|reflexivity].
    - change [h; h] with ([h] ++ [h]). eapply rfc_block_join.
      + apply (one_repr _ _ _ _ _ (insert (rfc_table T) h) R). cbn [step_in]. rewrite S. destruct h. reflexivity.
      + eapply (one_repr limit _ _ (RIndexed 62)).
        * change 62 with (0xbe mod 2 ^ 7). apply repr_indexed; [exact (short_int 7 0xbe eq_refl eq_refl)|].
          do 2 eexists. split; [reflexivity|]. lia.
        * cbn [step_in]. replace (resolve_in rfc_static (insert (rfc_table T) h) 62) with (Some h); [reflexivity|].
          unfold insert, rfc_table. cbn [t_max t_entries keep]. destruct (N.leb_spec (field_size h) (dt_max T)); [reflexivity|lia]. }
  exists (w1 ++ w2). split; [|split; [exact SA|]].
  - assert (IF : inserts_fit (dt_max T) (q_block q ++ p_block p ++ [])).
    { rewrite B1, B2. cbn. split; [lia|exact I]. }
    destruct (update_block_spec _ T K IF) as (T' & U & _ & _).
    pose proof (behaves_seq _ _ _ _ _ _ _ (frames_behave host T [f1; f2] [w1; w2]
      (Forall2_cons _ _ (conj S1 (wire_small _ _ _ _ _ P1)) (Forall2_cons _ _ (conj S2 (wire_small _ _ _ _ [0xbe] eq_refl)) (Forall2_nil _))))
      (behaves_update _ _ _ U)) as H1.
    cbn [concat] in H1. rewrite !app_nil_r in H1. destruct H1 as [A _].
    intros c C D. destruct (A c 0 C) as (c' & RR & _ & O & _); [rewrite N.add_0_r; exact D|].
    exists c'. split; [|exact O]. rewrite <- RR. unfold perform_at_once, get_request_dynamic_table, l_stream, l_block.
    cbn [l_first l_more build_parts flat_map]. rewrite C, M1, M2. rewrite app_nil_r. reflexivity.
  - intros fss t' SA'. destruct (server_assembles_unique _ _ _ _ _ SA _ _ SA') as [<- _]. intros X.
    assert (h = old) by congruence. apply NI. right. rewrite TE. left. congruence.
Qed.

(* A list in three frames: the second inserts a field that the third refers to,
   so it must be built in turn. *)
Definition three_frames : long_request :=
  Long (Request 1 1 [HEntry Indexed (EHeader (octets ":method", octets "GET"))] ModeNone [] 0 0 0)
    [Part 0 [HEntry IncrementalIndexing (EHeader (octets "a", octets "b"))] ModeHuffman;
     Part 4 [HEntry Indexed (EHeader (octets "a", octets "b")); HEntry NeverIndexed (EHeader (octets "k", octets "v"))] ModeNone].

Example C100_case : long_requests (long_in_turn 4096) (Table 4096 []) [three_frames] /\
  exists c', perform_in_turn LittleEndian (new_client (Tls [] [] (repeat (Chunk 5) 50))) three_frames = (Ok tt, c') /\
    tls_out (c_tls c') = [0; 0; 1; 1; 1; 0; 0; 0; 1; 0x82;
                          0; 0; 5; 9; 0; 0; 0; 0; 1; 0x40; 0x81; 0x1f; 0x81; 0x8f;
                          0; 0; 6; 9; 4; 0; 0; 0; 1; 0xbe; 0x10; 1; 107; 1; 118].
Proof.
  assert (ST : in_static_valued (octets ":method", octets "GET")).
  { split; [|discriminate]. vm_compute. right; left. reflexivity. }
  split; [|eexists; split; vm_compute; reflexivity].
  split; [|exact I]. split; [repeat split|]. split; [eapply request_okb; [vm_compute; reflexivity|vm_compute; reflexivity]|].
  split; [split; [left; exact ST|exact I]|].
  cbn [parts_in_turn three_frames l_more].
  split; [intros raw E; vm_compute in E; injection E as <-; reflexivity|].
  split; [split; [apply fresh_check; vm_compute; reflexivity|split; [discriminate|exact I]]|].
  split; [intros raw E; vm_compute in E; injection E as <-; reflexivity|]. split; [|exact I].
  split; [right; split; [reflexivity|left; reflexivity]|]. split; [right; apply fresh_check; vm_compute; reflexivity|exact I].
Qed.

(* The same fields cut so that no later part needs an earlier one's insertion;
   and the hypotheses of the counterexample. *)
Definition two_frames : long_request :=
  Long (Request 1 3 [HEntry IncrementalIndexing (EHeader (octets "a", octets "b"))] ModeNone [] 0 0 0)
    [Part 4 [HEntry NeverIndexed (EHeader (octets "k", octets "v"))] ModeNone].

Example C100_at_once_case : long_requests (long_at_once 4096) (Table 4096 []) [two_frames].
Proof.
  split; [|exact I]. split; [repeat split|]. split; [eapply request_okb; [vm_compute; reflexivity|vm_compute; reflexivity]|].
  split.
  - split; [apply fresh_check; vm_compute; reflexivity|]. split; [discriminate|].
    split; [right; apply fresh_check; vm_compute; reflexivity|exact I].
  - constructor; [|constructor]. intros raw E. vm_compute in E. injection E as <-. reflexivity.
Qed.

Example C100_refuted_case :
  let T := DynTable [(octets "x", octets "y")] 34 4096 in
  let q := Request 1 1 [HEntry IncrementalIndexing (EHeader (octets "a", octets "b"))] ModeNone [] 0 0 0 in
  dt_ok T /\ request_ok (rfc_table T) q /\ flags_ok [q_flags q; 4] /\
  ~ In (octets "x", octets "y") (map snd static_table_entries) /\ ~ in_tables T (octets "a", octets "b").
Proof.
  cbv zeta. split; [split; [reflexivity|discriminate]|].
  split; [eapply request_okb; [vm_compute; reflexivity|vm_compute; reflexivity]|]. split; [repeat split|].
  split; [|apply in_tablesb_false; vm_compute; reflexivity].
  intros X. vm_compute in X. repeat (destruct X as [X|X]; [discriminate X|]). exact X.
Qed.

Print Assumptions C100_in_turn_partial.
Print Assumptions C100_at_once_partial.
Print Assumptions C100_at_once_refuted.
