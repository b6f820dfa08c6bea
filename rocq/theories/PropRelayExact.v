(* Properties C52 and C102, blocks in which INDEXED is asked for fields that may
   or may not be in a table: exactly which of them the server reads. *)
From Coq Require Import String.
From Coq Require Import ZArith NArith List Bool Lia ZifyBool ZifyNat ZifyN.
From Verif Require Import Base Arith Util IntRep Huffman StaticTable HeaderType DynTable HeaderEnc HeaderDec FrameHeader Frames FrameBuilder Ssl Client
  SpecBits SpecInt SpecHpack SpecFrame SpecUnique UtilProofs IntRepProofs DynTableProofs StaticProofs HeaderProofs HeaderProofs2 FrameProofs BlockProofs
  HistoryProofs PropHeader PropFrame PropBlock PropSsl PropClient PropHistory PropRequest PropGather PropRelay PropSingle PropReqBlock.
Import ListNotations.
Local Open Scope string_scope.
Local Open Scope list_scope.
Local Open Scope N_scope.
Ltac Zify.zify_post_hook ::= Z.div_mod_to_equations.

(* ---------------------------------------------------------------- the specification *)

(* INDEXED is not asked for a field that has no value, is not in the dynamic
   table and has a name of the static table, unless strings are Huffman-coded.
   (For such a field the server reads the right field and then one octet 0, the
   length of the value, as the beginning of another field.) *)
Definition distinct_index (mode : encode_mode) (T : dyn_table) (e : hentry) : Prop :=
  forall h, e = HEntry Indexed (EHeader h) ->
    in_tables T h \/ snd h <> [] \/ ~ In (fst h, []) (map snd static_table_entries) \/ mode = ModeHuffman.

(* ---------------------------------------------------------------- one field *)

Lemma zero_repr : forall b, b = 128 -> rfc_repr [b] (RIndexed 0).
Proof.
  intros b ->. apply repr_indexed; [exact (short_int 7 128 eq_refl eq_refl)|]. do 2 eexists. split; [reflexivity|]. lia.
Qed.

Lemma zero_index_unread : forall limit t x fs t', ~ rfc_block limit t (128 :: x) fs t'.
Proof.
  intros limit t x fs t' H. change (128 :: x) with ([128] ++ x) in H.
  destruct (block_first limit t [128] (RIndexed 0) x fs t' (zero_repr 128 eq_refl) H) as (o & t1 & fs' & S & _). discriminate S.
Qed.

Lemma absent_unread : forall limit T h mode out t more gs t', is_octets (fst h) -> is_octets (snd h) -> ~ in_tables T h ->
  snd h <> [] \/ ~ In (fst h, []) (map snd static_table_entries) \/ mode = ModeHuffman ->
  encode_header (HEntry Indexed (EHeader h)) mode T = Ok out -> ~ rfc_block limit t (out ++ more) (h :: gs) t'.
Proof.
  intros limit T h mode out t more gs t' On Ov NI C E H.
  assert (X : match reverse_static_find h with Some j => if 0 <? size (snd h) then Some j else None | None => None end = None).
  { destruct (reverse_static_find h) as [j|] eqn:RS; [|reflexivity]. destruct (snd h) as [|z v] eqn:V; [reflexivity|].
    exfalso. apply NI. left. split; [apply in_static; eauto|]. rewrite V. discriminate. }
  unfold encode_header in E. cbn [e_prefix get_header e_content bind] in E. change (hprefix_eqb Indexed SizeUpdate) with false in E. cbv iota in E.
  rewrite X in E. clear X.
  destruct (find_index (dt_entries T) h) as [j|] eqn:F.
  { exfalso. apply NI. right. apply find_index_some in F. eapply nth_error_In; eassumption. }
  unfold encode_header_name, encode_header_value in E.
  destruct (encode_string_spec (snd h) mode (octets_wf _ Ov)) as (vs & EV & _). rewrite EV in E.
  destruct (reverse_static_find (fst h, [])) as [i|] eqn:RN.
  - pose proof (chosen_index_pos _ _ RN) as Li.
    assert (EI : encode_index i Indexed = Ok [128 + i]).
    { clear - Li. assert (I : In i indices) by (apply in_indices; exact Li).
      assert (G : forallb (fun i => match encode_index i Indexed with Ok [b] => b =? 128 + i | _ => false end) indices = true) by (vm_compute; reflexivity).
      pose proof (proj1 (forallb_forall _ _) G i I) as P. cbv beta in P.
      destruct (encode_index i Indexed) as [[|b [|]]| | |]; try discriminate P. apply N.eqb_eq in P. subst b. reflexivity. }
    rewrite EI in E. cbn [bind] in E. apply Ok_inj in E. subst out. rewrite <- app_assoc in H.
    assert (R0 : rfc_repr [128 + i] (RIndexed i)).
    { apply repr_indexed; [|do 2 eexists; split; [reflexivity|]; lia].
      replace i with ((128 + i) mod 2 ^ 7) at 2 by (change (2 ^ 7) with 128; lia). apply short_int; [lia|]. change (2 ^ 7) with 128. lia. }
    destruct (block_first limit t _ _ _ _ _ R0 H) as (o & t1 & fs' & S & EF & H').
    cbn [step_in] in S. unfold resolve_in in S. change (N.of_nat (length rfc_static)) with 61 in S.
    replace (i =? 0) with false in S by lia. replace (i <=? 61) with true in S by lia.
    destruct (nth_error rfc_static (N.to_nat (i - 1))) as [g|] eqn:G; [|discriminate S].
    injection S as <- <-. cbn [opt_cons] in EF. injection EF as <- <-.
    assert (V : snd h = []).
    { clear - Li G RN. assert (I : In i indices) by (apply in_indices; exact Li).
      assert (X : forallb (fun i => match map_find static_table_entries i, nth_error rfc_static (N.to_nat (i - 1)) with
        | Some h, Some h' => bytes_eqb (snd h) (snd h') | _, _ => false end) indices = true) by (vm_compute; reflexivity).
      pose proof (proj1 (forallb_forall _ _) X i I) as P. cbv beta in P.
      apply static_inverse in RN. rewrite RN, G in P. apply bytes_eqb_eq in P. cbn [snd] in P. congruence. }
    destruct C as [C|[C| ->]].
    + exact (C V).
    + apply C, in_static. eauto.
    + rewrite V in EV. vm_compute in EV. apply Ok_inj in EV. subst vs. exact (zero_index_unread _ _ _ _ _ H').
  - destruct (encode_string_spec (fst h) mode (octets_wf _ On)) as (ns & EN & _). rewrite EN in E.
    change (encode_index 0 Indexed) with (Ok [128]) in E. cbn [bind] in E. apply Ok_inj in E. subst out.
    exact (zero_index_unread _ _ _ _ _ H).
Qed.

Lemma fields_cons : forall e b, fields_of (e :: b) = fields_of [e] ++ fields_of b.
Proof. intros e b. unfold fields_of. cbn [flat_map]. rewrite app_nil_r. reflexivity. Qed.

(* A block the server reads has INDEXED only for fields in a table. *)
Lemma read_present : forall limit T mode b t t' raw, Forall octets_entry b -> Forall (distinct_index mode T) b ->
  encode_block b mode T = Ok raw -> rfc_block limit t raw (fields_of b) t' -> Forall (indexed_present T) b.
Proof.
  intros limit T mode. induction b as [|e b IH]; intros t t' raw O P E R; [constructor|].
  cbn [encode_block] in E. apply bind_ok in E. destruct E as (out & E1 & E). apply bind_ok in E. destruct E as (raw' & E2 & E).
  apply Ok_inj in E. subst raw. inversion O as [|x y Oe Ob]; subst. inversion P as [|x y Pe Pb]; subst.
  assert (PE : indexed_present T e).
  { intros h EQ. subst e. destruct (in_tables_dec T h) as [I|NI]; [exact I|exfalso].
    destruct Oe as [On Ov]. cbn [e_content] in On, Ov. destruct (Pe h eq_refl) as [I|C]; [contradiction|].
    exact (absent_unread limit T h mode out t raw' (fields_of b) t' On Ov NI C E1 R). }
  constructor; [exact PE|]. rewrite fields_cons in R.
  assert (EB : encode_block [e] mode T = Ok out) by (cbn [encode_block]; rewrite E1; cbn [bind]; rewrite app_nil_r; reflexivity).
  destruct (read_follows_more limit T mode raw' (fields_of b) [e] t t' out
    (Forall_cons _ Oe (Forall_nil _)) (Forall_cons _ PE (Forall_nil _)) EB R) as (t1 & _ & R1).
  exact (IH t1 t' raw' Ob Pb E2 R1).
Qed.

(* ---------------------------------------------------------------- the theorems *)

(* C52_block_partial without its condition on INDEXED: it is part of the answer. *)
Theorem C52_indexed_partial : forall host limit T q, dt_ok T -> request_ok (Table (dt_max T) (dt_entries T)) q ->
  Forall octets_entry (q_block q) -> Forall (distinct_index (q_mode q) T) (q_block q) ->
  let t := Table (dt_max T) (dt_entries T) in
  (C52_step host limit T q <->
   Forall (indexed_present T) (q_block q) /\ inserts_fit (dt_max T) (q_block q) /\
   follows limit T t (q_block q) (table_after t (q_block q))).
Proof.
  intros host limit T q K Q O P t. split.
  - intros S. assert (IP : Forall (indexed_present T) (q_block q)).
    { destruct (encode_block (q_block q) (q_mode q) T) as [raw|x|u|] eqn:E;
        try (exfalso; refine (not_encoded host limit T q _ S); intros r; rewrite E; discriminate).
      apply (step_exact host limit T q raw K Q E) in S. destruct S as (T' & U & R). eapply read_present; eassumption. }
    split; [exact IP|]. exact (proj1 (C52_block_partial host limit T q K Q O IP) S).
  - intros (IP & W). exact (proj2 (C52_block_partial host limit T q K Q O IP) W).
Qed.

(* Any header block a server may send, received with one connection and sent
   with another: b is the block of the frame received, with the form of every
   field.  The second server reads what the first one sent exactly if every
   field received as an index is in the tables of the second connection too, and
   the rest is as in C52. *)
Theorem C102_exact_partial : forall m limit limit' host w x rs b fs t' c rest, carries w x -> wframe_ok w ->
  rfc_run m limit (Table (dt_max (c_resp c)) (dt_entries (c_resp c))) x rs b fs t' -> no_late_reference false rs ->
  inserts_fit (dt_max (c_resp c)) b -> Forall octets_entry b -> dt_ok (c_resp c) ->
  tls_in (c_tls c) = wire w ++ rest -> delivers (size (wire w)) (c_tls c) ->
  exists f c', receive_frame m c = (Ok f, c') /\ block_of f = b /\ frame_fields f = fs /\
    forall flags sid mode T, dt_ok T -> let t := Table (dt_max T) (dt_entries T) in
      request_ok t (relay f flags sid mode) -> Forall (distinct_index mode T) b ->
      (C52_step host limit' T (relay f flags sid mode) <->
       Forall (indexed_present T) b /\ inserts_fit (dt_max T) b /\ follows limit' T t b (table_after t b)).
Proof.
  intros m limit limit' host w x rs b fs t' c rest C W R NL FI O K I D.
  destruct (C28_block_decoding_partial m limit (c_resp c) x rs b fs t' R NL) as (DB & FB & _).
  destruct (receive_complete m c w rest 0 W I) as (s' & _ & _ & _ & Q); [rewrite N.add_0_r; exact D|].
  destruct (update_block_spec b (c_resp c) K FI) as (T2 & U2 & _).
  assert (U : fst (update_block (c_resp c) b) = Ok tt) by (rewrite U2; reflexivity).
  destruct (carried_block m w x (c_resp c) b C DB U) as (f & Hf & Bf). rewrite Hf in Q.
  exists f. eexists. split; [exact Q|]. split; [exact Bf|]. split; [rewrite block_fields, Bf; exact FB|].
  intros flags sid mode T KT t QT P. rewrite <- Bf in O, P |- *.
  exact (C52_indexed_partial host limit' T (relay f flags sid mode) KT QT O P).
Qed.

(* :method GET and an entry of the first connection's dynamic table, both as
   indices: sent on with the same table, and not with an empty one. *)
Example C102_exact_case : forall m mode host,
  let T := DynTable [([97], [98])] 34 4096 in let t := Table (dt_max T) (dt_entries T) in
  let w := WFrame HEADERS 4 0 1 [0x82; 0xbe] in
  let fs := [(octets ":method", octets "GET"); ([97], [98])] in
  let b := [HEntry Indexed (EHeader (octets ":method", octets "GET")); HEntry Indexed (EHeader ([97], [98]))] in
  let q := Request 5 1 b mode [] 0 0 0 in
  carries w [0x82; 0xbe] /\ wframe_ok w /\ dt_ok T /\ Forall octets_entry b /\
  rfc_run m 4096 t [0x82; 0xbe] [RIndexed 2; RIndexed 62] b fs t /\ no_late_reference false [RIndexed 2; RIndexed 62] /\
  inserts_fit (dt_max T) b /\
  request_ok t q /\ Forall (distinct_index mode T) b /\ C52_step host 4096 T q /\
  request_ok (Table 4096 []) q /\ Forall (distinct_index mode default_table) b /\ ~ C52_step host 4096 default_table q.
Proof.
  intros m mode host T t w fs b q.
  assert (O : Forall octets_entry b).
  { apply Forall_cons; [split; apply octets_dec; reflexivity|]. apply Forall_cons; [split; apply octets_dec; reflexivity|]. apply Forall_nil. }
  assert (K : dt_ok T) by (split; [reflexivity|discriminate]).
  assert (QT : request_ok t q) by (destruct mode; (eapply request_okb; [vm_compute; reflexivity|vm_compute; reflexivity])).
  assert (QD : request_ok (Table 4096 []) q) by (destruct mode; (eapply request_okb; [vm_compute; reflexivity|vm_compute; reflexivity])).
  assert (DT : Forall (distinct_index mode T) b).
  { apply Forall_cons; [|apply Forall_cons; [|apply Forall_nil]]; intros h E; injection E as <-; right; left; discriminate. }
  assert (DD : Forall (distinct_index mode default_table) b).
  { apply Forall_cons; [|apply Forall_cons; [|apply Forall_nil]]; intros h E; injection E as <-; right; left; discriminate. }
  assert (ST : In (octets ":method", octets "GET") (map snd static_table_entries)).
  { right. left. reflexivity. }
  assert (NS : ~ In ([97], [98]) (map snd static_table_entries)).
  { intros I. assert (Z : existsb (header_eqb ([97], [98])) (map snd static_table_entries) = true).
    { apply existsb_exists. exists ([97], [98]). split; [exact I|reflexivity]. }
    vm_compute in Z. discriminate Z. }
  split. { exact (carries_headers 4 1 0 0 0 [0x82; 0xbe] [] eq_refl eq_refl eq_refl). }
  split. { apply wframe_check. reflexivity. }
  split; [exact K|]. split; [exact O|]. split.
  { change [0x82; 0xbe] with ([0x82] ++ [0xbe]).
    pose proof (index_run m 4096 t 0xbe ([97], [98]) ltac:(lia) ltac:(discriminate) eq_refl) as R2. change (0xbe - 128) with 62 in R2.
    change fs with (opt_cons (Some (octets ":method", octets "GET")) [([97], [98])]).
    change b with (reported (RIndexed 2) (Some (octets ":method", octets "GET")) :: [HEntry Indexed (EHeader ([97], [98]))]).
    eapply rfc_run_cons; [apply repr_indexed| | |exact R2].
    - split; [|reflexivity]. split; [exact (short_int 7 0x82 eq_refl eq_refl)|]. intros l' H. destruct H; cbn; lia.
    - do 2 eexists. split; [reflexivity|]. lia.
    - reflexivity.
    - split; [cbn; lia|exact I]. }
  split; [repeat split; discriminate|]. split; [repeat split; discriminate|]. split; [exact QT|]. split; [exact DT|]. split.
  { apply (C52_indexed_partial host 4096 T q K QT O DT). split; [|split].
    - apply Forall_cons; [|apply Forall_cons; [|apply Forall_nil]]; intros h E; injection E as <-.
      + left. split; [exact ST|discriminate].
      + right. left. reflexivity.
    - exact I.
    - apply follows_static; [discriminate|exact ST|discriminate|].
      apply (follows_dynamic _ _ _ _ _ 0%nat); [discriminate|intros [Z _]; exact (NS Z)| |reflexivity|apply follows_nil].
      split; [reflexivity|]. intros j J. inversion J. }
  split; [exact QD|]. split; [exact DD|].
  intros S. apply (C52_indexed_partial host 4096 default_table q (new_table_ok _) QD O DD) in S.
  destruct S as (IP & _). apply Forall_inv_tail, Forall_inv in IP. specialize (IP ([97], [98]) eq_refl).
  destruct IP as [[Z _]|Z]; [exact (NS Z)|]. destruct Z.
Qed.

Print Assumptions C52_indexed_partial.
Print Assumptions C102_exact_partial.
