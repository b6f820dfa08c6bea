(* Property C71: what two instances of the library make of every request one
   can send, also of those after which their tables differ. *)
From Coq Require Import String.
From Coq Require Import ZArith NArith List Bool Lia ZifyBool ZifyNat ZifyN.
From Verif Require Import Base Arith Util StaticTable HeaderType DynTable HeaderEnc HeaderDec FrameHeader Frames FrameBuilder Ssl Client
  SpecBits SpecHpack SpecFrame DynTableProofs StaticProofs HeaderProofs HeaderProofs2 FrameProofs BlockProofs HistoryProofs
  PropHeader PropFrame PropBlock PropSsl PropClient PropHistory PropRequest PropPeer PropRelay PropSingle PropReqBlock.
Import ListNotations.
Local Open Scope string_scope.
Local Open Scope list_scope.
Local Open Scope N_scope.
Ltac Zify.zify_post_hook ::= Z.div_mod_to_equations.

(* ---------------------------------------------------------------- the specification *)

(* The receiver's table after a block: a field that was in a table when the
   frame was built has been sent as an index, and is not inserted. *)
Fixpoint table_received (T : dyn_table) (t : table) (b : header_block) : table :=
  match b with
  | [] => t
  | HEntry IncrementalIndexing (EHeader h) :: b' => table_received T (if in_tablesb T h then t else insert t h) b'
  | HEntry SizeUpdate (ESize n) :: b' => table_received T (resize t n) b'
  | _ :: b' => table_received T t b'
  end.

(* ---------------------------------------------------------------- the theorem *)

Lemma in_tablesb_true : forall T h, in_tablesb T h = true -> in_tables T h.
Proof.
  intros T h X. apply orb_true_iff in X. destruct X as [X|X].
  - apply andb_true_iff in X. destruct X as [X V]. apply existsb_exists in X. destruct X as (g & IN & EQ).
    apply header_eqb_eq in EQ. subst g. left. split; [exact IN|]. intros V0. rewrite V0 in V. discriminate V.
  - apply existsb_exists in X. destruct X as (g & IN & EQ). apply header_eqb_eq in EQ. subst g. right. exact IN.
Qed.

Lemma received_after : forall T m b b' t, Forall2 (received T) b b' -> Forall (sendable m T) b ->
  table_after t b' = table_received T t b /\ (forall n, inserts_fit n b -> inserts_fit n b') /\ fields_of b' = fields_of b.
Proof.
  intros T m b b' t F. revert t. induction F as [|e e' b b' R F IH]; intros t S; [auto|].
  destruct R as [e NI|p h I].
  - split; [|split].
    + destruct e as [p [h|n]]; cbn [table_after table_received]; destruct p; try (apply IH; exact (Forall_inv_tail S)).
      destruct (in_tablesb T h) eqn:X; [exfalso; apply (NI h eq_refl), in_tablesb_true, X|]. apply IH. exact (Forall_inv_tail S).
    + intros n. destruct (IH t (Forall_inv_tail S)) as (_ & Q & _).
      destruct e as [p [h|k]]; cbn [inserts_fit]; destruct p; try apply Q; try tauto. intros [A B]. split; [exact A|]. apply Q. exact B.
    + destruct (IH t (Forall_inv_tail S)) as (_ & _ & Q). unfold fields_of in *. cbn [flat_map]. rewrite Q. reflexivity.
  - assert (NP : p <> SizeUpdate).
    { intros ->. pose proof (Forall_inv S) as X. inversion X. destruct k; discriminate. }
    split; [|split].
    + cbn [table_after table_received]. destruct p; try contradiction; try (apply IH; exact (Forall_inv_tail S)).
      destruct (in_tablesb T h) eqn:X; [apply IH; exact (Forall_inv_tail S)|]. exfalso. exact (in_tablesb_false _ _ X I).
    + intros n. destruct (IH t (Forall_inv_tail S)) as (_ & Q & _). cbn [inserts_fit]. destruct p; try contradiction; try apply Q.
      intros [_ B]. apply Q. exact B.
    + destruct (IH t (Forall_inv_tail S)) as (_ & _ & Q).
      change (fields_of (HEntry Indexed (EHeader h) :: b')) with (h :: fields_of b').
      change (fields_of (HEntry p (EHeader h) :: b)) with (h :: fields_of b). rewrite Q. reflexivity.
Qed.

(* The request is delivered whatever it inserts, and wherever its references
   stand; only the tables may differ afterwards. *)
Theorem C71_exact_partial : forall host m T q, dt_ok T -> let t := Table (dt_max T) (dt_entries T) in
  sendable_request m t q ->
  exists out,
    (forall a, c_req a = T -> delivers (size out) (c_tls a) ->
       exists a', perform host a q = (Ok tt, a') /\ tls_out (c_tls a') = tls_out (c_tls a) ++ out /\
         c_req a' = of_table (table_after t (q_block q))) /\
    (forall b rest, c_resp b = T -> tls_in (c_tls b) = out ++ rest -> delivers (size out) (c_tls b) ->
       exists r b', receive_frame m b = (r, b') /\ delivered q r /\ tls_in (c_tls b') = rest /\
         c_resp b' = of_table (table_received T t (q_block q))).
Proof.
  intros host m T q K t SQ. change t with (rfc_table T) in *. clear t.
  destruct (peer_frame host m T q K SQ) as (w & T' & b' & W & LW & TY & U & K' & R' & R & B & PF).
  destruct SQ as (_ & _ & _ & _ & S & _ & FI). rewrite (of_rfc_table _ K) in S.
  destruct (received_after T m _ _ (rfc_table T) R S) as (TA & FB & FE).
  destruct (update_block_spec b' T K (FB _ FI)) as (T2 & U2 & K2 & R2).
  exists (wire w). split.
  - intros a AE D. destruct (send_raw_more a (wire w) 0 LW) as (a1 & S1 & _ & O1 & _). { rewrite N.add_0_r. exact D. }
    rewrite (PF a AE), S1. eexists. split; [reflexivity|]. cbn [c_tls c_req]. split; [exact O1|]. rewrite <- R'. symmetry. apply of_rfc_table. exact K'.
  - intros p rest PE IN D. destruct (receive_complete m p w rest 0 W IN) as (s1 & I1 & _ & _ & X). { rewrite N.add_0_r. exact D. }
    rewrite X, PE. eexists _, _. split; [reflexivity|]. cbn [c_resp c_tls].
    unfold handled. rewrite B. unfold request_frame, update_frame. cbn [frame_fh fh_type].
    change (HEADERS =? T_HEADERS) with true. cbv iota. rewrite U2. cbn [fst snd bind].
    split; [do 3 eexists; split; [reflexivity|exact FE]|]. split; [exact I1|].
    rewrite <- TA, <- R2. symmetry. apply of_rfc_table. exact K2.
Qed.

(* ---------------------------------------------------------------- when inserting a field again changes nothing *)

Lemma keep_repeat : forall h n b, field_size h * N.of_nat n <= b -> b < field_size h * (N.of_nat n + 1) ->
  keep b (repeat h (S n)) = repeat h n.
Proof.
  intros h n. induction n as [|n IH]; intros b A B.
  - cbn [repeat keep]. destruct (N.leb_spec (field_size h) b) as [L|_]; [exfalso; lia|reflexivity].
  - change (repeat h (S (S n))) with (h :: repeat h (S n)). cbn [keep].
    replace (N.of_nat (S n)) with (N.of_nat n + 1) in * by lia. rewrite N.mul_add_distr_l, N.mul_1_r in A. rewrite N.mul_add_distr_l in B.
    destruct (N.leb_spec (field_size h) b) as [L|L]; [|exfalso; lia]. rewrite IH; [reflexivity|lia|lia].
Qed.

Lemma total_repeat : forall h n, total_size (repeat h n) = field_size h * N.of_nat n.
Proof.
  intros h n. induction n as [|n IH]; [cbn; rewrite N.mul_0_r; reflexivity|].
  cbn [repeat]. rewrite total_cons, IH. replace (N.of_nat (S n)) with (N.of_nat n + 1) by lia. rewrite N.mul_add_distr_l, N.mul_1_r. apply N.add_comm.
Qed.

Lemma shift_repeat : forall (h : field) es n, firstn n (h :: es) = es -> es = repeat h (length es).
Proof.
  intros h es. induction es as [|x es IH]; intros n E; [reflexivity|]. destruct n as [|n]; [discriminate E|]. cbn [firstn] in E.
  injection E as -> E. cbn [length repeat]. f_equal. exact (IH n E).
Qed.

(* The exact case in which a field of a table may be submitted with indexing. *)
Theorem C71_duplicate_partial : forall T h, dt_ok T -> in_tables T h -> let t := Table (dt_max T) (dt_entries T) in
  let b := [HEntry IncrementalIndexing (EHeader h)] in
  (table_after t b = table_received T t b <->
   exists n, dt_entries T = repeat h n /\ dt_max T < field_size h * (N.of_nat n + 1)).
Proof.
  intros T h [KS KM] I t b. subst b. cbn [table_after table_received].
  destruct (in_tablesb T h) eqn:X; [clear X|exfalso; exact (in_tablesb_false _ _ X I)].
  unfold insert, t. cbn [t_max t_entries]. rewrite KS in KM. split.
  - intros E. assert (E2 : keep (dt_max T) (h :: dt_entries T) = dt_entries T) by congruence. clear E.
    destruct (keep_firstn (dt_max T) (h :: dt_entries T)) as (m & F). rewrite E2 in F. symmetry in F.
    pose proof (shift_repeat h _ m F) as R. exists (length (dt_entries T)). split; [exact R|].
    apply N.nle_gt. intros L. rewrite keep_all in E2.
    + assert (Z : length (h :: dt_entries T) = length (dt_entries T)) by (rewrite E2; reflexivity). cbn [length] in Z. lia.
    + rewrite R. change (h :: repeat h (length (dt_entries T))) with (repeat h (S (length (dt_entries T)))). rewrite total_repeat.
      replace (N.of_nat (S (length (dt_entries T)))) with (N.of_nat (length (dt_entries T)) + 1) by lia. exact L.
  - intros (n & R & L). rewrite R in *. f_equal. change (h :: repeat h n) with (repeat h (S n)). apply keep_repeat; [|exact L].
    rewrite total_repeat in KM. exact KM.
Qed.

(* A request that refers to an old entry after an insertion (misread by an RFC
   server, C52) and inserts it again: delivered, but the tables differ.  In a
   table with room for one field, inserting that field again does no harm. *)
Example C71_exact_case : let T := DynTable [([97], [98])] 34 4096 in let t := Table (dt_max T) (dt_entries T) in
  let q := ask 1 [HEntry IncrementalIndexing (EHeader ([99], [100])); HEntry NeverIndexed (EHeader ([97], [98]));
                  HEntry IncrementalIndexing (EHeader ([97], [98]))] in
  dt_ok T /\ sendable_request Strict t q /\
  table_after t (q_block q) = Table 4096 [([97], [98]); ([99], [100]); ([97], [98])] /\
  table_received T t (q_block q) = Table 4096 [([99], [100]); ([97], [98])] /\
  (let T1 := DynTable [([97], [98])] 34 67 in dt_ok T1 /\ in_tables T1 ([97], [98]) /\
   dt_entries T1 = repeat ([97], [98]) 1 /\ dt_max T1 < field_size ([97], [98]) * (N.of_nat 1 + 1)).
Proof.
  cbv zeta. split; [split; [reflexivity|discriminate]|]. split.
  - split; [eapply request_okb; [vm_compute; reflexivity|vm_compute; reflexivity]|]. split; [reflexivity|]. split; [reflexivity|].
    split; [apply octets_dec; reflexivity|]. split; [|split; [reflexivity|vm_compute; repeat split; discriminate]].
    assert (O1 : forall x, x < 256 -> is_octets [x]) by (intros x L b [<-|[]]; exact L).
    apply Forall_cons; [apply (send_literal Strict _ Incremental); [apply O1; reflexivity|apply O1; reflexivity|right; split; discriminate]|].
    apply Forall_cons; [apply (send_literal Strict _ Never); [apply O1; reflexivity|apply O1; reflexivity|right; split; discriminate]|].
    apply Forall_cons; [apply (send_literal Strict _ Incremental); [apply O1; reflexivity|apply O1; reflexivity|right; split; discriminate]|].
    apply Forall_nil.
  - split; [vm_compute; reflexivity|]. split; [vm_compute; reflexivity|]. split; [split; [reflexivity|discriminate]|].
    split; [right; left; reflexivity|]. split; reflexivity.
Qed.

Print Assumptions C71_exact_partial.
Print Assumptions C71_duplicate_partial.
