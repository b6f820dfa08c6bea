(* Property C99: the references and iterators of a dynamic table. *)
From Coq Require Import String.
From Coq Require Import ZArith NArith List Bool Lia ZifyBool ZifyNat ZifyN.
From Verif Require Import Base Arith HeaderType DynTable TableRefs SpecHpack DynTableProofs PropTable.
Import ListNotations.
Local Open Scope string_scope.
Local Open Scope list_scope.
Local Open Scope N_scope.
Ltac Zify.zify_post_hook ::= Z.div_mod_to_equations.

(* Histories with the arithmetic of size_t; run (DynTableProofs) is the same
   with unbounded numbers. *)
Definition apply_op64 (t : dyn_table) (o : table_op) : res dyn_table :=
  match o with Push h => dt_push64 t h | Update n => dt_update_size64 t n end.
Fixpoint run64 (t : dyn_table) (ops : list table_op) : res dyn_table :=
  match ops with
  | [] => Ok t
  | o :: ops' => let* t' := apply_op64 t o in run64 t' ops'
  end.

(* get_table_size() is the sum over the entries, within the maximum. *)
Definition accounted (t : dyn_table) : Prop :=
  dt_size t = total_size (dt_entries t) /\ dt_size t <= dt_max t.

Lemma wrap_small : forall x, x < 2 ^ 64 -> wrap x = x.
Proof. intros x L. apply N.mod_small. exact L. Qed.

Lemma minus64_exact : forall a b, b <= a -> a < 2 ^ 64 -> minus64 a b = a - b.
Proof.
  intros a b L M. unfold minus64. rewrite (wrap_small b) by lia. unfold wrap.
  replace (a + 2 ^ 64 - b) with ((a - b) + 1 * 2 ^ 64) by lia.
  rewrite N.mod_add by discriminate. apply N.mod_small. lia.
Qed.

Lemma loop64 : forall old x max, total_size old + x < 2 ^ 64 ->
  resize_loop64 old (total_size old + x) max = resize_loop old (total_size old + x) max.
Proof.
  induction old as [|h old IH]; intros x max L; cbn [resize_loop64 resize_loop]; [reflexivity|].
  rewrite total_cons in *. change (entry_size h) with (field_size h).
  destruct (max <? field_size h + total_size old + x); [|reflexivity].
  rewrite minus64_exact by lia.
  replace (field_size h + total_size old + x - field_size h) with (total_size old + x) by lia.
  apply IH. lia.
Qed.

Lemma table64 : forall es x max, total_size es + x < 2 ^ 64 ->
  resize_table64 es (total_size es + x) max = resize_table es (total_size es + x) max.
Proof.
  intros es x max L. unfold resize_table64, resize_table. rewrite <- (total_rev es) in *. rewrite loop64 by exact L. reflexivity.
Qed.

Lemma push64 : forall t h, dt_ok t -> dt_size t + field_size h < 2 ^ 64 -> dt_push64 t h = dt_push t h.
Proof.
  intros t h (S & M) L. unfold dt_push64, dt_push. change (entry_size h) with (field_size h). rewrite wrap_small by exact L.
  rewrite S in *. rewrite table64 by exact L. reflexivity.
Qed.

Lemma update64 : forall t n, dt_ok t -> dt_size t < 2 ^ 64 -> dt_update_size64 t n = dt_update_size t n.
Proof.
  intros t n (S & M) L. unfold dt_update_size64, dt_update_size. rewrite S in *.
  rewrite <- (N.add_0_r (total_size (dt_entries t))) in *. rewrite table64 by exact L. reflexivity.
Qed.

Lemma keep_total : forall l m, total_size (keep m l) <= total_size l.
Proof. intros l m. destruct (keep_prefix l m) as (r & E). rewrite E at 2. rewrite total_app. lia. Qed.

(* The size_t arithmetic never wraps: with less than 2^64 octets pushed, every
   history has the outcome it has with unbounded numbers. *)
Theorem C99_arithmetic : forall initial ops, total_size (pushes ops) < 2 ^ 64 ->
  run64 (new_table initial) ops = run (new_table initial) ops.
Proof.
  intros initial ops.
  enough (G : forall ops t, dt_ok t -> dt_size t + total_size (pushes ops) < 2 ^ 64 -> run64 t ops = run t ops).
  { intros L. apply G; [apply new_table_ok|exact L]. }
  clear. induction ops as [|o ops IH]; intros t OK L; cbn [run64 run]; [reflexivity|].
  destruct o as [h|n]; cbn [apply_op64 apply_op].
  - cbn [pushes flat_map app] in L. fold (pushes ops) in L. rewrite total_cons in L.
    rewrite push64 by (try exact OK; lia). pose proof (dt_push_ok t h) as PO. rewrite dt_push_spec in * by exact OK.
    destruct (entry_size h <=? dt_max t); [|reflexivity]. cbn [bind]. destruct (PO _ OK eq_refl) as (OK1 & _).
    apply IH; [exact OK1|]. cbn [dt_size]. rewrite total_cons.
    pose proof (keep_total (dt_entries t) (dt_max t - entry_size h)). destruct OK as (S & _). lia.
  - cbn [pushes flat_map app] in L. fold (pushes ops) in L. rewrite update64 by (try exact OK; lia).
    pose proof (dt_update_ok t n) as PO. rewrite dt_update_spec in * by exact OK. cbn [bind].
    destruct (PO _ OK eq_refl) as (OK1 & _). apply IH; [exact OK1|]. cbn [dt_size].
    pose proof (keep_total (dt_entries t) n). destruct OK as (S & _). lia.
Qed.

Lemma firstn_total : forall j l, total_size (firstn j l) <= total_size l.
Proof. intros j l. rewrite <- (firstn_skipn j l) at 2. rewrite total_app. lia. Qed.

Lemma reach_total : forall initial ops t, run (new_table initial) ops = Ok t ->
  dt_ok t /\ total_size (dt_entries t) <= total_size (pushes ops).
Proof.
  intros initial ops t R. split; [apply (run_ok ops (new_table initial)); [apply new_table_ok|exact R]|].
  destruct (run_prefix ops (new_table initial) t [] 0 (new_table_ok _) eq_refl R) as (j & E).
  rewrite app_nil_r in E. rewrite E, <- (total_rev (pushes ops)). apply firstn_total.
Qed.

Lemma at_total : forall t i h, dt_at t i = Ok h -> nth_error (dt_entries t) (N.to_nat i) = Some h /\
  i < size (dt_entries t) /\ field_size h <= total_size (dt_entries t).
Proof.
  intros t i h A. rewrite dt_at_spec in A. destruct (nth_error (dt_entries t) (N.to_nat i)) as [x|] eqn:E; [|discriminate A].
  injection A as ->. split; [reflexivity|]. split.
  - assert (X : nth_error (dt_entries t) (N.to_nat i) <> None) by congruence. apply nth_error_Some in X. unfold size. lia.
  - apply nth_error_split in E. destruct E as (a & b & E & _). rewrite E, total_app, total_cons. lia.
Qed.

(* keep retains element i exactly when the first i + 1 elements fit *)
Lemma keep_retains : forall l m i, (i < length l)%nat -> (i < length (keep m l))%nat <-> total_size (firstn (S i) l) <= m.
Proof.
  intros l m i L. destruct (keep_longest l m) as (k & K & E & T & M). rewrite E, firstn_length. split; intros H.
  - assert (X : (S i <= k)%nat) by lia. pose proof (firstn_total (S i) (firstn k l)) as Y.
    rewrite firstn_firstn in Y. replace (Nat.min (S i) k) with (S i) in Y by lia. lia.
  - specialize (M (S i) ltac:(lia) H). lia.
Qed.

Lemma push_at_spec : forall initial ops t i h, 2 * total_size (pushes ops) < 2 ^ 64 ->
  run (new_table initial) ops = Ok t -> dt_at t i = Ok h ->
  dt_push_at t i = if field_size h + total_size (firstn (S (N.to_nat i)) (dt_entries t)) <=? dt_max t
                   then dt_push t h else UB OobRead.
Proof.
  intros initial ops t i h B R A. destruct (reach_total _ _ _ R) as (OK & T). destruct (at_total _ _ _ A) as (_ & I & F).
  pose proof (dt_push_spec t h OK) as P. unfold dt_push_at. rewrite A. cbn [bind]. change (entry_size h) with (field_size h) in *.
  destruct OK as (S & M). rewrite wrap_small by lia. rewrite S in *. rewrite table64 by lia. rewrite resize_table_spec.
  destruct (N.leb_spec (field_size h) (dt_max t)) as [L|L]; [|lia]. cbn [bind]. rewrite P. clear P.
  pose proof (keep_retains (dt_entries t) (dt_max t - field_size h) (N.to_nat i) ltac:(unfold size in I; lia)) as K.
  destruct (N.ltb_spec i (size (keep (dt_max t - field_size h) (dt_entries t)))) as [G|G];
    destruct (N.leb_spec (field_size h + total_size (firstn (Datatypes.S (N.to_nat i)) (dt_entries t))) (dt_max t)) as [Q|Q].
  - rewrite total_cons. do 2 f_equal. lia.
  - exfalso. unfold size in G. assert (X : (N.to_nat i < length (keep (dt_max t - field_size h) (dt_entries t)))%nat) by (clear - G; lia).
    apply K in X. clear - X Q L. lia.
  - exfalso. assert (X : total_size (firstn (Datatypes.S (N.to_nat i)) (dt_entries t)) <= dt_max t - field_size h) by (clear - Q; lia).
    apply K in X. unfold size in G. clear - X G. lia.
  - reflexivity.
Qed.

(* push(at(i)) is push of a copy of the entry if the entry, all newer ones and
   the copy fit. *)
Theorem C99_push_entry_partial : forall initial ops t i h, 2 * total_size (pushes ops) < 2 ^ 64 ->
  run (new_table initial) ops = Ok t -> dt_at t i = Ok h ->
  field_size h + total_size (firstn (S (N.to_nat i)) (dt_entries t)) <= dt_max t ->
  dt_push_at t i = dt_push t h /\ exists t', dt_push t h = Ok t'.
Proof.
  intros initial ops t i h B R A L. rewrite (push_at_spec _ _ _ _ _ B R A).
  destruct (N.leb_spec (field_size h + total_size (firstn (S (N.to_nat i)) (dt_entries t))) (dt_max t)) as [Q|Q]; [|lia].
  split; [reflexivity|]. destruct (reach_total _ _ _ R) as (OK & _). rewrite dt_push_spec by exact OK.
  change (entry_size h) with (field_size h). destruct (N.leb_spec (field_size h) (dt_max t)); [eauto|lia].
Qed.

(* In every other case the entry is removed before it is copied, although
   pushing a copy made before is defined. *)
Theorem C99_push_entry_refuted : forall initial ops t i h, 2 * total_size (pushes ops) < 2 ^ 64 ->
  run (new_table initial) ops = Ok t -> dt_at t i = Ok h ->
  dt_max t < field_size h + total_size (firstn (S (N.to_nat i)) (dt_entries t)) ->
  (exists u, dt_push_at t i = UB u) /\ exists t', dt_push t h = Ok t'.
Proof.
  intros initial ops t i h B R A L. rewrite (push_at_spec _ _ _ _ _ B R A).
  destruct (N.leb_spec (field_size h + total_size (firstn (S (N.to_nat i)) (dt_entries t))) (dt_max t)) as [Q|Q]; [lia|].
  split; [eauto|]. destruct (reach_total _ _ _ R) as (OK & _). destruct (at_total _ _ _ A) as (_ & _ & F).
  rewrite dt_push_spec by exact OK.
  change (entry_size h) with (field_size h). destruct OK as (S & M). destruct (N.leb_spec (field_size h) (dt_max t)); [eauto|lia].
Qed.

Lemma ok_eq : forall A (x y : A), Ok x = Ok y -> x = y.
Proof. intros A x y H. injection H as H. exact H. Qed.

Lemma write_total : forall t i old h t', dt_at t i = Ok old -> dt_write t i h = Ok t' ->
  dt_size t' = dt_size t /\ dt_max t' = dt_max t /\
  total_size (dt_entries t') + field_size old = total_size (dt_entries t) + field_size h.
Proof.
  intros t i old h t' A W. destruct (at_total _ _ _ A) as (E & I & _). unfold dt_write in W.
  destruct (N.ltb_spec i (size (dt_entries t))) as [_|]; [|lia]. apply ok_eq in W. subst t'. cbn [dt_size dt_max dt_entries].
  split; [reflexivity|]. split; [reflexivity|]. apply nth_error_split in E. destruct E as (a & b & E & La).
  rewrite E, <- La. change header with field in *. rewrite firstn_app, firstn_all, Nat.sub_diag, app_nil_r.
  replace (skipn (S (length a)) (a ++ old :: b)) with b.
  - rewrite !total_app, !total_cons. lia.
  - rewrite skipn_app, skipn_all2 by lia. replace (S (length a) - length a)%nat with 1%nat by lia. reflexivity.
Qed.

(* Replacing an entry through an iterator by one of the same size keeps the
   accounting, and every history of pushes and size updates afterwards keeps it
   as in C13. *)
Theorem C99_write_partial : forall t i old h t', accounted t -> dt_at t i = Ok old -> field_size h = field_size old ->
  dt_write t i h = Ok t' ->
  accounted t' /\ dt_at t' i = Ok h /\ (forall j, j <> i -> dt_at t' j = dt_at t j) /\
  forall ops t'', run t' ops = Ok t'' -> accounted t''.
Proof.
  intros t i old h t' (S & M) A F W. destruct (write_total _ _ _ _ _ A W) as (W1 & W2 & W3).
  assert (OK : dt_ok t') by (unfold dt_ok; lia).
  split; [exact OK|]. destruct (at_total _ _ _ A) as (E & I & _). unfold dt_write in W.
  destruct (N.ltb_spec i (size (dt_entries t))) as [_|]; [|lia]. apply ok_eq in W. subst t'. unfold size in I.
  split; [|split].
  - rewrite dt_at_spec. cbn [dt_entries]. rewrite nth_error_app2; rewrite firstn_length; [|lia].
    replace (N.to_nat i - Nat.min (N.to_nat i) (length (dt_entries t)))%nat with 0%nat by lia. reflexivity.
  - intros j J. rewrite !dt_at_spec. cbn [dt_entries].
    replace (nth_error (firstn (N.to_nat i) (dt_entries t) ++ h :: skipn (Datatypes.S (N.to_nat i)) (dt_entries t)) (N.to_nat j))
      with (nth_error (dt_entries t) (N.to_nat j)); [reflexivity|].
    apply nth_error_split in E. destruct E as (a & b & E & La). rewrite E, <- La.
    change header with field in *. rewrite firstn_app, firstn_all, Nat.sub_diag, app_nil_r.
    replace (skipn (Datatypes.S (length a)) (a ++ old :: b)) with b
      by (rewrite skipn_app, skipn_all2 by lia; replace (Datatypes.S (length a) - length a)%nat with 1%nat by lia; reflexivity).
    destruct (Nat.lt_ge_cases (N.to_nat j) (length a)) as [G|G]; [rewrite !nth_error_app1 by exact G; reflexivity|].
    rewrite !nth_error_app2 by exact G. destruct (N.to_nat j - length a)%nat eqn:Z; [lia|reflexivity].
  - intros ops t'' R. exact (run_ok ops _ _ OK R).
Qed.

Lemma loop_zero : forall old current, current < 2 ^ 64 -> resize_loop64 old current 0 = Ok ([], 0) ->
  current = total_size old mod 2 ^ 64.
Proof.
  induction old as [|h old IH]; intros current L H; cbn [resize_loop64] in H.
  - destruct (0 <? current); [discriminate H|]. injection H as ->. reflexivity.
  - destruct (0 <? current) eqn:C; [|discriminate H].
    apply IH in H; [|unfold minus64, wrap; apply N.mod_lt; discriminate].
    rewrite total_cons. unfold minus64, wrap in H. change (entry_size h) with (field_size h) in H.
    rewrite N.add_mod, <- H by discriminate. rewrite <- N.add_mod_idemp_l by discriminate.
    rewrite N.add_mod_idemp_r by discriminate.
    assert (Q : (field_size h mod 2 ^ 64) mod 2 ^ 64 = field_size h mod 2 ^ 64) by (apply N.mod_mod; discriminate).
    pose proof (N.mod_lt (field_size h) (2 ^ 64) ltac:(discriminate)) as X. rewrite Q.
    replace (field_size h mod 2 ^ 64 + (current + 2 ^ 64 - field_size h mod 2 ^ 64)) with (current + 1 * 2 ^ 64) by lia.
    rewrite N.mod_add by discriminate. rewrite N.mod_small by exact L. reflexivity.
Qed.

Lemma loop_short : forall old current, total_size old < current -> current < 2 ^ 64 -> resize_loop64 old current 0 = UB EmptyBack.
Proof.
  induction old as [|h old IH]; intros current T L; cbn [resize_loop64]; destruct (N.ltb_spec 0 current) as [C|C]; try lia; [reflexivity|].
  rewrite total_cons in T. change (entry_size h) with (field_size h). rewrite minus64_exact by lia. apply IH; lia.
Qed.

(* Any other replacement breaks the accounting: update_table_size(0) no longer
   leaves the empty table, as it does on every table of C16, and it is undefined
   behaviour if the new entry is smaller. *)
Theorem C99_write_refuted : forall initial ops t i old h t', total_size (pushes ops) + field_size h < 2 ^ 64 ->
  run (new_table initial) ops = Ok t -> dt_at t i = Ok old -> field_size h <> field_size old -> dt_write t i h = Ok t' ->
  dt_size t' <> total_size (dt_entries t') /\
  dt_update_size64 t 0 = Ok (new_table 0) /\ dt_update_size64 t' 0 <> Ok (new_table 0) /\
  (field_size h < field_size old -> exists u, dt_update_size64 t' 0 = UB u).
Proof.
  intros initial ops t i old h t' B R A F W. destruct (reach_total _ _ _ R) as (OK & T).
  destruct (write_total _ _ _ _ _ A W) as (W1 & W2 & W3). destruct (at_total _ _ _ A) as (_ & _ & O).
  pose proof OK as (S & M). split; [lia|]. split; [|split].
  - rewrite update64 by (try exact OK; lia). rewrite dt_update_spec by exact OK.
    replace (keep 0 (dt_entries t)) with (@nil field); [reflexivity|].
    destruct (dt_entries t) as [|x l]; [reflexivity|]. cbn [keep]. pose proof (field_size_ge x).
    destruct (N.leb_spec (field_size x) 0); [lia|reflexivity].
  - intros H. unfold dt_update_size64, resize_table64 in H. destruct (resize_loop64 (rev (dt_entries t')) (dt_size t') 0) as [[r c]| | |] eqn:E;
      cbn [bind] in H; try discriminate H. unfold new_table in H. injection H as H1 H2. subst c.
    assert (r = []) by (destruct r as [|x r]; [reflexivity|]; cbn [rev] in H1; destruct (rev r); discriminate H1). subst r.
    apply loop_zero in E; [|lia]. rewrite total_rev in E. rewrite N.mod_small in E by lia. lia.
  - intros L. exists EmptyBack. unfold dt_update_size64, resize_table64. rewrite loop_short; [reflexivity| |lia]. rewrite total_rev. lia.
Qed.

Definition two : list table_op := [Push (octets "name", octets "1"); Push (octets "token", octets "secret")].

Example C99_case : exists t t', run (new_table 128) two = Ok t /\ 2 * total_size (pushes two) < 2 ^ 64 /\
  dt_at t 0 = Ok (octets "token", octets "secret") /\ dt_at t 1 = Ok (octets "name", octets "1") /\
  dt_push_at t 1 = Ok t' /\ dt_size t' = 117 /\
  dt_entries t' = [(octets "name", octets "1"); (octets "token", octets "secret"); (octets "name", octets "1")].
Proof. eexists _, _. split; [vm_compute; reflexivity|]. vm_compute. repeat split. Qed.

Example C99_refuted_case : exists t t', run (new_table 100) two = Ok t /\
  dt_push_at t 1 = UB OobRead /\ dt_push t (octets "name", octets "1") = Ok t' /\
  dt_entries t' = [(octets "name", octets "1"); (octets "token", octets "secret")].
Proof. eexists _, _. split; [vm_compute; reflexivity|]. vm_compute. repeat split. Qed.

Example C99_write_case : exists t t' t'', run (new_table 128) two = Ok t /\
  dt_write t 1 (octets "name", octets "22") = Ok t' /\ dt_size t' = 80 /\ total_size (dt_entries t') = 81 /\
  dt_write t 1 (octets "name", octets "") = Ok t'' /\ dt_update_size64 t'' 0 = UB EmptyBack.
Proof. eexists _, _, _. split; [vm_compute; reflexivity|]. vm_compute. repeat split. Qed.

Print Assumptions C99_arithmetic.
Print Assumptions C99_push_entry_partial.
Print Assumptions C99_push_entry_refuted.
Print Assumptions C99_write_partial.
Print Assumptions C99_write_refuted.
