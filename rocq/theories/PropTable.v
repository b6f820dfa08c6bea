(* Properties C11 - C17 (static and dynamic table). *)
From Coq Require Import String.
From Coq Require Import ZArith NArith List Bool Lia ZifyBool ZifyNat ZifyN.
From Verif Require Import Base Huffman StaticTable HeaderType DynTable HeaderEnc HeaderDec SpecHpack
  Arith DynTableProofs StaticProofs.
Import ListNotations.
Open Scope N_scope.
Local Open Scope string_scope.
Local Open Scope list_scope.
Local Open Scope N_scope.

(* C11: the reverse table finds index i for exactly the header at index i; the
   indices are 1..61. *)
Theorem C11_static_tables_inverse : forall h i,
  reverse_static_find h = Some i <-> map_find static_table_entries i = Some h.
Proof. exact static_inverse. Qed.

Theorem C11_static_indices : forall i,
  (exists h, map_find static_table_entries i = Some h) <-> 1 <= i <= 61.
Proof. exact static_indices. Qed.

Theorem C11_static_table_at : forall i,
  (1 <= i <= 61 -> exists h, static_table_at i = Ok h) /\
  (~ 1 <= i <= 61 -> static_table_at i = Throw OutOfRange).
Proof.
  intros i. unfold static_table_at. split.
  - intros H. apply static_indices in H. destruct H as [h ->]. eauto.
  - intros H. destruct (map_find static_table_entries i) eqn:E; [|reflexivity].
    exfalso. apply H, static_indices. eauto.
Qed.

Example C11_case : reverse_static_find (octets ":method", octets "POST") = Some 3 /\
  reverse_static_find (octets ":method", octets "PUT") = None.
Proof. vm_compute. auto. Qed.

(* C12: every index except 20 denotes the RFC's header field. *)
Theorem C12_static_table_is_rfc_partial : forall i, 1 <= i <= 61 -> i <> 20 ->
  map_find static_table_entries i = nth_error rfc_static (N.to_nat (i - 1)).
Proof. exact static_is_rfc. Qed.

(* C12 is false for index 20: the library has "accept-...". *)
Theorem C12_static_table_refuted :
  nth_error rfc_static 19 = Some (octets "access-control-allow-origin", []) /\
  map_find static_table_entries 20 <> nth_error rfc_static 19.
Proof. exact static_20_wrong. Qed.

Example C12_case : map_find static_table_entries 61 = Some (octets "www-authenticate", []).
Proof. vm_compute. reflexivity. Qed.

(* Histories of a table: pushes and size updates in any order, applied to a
   table created with any maximum size.  run (DynTableProofs) executes them one
   by one. *)

(* C13 *)
Theorem C13_accounting : forall initial ops t, run (new_table initial) ops = Ok t ->
  dt_size t = total_size (dt_entries t) /\ dt_size t <= dt_max t.
Proof.
  intros initial ops t H. apply (run_ok ops (new_table initial)); [apply new_table_ok|exact H].
Qed.

(* C13: a history runs into undefined behaviour exactly when it pushes an entry
   larger than the maximum of that moment; it never throws. *)
Theorem C13_history_outcome : forall initial ops,
  (exists t, run (new_table initial) ops = Ok t) \/
  (run (new_table initial) ops = UB EmptyBack /\
   exists before h after t1, ops = before ++ Push h :: after /\
     run (new_table initial) before = Ok t1 /\ dt_max t1 < field_size h).
Proof. intros. apply run_outcome, new_table_ok. Qed.

Definition sample_ops : list table_op :=
  [Push (octets "a", octets "1"); Push (octets "b", octets "2"); Update 70;
   Push (octets "c", octets "3"); Push (octets "d", octets "4")].

Example C13_case : exists t, run (new_table 4096) sample_ops = Ok t /\
  dt_entries t = [(octets "d", octets "4"); (octets "c", octets "3")] /\ dt_size t = 68 /\ dt_max t = 70.
Proof. eexists. vm_compute. repeat split. Qed.

(* C14: after any history, pushing an entry that fits puts it first and keeps
   the largest number k of the newest old entries that still fit with it. *)
Theorem C14_push_evicts_oldest : forall initial ops t h,
  run (new_table initial) ops = Ok t -> field_size h <= dt_max t ->
  exists t' k, dt_push t h = Ok t' /\
    dt_entries t' = h :: firstn k (dt_entries t) /\
    dt_max t' = dt_max t /\
    total_size (h :: firstn k (dt_entries t)) <= dt_max t /\
    (k <= length (dt_entries t))%nat /\
    (forall j, (j <= length (dt_entries t))%nat ->
       total_size (h :: firstn j (dt_entries t)) <= dt_max t -> (j <= k)%nat).
Proof.
  intros initial ops t h R F.
  assert (OK : dt_ok t) by (apply (run_ok ops (new_table initial)); [apply new_table_ok|exact R]).
  destruct (keep_longest (dt_entries t) (dt_max t - field_size h)) as (k & K & E & T & M).
  change header with field in *.
  rewrite dt_push_spec by exact OK. change (entry_size h) with (field_size h).
  destruct (N.leb_spec (field_size h) (dt_max t)) as [_|]; [|lia].
  eexists. exists k. split; [reflexivity|]. cbn [dt_entries dt_max].
  split; [apply f_equal; exact E|]. split; [reflexivity|].
  split; [rewrite total_cons; lia|]. split; [exact K|].
  intros j J TJ. rewrite total_cons in TJ. apply M; [exact J|lia].
Qed.

Example C14_case : exists t, run (new_table 70) [Push (octets "a", []); Push (octets "b", [])] = Ok t /\
  exists t', dt_push t (octets "c", octets "333") = Ok t' /\
  dt_entries t' = [(octets "c", octets "333"); (octets "b", [])].
Proof. eexists. split; [vm_compute; reflexivity|]. eexists. vm_compute. split; reflexivity. Qed.

(* C15 is false: on every table, pushing an entry larger than the maximum size
   is undefined behaviour (pop_back of an empty vector). *)
Theorem C15_oversize_push_refuted : forall initial ops t h,
  run (new_table initial) ops = Ok t -> dt_max t < field_size h ->
  dt_push t h = UB EmptyBack.
Proof.
  intros initial ops t h R F.
  assert (OK : dt_ok t) by (apply (run_ok ops (new_table initial)); [apply new_table_ok|exact R]).
  rewrite dt_push_spec by exact OK. change (entry_size h) with (field_size h).
  destruct (N.leb_spec (field_size h) (dt_max t)); [lia|reflexivity].
Qed.

(* C15: what holds is that the RFC behaviour is implemented for all other
   entries. *)
Theorem C15_push_is_rfc_partial : forall initial ops t h,
  run (new_table initial) ops = Ok t -> field_size h <= dt_max t ->
  exists t', dt_push t h = Ok t' /\
    Table (dt_max t') (dt_entries t') = insert (Table (dt_max t) (dt_entries t)) h.
Proof.
  intros initial ops t h R F.
  assert (OK : dt_ok t) by (apply (run_ok ops (new_table initial)); [apply new_table_ok|exact R]).
  assert (E : exists t', dt_push t h = Ok t').
  { rewrite dt_push_spec by exact OK. change (entry_size h) with (field_size h).
    destruct (N.leb_spec (field_size h) (dt_max t)); [eauto|lia]. }
  destruct E as [t' E]. exists t'. split; [exact E|].
  apply (dt_push_ok t h t' OK E).
Qed.

Example C15_case : dt_push (new_table 40) (octets "name", octets "value") = UB EmptyBack /\
  insert (Table 40 []) (octets "name", octets "value") = Table 40 [].
Proof. vm_compute. auto. Qed.

(* C16 *)
Theorem C16_size_update : forall initial ops t n,
  run (new_table initial) ops = Ok t ->
  exists t' k, dt_update_size t n = Ok t' /\ dt_max t' = n /\
    dt_entries t' = firstn k (dt_entries t) /\
    total_size (firstn k (dt_entries t)) <= n /\
    (k <= length (dt_entries t))%nat /\
    (forall j, (j <= length (dt_entries t))%nat ->
       total_size (firstn j (dt_entries t)) <= n -> (j <= k)%nat) /\
    dt_update_size t' n = Ok t'.
Proof.
  intros initial ops t n R.
  assert (OK : dt_ok t) by (apply (run_ok ops (new_table initial)); [apply new_table_ok|exact R]).
  destruct (keep_longest (dt_entries t) n) as (k & K & E & T & M).
  change header with field in *.
  pose proof (dt_update_spec t n OK) as U. pose proof (dt_update_ok t n _ OK U) as (OK' & _ & _).
  eexists. exists k. split; [exact U|]. split; [reflexivity|]. split; [exact E|].
  split; [exact T|]. split; [exact K|]. split; [exact M|].
  rewrite dt_update_spec by exact OK'. cbn [dt_entries]. rewrite keep_idem. reflexivity.
Qed.

Example C16_case : exists t t', run (new_table 4096) sample_ops = Ok t /\
  dt_update_size t 34 = Ok t' /\ dt_entries t' = [(octets "d", octets "4")].
Proof. eexists. eexists. vm_compute. repeat split. Qed.

(* C17: position i of the table is the (i+1)-th most recent push, up to some
   number k of retained entries; beyond, at() throws. *)
Theorem C17_lookup_lifo : forall initial ops t, run (new_table initial) ops = Ok t ->
  exists k, k <= size (pushes ops) /\
    (forall i, i < k -> exists h, nth_error (rev (pushes ops)) (N.to_nat i) = Some h /\ dt_at t i = Ok h) /\
    (forall i, k <= i -> dt_at t i = Throw OutOfRange) /\
    size (dt_entries t) = k.
Proof.
  intros initial ops t R.
  destruct (run_prefix ops (new_table initial) t [] 0 (new_table_ok _) eq_refl R) as (j & E).
  rewrite app_nil_r in E. exists (size (dt_entries t)). split; [|split; [|split]].
  - rewrite E. unfold size. rewrite firstn_length, rev_length. lia.
  - intros i L. rewrite dt_at_spec.
    destruct (nth_error (dt_entries t) (N.to_nat i)) as [h|] eqn:N.
    + exists h. split; [|reflexivity]. rewrite <- (firstn_skipn j (rev (pushes ops))), <- E.
      rewrite nth_error_app1; [exact N|]. apply nth_error_Some. congruence.
    + apply nth_error_None in N. unfold size in L. lia.
  - intros i L. rewrite dt_at_spec.
    destruct (nth_error (dt_entries t) (N.to_nat i)) eqn:N; [|reflexivity].
    assert (nth_error (dt_entries t) (N.to_nat i) <> None) as X by congruence.
    apply nth_error_Some in X. unfold size in L. lia.
  - reflexivity.
Qed.

Example C17_case : exists t, run (new_table 4096) sample_ops = Ok t /\
  dt_at t 1 = Ok (octets "c", octets "3") /\ dt_at t 2 = Throw OutOfRange.
Proof. eexists. vm_compute. repeat split. Qed.

Print Assumptions C11_static_tables_inverse.
Print Assumptions C11_static_indices.
Print Assumptions C11_static_table_at.
Print Assumptions C12_static_table_is_rfc_partial.
Print Assumptions C12_static_table_refuted.
Print Assumptions C13_accounting.
Print Assumptions C13_history_outcome.
Print Assumptions C14_push_evicts_oldest.
Print Assumptions C15_oversize_push_refuted.
Print Assumptions C15_push_is_rfc_partial.
Print Assumptions C16_size_update.
Print Assumptions C17_lookup_lifo.
