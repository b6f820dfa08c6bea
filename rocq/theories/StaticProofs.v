From Coq Require Import String.
From Coq Require Import ZArith NArith List Bool Lia ZifyBool ZifyNat ZifyN.
From Verif Require Import Base Arith Huffman StaticTable HeaderType HeaderEnc HeaderDec SpecHpack HuffmanProofs.
Import ListNotations.
Open Scope N_scope.
Local Open Scope string_scope.
Local Open Scope list_scope.
Local Open Scope N_scope.

Definition indices : list N := Eval vm_compute in map N.of_nat (seq 1 61).

Lemma in_indices : forall i, 1 <= i <= 61 <-> In i indices.
Proof.
  intros i. replace indices with (map N.of_nat (seq 1 61)) by (vm_compute; reflexivity).
  rewrite in_map_iff. split.
  - intros H. exists (N.to_nat i). split; [lia|]. apply in_seq. lia.
  - intros (k & <- & I). apply in_seq in I. lia.
Qed.

Lemma header_eqb_eq : forall a b, header_eqb a b = true <-> a = b.
Proof.
  intros [n v] [n' v']. unfold header_eqb. cbn [fst snd].
  rewrite andb_true_iff, !bytes_eqb_eq. split; [intros [-> ->]; reflexivity|].
  intros E. inversion E. auto.
Qed.

Lemma header_eqb_refl : forall a, header_eqb a a = true.
Proof. intros. apply header_eqb_eq. reflexivity. Qed.

Lemma rev_find_in : forall rows h i, rev_find rows h = Some i -> In (h, i) rows.
Proof.
  induction rows as [|[h' i'] rows IH]; intros h i H; cbn in H; [discriminate|].
  destruct (header_eqb h h') eqn:E.
  - apply header_eqb_eq in E. inversion H; subst. left. reflexivity.
  - right. apply IH. assumption.
Qed.

Lemma static_keys : map fst static_table_entries = indices.
Proof. vm_compute. reflexivity. Qed.

Definition fwd_ok : bool :=
  forallb (fun r => match reverse_static_find (snd r) with Some j => j =? fst r | None => false end)
    static_table_entries.
Lemma fwd_sweep : fwd_ok = true. Proof. vm_compute. reflexivity. Qed.

Definition bwd_ok : bool :=
  forallb (fun r => match map_find static_table_entries (snd r) with
                    | Some h => header_eqb h (fst r) | None => false end)
    reverse_static_table_entries.
Lemma bwd_sweep : bwd_ok = true. Proof. vm_compute. reflexivity. Qed.

Lemma static_inverse : forall h i,
  reverse_static_find h = Some i <-> map_find static_table_entries i = Some h.
Proof.
  intros h i. split; intros H.
  - apply rev_find_in in H. pose proof (proj1 (forallb_forall _ _) bwd_sweep _ H) as Q.
    cbn [fst snd] in Q. destruct (map_find static_table_entries i); [|discriminate].
    apply header_eqb_eq in Q. subst. reflexivity.
  - apply map_find_in in H. pose proof (proj1 (forallb_forall _ _) fwd_sweep _ H) as Q.
    cbn [fst snd] in Q. destruct (reverse_static_find h); [|discriminate].
    apply N.eqb_eq in Q. subst. reflexivity.
Qed.

Lemma map_find_some : forall V (m : list (N * V)) k, In k (map fst m) ->
  exists v, map_find m k = Some v.
Proof.
  induction m as [|[k' v] m IH]; intros k H; [destruct H|]. cbn [map_find].
  destruct (N.eqb_spec k k'); [eauto|]. apply IH. destruct H as [H|H]; [cbn in H; congruence|assumption].
Qed.

Lemma static_indices : forall i,
  (exists h, map_find static_table_entries i = Some h) <-> 1 <= i <= 61.
Proof.
  intros i. rewrite in_indices, <- static_keys. split.
  - intros [h H]. apply map_find_in in H. apply in_map_iff. exists (i, h). auto.
  - apply map_find_some.
Qed.

Lemma static_size : static_table_size = 61.
Proof. vm_compute. reflexivity. Qed.

Lemma rfc_sweep : forallb (fun i => (i =? 20) ||
  match map_find static_table_entries i, nth_error rfc_static (N.to_nat (i - 1)) with
  | Some h, Some h' => header_eqb h h' | _, _ => false end) indices = true.
Proof. vm_compute. reflexivity. Qed.

Lemma static_is_rfc : forall i, 1 <= i <= 61 -> i <> 20 ->
  map_find static_table_entries i = nth_error rfc_static (N.to_nat (i - 1)).
Proof.
  intros i H NE. apply in_indices in H.
  pose proof (proj1 (forallb_forall _ _) rfc_sweep _ H) as Q. cbv beta in Q.
  apply orb_true_iff in Q. destruct Q as [Q|Q]; [apply N.eqb_eq in Q; congruence|].
  destruct (map_find static_table_entries i), (nth_error rfc_static _); try discriminate.
  apply header_eqb_eq in Q. subst. reflexivity.
Qed.

Lemma static_20_wrong :
  nth_error rfc_static 19 = Some (octets "access-control-allow-origin", []) /\
  map_find static_table_entries 20 <> nth_error rfc_static 19.
Proof. split; [vm_compute; reflexivity|]. vm_compute. discriminate. Qed.

(* The library's static table as a list (index 1 first). *)
Definition lib_static : list field := map snd static_table_entries.

Lemma lib_static_len : length lib_static = 61%nat.
Proof. vm_compute. reflexivity. Qed.

Lemma lib_sweep : forallb (fun i =>
  match map_find static_table_entries i, nth_error lib_static (N.to_nat (i - 1)) with
  | Some h, Some h' => header_eqb h h' | _, _ => false end) indices = true.
Proof. vm_compute. reflexivity. Qed.

Lemma lib_static_nth : forall i, 1 <= i <= 61 ->
  map_find static_table_entries i = nth_error lib_static (N.to_nat (i - 1)).
Proof.
  intros i H. apply in_indices in H.
  pose proof (proj1 (forallb_forall _ _) lib_sweep _ H) as Q. cbv beta in Q.
  destruct (map_find static_table_entries i), (nth_error lib_static _); try discriminate.
  apply header_eqb_eq in Q. subst. reflexivity.
Qed.

Lemma static_wf_sweep : forallb (fun r =>
  forallb (fun b => b <? 256) (fst (snd r)) && forallb (fun b => b <? 256) (snd (snd r)) &&
  (0 <? size (fst (snd r)))) static_table_entries = true.
Proof. vm_compute. reflexivity. Qed.

Lemma forallb_wf : forall l, forallb (fun b => b <? 256) l = true -> wf_bytes l.
Proof.
  intros l H. apply Forall_forall. intros x I. apply N.ltb_lt.
  exact (proj1 (forallb_forall _ _) H x I).
Qed.

Lemma static_wf : forall i h, map_find static_table_entries i = Some h ->
  wf_bytes (fst h) /\ wf_bytes (snd h) /\ 0 < size (fst h).
Proof.
  intros i h H. apply map_find_in in H.
  pose proof (proj1 (forallb_forall _ _) static_wf_sweep _ H) as Q. cbn [fst snd] in Q.
  rewrite !andb_true_iff, N.ltb_lt in Q. destruct Q as [[A B] C].
  repeat split; auto using forallb_wf.
Qed.
