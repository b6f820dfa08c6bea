From Coq Require Import ZArith NArith List Bool Lia ZifyBool ZifyNat ZifyN.
From Verif Require Import Base Arith HeaderType DynTable SpecHpack.
Import ListNotations.
Open Scope N_scope.
Ltac Zify.zify_post_hook ::= Z.div_mod_to_equations.

Lemma entry_size_eq : forall h, entry_size h = field_size h.
Proof. reflexivity. Qed.

Lemma field_size_ge : forall f, 32 <= field_size f.
Proof. intros. unfold field_size. lia. Qed.

Lemma total_app : forall a b, total_size (a ++ b) = total_size a + total_size b.
Proof. induction a as [|f a IH]; intros b; [reflexivity|]. cbn [app total_size fold_right] in *.
  fold (total_size (a ++ b)). fold (total_size a). rewrite IH. lia. Qed.
Lemma total_cons : forall f l, total_size (f :: l) = field_size f + total_size l.
Proof. reflexivity. Qed.
Lemma total_nil : total_size [] = 0.
Proof. reflexivity. Qed.
Lemma total_rev : forall l, total_size (rev l) = total_size l.
Proof.
  induction l as [|f l IH]; [reflexivity|]. cbn [rev].
  rewrite total_app, total_cons, total_nil, IH, total_cons. lia.
Qed.

Lemma keep_all : forall l m, total_size l <= m -> keep m l = l.
Proof.
  induction l as [|f l IH]; intros m H; [reflexivity|]. rewrite total_cons in H. cbn [keep].
  destruct (N.leb_spec (field_size f) m); [|lia]. rewrite IH by lia. reflexivity.
Qed.

Lemma keep_drop_last : forall l f m, m < total_size (l ++ [f]) -> keep m (l ++ [f]) = keep m l.
Proof.
  induction l as [|g l IH]; intros f m H; cbn [app keep] in *.
  - rewrite total_cons, total_nil in H. destruct (N.leb_spec (field_size f) m); [lia|reflexivity].
  - rewrite total_cons in H. destruct (N.leb_spec (field_size g) m); [|reflexivity].
    rewrite IH by lia. reflexivity.
Qed.

Lemma keep_le : forall l m, total_size (keep m l) <= m.
Proof.
  induction l as [|f l IH]; intros m; cbn [keep]; [rewrite total_nil; lia|].
  destruct (N.leb_spec (field_size f) m); [|rewrite total_nil; lia].
  rewrite total_cons. specialize (IH (m - field_size f)). lia.
Qed.

(* keep is the longest prefix that fits *)
Lemma keep_longest : forall l m, exists k, (k <= length l)%nat /\ keep m l = firstn k l /\
  total_size (firstn k l) <= m /\
  (forall j, (j <= length l)%nat -> total_size (firstn j l) <= m -> (j <= k)%nat).
Proof.
  induction l as [|f l IH]; intros m.
  - exists 0%nat. cbn. repeat split; auto; lia.
  - cbn [keep]. destruct (N.leb_spec (field_size f) m) as [L|L].
    + destruct (IH (m - field_size f)) as (k & K & E & T & M).
      exists (S k). cbn [length firstn]. rewrite E. repeat split; [lia| |].
      * rewrite total_cons. lia.
      * intros [|j] J H; [lia|]. cbn [firstn] in H. rewrite total_cons in H.
        enough (j <= k)%nat by lia. apply M; lia.
    + exists 0%nat. cbn [firstn]. rewrite total_nil. repeat split; [lia|lia|].
      intros [|j] J H; [lia|]. cbn [firstn] in H. rewrite total_cons in H. lia.
Qed.

Lemma keep_prefix : forall l m, exists r, l = keep m l ++ r.
Proof.
  intros. destruct (keep_longest l m) as (k & _ & E & _). exists (skipn k l).
  rewrite E. symmetry. apply firstn_skipn.
Qed.

Lemma keep_idem : forall l m, keep m (keep m l) = keep m l.
Proof. intros. apply keep_all, keep_le. Qed.

Lemma resize_loop_spec : forall old x max,
  resize_loop old (total_size old + x) max =
  if x <=? max then
    Ok (rev (keep (max - x) (rev old)), total_size (keep (max - x) (rev old)) + x)
  else UB EmptyBack.
Proof.
  induction old as [|h old IH]; intros x max; cbn [resize_loop].
  - change (keep (max - x) (rev [])) with (@nil field). change (rev (@nil field)) with (@nil field).
    rewrite total_nil, !N.add_0_l.
    destruct (N.ltb_spec max x), (N.leb_spec x max); try lia; reflexivity.
  - rewrite total_cons. change (entry_size h) with (field_size h).
    destruct (N.ltb_spec max (field_size h + total_size old + x)) as [G|G].
    + replace (field_size h + total_size old + x - field_size h) with (total_size old + x) by lia.
      rewrite IH. destruct (N.leb_spec x max); [|reflexivity].
      cbn [rev]. rewrite keep_drop_last; [reflexivity|].
      rewrite total_app, total_cons, total_nil, total_rev. lia.
    + destruct (N.leb_spec x max); [|lia].
      rewrite keep_all; [|rewrite total_rev, total_cons; lia].
      rewrite rev_involutive, total_rev, total_cons. f_equal.
Qed.

Lemma resize_table_spec : forall es x max,
  resize_table es (total_size es + x) max =
  if x <=? max then Ok (keep (max - x) es, total_size (keep (max - x) es) + x)
  else UB EmptyBack.
Proof.
  intros. unfold resize_table. rewrite <- (total_rev es), resize_loop_spec, rev_involutive.
  destruct (x <=? max); [|reflexivity]. cbn [bind]. rewrite rev_involutive. reflexivity.
Qed.

(* The invariant of reachable tables. *)
Definition dt_ok (t : dyn_table) : Prop :=
  dt_size t = total_size (dt_entries t) /\ dt_size t <= dt_max t.

(* The RFC view of a table. *)
Definition rfc_table (t : dyn_table) : table := Table (dt_max t) (dt_entries t).

Lemma new_table_ok : forall n, dt_ok (new_table n).
Proof. intros. split; cbn; [reflexivity|lia]. Qed.

Lemma dt_push_spec : forall t h, dt_ok t ->
  dt_push t h =
  if entry_size h <=? dt_max t then
    Ok (DynTable (h :: keep (dt_max t - entry_size h) (dt_entries t))
          (total_size (h :: keep (dt_max t - entry_size h) (dt_entries t))) (dt_max t))
  else UB EmptyBack.
Proof.
  intros t h [S M]. unfold dt_push. rewrite S, resize_table_spec.
  destruct (N.leb_spec (entry_size h) (dt_max t)); [|reflexivity]. cbn [bind].
  rewrite total_cons. change (field_size h) with (entry_size h). do 2 f_equal. lia.
Qed.

Lemma dt_update_spec : forall t n, dt_ok t ->
  dt_update_size t n =
  Ok (DynTable (keep n (dt_entries t)) (total_size (keep n (dt_entries t))) n).
Proof.
  intros t n [S M]. unfold dt_update_size. rewrite S.
  replace (total_size (dt_entries t)) with (total_size (dt_entries t) + 0) by lia.
  rewrite resize_table_spec. cbn [N.leb bind]. rewrite N.sub_0_r, N.add_0_r.
  destruct n; reflexivity.
Qed.

Lemma dt_push_ok : forall t h t', dt_ok t -> dt_push t h = Ok t' ->
  dt_ok t' /\ rfc_table t' = insert (rfc_table t) h /\ entry_size h <= dt_max t /\
  dt_max t' = dt_max t.
Proof.
  intros t h t' OK H. rewrite dt_push_spec in H by assumption.
  destruct (N.leb_spec (entry_size h) (dt_max t)) as [L|]; [|discriminate].
  inversion H; subst. unfold dt_ok. cbn [dt_size dt_entries dt_max]. repeat split; auto.
  - change (field_size h) with (entry_size h).
    pose proof (keep_le (dt_entries t) (dt_max t - entry_size h)). lia.
  - unfold rfc_table, insert. cbn [t_max t_entries dt_max dt_entries keep].
    change (field_size h) with (entry_size h). destruct (N.leb_spec (entry_size h) (dt_max t)); [reflexivity|lia].
Qed.

Lemma dt_update_ok : forall t n t', dt_ok t -> dt_update_size t n = Ok t' ->
  dt_ok t' /\ rfc_table t' = resize (rfc_table t) n /\ dt_max t' = n.
Proof.
  intros t n t' OK H. rewrite dt_update_spec in H by assumption. inversion H; subst.
  unfold dt_ok. cbn [dt_size dt_entries dt_max]. repeat split; auto. apply keep_le.
Qed.

(* ---- histories ---- *)

Inductive table_op := Push (h : header) | Update (n : N).

Definition apply_op (t : dyn_table) (o : table_op) : res dyn_table :=
  match o with Push h => dt_push t h | Update n => dt_update_size t n end.

Fixpoint run (t : dyn_table) (ops : list table_op) : res dyn_table :=
  match ops with
  | [] => Ok t
  | o :: ops' => let* t' := apply_op t o in run t' ops'
  end.

Definition pushes (ops : list table_op) : list header :=
  flat_map (fun o => match o with Push h => [h] | Update _ => [] end) ops.

Lemma run_ok : forall ops t t', dt_ok t -> run t ops = Ok t' -> dt_ok t'.
Proof.
  induction ops as [|o ops IH]; intros t t' OK H; cbn [run] in H.
  - inversion H; subst. assumption.
  - apply bind_ok in H. destruct H as (t1 & H1 & H2). apply (IH t1); [|assumption].
    destruct o; cbn in H1.
    + eapply dt_push_ok; eauto.
    + eapply dt_update_ok; eauto.
Qed.

Lemma keep_firstn : forall l k m, exists j, keep m (firstn k l) = firstn j l.
Proof.
  intros. destruct (keep_longest (firstn k l) m) as (j & J & E & _).
  exists j. rewrite E, firstn_firstn. f_equal. rewrite firstn_length in J. lia.
Qed.

Lemma run_prefix : forall ops t t' hist k, dt_ok t -> dt_entries t = firstn k hist ->
  run t ops = Ok t' -> exists j, dt_entries t' = firstn j (rev (pushes ops) ++ hist).
Proof.
  induction ops as [|o ops IH]; intros t t' hist k OK E H; cbn [run] in H.
  - inversion H; subst. exists k. assumption.
  - apply bind_ok in H. destruct H as (t1 & H1 & H2). destruct o as [h|n]; cbn in H1.
    + pose proof (dt_push_ok _ _ _ OK H1) as (OK1 & _).
      rewrite dt_push_spec in H1 by assumption.
      destruct (entry_size h <=? dt_max t); [|discriminate]. inversion H1; subst t1.
      rewrite E in *.
      destruct (keep_firstn hist k (dt_max t - entry_size h)) as (j & J).
      edestruct (IH _ t' (h :: hist) (S j) OK1) as (i & I); [|exact H2|].
      { cbn [dt_entries firstn]. apply f_equal. exact J. }
      exists i. rewrite I. cbn [pushes flat_map]. cbn [app rev]. rewrite <- app_assoc. reflexivity.
    + pose proof (dt_update_ok _ _ _ OK H1) as (OK1 & _).
      rewrite dt_update_spec in H1 by assumption. inversion H1; subst t1. rewrite E in *.
      destruct (keep_firstn hist k n) as (j & J).
      destruct (IH _ _ hist j OK1 J H2) as (i & I). exists i. assumption.
Qed.

(* The run is defined exactly when no push exceeds the maximum of its time. *)
Lemma run_outcome : forall ops t, dt_ok t ->
  (exists t', run t ops = Ok t') \/
  (run t ops = UB EmptyBack /\
   exists before h after t1, ops = before ++ Push h :: after /\ run t before = Ok t1 /\
     dt_max t1 < entry_size h).
Proof.
  induction ops as [|o ops IH]; intros t OK; [left; eexists; reflexivity|].
  cbn [run]. destruct o as [h|n]; cbn [apply_op].
  - pose proof (dt_push_ok t h) as PO. rewrite dt_push_spec in * by assumption.
    destruct (N.leb_spec (entry_size h) (dt_max t)) as [L|L]; cbn [bind].
    + destruct (PO _ OK eq_refl) as (OK1 & _).
      destruct (IH _ OK1) as [S|(E & before & h' & after & t1 & EO & R & LT)]; [left; assumption|].
      right. split; [assumption|]. exists (Push h :: before), h', after, t1.
      rewrite EO. repeat split; auto. cbn [run apply_op].
      rewrite dt_push_spec by assumption.
      destruct (N.leb_spec (entry_size h) (dt_max t)); [|lia]. cbn [bind]. assumption.
    + right. split; [reflexivity|]. exists [], h, ops, t. repeat split; auto.
  - pose proof (dt_update_ok t n) as PO. rewrite dt_update_spec in * by assumption.
    cbn [bind]. destruct (PO _ OK eq_refl) as (OK1 & _).
    destruct (IH _ OK1) as [S|(E & before & h' & after & t1 & EO & R & LT)]; [left; assumption|].
    right. split; [assumption|]. exists (Update n :: before), h', after, t1.
    rewrite EO. repeat split; auto. cbn [run apply_op].
    rewrite dt_update_spec by assumption. cbn [bind]. assumption.
Qed.

Lemma dt_at_spec : forall t i,
  dt_at t i = match nth_error (dt_entries t) (N.to_nat i) with
              | Some h => Ok h | None => Throw OutOfRange end.
Proof.
  intros t i. unfold dt_at, vat. destruct (N.ltb_spec i (size (dt_entries t))); [reflexivity|].
  replace (nth_error (dt_entries t) (N.to_nat i)) with (@None header); [reflexivity|].
  symmetry. apply nth_error_None. unfold size in *. lia.
Qed.
