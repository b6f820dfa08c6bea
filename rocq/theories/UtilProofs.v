From Coq Require Import ZArith NArith List Bool Lia ZifyBool ZifyNat ZifyN.
From Verif Require Import Base Util Arith SpecBits FrameHeader.
Import ListNotations.
Open Scope N_scope.
Ltac Zify.zify_post_hook ::= Z.div_mod_to_equations.

Lemma pow256 : forall n, 2 ^ (8 * n) = 256 ^ n.
Proof. intros. rewrite N.pow_mul_r. reflexivity. Qed.
Lemma pow256_S : forall n, 256 ^ N.of_nat (S n) = 256 * 256 ^ N.of_nat n.
Proof. intros. rewrite Nnat.Nat2N.inj_succ, N.pow_succ_r'. reflexivity. Qed.
Lemma pow256_pos : forall n, 0 < 256 ^ n.
Proof. intros. apply N.neq_0_lt_0, N.pow_nonzero. lia. Qed.

Lemma be_acc : forall l acc,
  fold_left (fun a b => a * 256 + b) l acc = acc * 256 ^ size l + be_value l.
Proof.
  unfold be_value. induction l as [|b l IH]; intros acc.
  - cbn. lia.
  - cbn [fold_left]. rewrite IH, (IH (0 * 256 + b)), size_cons, N.pow_add_r, N.pow_1_r.
    ring.
Qed.

Lemma be_cons : forall b l, be_value (b :: l) = b * 256 ^ size l + be_value l.
Proof. intros. unfold be_value at 1. cbn [fold_left]. rewrite be_acc. f_equal. Qed.

Lemma be_lt : forall l, wf_bytes l -> be_value l < 256 ^ size l.
Proof.
  induction l as [|b l IH]; intros W; [cbn; lia|].
  apply wf_bytes_cons in W. destruct W as [Wb W].
  rewrite be_cons, size_cons, N.pow_add_r, N.pow_1_r. specialize (IH W). nia.
Qed.

Lemma be_inj : forall l l', length l = length l' -> wf_bytes l -> wf_bytes l' ->
  be_value l = be_value l' -> l = l'.
Proof.
  induction l as [|b l IH]; intros [|b' l'] L W W' E; try discriminate; [reflexivity|].
  apply wf_bytes_cons in W. apply wf_bytes_cons in W'. destruct W as [Wb W], W' as [Wb' W'].
  rewrite !be_cons in E. cbn in L. injection L as L.
  assert (S : size l' = size l) by (unfold size; lia). rewrite S in E.
  pose proof (be_lt l W) as B. pose proof (be_lt l' W') as B'. rewrite S in B'.
  assert (b = b').
  { rewrite (N.div_unique (b * 256 ^ size l + be_value l) (256 ^ size l) b (be_value l)) by lia.
    symmetry. apply (N.div_unique _ _ b' (be_value l')); lia. }
  subst. f_equal. apply IH; auto. lia.
Qed.

Lemma b2i_loop_spec : forall k l acc, size l <= k -> acc < 256 ^ k ->
  b2i_loop k l ((size l - 1) * 8) acc = (acc + be_value l) mod 256 ^ k.
Proof.
  intros k. induction l as [|b l IH]; intros acc S A.
  - cbn [b2i_loop]. change (be_value []) with 0. rewrite N.add_0_r. symmetry.
    apply N.mod_small. assumption.
  - cbn [b2i_loop]. rewrite size_cons in *.
    replace ((size l + 1 - 1) * 8 - 8) with ((size l - 1) * 8) by lia.
    rewrite IH; [|lia|rewrite pow256; apply N.mod_lt; pose proof (pow256_pos k); lia].
    rewrite pow256, N.add_mod_idemp_l by (pose proof (pow256_pos k); lia).
    f_equal. rewrite be_cons, N.shiftl_mul_pow2.
    replace ((size l + 1 - 1) * 8) with (8 * size l) by lia. rewrite pow256. lia.
Qed.

Lemma bytes2integral_spec : forall k a l r, wf_bytes l -> size l = k ->
  bytes2integral k (a ++ l ++ r) (size a) = Ok (be_value l).
Proof.
  intros k a l r W S. unfold bytes2integral. rewrite vrange_app by auto. cbn [bind].
  rewrite <- S at 2. rewrite b2i_loop_spec by (try lia; apply pow256_pos).
  rewrite N.add_0_l, N.mod_small; [reflexivity|]. rewrite <- S. apply be_lt. assumption.
Qed.

Lemma bytes2integral_0 : forall k l r, wf_bytes l -> size l = k ->
  bytes2integral k (l ++ r) 0 = Ok (be_value l).
Proof. intros. apply (bytes2integral_spec k [] l r); assumption. Qed.

Lemma integral2bytes_len : forall k x, length (integral2bytes k x) = k.
Proof. induction k; intros; cbn; auto. Qed.
Lemma integral2bytes_size : forall k x, size (integral2bytes k x) = N.of_nat k.
Proof. intros. unfold size. rewrite integral2bytes_len. reflexivity. Qed.
Lemma integral2bytes_wf : forall k x, wf_bytes (integral2bytes k x).
Proof.
  induction k; intros; cbn; constructor; [|apply IHk].
  red. unfold extract_low_bit. rewrite land_mod. change (2 ^ 8) with 256. lia.
Qed.
Lemma be_integral2bytes : forall k x, be_value (integral2bytes k x) = x mod 256 ^ N.of_nat k.
Proof.
  induction k as [|k IH]; intros x; [cbn; rewrite N.mod_1_r; reflexivity|].
  cbn [integral2bytes]. rewrite be_cons, integral2bytes_size, IH, pow256_S.
  unfold extract_low_bit. rewrite land_mod, N.shiftr_div_pow2, pow256. change (2 ^ 8) with 256.
  pose proof (pow256_pos (N.of_nat k)).
  rewrite (N.mul_comm 256), N.mod_mul_r by lia. lia.
Qed.

Lemma integral2bytes_be : forall l, wf_bytes l -> integral2bytes (length l) (be_value l) = l.
Proof.
  intros l W. apply be_inj.
  - apply integral2bytes_len.
  - apply integral2bytes_wf.
  - assumption.
  - rewrite be_integral2bytes. apply N.mod_small. apply be_lt. assumption.
Qed.

Lemma bytes2integral_roundtrip : forall k x r, x < 256 ^ N.of_nat k ->
  bytes2integral (N.of_nat k) (integral2bytes k x ++ r) 0 = Ok x.
Proof.
  intros. rewrite bytes2integral_0; [|apply integral2bytes_wf|apply integral2bytes_size].
  rewrite be_integral2bytes, N.mod_small by assumption. reflexivity.
Qed.

Lemma net_bytes_eq : forall host k x, net_bytes host k x = integral2bytes k x.
Proof.
  intros [] k x; cbn; [|reflexivity].
  unfold swap_octets. change (fold_left _ (rev (integral2bytes k x)) 0)
    with (be_value (rev (integral2bytes k x))).
  rewrite <- (integral2bytes_len k x) at 1. rewrite <- rev_length.
  rewrite integral2bytes_be by (apply wf_bytes_rev, integral2bytes_wf).
  apply rev_involutive.
Qed.

Lemma integral2bytes_mod : forall k x, integral2bytes k (x mod 256 ^ N.of_nat k) = integral2bytes k x.
Proof.
  intros. apply be_inj; try apply integral2bytes_wf.
  - rewrite !integral2bytes_len. reflexivity.
  - rewrite !be_integral2bytes. apply N.mod_mod. pose proof (pow256_pos (N.of_nat k)). lia.
Qed.

(* ---- flags ---- *)

Lemma u8_testbit : forall x i, x < 256 -> N.testbit (u8 x) i = N.testbit x i.
Proof. intros. rewrite u8_small by assumption. reflexivity. Qed.

Lemma flags_fold : forall fs acc i, wf_bytes fs ->
  N.testbit (fold_left (fun acc g => N.lor acc (u8 g)) fs acc) i =
  N.testbit acc i || existsb (fun g => N.testbit g i) fs.
Proof.
  induction fs as [|g fs IH]; intros acc i W; cbn [fold_left existsb].
  - rewrite orb_false_r. reflexivity.
  - apply wf_bytes_cons in W. destruct W as [Wg W].
    rewrite IH by assumption. rewrite N.lor_spec, u8_testbit by assumption.
    rewrite orb_assoc. reflexivity.
Qed.

Lemma make_flags_spec : forall f fs i, wf_bytes (f :: fs) ->
  N.testbit (make_frame_header_flags f fs) i = existsb (fun g => N.testbit g i) (f :: fs).
Proof.
  intros f fs i W. apply wf_bytes_cons in W. destruct W as [Wf W].
  unfold make_frame_header_flags. rewrite flags_fold by assumption.
  cbn [existsb]. rewrite u8_testbit by assumption. reflexivity.
Qed.

Lemma is_flag_set_spec : forall flags f, f <> 0 ->
  (is_flag_set flags f = true <-> forall i, N.testbit f i = true -> N.testbit flags i = true).
Proof.
  intros flags f NZ. unfold is_flag_set.
  destruct (N.eqb_spec f 0) as [|_]; [congruence|]. rewrite N.eqb_eq. split.
  - intros E i T. rewrite <- E, N.land_spec in T. apply andb_true_iff in T. tauto.
  - intros H. apply N.bits_inj. intros i. rewrite N.land_spec.
    destruct (N.testbit f i) eqn:T; [rewrite H by assumption; reflexivity|apply andb_false_r].
Qed.

Lemma is_flag_set_bit : forall flags i, is_flag_set flags (2 ^ i) = N.testbit flags i.
Proof.
  intros. apply eq_true_iff_eq. rewrite is_flag_set_spec by (apply N.pow_nonzero; lia). split.
  - intros H. apply H. apply N.pow2_bits_true.
  - intros H j T. rewrite N.pow2_bits_eqb in T. apply N.eqb_eq in T. congruence.
Qed.
