(* Lemmas about bit strings. *)
From Coq Require Import ZArith NArith List Bool Lia ZifyBool ZifyNat ZifyN.
From Verif Require Import Base Arith SpecBits UtilProofs.
Import ListNotations.
Open Scope N_scope.
Ltac Zify.zify_post_hook ::= Z.div_mod_to_equations.

Lemma bits_len : forall n x, length (bits_of n x) = n.
Proof. induction n; intros; cbn; auto. Qed.

Lemma bits_split : forall a b x,
  bits_of (a + b) x = bits_of a (x / 2 ^ N.of_nat b) ++ bits_of b x.
Proof.
  induction a as [|a IH]; intros b x; [reflexivity|].
  cbn [bits_of Nat.add app]. rewrite IH, N.div_pow2_bits. f_equal. f_equal. lia.
Qed.

Lemma bits_mod : forall n m x, (n <= m)%nat -> bits_of n (x mod 2 ^ N.of_nat m) = bits_of n x.
Proof.
  induction n as [|n IH]; intros m x H; [reflexivity|].
  cbn [bits_of]. rewrite IH by lia. rewrite N.mod_pow2_bits_low by lia. reflexivity.
Qed.

Lemma bits_join : forall a b x y, y < 2 ^ N.of_nat b ->
  bits_of (a + b) (x * 2 ^ N.of_nat b + y) = bits_of a x ++ bits_of b y.
Proof.
  intros a b x y H. rewrite bits_split.
  assert (P : 2 ^ N.of_nat b <> 0) by (apply N.pow_nonzero; lia).
  rewrite N.div_add_l, (N.div_small y) by assumption. rewrite N.add_0_r. f_equal.
  rewrite <- (bits_mod b b) by lia. rewrite N.add_comm, N.mod_add by assumption.
  apply bits_mod. lia.
Qed.

(* The number denoted by a bit string. *)
Fixpoint bv (l : list bool) : N :=
  match l with
  | [] => 0
  | b :: l' => (if b then 2 ^ N.of_nat (length l') else 0) + bv l'
  end.

Lemma bv_lt : forall l, bv l < 2 ^ N.of_nat (length l).
Proof.
  induction l as [|b l IH]; [cbn; lia|].
  cbn [bv length]. rewrite Nnat.Nat2N.inj_succ, N.pow_succ_r'. destruct b; lia.
Qed.

Lemma bits_bv : forall l, bits_of (length l) (bv l) = l.
Proof.
  induction l as [|b l IH]; [reflexivity|].
  cbn [length]. change (S (length l)) with (1 + length l)%nat.
  cbn [bv]. pose proof (bv_lt l).
  replace ((if b then 2 ^ N.of_nat (length l) else 0) + bv l)
    with (N.b2n b * 2 ^ N.of_nat (length l) + bv l) by (destruct b; cbn [N.b2n]; lia).
  rewrite bits_join by assumption. rewrite IH. destruct b; reflexivity.
Qed.

Lemma bv_bits : forall n x, bv (bits_of n x) = x mod 2 ^ N.of_nat n.
Proof.
  induction n as [|n IH]; intros x; [cbn; rewrite N.mod_1_r; reflexivity|].
  cbn [bits_of bv]. rewrite bits_len, IH, Nnat.Nat2N.inj_succ, N.pow_succ_r', (N.mul_comm 2).
  assert (P : 2 ^ N.of_nat n <> 0) by (apply N.pow_nonzero; lia).
  rewrite N.mod_mul_r by lia.
  rewrite N.testbit_eqb.
  assert (x / 2 ^ N.of_nat n mod 2 < 2) by (apply N.mod_lt; lia).
  generalize dependent (x / 2 ^ N.of_nat n mod 2). intros q Q.
  generalize (x mod 2 ^ N.of_nat n). intros y.
  assert (C : q = 0 \/ q = 1) by lia. destruct C as [-> | ->].
  - change (0 =? 1) with false. cbv iota. rewrite N.mul_0_r, N.add_0_r. reflexivity.
  - change (1 =? 1) with true. cbv iota. rewrite N.mul_1_r. apply N.add_comm.
Qed.

Lemma bits_inj : forall n x y, x < 2 ^ N.of_nat n -> y < 2 ^ N.of_nat n ->
  bits_of n x = bits_of n y -> x = y.
Proof.
  intros n x y Hx Hy E. apply (f_equal bv) in E. rewrite !bv_bits in E.
  rewrite !N.mod_small in E by assumption. assumption.
Qed.

Lemma bv_app : forall a b, bv (a ++ b) = bv a * 2 ^ N.of_nat (length b) + bv b.
Proof.
  induction a as [|x a IH]; intros b; [reflexivity|].
  cbn [app bv]. rewrite IH, app_length, Nnat.Nat2N.inj_add, N.pow_add_r. destruct x; lia.
Qed.

Lemma octets_bits_len : forall l, length (octets_bits l) = (8 * length l)%nat.
Proof. induction l; [reflexivity|]. cbn [octets_bits flat_map length app]. unfold octets_bits in IHl.
  rewrite app_length, bits_len, IHl. lia. Qed.

Lemma octets_bits_app : forall a b, octets_bits (a ++ b) = octets_bits a ++ octets_bits b.
Proof. intros. apply flat_map_app. Qed.

Lemma octets_bits_be : forall l, wf_bytes l ->
  octets_bits l = bits_of (8 * length l) (be_value l).
Proof.
  induction l as [|b l IH]; intros W; [reflexivity|].
  apply wf_bytes_cons in W. destruct W as [Wb W].
  change (octets_bits (b :: l)) with (bits_of 8 b ++ octets_bits l).
  rewrite IH by assumption. rewrite be_cons.
  replace (256 ^ size l) with (2 ^ N.of_nat (8 * length l)).
  - rewrite <- bits_join.
    + f_equal. cbn [length]. lia.
    + pose proof (be_lt l W) as L. rewrite <- pow256 in L.
      replace (N.of_nat (8 * length l)) with (8 * size l) by (unfold size; lia). assumption.
  - rewrite <- pow256. f_equal. unfold size. lia.
Qed.

Lemma octets_bits_inj : forall a b, wf_bytes a -> wf_bytes b ->
  octets_bits a = octets_bits b -> a = b.
Proof.
  intros a b Wa Wb E.
  assert (L : length a = length b).
  { apply (f_equal (@length bool)) in E. rewrite !octets_bits_len in E. lia. }
  apply be_inj; auto.
  rewrite !octets_bits_be in E by assumption. rewrite L in E.
  apply bits_inj in E; auto.
  - rewrite <- L. pose proof (be_lt a Wa) as B. rewrite <- pow256 in B.
    replace (N.of_nat (8 * length a)) with (8 * size a) by (unfold size; lia). assumption.
  - pose proof (be_lt b Wb) as B. rewrite <- pow256 in B.
    replace (N.of_nat (8 * length b)) with (8 * size b) by (unfold size; lia). assumption.
Qed.

Lemma bits_ones : forall n, bits_of n (2 ^ N.of_nat n - 1) = repeat true n.
Proof.
  intros n. enough (E : 2 ^ N.of_nat n - 1 = bv (repeat true n)).
  - rewrite E. rewrite <- (repeat_length true n) at 1. apply bits_bv.
  - induction n as [|n IH]; [reflexivity|].
    cbn [repeat bv]. rewrite repeat_length, <- IH, Nnat.Nat2N.inj_succ, N.pow_succ_r'.
    assert (2 ^ N.of_nat n <> 0) by (apply N.pow_nonzero; lia). lia.
Qed.

(* Prefixes. *)
Fixpoint is_prefixb (p l : list bool) : bool :=
  match p, l with
  | [], _ => true
  | x :: p', y :: l' => Bool.eqb x y && is_prefixb p' l'
  | _, _ => false
  end.

Lemma is_prefixb_spec : forall p l, is_prefixb p l = true <-> is_prefix p l.
Proof.
  induction p as [|x p IH]; intros l; cbn.
  - split; [exists l; reflexivity|reflexivity].
  - destruct l as [|y l].
    + split; [discriminate|]. intros [r E]. discriminate.
    + rewrite andb_true_iff, eqb_true_iff, IH. split.
      * intros [-> [r ->]]. exists r. reflexivity.
      * intros [r E]. inversion E; subst. split; [reflexivity|]. exists r. reflexivity.
Qed.

Lemma prefix_total : forall A (p q r s : list A), p ++ r = q ++ s ->
  is_prefix p q \/ is_prefix q p.
Proof.
  induction p as [|x p IH]; intros q r s E.
  - left. exists q. reflexivity.
  - destruct q as [|y q].
    + right. exists (x :: p). reflexivity.
    + cbn in E. inversion E; subst. apply IH in H1.
      destruct H1 as [[t ->]|[t ->]]; [left|right]; exists t; reflexivity.
Qed.
