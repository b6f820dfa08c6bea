(* Arithmetic and list lemmas used by the proofs. *)
From Coq Require Import ZArith NArith List Bool Lia ZifyBool ZifyNat ZifyN.
From Verif Require Import Base.
Import ListNotations.
Open Scope N_scope.

Ltac Zify.zify_post_hook ::= Z.div_mod_to_equations.

Lemma land_mod : forall b n, N.land b (2 ^ n - 1) = b mod 2 ^ n.
Proof.
  intros. replace (2 ^ n - 1) with (N.ones n).
  - apply N.land_ones.
  - rewrite N.ones_equiv. lia.
Qed.

Lemma land127 : forall b, N.land b 127 = b mod 128.
Proof. intros. apply (land_mod b 7). Qed.

Lemma land255 : forall b, N.land b 255 = b mod 256.
Proof. intros. apply (land_mod b 8). Qed.

Lemma lor_add : forall a b k, a < 2 ^ k -> N.lor (b * 2 ^ k) a = b * 2 ^ k + a.
Proof.
  intros a b k H.
  assert (L : N.land (b * 2 ^ k) a = 0).
  { apply N.bits_inj. intros i. rewrite N.land_spec, N.bits_0.
    destruct (N.lt_ge_cases i k) as [C|C].
    - rewrite N.mul_pow2_bits_low by assumption. reflexivity.
    - replace (N.testbit a i) with false. apply andb_false_r.
      symmetry. destruct (N.eq_dec a 0) as [->|NZ].
      + apply N.bits_0.
      + apply N.bits_above_log2.
        apply N.lt_le_trans with k; [|assumption].
        apply N.log2_lt_pow2; lia. }
  rewrite <- N.lxor_lor by assumption.
  symmetry. apply N.add_nocarry_lxor. assumption.
Qed.

Lemma lor_add' : forall a b k, a < 2 ^ k -> N.lor a (b * 2 ^ k) = b * 2 ^ k + a.
Proof. intros. rewrite N.lor_comm. apply lor_add. assumption. Qed.

Lemma land_pow2_pos : forall b k, b < 2 ^ (k + 1) ->
  (N.land b (2 ^ k) =? 2 ^ k) = (2 ^ k <=? b).
Proof.
  intros b k H.
  rewrite N.pow_add_r, N.pow_1_r in H.
  assert (E : N.land b (2 ^ k) = if N.testbit b k then 2 ^ k else 0).
  { apply N.bits_inj. intros i. rewrite N.land_spec, N.pow2_bits_eqb.
    destruct (N.eqb_spec k i) as [->|NE].
    - rewrite andb_true_r. destruct (N.testbit b i).
      + rewrite N.pow2_bits_true. reflexivity.
      + rewrite N.bits_0. reflexivity.
    - rewrite andb_false_r. destruct (N.testbit b k).
      + rewrite N.pow2_bits_false by congruence. reflexivity.
      + rewrite N.bits_0. reflexivity. }
  rewrite E.
  assert (P : 2 ^ k <> 0) by (apply N.pow_nonzero; lia).
  rewrite N.testbit_eqb.
  set (p := 2 ^ k) in *. clearbody p.
  assert (b / p < 2) by (apply N.div_lt_upper_bound; lia).
  destruct (N.leb_spec p b).
  - assert (1 <= b / p) by (apply N.div_le_lower_bound; lia).
    replace (b / p) with 1 by lia. cbn. apply N.eqb_refl.
  - rewrite N.div_small by assumption.
    change (0 mod 2 =? 1) with false. cbv iota. lia.
Qed.

Lemma land128 : forall b, b < 256 -> (N.land b 128 =? 128) = (128 <=? b).
Proof. intros. apply (land_pow2_pos b 7). assumption. Qed.

Lemma lxor_shift : forall t s, N.lxor t (N.shiftl (N.shiftr t s) s) = t mod 2 ^ s.
Proof.
  intros. apply N.bits_inj. intros i. rewrite N.lxor_spec.
  destruct (N.lt_ge_cases i s) as [C|C].
  - rewrite N.shiftl_spec_low by assumption.
    rewrite N.mod_pow2_bits_low by assumption. apply xorb_false_r.
  - rewrite N.shiftl_spec_high' by assumption.
    rewrite N.shiftr_spec' by assumption.
    replace (i - s + s) with i by lia.
    rewrite N.mod_pow2_bits_high by assumption. apply xorb_nilpotent.
Qed.

Lemma lxor_shift' : forall t s, N.lxor t (t / 2 ^ s * 2 ^ s) = t mod 2 ^ s.
Proof.
  intros. rewrite <- lxor_shift, N.shiftl_mul_pow2, N.shiftr_div_pow2. reflexivity.
Qed.

Lemma u8_small : forall x, x < 256 -> u8 x = x.
Proof. intros. apply N.mod_small. assumption. Qed.
Lemma u32_small : forall x, x < 2 ^ 32 -> u32 x = x.
Proof. intros. apply N.mod_small. assumption. Qed.

Lemma size_app : forall A (a b : list A), size (a ++ b) = size a + size b.
Proof. intros. unfold size. rewrite app_length. lia. Qed.
Lemma size_cons : forall A (a : A) b, size (a :: b) = size b + 1.
Proof. intros. unfold size. cbn [length]. lia. Qed.
Lemma size_nil : forall A, size (@nil A) = 0.
Proof. reflexivity. Qed.
Lemma to_nat_size : forall A (l : list A), N.to_nat (size l) = length l.
Proof. intros. unfold size. apply Nnat.Nat2N.id. Qed.
Lemma size_0 : forall A (l : list A), size l = 0 -> l = [].
Proof. intros. destruct l; [reflexivity|]. rewrite size_cons in H. lia. Qed.

Lemma wf_bytes_app : forall a b, wf_bytes (a ++ b) <-> wf_bytes a /\ wf_bytes b.
Proof. intros. apply Forall_app. Qed.
Lemma wf_bytes_cons : forall a b, wf_bytes (a :: b) <-> a < 256 /\ wf_bytes b.
Proof. intros. split; intros H; [inversion H; auto | constructor; tauto]. Qed.
Lemma wf_bytes_firstn : forall n l, wf_bytes l -> wf_bytes (firstn n l).
Proof.
  intros n l H. apply Forall_forall. intros x I.
  apply (proj1 (Forall_forall _ _) H). revert I.
  rewrite <- (firstn_skipn n l) at 2. intros. apply in_or_app. auto.
Qed.
Lemma wf_bytes_skipn : forall n l, wf_bytes l -> wf_bytes (skipn n l).
Proof.
  intros n l H. apply Forall_forall. intros x I.
  apply (proj1 (Forall_forall _ _) H).
  rewrite <- (firstn_skipn n l). apply in_or_app. auto.
Qed.
Lemma wf_bytes_rev : forall l, wf_bytes l -> wf_bytes (rev l).
Proof. intros. apply Forall_rev. assumption. Qed.

Lemma skipn_size_app : forall A (a b : list A), skipn (N.to_nat (size a)) (a ++ b) = b.
Proof.
  intros. rewrite to_nat_size, skipn_app, Nat.sub_diag, skipn_all. reflexivity.
Qed.
Lemma firstn_size_app : forall A (a b : list A), firstn (N.to_nat (size a)) (a ++ b) = a.
Proof.
  intros. rewrite to_nat_size, firstn_app, Nat.sub_diag, firstn_all.
  cbn. apply app_nil_r.
Qed.
Lemma skipn_len_app : forall A n (a b : list A), length a = n -> skipn n (a ++ b) = b.
Proof. intros. subst. rewrite <- to_nat_size. apply skipn_size_app. Qed.
Lemma firstn_len_app : forall A n (a b : list A), length a = n -> firstn n (a ++ b) = a.
Proof. intros. subst. rewrite <- to_nat_size. apply firstn_size_app. Qed.

Lemma verase_front_app : forall a b n, n = size a -> verase_front (a ++ b) n = Ok b.
Proof.
  intros. subst. unfold verase_front. rewrite size_app, skipn_size_app.
  destruct (N.leb_spec (size a) (size a + size b)); [reflexivity|lia].
Qed.

Lemma vrange_app : forall a b c k n, k = size a -> n = size b ->
  vrange (a ++ b ++ c) k n = Ok b.
Proof.
  intros. subst. unfold vrange. rewrite skipn_size_app, firstn_size_app, !size_app.
  destruct (N.leb_spec (size a + size b) (size a + (size b + size c))); [reflexivity|lia].
Qed.

Lemma verase_front_ok : forall v n v', verase_front v n = Ok v' ->
  n <= size v /\ v' = skipn (N.to_nat n) v.
Proof.
  unfold verase_front. intros v n v' H. destruct (N.leb_spec n (size v)); inversion H. auto.
Qed.

Lemma size_skipn : forall A n (l : list A), size (skipn (N.to_nat n) l) = size l - n.
Proof. intros. unfold size. rewrite skipn_length. lia. Qed.
Lemma size_firstn : forall A n (l : list A), size (firstn (N.to_nat n) l) = N.min n (size l).
Proof. intros. unfold size. rewrite firstn_length. lia. Qed.

Lemma bytes_eqb_eq : forall a b, bytes_eqb a b = true <-> a = b.
Proof.
  induction a as [|x a IH]; destruct b as [|y b]; cbn; split; intros H;
    try reflexivity; try discriminate.
  - apply andb_true_iff in H. destruct H as [E F].
    apply N.eqb_eq in E. apply IH in F. congruence.
  - inversion H; subst. rewrite N.eqb_refl. apply IH. reflexivity.
Qed.
Lemma bytes_eqb_refl : forall a, bytes_eqb a a = true.
Proof. intros. apply bytes_eqb_eq. reflexivity. Qed.

Lemma bind_ok : forall A B (r : res A) (k : A -> res B) b,
  bind r k = Ok b <-> exists a, r = Ok a /\ k a = Ok b.
Proof.
  intros. split.
  - destruct r; cbn; intros H; try discriminate. eauto.
  - intros (a & -> & H). exact H.
Qed.
