From Coq Require Import ZArith NArith List Bool Lia ZifyBool ZifyNat ZifyN.
From Verif Require Import Base IntRep Arith.
Import ListNotations.
Open Scope N_scope.
Ltac Zify.zify_post_hook ::= Z.div_mod_to_equations.

Lemma size_nat_le : forall a b, a <= b -> (N.size_nat a <= N.size_nat b)%nat.
Proof.
  intros a b H. rewrite <- (Nnat.Nat2N.id (N.size_nat a)), <- (Nnat.Nat2N.id (N.size_nat b)).
  assert (forall x, N.of_nat (N.size_nat x) = N.size x) as E.
  { destruct x; [reflexivity|].
    induction p; cbn [N.size_nat Pos.size_nat N.size Pos.size] in *; lia. }
  rewrite !E.
  enough (N.size a <= N.size b) by lia.
  destruct (N.eq_dec a 0) as [->|]; [apply N.le_0_l|].
  destruct (N.eq_dec b 0) as [->|]; [exfalso; lia|].
  rewrite !N.size_log2 by assumption.
  assert (N.log2 a <= N.log2 b) by (apply N.log2_le_mono; assumption). lia.
Qed.

Lemma size_nat_div2 : forall v, v <> 0 -> N.size_nat v = S (N.size_nat (v / 2)).
Proof.
  intros v H. rewrite <- N.div2_div. destruct v as [|p]; [congruence|].
  destruct p; reflexivity.
Qed.

Lemma size_nat_div128 : forall v, 128 <= v -> (N.size_nat (v / 128) < N.size_nat v)%nat.
Proof.
  intros v H. rewrite (size_nat_div2 v) by lia.
  enough (N.size_nat (v / 128) <= N.size_nat (v / 2))%nat by lia.
  apply size_nat_le.
  replace (v / 128) with (v / 2 / 64) by (rewrite N.div_div by lia; reflexivity).
  apply N.div_le_upper_bound; lia.
Qed.

Lemma enc_loop_fuel : forall f1 f2 v, (N.size_nat v < f1)%nat -> (N.size_nat v < f2)%nat ->
  enc_loop f1 v = enc_loop f2 v.
Proof.
  induction f1 as [|f1 IH]; intros f2 v H1 H2; [lia|].
  destruct f2 as [|f2]; [lia|]. cbn [enc_loop].
  destruct (N.leb_spec 128 v); [|reflexivity].
  f_equal. pose proof (size_nat_div128 v H). apply IH; lia.
Qed.

(* The fuel is sufficient: the loop satisfies the equation of the C++ loop. *)
Lemma enc_cont_eq : forall v,
  enc_cont v = if 128 <=? v then (v mod 128 + 128) :: enc_cont (v / 128) else [v].
Proof.
  intros v. unfold enc_cont at 1. cbn [enc_loop].
  destruct (N.leb_spec 128 v).
  - rewrite u8_small by lia. f_equal.
    pose proof (size_nat_div128 v H). apply enc_loop_fuel; lia.
  - rewrite u8_small by lia. reflexivity.
Qed.

(* Induction principle following the loop. *)
Lemma cont_ind : forall P : N -> Prop,
  (forall v, v < 128 -> P v) ->
  (forall v, 128 <= v -> P (v / 128) -> P v) ->
  forall v, P v.
Proof.
  intros P H0 H1 v. induction v as [v IH] using (well_founded_induction N.lt_wf_0).
  destruct (N.lt_ge_cases v 128); [auto|].
  apply H1; [assumption|]. apply IH. apply N.div_lt; lia.
Qed.

Lemma enc_cont_wf : forall v, wf_bytes (enc_cont v).
Proof.
  apply cont_ind; intros v H; [|intros IH]; rewrite enc_cont_eq.
  - destruct (N.leb_spec 128 v); [lia|]. constructor; [red; lia|constructor].
  - destruct (N.leb_spec 128 v); [|lia]. constructor; [red; lia|assumption].
Qed.

Lemma enc_cont_nonempty : forall v, enc_cont v <> [].
Proof. intros. rewrite enc_cont_eq. destruct (128 <=? v); discriminate. Qed.

(* Value of a list of 7-bit groups: the loop invariant. *)
Lemma dec_loop_enc : forall v rest acc m,
  (exists j, m = 7 * j) ->
  acc + v * 2 ^ m < 2 ^ 32 ->
  v * 2 ^ m < 2 ^ 31 ->
  (v < 128 -> m <= 28) -> (128 <= v -> v / 128 > 0) ->
  dec_loop (enc_cont v ++ rest) acc m = Ok (acc + v * 2 ^ m).
Proof.
  intros v. pattern v. apply cont_ind; clear v.
  - intros v Hv rest acc m Hj Hacc H31 Hm _. rewrite enc_cont_eq.
    destruct (N.leb_spec 128 v); [lia|]. cbn [app dec_loop].
    destruct (N.leb_spec 32 m); [lia|].
    rewrite land127, (N.mod_small v 128) by assumption.
    destruct (N.leb_spec (2 ^ 31) (v * 2 ^ m)); [lia|].
    rewrite land128 by lia. destruct (N.leb_spec 128 v); [lia|].
    rewrite u32_small by assumption. reflexivity.
  - intros v Hv IH rest acc m Hj Hacc H31 _ _. rewrite enc_cont_eq.
    destruct (N.leb_spec 128 v); [|lia]. cbn [app dec_loop].
    assert (P : 2 ^ (m + 7) = 2 ^ m * 128) by (rewrite N.pow_add_r; reflexivity).
    assert (Q : 0 < 2 ^ m) by (apply N.neq_0_lt_0, N.pow_nonzero; lia).
    assert (M : m < 25).
    { apply (N.pow_lt_mono_r_iff 2); [lia|].
      change (2 ^ 25) with 33554432. change (2 ^ 31) with 2147483648 in H31. nia. }
    destruct (N.leb_spec 32 m); [lia|].
    rewrite land127.
    replace ((v mod 128 + 128) mod 128) with (v mod 128) by lia.
    assert (D : v = 128 * (v / 128) + v mod 128) by (apply N.div_mod'; lia).
    assert (v mod 128 * 2 ^ m <= v * 2 ^ m) by (apply N.mul_le_mono_r; lia).
    destruct (N.leb_spec (2 ^ 31) (v mod 128 * 2 ^ m)); [lia|].
    rewrite land128 by lia.
    destruct (N.leb_spec 128 (v mod 128 + 128)); [|lia].
    assert (E : v * 2 ^ m = v mod 128 * 2 ^ m + v / 128 * 2 ^ (m + 7)).
    { rewrite P. rewrite D at 1. ring. }
    rewrite u32_small by lia.
    rewrite IH.
    + f_equal. lia.
    + destruct Hj as [j ->]. exists (j + 1). lia.
    + lia.
    + lia.
    + intros. destruct Hj as [j ->]. lia.
    + intros. assert (v / 128 / 128 <> 0); [|lia].
      intros Z. apply N.div_small_iff in Z; lia.
Qed.

(* Above 2^31 the decoder runs into undefined behaviour. *)
Lemma dec_loop_enc_ub : forall v rest acc m,
  (exists j, m = 7 * j) ->
  2 ^ 31 <= v * 2 ^ m -> v <> 0 ->
  exists u, dec_loop (enc_cont v ++ rest) acc m = UB u.
Proof.
  intros v. pattern v. apply cont_ind; clear v.
  - intros v Hv rest acc m Hj H31 _. rewrite enc_cont_eq.
    destruct (N.leb_spec 128 v); [lia|]. cbn [app dec_loop].
    destruct (N.leb_spec 32 m); [eauto|].
    rewrite land127, (N.mod_small v 128) by assumption.
    destruct (N.leb_spec (2 ^ 31) (v * 2 ^ m)); [eauto|lia].
  - intros v Hv IH rest acc m Hj H31 _. rewrite enc_cont_eq.
    destruct (N.leb_spec 128 v); [|lia]. cbn [app dec_loop].
    destruct (N.leb_spec 32 m); [eauto|].
    rewrite land127.
    destruct (N.leb_spec (2 ^ 31) ((v mod 128 + 128) mod 128 * 2 ^ m)) as [|L]; [eauto|].
    replace ((v mod 128 + 128) mod 128) with (v mod 128) in * by lia.
    rewrite land128 by lia.
    destruct (N.leb_spec 128 (v mod 128 + 128)); [|lia].
    assert (D : v = 128 * (v / 128) + v mod 128) by (apply N.div_mod'; lia).
    assert (1 <= v / 128) by (apply N.div_le_lower_bound; lia).
    apply IH; [| |lia].
    + destruct Hj as [j ->]. exists (j + 1). lia.
    + destruct Hj as [j ->].
      assert (P : 2 ^ (7 * j + 7) = 2 ^ (7 * j) * 128) by (rewrite N.pow_add_r; reflexivity).
      rewrite P.
      (* 7j <= 28: either the group itself reaches 2^31 or the rest does *)
      assert (J : j <= 4) by lia.
      assert (C : j = 0 \/ j = 1 \/ j = 2 \/ j = 3 \/ j = 4) by lia.
      destruct C as [->|[->|[->|[->| ->]]]]; cbn in *; lia.
Qed.

Definition prefix_ok (n : N) : Prop := 1 <= n <= 8.

Lemma max_value_pos : forall n, prefix_ok n -> 2 <= 2 ^ n <= 256.
Proof.
  intros n [A B]. split.
  - change 2 with (2 ^ 1) at 1. apply N.pow_le_mono_r; lia.
  - change 256 with (2 ^ 8). apply N.pow_le_mono_r; lia.
Qed.

Lemma encode_integer_nonempty : forall n v, encode_integer_value n v <> [].
Proof. intros. unfold encode_integer_value. destruct (_ <? _); discriminate. Qed.

Lemma encode_integer_wf : forall n v, prefix_ok n -> wf_bytes (encode_integer_value n v).
Proof.
  intros n v Hn. pose proof (max_value_pos n Hn). unfold encode_integer_value.
  destruct (N.ltb_spec v (2 ^ n - 1)).
  - constructor; [|constructor]. red. unfold u8. lia.
  - constructor; [red; lia|]. apply enc_cont_wf.
Qed.

(* First octet and the rest. *)
Lemma encode_integer_first : forall n v, prefix_ok n ->
  exists b rest, encode_integer_value n v = b :: rest /\ b < 2 ^ n.
Proof.
  intros n v Hn. pose proof (max_value_pos n Hn). unfold encode_integer_value.
  destruct (N.ltb_spec v (2 ^ n - 1)).
  - rewrite u8_small by lia. do 2 eexists. split; [reflexivity|lia].
  - do 2 eexists. split; [reflexivity|lia].
Qed.

(* Round trip with arbitrary bits above the prefix and arbitrary tail. *)
Lemma decode_encode_integer : forall n v hi rest, prefix_ok n ->
  v < 2 ^ 31 + (2 ^ n - 1) ->
  forall b tail, encode_integer_value n v = b :: tail ->
  decode_integer_value n (N.lor b (hi * 2 ^ n) :: tail ++ rest) = Ok v.
Proof.
  intros n v hi rest Hn Hv b tail E. pose proof (max_value_pos n Hn) as M.
  unfold encode_integer_value in E. unfold decode_integer_value.
  rewrite land_mod.
  assert (Hb : b < 2 ^ n).
  { destruct (encode_integer_first n v Hn) as (b' & t' & E' & L).
    unfold encode_integer_value in E'. rewrite E in E'. congruence. }
  rewrite lor_add' by assumption.
  replace ((hi * 2 ^ n + b) mod 2 ^ n) with b
    by (rewrite N.add_comm, N.mod_add by lia; symmetry; apply N.mod_small; assumption).
  destruct (N.ltb_spec v (2 ^ n - 1)).
  - rewrite u8_small in E by lia. inversion E; subst.
    destruct (N.ltb_spec b (2 ^ n - 1)); [reflexivity|lia].
  - inversion E; subst.
    destruct (N.ltb_spec (2 ^ n - 1) (2 ^ n - 1)); [lia|].
    rewrite dec_loop_enc.
    + f_equal. cbn. lia.
    + exists 0. reflexivity.
    + change (2 ^ 0) with 1. change (2 ^ 32) with 4294967296. change (2 ^ 31) with 2147483648 in Hv. lia.
    + change (2 ^ 0) with 1. lia.
    + lia.
    + intros. assert (1 <= (v - (2 ^ n - 1)) / 128) by (apply N.div_le_lower_bound; lia). lia.
Qed.

Lemma decode_encode_integer_ub : forall n v hi rest, prefix_ok n ->
  2 ^ 31 + (2 ^ n - 1) <= v ->
  forall b tail, encode_integer_value n v = b :: tail ->
  exists u, decode_integer_value n (N.lor b (hi * 2 ^ n) :: tail ++ rest) = UB u.
Proof.
  intros n v hi rest Hn Hv b tail E. pose proof (max_value_pos n Hn) as M.
  unfold encode_integer_value in E. unfold decode_integer_value.
  rewrite land_mod.
  destruct (N.ltb_spec v (2 ^ n - 1)); [change (2 ^ 31) with 2147483648 in Hv; lia|].
  inversion E; subst.
  rewrite lor_add' by lia.
  replace ((hi * 2 ^ n + (2 ^ n - 1)) mod 2 ^ n) with (2 ^ n - 1)
    by (rewrite N.add_comm, N.mod_add by lia; symmetry; apply N.mod_small; lia).
  destruct (N.ltb_spec (2 ^ n - 1) (2 ^ n - 1)); [lia|].
  apply dec_loop_enc_ub.
  - exists 0. reflexivity.
  - change (2 ^ 0) with 1. lia.
  - change (2 ^ 31) with 2147483648 in Hv. lia.
Qed.
