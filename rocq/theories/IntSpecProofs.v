From Coq Require Import ZArith NArith List Bool Lia ZifyBool ZifyNat ZifyN.
From Verif Require Import Base IntRep Arith IntRepProofs SpecInt SpecBits HeaderDec.
Import ListNotations.
Open Scope N_scope.
Ltac Zify.zify_post_hook ::= Z.div_mod_to_equations.

Lemma enc_cont_rfc : forall v, rfc_cont (enc_cont v) v.
Proof.
  apply cont_ind; intros v H; [|intros IH]; rewrite enc_cont_eq.
  - destruct (N.leb_spec 128 v); [lia|]. constructor. assumption.
  - destruct (N.leb_spec 128 v); [|lia].
    replace v with ((v mod 128 + 128 - 128) + 128 * (v / 128)) at 3 by lia.
    constructor; [lia|assumption].
Qed.

Lemma rfc_cont_inv_len : forall l v, rfc_cont l v -> (1 <= length l)%nat.
Proof. intros l v H. inversion H; cbn; lia. Qed.

(* enc_cont is the shortest continuation *)
Lemma enc_cont_shortest : forall l v, rfc_cont l v ->
  (length (enc_cont v) <= length l)%nat.
Proof.
  induction 1 as [b Hb | b l v Hb H IH].
  - rewrite enc_cont_eq. destruct (N.leb_spec 128 b); [lia|]. cbn. lia.
  - rewrite enc_cont_eq.
    destruct (N.leb_spec 128 (b - 128 + 128 * v)).
    + cbn [length]. replace ((b - 128 + 128 * v) / 128) with v by lia. lia.
    + cbn. lia.
Qed.

Lemma encode_integer_rfc : forall n v, prefix_ok n ->
  rfc_int n (encode_integer_value n v) v.
Proof.
  intros n v Hn. pose proof (max_value_pos n Hn). unfold encode_integer_value.
  destruct (N.ltb_spec v (2 ^ n - 1)).
  - rewrite u8_small by lia.
    rewrite <- (N.mod_small v (2 ^ n)) at 2 by lia. constructor; [lia|].
    rewrite N.mod_small by lia. assumption.
  - replace v with (2 ^ n - 1 + (v - (2 ^ n - 1))) at 2 by lia.
    constructor; [lia| |apply enc_cont_rfc]. apply N.mod_small. lia.
Qed.

Lemma encode_integer_shortest : forall n v l, prefix_ok n -> rfc_int n l v ->
  (length (encode_integer_value n v) <= length l)%nat.
Proof.
  intros n v l Hn H. pose proof (max_value_pos n Hn). unfold encode_integer_value.
  inversion H; subst.
  - destruct (N.ltb_spec (b mod 2 ^ n) (2 ^ n - 1)); [cbn; lia|lia].
  - destruct (N.ltb_spec (2 ^ n - 1 + v0) (2 ^ n - 1)); [cbn; lia|].
    replace (2 ^ n - 1 + v0 - (2 ^ n - 1)) with v0 by lia. cbn [length].
    match goal with Hc : rfc_cont _ _ |- _ => apply enc_cont_shortest in Hc end. lia.
Qed.

Lemma enc_cont_length : forall k v, v < 128 ^ N.of_nat k -> (1 <= k)%nat ->
  (length (enc_cont v) <= k)%nat.
Proof.
  induction k as [|k IH]; intros v H K; [lia|].
  rewrite enc_cont_eq. destruct (N.leb_spec 128 v); [|cbn; lia].
  cbn [length]. destruct k as [|k].
  - cbn in H. lia.
  - enough (length (enc_cont (v / 128)) <= S k)%nat by lia.
    apply IH; [|lia].
    replace (N.of_nat (S (S k))) with (N.of_nat (S k) + 1) in H by lia.
    rewrite N.pow_add_r in H. apply N.div_lt_upper_bound; lia.
Qed.

Lemma encode_integer_length_64 : forall n v, v < 2 ^ 64 ->
  size (encode_integer_value n v) <= 11.
Proof.
  intros n v H. unfold encode_integer_value.
  destruct (N.ltb_spec v (2 ^ n - 1)); [cbn; lia|].
  rewrite size_cons. enough (length (enc_cont (v - (2 ^ n - 1))) <= 10)%nat by (unfold size; lia).
  apply enc_cont_length; [|lia].
  change (128 ^ N.of_nat 10) with (2 ^ 70).
  assert (2 ^ 64 < 2 ^ 70) by reflexivity. lia.
Qed.

(* Uniqueness: a continuation is a prefix code. *)
Lemma rfc_cont_prefix : forall l v, rfc_cont l v -> forall l' v' r r',
  rfc_cont l' v' -> l ++ r = l' ++ r' -> l = l' /\ v = v' /\ r = r'.
Proof.
  induction 1 as [b Hb | b l v Hb H IH]; intros l' v' r r' H' E; inversion H'; subst;
    cbn in E; inversion E; subst; try lia; auto.
  destruct (IH _ _ _ _ H1 H4) as (-> & -> & ->). auto.
Qed.

Lemma rfc_int_prefix : forall n l v l' v' r r',
  rfc_int n l v -> rfc_int n l' v' -> l ++ r = l' ++ r' -> l = l' /\ v = v' /\ r = r'.
Proof.
  intros n l v l' v' r r' H H' E.
  inversion H; subst; inversion H'; subst; cbn in E; inversion E; subst; try lia; auto.
  match goal with
  | A : rfc_cont _ _, B : rfc_cont _ _, C : _ = _ |- _ =>
      destruct (rfc_cont_prefix _ _ A _ _ _ _ B C) as (-> & -> & ->)
  end. auto.
Qed.

Lemma rfc_cont_octets : forall l v, rfc_cont l v -> wf_bytes l.
Proof.
  induction 1; constructor; try (red; lia); try assumption. constructor.
Qed.

(* The decoding loop on an arbitrary continuation.  j groups were read before;
   at most 5 - j groups can be read. *)
Lemma dec_loop_cont : forall l v, rfc_cont l v -> forall rest acc j,
  acc + v * 2 ^ (7 * j) < 2 ^ 32 -> v * 2 ^ (7 * j) < 2 ^ 31 ->
  j + size l <= 5 ->
  dec_loop (l ++ rest) acc (7 * j) = Ok (acc + v * 2 ^ (7 * j)).
Proof.
  induction 1 as [b Hb | b l v Hb H IH]; intros rest acc j A B C.
  - cbn [app dec_loop]. rewrite size_cons in C. cbn [size length] in C.
    destruct (N.leb_spec 32 (7 * j)); [unfold size in C; cbn in C; lia|].
    rewrite land127, (N.mod_small b 128) by assumption.
    destruct (N.leb_spec (2 ^ 31) (b * 2 ^ (7 * j))); [lia|].
    rewrite land128 by lia. destruct (N.leb_spec 128 b); [lia|].
    rewrite u32_small by assumption. reflexivity.
  - cbn [app dec_loop]. rewrite size_cons in C.
    destruct (N.leb_spec 32 (7 * j)); [lia|].
    rewrite land127. replace (b mod 128) with (b - 128) by lia.
    assert (E : (b - 128 + 128 * v) * 2 ^ (7 * j)
                = (b - 128) * 2 ^ (7 * j) + v * 2 ^ (7 * (j + 1))).
    { replace (7 * (j + 1)) with (7 * j + 7) by lia. rewrite N.pow_add_r.
      change (2 ^ 7) with 128. ring. }
    rewrite E in A, B |- *.
    destruct (N.leb_spec (2 ^ 31) ((b - 128) * 2 ^ (7 * j))); [lia|].
    rewrite land128 by lia. destruct (N.leb_spec 128 b); [|lia].
    rewrite u32_small by lia.
    replace (7 * j + 7) with (7 * (j + 1)) by lia.
    rewrite IH by lia. f_equal. lia.
Qed.

Lemma dec_loop_ok : forall rest acc j x, wf_bytes rest ->
  acc < 2 ^ 8 + 2 ^ (7 * j) ->
  dec_loop rest acc (7 * j) = Ok x ->
  exists l r v, rest = l ++ r /\ rfc_cont l v /\ j + size l <= 5 /\
                v * 2 ^ (7 * j) < 2 ^ 31 /\ x = acc + v * 2 ^ (7 * j).
Proof.
  induction rest as [|b rest IH]; intros acc j x W A H; cbn [dec_loop] in H; [discriminate|].
  apply wf_bytes_cons in W. destruct W as [Wb W].
  destruct (N.leb_spec 32 (7 * j)) as [|J]; [discriminate|].
  rewrite land127 in H.
  destruct (N.leb_spec (2 ^ 31) (b mod 128 * 2 ^ (7 * j))) as [|P]; [discriminate|].
  rewrite land128 in H by assumption.
  assert (Small : acc + b mod 128 * 2 ^ (7 * j) < 2 ^ 8 + 2 ^ (7 * (j + 1))).
  { replace (7 * (j + 1)) with (7 * j + 7) by lia. rewrite N.pow_add_r.
    change (2 ^ 7) with 128.
    assert (b mod 128 * 2 ^ (7 * j) <= 127 * 2 ^ (7 * j)) by (apply N.mul_le_mono_r; lia).
    lia. }
  assert (J4 : j = 0 \/ j = 1 \/ j = 2 \/ j = 3 \/ j = 4) by lia.
  assert (F : acc + b mod 128 * 2 ^ (7 * j) < 2 ^ 32).
  { destruct J4 as [->|[->|[->|[->| ->]]]]; cbn in A, P |- *; lia. }
  rewrite u32_small in H by assumption.
  destruct (N.leb_spec 128 b) as [L|L].
  - replace (7 * j + 7) with (7 * (j + 1)) in H by lia.
    apply IH in H; [|assumption|assumption].
    destruct H as (l & r & v & -> & Hc & Hs & Hv & ->).
    assert (E : (b - 128 + 128 * v) * 2 ^ (7 * j)
                = b mod 128 * 2 ^ (7 * j) + v * 2 ^ (7 * (j + 1))).
    { replace (b mod 128) with (b - 128) by lia.
      replace (7 * (j + 1)) with (7 * j + 7) by lia. rewrite N.pow_add_r.
      change (2 ^ 7) with 128. ring. }
    exists (b :: l), r, (b - 128 + 128 * v). repeat split.
    + constructor; [lia|assumption].
    + rewrite size_cons. lia.
    + rewrite E.
      assert (J3 : j = 0 \/ j = 1 \/ j = 2 \/ j = 3 \/ j = 4) by lia.
      destruct J3 as [->|[->|[->|[->| ->]]]]; cbn in *; lia.
    + rewrite E. lia.
  - inversion H; subst. exists [b], rest, b. repeat split.
    + constructor. assumption.
    + unfold size. cbn. lia.
    + rewrite N.mod_small in P by assumption. assumption.
    + rewrite (N.mod_small b 128) by assumption. reflexivity.
Qed.

(* Outcome of the loop is never an exception. *)
Lemma dec_loop_outcome : forall rest acc m,
  (exists x, dec_loop rest acc m = Ok x) \/ (exists u, dec_loop rest acc m = UB u).
Proof.
  induction rest as [|b rest IH]; intros acc m; cbn [dec_loop]; [eauto|].
  destruct (32 <=? m); [eauto|].
  destruct (2 ^ 31 <=? _); [eauto|].
  destruct (_ =? 128); [apply IH|eauto].
Qed.

Lemma decode_integer_outcome : forall n v,
  (exists x, decode_integer_value n v = Ok x) \/ (exists u, decode_integer_value n v = UB u).
Proof.
  intros n [|b v]; cbn; [eauto|].
  destruct (_ <? _); [eauto|]. apply dec_loop_outcome.
Qed.

(* Exact characterisation of the decoder on arbitrary octets. *)
Lemma decode_integer_char : forall n input x, prefix_ok n -> wf_bytes input ->
  (decode_integer_value n input = Ok x <->
   exists l rest, input = l ++ rest /\ rfc_int n l x /\ size l <= 6 /\
                  x < 2 ^ 31 + (2 ^ n - 1)).
Proof.
  intros n input x Hn W. pose proof (max_value_pos n Hn) as M. split.
  - destruct input as [|b rest]; cbn [decode_integer_value]; [discriminate|].
    apply wf_bytes_cons in W. destruct W as [Wb W].
    rewrite land_mod.
    assert (Mb : b mod 2 ^ n < 2 ^ n) by (apply N.mod_lt; lia).
    destruct (N.ltb_spec (b mod 2 ^ n) (2 ^ n - 1)) as [L|L]; intros H.
    + inversion H; subst. exists [b], rest. repeat split.
      * constructor; assumption.
      * unfold size. cbn. lia.
      * lia.
    + assert (Eb : b mod 2 ^ n = 2 ^ n - 1) by lia. rewrite Eb in H.
      change 0 with (7 * 0) in H. apply dec_loop_ok in H; [|assumption|].
      * destruct H as (l & r & v & -> & Hc & Hs & Hv & ->).
        change (2 ^ (7 * 0)) with 1 in *. rewrite N.mul_1_r in *.
        exists (b :: l), r. repeat split.
        -- constructor; assumption.
        -- rewrite size_cons. lia.
        -- lia.
      * change (2 ^ (7 * 0)) with 1. change (2 ^ 8) with 256. lia.
  - intros (l & rest & -> & H & S & B). inversion H; subst.
    + cbn [app decode_integer_value]. rewrite land_mod.
      destruct (N.ltb_spec (b mod 2 ^ n) (2 ^ n - 1)); [reflexivity|lia].
    + cbn [app decode_integer_value]. rewrite land_mod.
      match goal with E : b mod 2 ^ n = _ |- _ => rewrite E end.
      destruct (N.ltb_spec (2 ^ n - 1) (2 ^ n - 1)); [lia|].
      rewrite size_cons in S.
      change 0 with (7 * 0). rewrite (dec_loop_cont l0 v) by
        (try assumption; change (2 ^ (7 * 0)) with 1; change (2 ^ 31) with 2147483648 in *;
         change (2 ^ 32) with 4294967296; lia).
      change (2 ^ (7 * 0)) with 1. f_equal. lia.
Qed.

(* Length of the re-encoding versus length of the representation read. *)
Lemma reencoded_length : forall n l x, prefix_ok n -> rfc_int n l x ->
  (size (encode_integer_value n x) = size l <-> rfc_int_shortest n l x).
Proof.
  intros n l x Hn H. split.
  - intros E. split; [assumption|]. intros l' H'.
    apply encode_integer_shortest in H'; [|assumption]. unfold size in E. lia.
  - intros [_ S]. specialize (S _ (encode_integer_rfc n x Hn)).
    pose proof (encode_integer_shortest n x l Hn H). unfold size. lia.
Qed.

(* A non-minimal family: zero continuation groups. *)
Lemma rfc_cont_zeros : forall k, rfc_cont (repeat 128 k ++ [0]) 0.
Proof.
  induction k as [|k IH]; cbn [repeat app].
  - constructor. lia.
  - change 0 with (128 - 128 + 128 * 0) at 2. constructor; [lia|assumption].
Qed.

Lemma is_octets_wf : forall l, is_octets l <-> wf_bytes l.
Proof.
  intros. unfold is_octets, wf_bytes. rewrite Forall_forall. reflexivity.
Qed.
