(* Proofs about the text output. *)
From Coq Require Import String.
From Coq Require Import ZArith NArith List Bool Lia ZifyBool ZifyNat ZifyN.
From Verif Require Import Base Arith Util HeaderType DynTable HeaderDec FrameHeader Frames Dump SpecBits.
Import ListNotations.
Local Open Scope list_scope.
Local Open Scope N_scope.
Ltac Zify.zify_post_hook ::= Z.div_mod_to_equations.

(* ---- numbers ---- *)

(* The value of a lower-case digit and of a digit sequence. *)
Definition digit_value (c : N) : N := if c <? 58 then c - 48 else c - 87.
Definition number_value (base : N) (ds : list N) : N := fold_left (fun v c => v * base + digit_value c) ds 0.
Definition digit_char (base c : N) : Prop := (48 <= c < 58 \/ 97 <= c < 103) /\ digit_value c < base.

Lemma digit_value_digit : forall d, d < 16 -> digit_value (digit d) = d.
Proof.
  intros d H. unfold digit, digit_value. destruct (N.ltb_spec d 10).
  - destruct (N.ltb_spec (48 + d) 58); lia.
  - destruct (N.ltb_spec (87 + d) 58); lia.
Qed.

Lemma digit_is_char : forall base d, d < base -> base <= 16 -> digit_char base (digit d).
Proof.
  intros base d H B. split; [|rewrite digit_value_digit; lia]. unfold digit. destruct (N.ltb_spec d 10); lia.
Qed.

Lemma fold_value : forall base ds v, fold_left (fun v c => v * base + digit_value c) ds v =
  v * base ^ N.of_nat (length ds) + number_value base ds.
Proof.
  intros base. unfold number_value. induction ds as [|c ds IH]; intros v.
  - cbn. lia.
  - cbn [fold_left length]. rewrite IH, (IH (0 * base + _)).
    replace (N.of_nat (S (length ds))) with (N.succ (N.of_nat (length ds))) by lia. rewrite N.pow_succ_r'. lia.
Qed.

Lemma value_cons : forall base c ds, number_value base (c :: ds) =
  digit_value c * base ^ N.of_nat (length ds) + number_value base ds.
Proof. intros. unfold number_value at 1. cbn [fold_left]. rewrite fold_value. f_equal. Qed.

Lemma value_app : forall base a b, number_value base (a ++ b) =
  number_value base a * base ^ N.of_nat (length b) + number_value base b.
Proof. intros. unfold number_value at 1. rewrite fold_left_app. apply fold_value. Qed.

Lemma size_nat_div : forall base n, 2 <= base -> n / base <> 0 -> (N.size_nat (n / base) < N.size_nat n)%nat.
Proof.
  intros base n B Z. assert (L : n <> 0) by (intros ->; apply Z; apply N.div_0_l; lia).
  assert (S : N.size (n / base) < N.size n).
  { rewrite !N.size_log2 by assumption.
    assert (N.log2 (n / base) < N.log2 n); [|lia].
    apply N.log2_lt_pow2; [apply N.neq_0_lt_0; exact Z|]. pose proof (N.log2_spec n) as Q. destruct Q as [_ Q]; [lia|].
    rewrite N.pow_succ_r' in Q. apply N.div_lt_upper_bound; [lia|]. nia. }
  assert (K : forall x, N.size x = N.of_nat (N.size_nat x)).
  { intros [|p]; [reflexivity|]. cbn [N.size N.size_nat]. clear. induction p; cbn [Pos.size Pos.size_nat]; lia. }
  rewrite !K in S. lia.
Qed.

(* the loop writes the digits in front of acc *)
Lemma digits_loop_spec : forall base fuel n acc, 2 <= base <= 16 -> (N.size_nat n < fuel)%nat ->
  exists ds, digits_loop base fuel n acc = ds ++ acc /\ number_value base ds = n /\ Forall (digit_char base) ds /\
    (match ds with [] => False | [c] => True | c :: _ => digit_value c <> 0 end).
Proof.
  intros base fuel. induction fuel as [|fuel IH]; intros n acc B F; [lia|]. cbn [digits_loop].
  assert (M : n mod base < base) by (apply N.mod_lt; lia).
  destruct (N.eqb_spec (n / base) 0) as [Z|Z].
  - exists [digit (n mod base)]. split; [reflexivity|].
    split; [|split; [constructor; [apply digit_is_char; lia|constructor]|exact I]].
    rewrite value_cons, digit_value_digit by lia. cbn [length N.of_nat]. rewrite N.pow_0_r. unfold number_value. cbn [fold_left].
    pose proof (N.div_mod n base ltac:(lia)) as D. rewrite Z in D. lia.
  - destruct (IH (n / base) (digit (n mod base) :: acc) B) as (ds & E & V & C & L).
    { pose proof (size_nat_div base n ltac:(lia) Z). lia. }
    exists (ds ++ [digit (n mod base)]). rewrite E, <- app_assoc. split; [reflexivity|]. split; [|split].
    + rewrite value_app, V. cbn [length N.of_nat]. rewrite N.pow_1_r, value_cons, digit_value_digit by lia.
      cbn [length N.of_nat]. unfold number_value. cbn [fold_left].
      pose proof (N.div_mod n base ltac:(lia)) as D. lia.
    + apply Forall_app. split; [exact C|constructor; [apply digit_is_char; lia|constructor]].
    + destruct ds as [|c [|c' ds]]; [destruct L| |exact L]. cbn [app]. intros Q. apply Z. rewrite <- V, value_cons, Q. reflexivity.
Qed.

Lemma digits_spec : forall base n, 2 <= base <= 16 ->
  number_value base (digits base n) = n /\ Forall (digit_char base) (digits base n) /\
  (match digits base n with [] => False | [c] => True | c :: _ => digit_value c <> 0 end).
Proof.
  intros base n B. unfold digits. destruct (digits_loop_spec base (S (N.size_nat n)) n [] B) as (ds & E & R); [lia|].
  rewrite E, app_nil_r. exact R.
Qed.

Lemma digits_inj : forall base x y, 2 <= base <= 16 -> digits base x = digits base y -> x = y.
Proof.
  intros base x y B E. destruct (digits_spec base x B) as [X _]. destruct (digits_spec base y B) as [Y _].
  rewrite <- X, <- Y, E. reflexivity.
Qed.

Lemma to_string_inj : forall x y, to_string x = to_string y -> x = y.
Proof. intros x y. apply digits_inj. lia. Qed.

Lemma put_unsigned_inj : forall hex x y, put_unsigned hex x = put_unsigned hex y -> x = y.
Proof. intros [] x y; apply digits_inj; lia. Qed.

Lemma digits_chars : forall base n c, 2 <= base <= 16 -> In c (digits base n) -> 48 <= c < 103 /\ c <> 58.
Proof.
  intros base n c B H. destruct (digits_spec base n B) as (_ & F & _). rewrite Forall_forall in F.
  destruct (F c H) as [K _]. lia.
Qed.

Lemma to_string_chars : forall n c, In c (to_string n) -> 48 <= c < 103 /\ c <> 58.
Proof. intros n c. apply digits_chars. lia. Qed.
Lemma put_unsigned_chars : forall hex n c, In c (put_unsigned hex n) -> 48 <= c < 103 /\ c <> 58.
Proof. intros [] n c; apply digits_chars; lia. Qed.

(* A number of ten or more is spelt differently in decimal and hexadecimal. *)
Lemma value_mono : forall ds, number_value 10 ds <= number_value 16 ds.
Proof.
  induction ds as [|c ds IH]; [cbn; lia|]. rewrite !value_cons.
  assert (10 ^ N.of_nat (length ds) <= 16 ^ N.of_nat (length ds)) by (apply N.pow_le_mono_l; lia). nia.
Qed.

Lemma decimal_hex_differ : forall n, 10 <= n -> digits 10 n <> digits 16 n.
Proof.
  intros n H E. destruct (digits_spec 10 n ltac:(lia)) as (V & C & L). destruct (digits_spec 16 n ltac:(lia)) as (W & _ & _).
  rewrite <- E in W. destruct (digits 10 n) as [|c [|c' ds]]; [destruct L| |].
  - inversion C as [|? ? [_ K] _]; subst. rewrite value_cons in H. cbn in H. lia.
  - rewrite value_cons in V, W. pose proof (value_mono (c' :: ds)) as M.
    assert (10 ^ N.of_nat (length (c' :: ds)) < 16 ^ N.of_nat (length (c' :: ds))) by (apply N.pow_lt_mono_l; [cbn [length]; lia|lia]).
    nia.
Qed.

Lemma decimal_hex_same : forall n, n < 10 -> digits 10 n = digits 16 n.
Proof.
  intros n H.
  assert (K : forall base, 10 <= base <= 16 -> digits base n = [digit n]).
  { intros base B. unfold digits. cbn [digits_loop]. rewrite N.div_small, N.mod_small by lia. reflexivity. }
  rewrite !K by lia. reflexivity.
Qed.

(* ---- separators ---- *)

Lemma split_at : forall (c : N) a b x y, ~ In c a -> ~ In c b -> a ++ c :: x = b ++ c :: y -> a = b /\ x = y.
Proof.
  intros c. induction a as [|u a IH]; intros [|v b] x y A B E; cbn [app] in E.
  - injection E as ->. auto.
  - injection E as -> _. destruct B. left. reflexivity.
  - injection E as -> _. destruct A. left. reflexivity.
  - injection E as -> E. apply IH in E.
    + destruct E as [-> ->]. auto.
    + intros H. apply A. right. exact H.
    + intros H. apply B. right. exact H.
Qed.

Lemma to_string_no_nl : forall n, ~ In 10 (to_string n).
Proof. intros n H. apply to_string_chars in H. lia. Qed.

Lemma number_line : forall a b x y, to_string a ++ nl ++ x = to_string b ++ nl ++ y -> a = b /\ x = y.
Proof.
  intros a b x y E. apply split_at in E; try apply to_string_no_nl. destruct E as [E ->]. apply to_string_inj in E. auto.
Qed.

Ltac line E := rewrite <- ?app_assoc in E; apply app_inv_head in E.

Lemma dump_fh_inj : forall h g x y, dump_fh h ++ x = dump_fh g ++ y -> h = g /\ x = y.
Proof.
  intros [l t f r s] [l' t' f' r' s'] x y E. unfold dump_fh in E. cbn [fh_length fh_type fh_flags fh_reserved fh_stream_id] in E.
  rewrite <- ?app_assoc in E. do 2 apply app_inv_head in E.
  apply app_inv_head, number_line in E. destruct E as [-> E].
  apply app_inv_head, number_line in E. destruct E as [-> E].
  apply app_inv_head, number_line in E. destruct E as [-> E].
  apply app_inv_head, number_line in E. destruct E as [-> E].
  apply app_inv_head, number_line in E. destruct E as [-> E]. auto.
Qed.

(* ---- hexadecimal dumps ---- *)

Lemma hex2_all : forallb (fun b => (length (put_hex2 b) =? 2)%nat && (number_value 16 (put_hex2 b) =? b) &&
  forallb (fun c => 48 <=? c) (put_hex2 b)) (map N.of_nat (seq 0 256)) = true.
Proof. vm_compute. reflexivity. Qed.

Lemma hex2_spec : forall b, b < 256 -> length (put_hex2 b) = 2%nat /\ number_value 16 (put_hex2 b) = b /\
  forall c, In c (put_hex2 b) -> 48 <= c.
Proof.
  intros b H. pose proof hex2_all as A. rewrite forallb_forall in A. specialize (A b).
  assert (I : In b (map N.of_nat (seq 0 256))).
  { rewrite <- (N2Nat.id b). apply in_map. apply in_seq. lia. }
  apply A in I. apply andb_prop in I. destruct I as [I J]. apply andb_prop in I. destruct I as [I K].
  apply Nat.eqb_eq in I. apply N.eqb_eq in K. rewrite forallb_forall in J.
  split; [exact I|]. split; [exact K|]. intros c C. apply J in C. lia.
Qed.

Lemma app_len : forall (a b x y : list N), length a = length b -> a ++ x = b ++ y -> a = b /\ x = y.
Proof.
  induction a as [|u a IH]; intros [|v b] x y L E; try discriminate L; [auto|].
  injection E as -> E. apply IH in E; [destruct E as [-> ->]; auto|]. injection L. auto.
Qed.

Lemma dump_hex_inj : forall lb a b n x y, is_octets a -> is_octets b ->
  dump_hex lb n a ++ nl ++ x = dump_hex lb n b ++ nl ++ y -> a = b /\ x = y.
Proof.
  intros lb. induction a as [|u a IH]; intros [|v b] n x y A B E; cbn [dump_hex] in E.
  - injection E as ->. auto.
  - exfalso. destruct (hex2_spec v) as (L & _ & C); [apply B; left; reflexivity|].
    destruct (put_hex2 v) as [|c r]; [discriminate L|]. injection E as E _. specialize (C c (or_introl eq_refl)). lia.
  - exfalso. destruct (hex2_spec u) as (L & _ & C); [apply A; left; reflexivity|].
    destruct (put_hex2 u) as [|c r]; [discriminate L|]. injection E as E _. specialize (C c (or_introl eq_refl)). lia.
  - destruct (hex2_spec u) as (L & V & _); [apply A; left; reflexivity|].
    destruct (hex2_spec v) as (L' & V' & _); [apply B; left; reflexivity|].
    rewrite <- !app_assoc in E. apply app_len in E; [|congruence]. destruct E as [E1 E]. apply app_inv_head in E.
    apply IH in E.
    + destruct E as [-> ->]. split; [|reflexivity]. f_equal. congruence.
    + intros c C. apply A. right. exact C.
    + intros c C. apply B. right. exact C.
Qed.

(* ---- data ---- *)

Lemma indent_inj : forall a b x y,
  indent a ++ nl ++ str "  P" ++ x = indent b ++ nl ++ str "  P" ++ y -> a = b /\ x = y.
Proof.
  assert (C : forall v b x y, nl ++ str "  P" ++ x = indent (v :: b) ++ y -> False).
  { intros v b x y E. cbn [indent] in E. injection E as <- E. cbn in E. discriminate E. }
  induction a as [|u a IH]; intros [|v b] x y E.
  - injection E as ->. auto.
  - exfalso. apply C in E. exact E.
  - exfalso. symmetry in E. apply C in E. exact E.
  - cbn [indent] in E. rewrite <- !app_comm_cons in E. injection E as -> E. rewrite <- !app_assoc in E. apply app_inv_head in E.
    apply IH in E. destruct E as [-> ->]. auto.
Qed.
