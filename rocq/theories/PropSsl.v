(* Property C48: reading and writing over the TLS connection. *)
From Coq Require Import ZArith NArith List Bool Lia ZifyBool ZifyNat ZifyN.
From Verif Require Import Base Arith Ssl.
Import ListNotations.
Open Scope N_scope.
Ltac Zify.zify_post_hook ::= Z.div_mod_to_equations.

Lemma skipn_skipn' : forall A a b (l : list A), skipn b (skipn a l) = skipn (a + b) l.
Proof.
  induction a as [|a IH]; intros b l; [reflexivity|]. destruct l; [rewrite !skipn_nil; reflexivity|]. apply IH.
Qed.

(* The TLS layer does not fail during the next n calls: every call transfers at
   least one octet (Chunk c transfers up to c + 1). *)
Definition delivers (n : N) (s : tls) : Prop :=
  exists good rest, tls_sched s = good ++ rest /\ Forall (fun e => e <> Fail) good /\ n <= size good.

Lemma positive_small : forall n, 0 < n -> n < 2 ^ 31 -> to_positive_int n = Some n.
Proof.
  intros n P L. unfold to_positive_int. rewrite N.mod_small.
  - replace (0 <? n) with true by (symmetry; apply N.ltb_lt; exact P).
    replace (n <? 2 ^ 31) with true by (symmetry; apply N.ltb_lt; exact L). reflexivity.
  - change (2 ^ 31) with 2147483648 in L. change (2 ^ 32) with 4294967296. lia.
Qed.

Lemma positive_le : forall n k, to_positive_int n = Some k -> 0 < k <= n.
Proof.
  intros n k H. unfold to_positive_int in H. destruct (0 <? n mod 2 ^ 32) eqn:P; [|discriminate].
  cbn [andb] in H. destruct (n mod 2 ^ 32 <? 2 ^ 31); [|discriminate]. injection H as <-.
  apply N.ltb_lt in P. split; [exact P|]. apply N.mod_le. discriminate.
Qed.

Lemma delivers_mono : forall a b s, b <= a -> delivers a s -> delivers b s.
Proof. intros a b s L (g & r & E & F & G). exists g, r. repeat split; try assumption. lia. Qed.

Lemma delivers_next : forall n s, delivers (n + 1) s -> exists c sc, tls_sched s = Chunk c :: sc /\
  forall i o, delivers n (Tls i o sc).
Proof.
  intros n s (g & r & E & F & L). destruct g as [|e g]; [rewrite size_nil in L; lia|].
  pose proof (Forall_inv F) as NE. destruct e as [c|]; [|contradiction].
  exists c, (g ++ r). split; [exact E|]. intros i o. exists g, r. split; [reflexivity|].
  split; [exact (Forall_inv_tail F)|]. rewrite size_cons in L. lia.
Qed.

(* ---- write ---- *)

Lemma write_loop_exact : forall fuel s data, (length data <= fuel)%nat ->
  exists k, let '(r, s') := write_loop fuel s data in
  tls_in s' = tls_in s /\ tls_out s' = tls_out s ++ firstn k data /\ (exists used, tls_sched s = used ++ tls_sched s') /\
  ((r = Ok tt /\ (length data <= k)%nat) \/ (r = Throw RuntimeError /\ (k < length data)%nat)).
Proof.
  induction fuel as [|fuel IH]; intros s data L.
  - destruct data; [|cbn in L; lia]. exists 0%nat. cbn. rewrite app_nil_r. repeat split; auto. exists []. reflexivity.
  - destruct data as [|x data]; [exists 0%nat; cbn; rewrite app_nil_r; repeat split; auto; exists []; reflexivity|].
    set (d := x :: data) in *. assert (ND : d <> []) by discriminate.
    cbn [write_loop]. unfold d at 1. cbv iota. fold d.
    destruct (bio_write s d) as [[j|] s'] eqn:B; unfold bio_write in B.
    + destruct (tls_sched s) as [|[c|] sc] eqn:SC; try discriminate.
      destruct (to_positive_int (size d)) as [k|] eqn:P; try discriminate. apply positive_le in P.
      injection B as <- <-. set (j := N.min (c + 1) k) in *. assert (J : 0 < j <= size d) by lia.
      destruct (IH (Tls (tls_in s) (tls_out s ++ firstn (N.to_nat j) d) sc) (skipn (N.to_nat j) d)) as (k' & H).
      { rewrite skipn_length. unfold size in J. lia. }
      exists (N.to_nat j + k')%nat.
      destruct (write_loop fuel _ _) as [r s''] eqn:W. destruct H as (I & O & (used & U) & R).
      cbn [tls_in tls_out tls_sched] in *. split; [exact I|]. split.
      { rewrite O, <- app_assoc. f_equal. rewrite <- (firstn_skipn (N.to_nat j) d) at 3.
        rewrite firstn_app. rewrite firstn_length. replace (min (N.to_nat j) (length d)) with (N.to_nat j) by (unfold size in J; lia).
        replace (N.to_nat j + k' - N.to_nat j)%nat with k' by lia. f_equal.
        rewrite firstn_firstn. replace (min (N.to_nat j + k') (N.to_nat j)) with (N.to_nat j) by lia. reflexivity. }
      split; [exists (Chunk c :: used); cbn [app]; congruence|].
      rewrite skipn_length in R. destruct R as [[-> R]|[-> R]]; [left|right]; (split; [reflexivity|]); unfold size in J; lia.
    + assert (E : s' = pop_sched s).
      { destruct (tls_sched s) as [|[c|] sc]; [|destruct (to_positive_int (size d)); [discriminate|]|]; injection B as <-; reflexivity. }
      subst s'. exists 0%nat. cbn [pop_sched tls_in tls_out tls_sched firstn]. rewrite app_nil_r.
      split; [reflexivity|]. split; [reflexivity|]. split.
      * destruct (tls_sched s) as [|e sc]; [exists []|exists [e]]; reflexivity.
      * right. split; [reflexivity|]. unfold d. cbn. lia.
Qed.

Lemma write_loop_step : forall f s d, 0 < size d -> write_loop (Datatypes.S f) s d =
  match bio_write s d with
  | (None, s') => (Throw RuntimeError, s')
  | (Some j, s') => write_loop f s' (skipn (N.to_nat j) d)
  end.
Proof. intros f s [|x d] H; [discriminate H|reflexivity]. Qed.

Lemma write_loop_ok : forall fuel s data, (length data <= fuel)%nat -> size data < 2 ^ 31 -> delivers (size data) s ->
  exists s', write_loop fuel s data = (Ok tt, s').
Proof.
  induction fuel as [|fuel IH]; intros s data L B D.
  - destruct data; [cbn; eauto|cbn in L; lia].
  - assert (C : data = [] \/ 0 < size data) by (destruct data; [left; reflexivity|right; rewrite size_cons; lia]).
    destruct C as [->|SD]; [cbn; eauto|]. rename data into d.
    destruct (delivers_next (size d - 1) s) as (c & sc & SC & N).
    { replace (size d - 1 + 1) with (size d) by lia. exact D. }
    rewrite write_loop_step by exact SD. unfold bio_write. rewrite SC, positive_small by assumption.
    set (j := N.min (c + 1) (size d)). assert (J : 0 < j <= size d) by lia.
    apply IH.
    + rewrite skipn_length. unfold size in J. lia.
    + rewrite size_skipn. lia.
    + rewrite size_skipn. eapply delivers_mono; [|apply N]. lia.
Qed.

(* Whatever the TLS layer does: a prefix of the data is handed over, in order
   and once; all of it iff write returns; otherwise it throws. *)
Theorem C48_write_exact : forall s data, exists k,
  let '(r, s') := ssl_write s data in
  tls_out s' = tls_out s ++ firstn k data /\ tls_in s' = tls_in s /\
  ((r = Ok tt /\ firstn k data = data) \/ (r = Throw RuntimeError /\ (k < length data)%nat)).
Proof.
  intros s data. destruct (write_loop_exact (length data) s data (Nat.le_refl _)) as (k & H).
  exists k. unfold ssl_write. destruct (write_loop _ _ _) as [r s']. destruct H as (I & O & _ & R).
  split; [exact O|]. split; [exact I|]. destruct R as [[-> R]|R]; [left|right; exact R].
  split; [reflexivity|]. apply firstn_all2. exact R.
Qed.

(* It returns when the TLS layer does not fail, for every chunking; data below
   2 GiB (BIO_write takes an int). *)
Theorem C48_write_completes_partial : forall s data, size data < 2 ^ 31 -> delivers (size data) s ->
  exists s', ssl_write s data = (Ok tt, s') /\ tls_out s' = tls_out s ++ data /\ tls_in s' = tls_in s.
Proof.
  intros s data B D. destruct (write_loop_ok (length data) s data (Nat.le_refl _) B D) as (s' & W).
  exists s'. split; [exact W|]. destruct (C48_write_exact s data) as (k & H). unfold ssl_write in H. rewrite W in H.
  destruct H as (O & I & [[_ E]|[X _]]); [|discriminate]. rewrite E in O. auto.
Qed.

(* ---- read ---- *)

Lemma read_loop_exact : forall fuel s n, (N.to_nat n <= fuel)%nat ->
  exists k, let '(r, s') := read_loop fuel s n in
  (k <= length (tls_in s))%nat /\ tls_in s' = skipn k (tls_in s) /\ tls_out s' = tls_out s /\
  (exists used, tls_sched s = used ++ tls_sched s' /\ (length used <= N.to_nat n)%nat) /\
  ((r = Ok (firstn k (tls_in s)) /\ N.of_nat k = n) \/ (r = Throw RuntimeError /\ N.of_nat k < n)).
Proof.
  induction fuel as [|fuel IH]; intros s n L.
  - assert (n = 0) by lia. subst n. exists 0%nat. cbn. repeat split; auto; try lia. exists []. split; [reflexivity|cbn; lia].
  - cbn [read_loop]. destruct (N.ltb_spec 0 n) as [P|P].
    2:{ assert (n = 0) by lia. subst n. exists 0%nat. cbn. repeat split; auto; try lia. exists []. split; [reflexivity|cbn; lia]. }
    destruct (bio_read s n) as [[d|] s'] eqn:B; unfold bio_read in B.
    + destruct (tls_sched s) as [|[c|] sc] eqn:SC; try discriminate.
      destruct (to_positive_int n) as [k|] eqn:Q; try discriminate. apply positive_le in Q.
      destruct (tls_in s) as [|x inp] eqn:IN; try discriminate. set (i := x :: inp) in *.
      set (j := N.min (c + 1) (N.min k (size i))) in B.
      assert (SI : 0 < size i) by (unfold i; rewrite size_cons; lia).
      assert (J : 0 < j <= n /\ j <= size i) by lia. clearbody j.
      injection B as <- <-.
      assert (SD : size (firstn (N.to_nat j) i) = j) by (rewrite size_firstn; lia).
      rewrite SD.
      destruct (IH (Tls (skipn (N.to_nat j) i) (tls_out s) sc) (n - j)) as (k' & H); [lia|].
      exists (N.to_nat j + k')%nat.
      destruct (read_loop fuel _ _) as [r s''] eqn:W. cbn [tls_in tls_out tls_sched] in H.
      destruct H as (K & I & O & (used & U & UL) & R).
      rewrite skipn_length in K. split; [unfold size in J; lia|]. split.
      { rewrite I, skipn_skipn'. f_equal. }
      split; [exact O|]. split.
      { exists (Chunk c :: used). split; [cbn [app]; congruence|cbn [length]; lia]. }
      destruct R as [[-> R]|[-> R]].
      * left. split; [|lia]. cbn [bind]. f_equal. rewrite <- (firstn_skipn (N.to_nat j) i) at 3.
        rewrite firstn_app. rewrite firstn_length. replace (min (N.to_nat j) (length i)) with (N.to_nat j) by (unfold size in J; lia).
        replace (N.to_nat j + k' - N.to_nat j)%nat with k' by lia. f_equal.
        rewrite firstn_firstn. replace (min (N.to_nat j + k') (N.to_nat j)) with (N.to_nat j) by lia. reflexivity.
      * right. split; [reflexivity|lia].
    + assert (E : s' = pop_sched s).
      { destruct (tls_sched s) as [|[c|] sc]; [|destruct (to_positive_int n); [destruct (tls_in s); [|discriminate]|]|];
          injection B as <-; reflexivity. }
      subst s'. exists 0%nat. cbn [pop_sched tls_in tls_out tls_sched firstn skipn].
      split; [lia|]. split; [reflexivity|]. split; [reflexivity|]. split.
      * destruct (tls_sched s) as [|e sc]; [exists []|exists [e]]; (split; [reflexivity|cbn; lia]).
      * right. split; [reflexivity|lia].
Qed.

Lemma read_loop_ok : forall fuel s n, (N.to_nat n <= fuel)%nat -> n < 2 ^ 31 -> n <= size (tls_in s) -> delivers n s ->
  exists d s', read_loop fuel s n = (Ok d, s').
Proof.
  induction fuel as [|fuel IH]; intros s n L B A D.
  - assert (n = 0) by lia. subst n. cbn. eauto.
  - cbn [read_loop]. destruct (N.ltb_spec 0 n) as [P|P]; [|eauto].
    destruct (delivers_next (n - 1) s) as (c & sc & SC & N); [replace (n - 1 + 1) with n by lia; exact D|].
    unfold bio_read. rewrite SC, positive_small by assumption.
    assert (SI : 0 < size (tls_in s)) by (clear B; lia).
    destruct (tls_in s) as [|x inp] eqn:IN; [discriminate SI|]. set (i := x :: inp) in *.
    set (j := N.min (c + 1) (N.min n (size i))). assert (J : 0 < j <= n /\ j <= size i) by lia. clearbody j.
    assert (SD : size (firstn (N.to_nat j) i) = j) by (rewrite size_firstn; lia). rewrite SD.
    destruct (IH (Tls (skipn (N.to_nat j) i) (tls_out s) sc) (n - j)) as (d & s' & R).
    + lia.
    + lia.
    + cbn [tls_in]. rewrite size_skipn. lia.
    + eapply delivers_mono; [|apply N]. lia.
    + rewrite R. cbn [bind]. eauto.
Qed.

(* Whatever the TLS layer does: read consumes k octets of the peer's stream,
   returns exactly them when k is the number asked for, and throws otherwise. *)
Theorem C48_read_exact : forall s n, exists k,
  let '(r, s') := ssl_read s n in
  N.of_nat k <= size (tls_in s) /\ tls_in s' = skipn k (tls_in s) /\ tls_out s' = tls_out s /\
  ((r = Ok (firstn k (tls_in s)) /\ N.of_nat k = n) \/ (r = Throw RuntimeError /\ N.of_nat k < n)).
Proof.
  intros s n. destruct (read_loop_exact (N.to_nat n) s n (Nat.le_refl _)) as (k & H). exists k.
  unfold ssl_read. destruct (read_loop _ _ _) as [r s']. destruct H as (K & I & O & _ & R).
  split; [unfold size; lia|]. auto.
Qed.

Theorem C48_read_completes_partial : forall s a b, tls_in s = a ++ b -> size a < 2 ^ 31 -> delivers (size a) s ->
  exists s', ssl_read s (size a) = (Ok a, s') /\ tls_in s' = b /\ tls_out s' = tls_out s.
Proof.
  intros s a b E B D.
  destruct (read_loop_ok (N.to_nat (size a)) s (size a) (Nat.le_refl _) B) as (d & s' & R).
  { rewrite E, size_app. lia. }
  { exact D. }
  destruct (C48_read_exact s (size a)) as (k & H). unfold ssl_read in *. rewrite R in H.
  destruct H as (_ & I & O & [[X K]|[X _]]); [|discriminate]. injection X as ->.
  assert (K' : k = length a) by (unfold size in K; clear B; lia). subst k. rewrite E in R, I.
  rewrite firstn_len_app in R by reflexivity. rewrite skipn_len_app in I by reflexivity.
  exists s'. auto.
Qed.

(* A transfer of 2 GiB or more never completes, whatever the TLS layer does: the
   length handed to BIO_write or BIO_read is the int of the remaining length, so
   lengths from 2^31 to 2^32 - 1 become negative, and from a longer one no call
   transfers more than its length modulo 2^32. *)
Lemma positive_large : forall n k, to_positive_int n = Some k -> 2 ^ 31 <= n -> 2 ^ 32 <= n /\ 2 ^ 32 <= n - k /\ k <= n.
Proof.
  intros n k P L. unfold to_positive_int in P. destruct (N.ltb_spec 0 (n mod 2 ^ 32)); [|discriminate P].
  destruct (N.ltb_spec (n mod 2 ^ 32) (2 ^ 31)) as [B|]; [|discriminate P]. cbn [andb] in P.
  assert (E : k = n mod 2 ^ 32) by congruence. clear P.
  change (2 ^ 31) with 2147483648 in *. change (2 ^ 32) with 4294967296 in *. clear H. lia.
Qed.

Lemma positive_none : forall n, 2 ^ 31 <= n < 2 ^ 32 -> to_positive_int n = None.
Proof.
  intros n [L U]. unfold to_positive_int. rewrite N.mod_small by exact U.
  destruct (N.ltb_spec n (2 ^ 31)); [lia|]. rewrite andb_false_r. reflexivity.
Qed.

Lemma write_loop_large : forall fuel s d s', 2 ^ 31 <= size d -> write_loop fuel s d <> (Ok tt, s').
Proof.
  induction fuel as [|fuel IH]; intros s d s' L E.
  - destruct d; [apply N.leb_le in L; discriminate L|discriminate E].
  - rewrite write_loop_step in E by (eapply N.lt_le_trans; [|exact L]; reflexivity).
    unfold bio_write in E. destruct (tls_sched s) as [|[c|] sc]; try discriminate E.
    destruct (to_positive_int (size d)) as [k|] eqn:P; [|discriminate E].
    destruct (positive_large _ _ P L) as (_ & R & K).
    refine (IH _ _ _ _ E). unfold size in *. rewrite skipn_length.
    change (2 ^ 31) with 2147483648 in *. change (2 ^ 32) with 4294967296 in *. clear IH E P. lia.
Qed.

Theorem C48_large_transfer_refuted : forall s data, 2 ^ 31 <= size data ->
  exists s' k, ssl_write s data = (Throw RuntimeError, s') /\
    tls_out s' = tls_out s ++ firstn k data /\ (k < length data)%nat /\
    (size data < 2 ^ 32 -> tls_out s' = tls_out s).
Proof.
  intros s data L. destruct (C48_write_exact s data) as (k & H). destruct (ssl_write s data) as [r s'] eqn:E.
  destruct H as (O & _ & [[-> _]|[-> K]]).
  { unfold ssl_write in E. destruct (write_loop_large _ _ _ _ L E). }
  exists s', k. split; [reflexivity|]. split; [exact O|]. split; [exact K|]. intros U.
  assert (P := positive_none _ (conj L U)). unfold ssl_write in E.
  replace (length data) with (Datatypes.S (pred (length data))) in E by (clear - K; lia).
  rewrite write_loop_step in E by (eapply N.lt_le_trans; [|exact L]; reflexivity).
  unfold bio_write in E. rewrite P in E.
  assert (s' = pop_sched s) as -> by (destruct (tls_sched s) as [|[c|] sc]; congruence). reflexivity.
Qed.

Lemma read_loop_large : forall fuel s n d s', 2 ^ 31 <= n -> read_loop fuel s n <> (Ok d, s').
Proof.
  induction fuel as [|fuel IH]; intros s n d s' L E;
    (assert (Q : (0 <? n) = true) by (apply N.ltb_lt; eapply N.lt_le_trans; [|exact L]; reflexivity));
    cbn [read_loop] in E; rewrite Q in E; [discriminate E|].
  unfold bio_read in E. destruct (tls_sched s) as [|[c|] sc]; try discriminate E.
  destruct (to_positive_int n) as [k|] eqn:P; [|discriminate E].
  destruct (tls_in s) as [|x i] eqn:I; [discriminate E|]. rewrite <- I in E.
  destruct (positive_large _ _ P L) as (_ & R & K).
  set (j := N.to_nat (N.min (c + 1) (N.min k (size (tls_in s))))) in *.
  destruct (read_loop fuel _ _) as [r s2] eqn:E2. destruct r as [rest| | |]; try discriminate E.
  refine (IH _ _ _ _ _ E2). unfold size. rewrite firstn_length.
  assert (J : N.of_nat j <= k) by (unfold j; clear; lia). clearbody j.
  change (2 ^ 31) with 2147483648 in *. change (2 ^ 32) with 4294967296 in *. clear - J R K. lia.
Qed.

Theorem C48_large_read_refuted : forall s n, 2 ^ 31 <= n ->
  exists s' k, ssl_read s n = (Throw RuntimeError, s') /\
    tls_in s' = skipn k (tls_in s) /\ N.of_nat k < n /\
    (n < 2 ^ 32 -> tls_in s' = tls_in s).
Proof.
  intros s n L. destruct (C48_read_exact s n) as (k & H). destruct (ssl_read s n) as [r s'] eqn:E.
  destruct H as (_ & I & _ & [[-> _]|[-> K]]).
  { unfold ssl_read in E. destruct (read_loop_large _ _ _ _ _ L E). }
  exists s', k. split; [reflexivity|]. split; [exact I|]. split; [exact K|]. intros U.
  assert (P := positive_none _ (conj L U)). unfold ssl_read in E.
  assert (Q : 0 < n) by (eapply N.lt_le_trans; [|exact L]; reflexivity).
  replace (N.to_nat n) with (Datatypes.S (pred (N.to_nat n))) in E by (clear - Q; lia).
  cbn [read_loop] in E. replace (0 <? n) with true in E by (symmetry; apply N.ltb_lt; exact Q).
  unfold bio_read in E. rewrite P in E.
  assert (s' = pop_sched s) as -> by (destruct (tls_sched s) as [|[c|] sc]; congruence). reflexivity.
Qed.

Example C48_case :
  delivers 5 (Tls [1; 2; 3; 4; 5; 6] [] [Chunk 1; Chunk 0; Chunk 9; Chunk 0; Chunk 0; Fail]) /\
  ssl_read (Tls [1; 2; 3; 4; 5; 6] [] [Chunk 1; Chunk 0; Chunk 9; Chunk 0; Chunk 0; Fail]) 5 =
    (Ok [1; 2; 3; 4; 5], Tls [6] [] [Chunk 0; Chunk 0; Fail]) /\
  ssl_write (Tls [] [9] [Chunk 1; Fail]) [1; 2; 3] = (Throw RuntimeError, Tls [] [9; 1; 2] []).
Proof.
  split; [|split; reflexivity].
  exists [Chunk 1; Chunk 0; Chunk 9; Chunk 0; Chunk 0], [Fail]. repeat split; try discriminate. repeat constructor; discriminate.
Qed.

Print Assumptions C48_write_exact.
Print Assumptions C48_write_completes_partial.
Print Assumptions C48_read_exact.
Print Assumptions C48_read_completes_partial.
Print Assumptions C48_large_transfer_refuted.
Print Assumptions C48_large_read_refuted.
