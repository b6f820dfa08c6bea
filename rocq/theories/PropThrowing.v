(* C118: printing to a stream that throws. *)
From Coq Require Import String.
From Coq Require Import ZArith NArith List Bool Lia ZifyBool ZifyNat ZifyN.
From Verif Require PropBlock.
From Verif Require Import Base Util Arith UtilProofs HeaderType DynTable HeaderDec FrameHeader Frames Dump DumpProofs SpecHpack Ostream PropOstream Throwing.
Import ListNotations.
Local Open Scope string_scope. Local Open Scope list_scope. Local Open Scope N_scope.

(* ---- specification ---- *)

(* The texts of frames printed one after the other to a stream that does not fail. *)
Inductive texts (m : ub_mode) : ios -> list frame -> list bytes -> Prop :=
| texts_nil : forall s, texts m s [] []
| texts_cons : forall s f fs x s1 xs, print m s f = Ok (x, s1) -> texts m s1 fs xs -> texts m s (f :: fs) (x :: xs).

(* The formatting state but for the width. *)
Definition same_format (a b : ios) : Prop :=
  base a = base b /\ showbase a = showbase b /\ uppercase a = uppercase b /\ adjust a = adjust b /\ fill a = fill b /\ grouping a = grouping b.

(* ---- proofs ---- *)

Lemma size_app : forall (x y : bytes), size (x ++ y) = size x + size y.
Proof. intros. unfold size. rewrite app_length. lia. Qed.

Lemma throw_good : forall ops s r, let (x, s') := run s ops in exists s'',
  run_throw (Ostream s true r) ops =
    if size x <=? r then (x, Ostream s' true (r - size x), false) else (firstn (N.to_nat r) x, Ostream s'' false 0, true).
Proof.
  induction ops as [|o ops IH]; intros s r.
  - cbn [run run_throw]. exists s. destruct (N.leb_spec (size (@nil N)) r); [|cbn in *; lia]. do 3 f_equal. unfold size. cbn. lia.
  - cbn [run run_throw].
    assert (SP : (exists s1, exec s o = ([], s1) /\ exec_throw (Ostream s true r) o = ([], Ostream s1 true r, false)) \/
      exists x s1, exec s o = (x, s1) /\ exec_throw (Ostream s true r) o =
        if size x <=? r then (x, Ostream s1 true (r - size x), false) else (firstn (N.to_nat r) x, Ostream s1 false 0, true)).
    { destruct o; [right|right|left|left|left]; repeat eexists. }
    destruct SP as [(s1 & -> & ->)|(x & s1 & -> & ->)].
    + specialize (IH s1 r). destruct (run s1 ops) as [y s2]. destruct IH as (s'' & ->). exists s''. cbn [app]. destruct (size y <=? r); reflexivity.
    + destruct (N.leb_spec (size x) r) as [L|L].
      * specialize (IH s1 (r - size x)). destruct (run s1 ops) as [y s2]. destruct IH as (s'' & ->). exists s''. rewrite size_app.
        destruct (N.leb_spec (size y) (r - size x)), (N.leb_spec (size x + size y) r); try lia; [do 3 f_equal; lia|].
        do 2 f_equal. rewrite firstn_app. f_equal; [symmetry; apply firstn_all2; unfold size in L; lia|]. f_equal. unfold size. lia.
      * destruct (run s1 ops) as [y s2]. exists s1. rewrite size_app. destruct (N.leb_spec (size x + size y) r); [lia|].
        do 2 f_equal. rewrite firstn_app. replace (N.to_nat r - length x)%nat with 0%nat by (unfold size in L; lia). cbn [firstn]. rewrite app_nil_r. reflexivity.
Qed.

(* C118: the device gets the octets it would get from a stream that does not throw
   (C112), as many as it takes; there is an exception exactly if that is not the
   whole text. *)
Theorem C118_prefix : forall m s room f x s', print m s f = Ok (x, s') ->
  exists d thrown, print_throw m (Ostream s true room) f = Ok (firstn (N.to_nat room) x, d, thrown) /\
    (thrown = true <-> room < size x) /\ o_good d = negb thrown /\
    (thrown = false -> o_fmt d = s' /\ o_room d = room - size x).
Proof.
  intros m s room f x s' H. apply print_ops in H. destruct H as (ops & O & R).
  pose proof (throw_good ops s room) as G. rewrite R in G. destruct G as (s'' & G).
  unfold print_throw. rewrite O. cbn [bind]. rewrite G. destruct (N.leb_spec (size x) room) as [L|L].
  - exists (Ostream s' true (room - size x)), false. split; [do 3 f_equal; symmetry; apply firstn_all2; unfold size in L; lia|].
    split; [split; [discriminate|lia]|]. split; [reflexivity|]. intros _. split; reflexivity.
  - exists (Ostream s'' false 0), true. split; [reflexivity|]. split; [split; [intros _; exact L|reflexivity]|]. split; [reflexivity|discriminate].
Qed.

(* C118: a stream that has failed throws at once; nothing is written, and it stays
   as it is. *)
Theorem C118_failed : forall m s room f x s', print m s f = Ok (x, s') ->
  print_throw m (Ostream s false room) f = Ok ([], Ostream s false room, true).
Proof.
  intros m s room f x s' H. apply print_ops in H. destruct H as (ops & O & R). unfold print_throw. rewrite O. cbn [bind].
  destruct (print_form m f ops O) as (rest & _ & _ & _ & _ & -> & _). reflexivity.
Qed.

(* C118: of frames printed one after the other, exactly those are printed without
   an exception that fit; the device has a prefix of all texts. *)
Theorem C118_frames : forall m s room fs xs, texts m s fs xs ->
  exists n d thrown, print_all m (Ostream s true room) fs = Ok (firstn (N.to_nat room) (concat xs), n, d, thrown) /\
    (n <= length xs)%nat /\ size (concat (firstn n xs)) <= room /\
    (thrown = true -> room < size (concat (firstn (n + 1) xs))) /\ (thrown = false -> n = length xs).
Proof.
  intros m s room fs xs T. revert room. induction T as [s|s f fs x s1 xs P T IH]; intros room.
  - exists 0%nat, (Ostream s true room), false. cbn [print_all concat firstn]. rewrite firstn_nil. split; [reflexivity|]. split; [cbn; lia|].
    split; [unfold size; cbn; lia|]. split; [discriminate|reflexivity].
  - destruct (C118_prefix m s room f x s1 P) as (d & t & E & TH & GD & ST). cbn [print_all]. rewrite E. cbn [bind]. destruct t.
    + pose proof (proj1 TH eq_refl) as L. exists 0%nat, d, true. split.
      { do 4 f_equal. cbn [concat]. rewrite firstn_app. replace (N.to_nat room - length x)%nat with 0%nat by (unfold size in L; lia). cbn [firstn]. rewrite app_nil_r. reflexivity. }
      split; [lia|]. split; [unfold size; cbn; lia|]. split; [|discriminate]. intros _. cbn [Nat.add firstn concat]. rewrite app_nil_r. exact L.
    + destruct (ST eq_refl) as [F RM]. destruct d as [fm g rm]. cbn [o_fmt o_good o_room negb] in *. subst fm g rm.
      assert (L : size x <= room) by (destruct (N.le_gt_cases (size x) room) as [L|L]; [exact L|apply TH in L; discriminate L]).
      destruct (IH (room - size x)) as (n & d & t & E2 & LN & SZ & A & B). rewrite E2. cbn [bind].
      exists (S n), d, t. split.
      { do 4 f_equal. cbn [concat]. rewrite firstn_app. f_equal. f_equal. unfold size. lia. }
      split; [cbn [length]; lia|]. cbn [firstn concat Nat.add]. rewrite !size_app. split; [lia|]. split.
      * intros X. specialize (A X). lia.
      * intros X. cbn [length]. f_equal. exact (B X).
Qed.

(* the sets of manipulators that come before an insertion *)
Inductive orderly : list op -> Prop :=
| or_nil : orderly []
| or_ins : forall t l, orderly l -> orderly (Insert t :: l)
| or_num : forall n l, orderly l -> orderly (Number n :: l)
| or_oct : forall n l, orderly l -> orderly (SetHex :: SetWidth 2 :: SetFill 48 :: Number n :: l).
Definition plain_ops (l : list op) : Prop := Forall (fun o => match o with Insert _ | Number _ => True | _ => False end) l.
Lemma orderly_plain : forall l, plain_ops l -> orderly l.
Proof. induction 1 as [|o l O _ IH]; [constructor|]. destruct o; try contradiction; constructor; exact IH. Qed.
Lemma orderly_app : forall a b, orderly a -> orderly b -> orderly (a ++ b).
Proof. intros a b A B. induction A; [exact B|cbn [app]; constructor; assumption..]. Qed.
Lemma inserts_plain : forall l, inserts l -> plain_ops l.
Proof. intros l. apply Forall_impl. intros o (t & ->). exact Coq.Init.Logic.I. Qed.
Lemma orderly_octets : forall brk l c, inserts brk -> orderly (octet_ops brk c l).
Proof.
  intros brk l. induction l as [|b l IH]; intros c B; [constructor|]. cbn [octet_ops app]. constructor. apply orderly_app; [|apply IH; exact B].
  destruct (_ =? 0); [apply orderly_plain, inserts_plain; exact B|]. constructor. constructor.
Qed.
Lemma settings_plain : forall ps x, settings_ops ps = Ok x -> plain_ops x.
Proof.
  induction ps as [|[k v] ps IH]; intros x E; cbn [settings_ops] in E.
  - apply ok_inj in E. subst x. constructor.
  - apply bind_ok in E. destruct E as (y & Y & E). apply bind_ok in E. destruct E as (z & Z & E). apply ok_inj in E. subst x.
    apply Forall_app. split; [|exact (IH z Z)].
    destruct ((k <? 1) || (SETTINGS_UNKNOWN <=? k)); apply bind_ok in Y; destruct Y as (n & _ & Y); apply ok_inj in Y; subst y;
      repeat (constructor; [exact Coq.Init.Logic.I|]); constructor.
Qed.
Lemma dump_orderly : forall m f ops, dump_ops m f = Ok ops -> orderly ops /\ (octets_shown f = [] -> plain_ops ops).
Proof.
  intros m f ops E.
  assert (D : settings_shown f = [] \/ exists h ps, f = SettingsFrame h ps) by (destruct f; eauto).
  destruct D as [S|(h & ps & ->)].
  - destruct (dump_shape m f ops S E) as (a & brk & z & -> & A & B & Z).
    split.
    + constructor. apply orderly_app; [apply orderly_plain, inserts_plain; exact A|]. apply orderly_app; [apply orderly_octets; exact B|apply orderly_plain, inserts_plain; exact Z].
    + intros ->. cbn [octet_ops app]. constructor; [exact Coq.Init.Logic.I|]. apply Forall_app. split; apply inserts_plain; assumption.
  - cbn [dump_ops] in E. apply bind_ok in E. destruct E as (x & X & E). apply ok_inj in E. subst ops. apply settings_plain in X.
    assert (Q : plain_ops (([line "=== SETTINGS FRAME ==="] ++ fh_ops h ++ [line "[PAYLOAD]"]) ++ x)).
    { apply Forall_app. split; [|exact X]. repeat (constructor; [exact Coq.Init.Logic.I|]). constructor. }
    split; [apply orderly_plain; exact Q|intros _; exact Q].
Qed.

Definition changed (s s' : ios) : Prop := same_format s' s \/ same_format s' (Ios Hex (showbase s) (uppercase s) (adjust s) 0 48 (grouping s)).
Lemma format_refl : forall s, same_format s s.
Proof. intros s. repeat split. Qed.
Lemma format_trans : forall a b c, same_format a b -> same_format b c -> same_format a c.
Proof. intros a b c (A1 & A2 & A3 & A4 & A5 & A6) (B1 & B2 & B3 & B4 & B5 & B6). repeat split; congruence. Qed.
Lemma format_sym : forall a b, same_format a b -> same_format b a.
Proof. intros a b (A1 & A2 & A3 & A4 & A5 & A6). repeat split; congruence. Qed.
Lemma changed_trans : forall a b c, changed a b -> changed b c -> changed a c.
Proof.
  intros a b c A [B|B].
  - destruct A as [A|A]; [left|right]; eapply format_trans; eassumption.
  - right. eapply format_trans; [exact B|].
    destruct A as [(A1 & A2 & A3 & A4 & A5 & A6)|(A1 & A2 & A3 & A4 & A5 & A6)]; cbn in *; repeat split; assumption.
Qed.
Lemma exec_throw_format : forall s r o, match o with Insert _ | Number _ => True | _ => False end ->
  exists x g r' t w, exec_throw (Ostream s true r) o = (x, Ostream (set_width w s) g r', t) /\ g = negb t.
Proof.
  intros s r o O. destruct o; try contradiction; cbn [exec_throw o_good o_fmt o_room exec]; destruct (size _ <=? r);
    do 5 eexists; (split; [reflexivity|reflexivity]).
Qed.
Lemma throw_plain : forall ops s r, plain_ops ops -> same_format (o_fmt (snd (fst (run_throw (Ostream s true r) ops)))) s.
Proof.
  induction ops as [|o ops IH]; intros s r P; [apply format_refl|]. inversion P as [|? ? P1 P2]; subst.
  cbn [run_throw]. destruct (exec_throw_format s r o P1) as (x & g & r' & t & w & -> & ->). destruct t; [repeat split|]. cbn [negb].
  specialize (IH (set_width w s) r' P2). destruct (run_throw (Ostream (set_width w s) true r') ops) as [[y d2] t]. cbn [fst snd] in *.
  eapply format_trans; [exact IH|]. repeat split.
Qed.
Lemma throw_orderly : forall ops, orderly ops -> forall s r, changed s (o_fmt (snd (fst (run_throw (Ostream s true r) ops)))).
Proof.
  intros ops O. induction O as [|t l O IH|n l O IH|n l O IH]; intros s r.
  - left. apply format_refl.
  - cbn [run_throw]. destruct (exec_throw_format s r (Insert t) Coq.Init.Logic.I) as (x & g & r' & th & w & -> & ->). destruct th; [left; repeat split|]. cbn [negb].
    specialize (IH (set_width w s) r'). destruct (run_throw (Ostream (set_width w s) true r') l) as [[y d2] t2]. cbn [fst snd] in *.
    eapply changed_trans; [|exact IH]. left. repeat split.
  - cbn [run_throw]. destruct (exec_throw_format s r (Number n) Coq.Init.Logic.I) as (x & g & r' & th & w & -> & ->). destruct th; [left; repeat split|]. cbn [negb].
    specialize (IH (set_width w s) r'). destruct (run_throw (Ostream (set_width w s) true r') l) as [[y d2] t2]. cbn [fst snd] in *.
    eapply changed_trans; [|exact IH]. left. repeat split.
  - cbn [run_throw]. cbn [exec_throw exec snd o_fmt o_good o_room].
    set (s1 := set_fill 48 (set_width 2 (set_base Hex s))).
    assert (C : forall w, changed s (set_width w s1)) by (intros w; right; repeat split).
    pose proof (exec_throw_format s1 r (Number n) Coq.Init.Logic.I) as (x & g & r' & th & w & E & ->).
    cbn [exec_throw exec o_good o_fmt o_room] in E. 
    destruct (size (pad_number s1 n) <=? r).
    + specialize (IH (set_width 0 s1) (r - size (pad_number s1 n))).
      destruct (run_throw (Ostream (set_width 0 s1) true (r - size (pad_number s1 n))) l) as [[y d2] t2]. cbn [fst snd] in *.
      eapply changed_trans; [apply (C 0)|exact IH].
    + cbn [fst snd o_fmt]. apply (C 0).
Qed.

(* C118: after an exception the formatting is as it was (but for the width), or
   hexadecimal with fill character '0'; as it was if the frame shows no octets. *)
Theorem C118_format_partial : forall m s room f x d, print_throw m (Ostream s true room) f = Ok (x, d, true) ->
  (same_format (o_fmt d) s \/ same_format (o_fmt d) (Ios Hex (showbase s) (uppercase s) (adjust s) 0 48 (grouping s))) /\
  (octets_shown f = [] -> same_format (o_fmt d) s).
Proof.
  intros m s room f x d H. apply bind_ok in H. destruct H as (ops & O & H). apply ok_inj in H.
  destruct (dump_orderly m f ops O) as [OR PL].
  pose proof (throw_orderly ops OR s room) as A. pose proof (fun X => throw_plain ops s room (PL X)) as B. rewrite H in A, B. split; [exact A|exact B].
Qed.

Lemma run_throw_app : forall a b s r x s1, run s a = (x, s1) -> size x <= r ->
  run_throw (Ostream s true r) (a ++ b) = let '(y, d, t) := run_throw (Ostream s1 true (r - size x)) b in (x ++ y, d, t).
Proof.
  induction a as [|o a IH]; intros b s r x s1 R L; cbn [run app] in *.
  - apply pair_inj in R. destruct R as [<- <-]. replace (r - size (@nil N)) with r by (unfold size; cbn; lia). destruct (run_throw (Ostream s true r) b) as [[y d] t]. reflexivity.
  - destruct (exec s o) as [x1 s2] eqn:E. destruct (run s2 a) as [x2 s3] eqn:R2. apply pair_inj in R. destruct R as [<- <-]. rewrite size_app in L. cbn [run_throw].
    assert (X : exec_throw (Ostream s true r) o = (x1, Ostream s2 true (r - size x1), false)).
    { assert (M : r - size (@nil N) = r) by (unfold size; cbn; lia).
      destruct o; cbn [exec_throw o_good o_fmt o_room] in *; cbn [exec] in *; apply pair_inj in E; destruct E as [<- <-]; cbn [snd]; rewrite ?M; try reflexivity;
        (match goal with |- context [?a <=? r] => destruct (N.leb_spec a r) end; [reflexivity|lia]). }
    rewrite X. rewrite (IH b s2 (r - size x1) x2 s3 R2) by lia. rewrite size_app. replace (r - size x1 - size x2) with (r - (size x1 + size x2)) by lia.
    destruct (run_throw (Ostream s3 true (r - (size x1 + size x2))) b) as [[y d] t]. rewrite app_assoc. reflexivity.
Qed.

(* C118: the caller cannot rely on finding the formatting unchanged: for every frame
   that shows octets there is a device on which printing throws and leaves the
   stream in hexadecimal. *)
Theorem C118_format_refuted : forall m s h l, l <> [] -> exists room x d,
  print_throw m (Ostream s true room) (PingFrame h l) = Ok (x, d, true) /\
  same_format (o_fmt d) (Ios Hex (showbase s) (uppercase s) (adjust s) 0 48 (grouping s)).
Proof.
  intros m s h l NE. destruct l as [|b l]; [contradiction|].
  set (head := [line "=== PING_STREAM FRAME ==="] ++ fh_ops h ++ [line "[PAYLOAD]"]).
  destruct (run s head) as [y s1] eqn:R.
  assert (P : plain_ops head) by (repeat (constructor; [exact Coq.Init.Logic.I|]); constructor).
  assert (F : same_format s1 s).
  { pose proof (throw_plain head s (size y) P) as X. pose proof (throw_good head s (size y)) as G. rewrite R in G. destruct G as (s'' & G). rewrite G in X.
    rewrite N.leb_refl in X. exact X. }
  exists (size y). unfold print_throw. cbn [dump_ops bind]. fold head.
  rewrite (run_throw_app head (octet_ops [newline] 0 (b :: l) ++ [newline]) s (size y) y s1 R) by lia. rewrite N.sub_diag.
  cbn [octet_ops app run_throw]. cbn [exec_throw exec snd o_fmt o_good o_room].
  set (s2 := set_fill 48 (set_width 2 (set_base Hex s1))).
  assert (NZ : size (pad_number s2 b) <=? 0 = false).
  { apply N.leb_gt. destruct (N.eq_dec (size (pad_number s2 b)) 0) as [Z|Z]; [|lia]. exfalso.
    assert (W : 2 <= size (pad_number s2 b)).
    { unfold pad_number. assert (LP : forall n, size (pad_of s2 n) = 2 - n) by (intros n; unfold pad_of, size; rewrite repeat_length; cbn [width s2 set_fill set_width]; lia).
      cbv zeta. set (p := prefix_of s2 b). set (dg := group (grouping s2) (digits_of s2 b)). destruct (adjust s2); [| |destruct (base s2)]; rewrite !size_app, LP; try rewrite !size_app; lia. }
    lia. }
  rewrite NZ. do 2 eexists. split; [reflexivity|]. cbn [o_fmt].
  destruct F as (A1 & A2 & A3 & A4 & A5 & A6). repeat split; assumption.
Qed.

(* ---- exceptions(failbit) ---- *)

Definition insertion (o : op) : Prop := match o with Insert _ | Number _ => True | _ => False end.

Lemma exec_failbit_cases : forall s r o, exists x s1, exec s o = (x, s1) /\
  ((size x <= r /\ exec_failbit (Ostream s true r) o = (x, Ostream s1 true (r - size x), false)) \/
   (insertion o /\ r < size x /\ exec_failbit (Ostream s true r) o = (firstn (N.to_nat r) x, Ostream s1 false 0, false))).
Proof.
  intros s r o. destruct (exec s o) as [x s1] eqn:E. exists x, s1. split; [reflexivity|]. unfold exec_failbit.
  destruct o; cbn [exec_on o_good o_fmt o_room negb andb insertion];
    [rewrite E; destruct (N.leb_spec (size x) r); [left; auto|right; auto]..| | |];
    cbn [exec] in *; apply pair_inj in E; destruct E as [<- <-]; left; unfold size; cbn [length snd]; (split; [lia|]); do 3 f_equal; lia.
Qed.

Lemma failbit_fits : forall ops s r x s', run s ops = (x, s') -> size x <= r -> forall b,
  run_failbit (Ostream s true r) (ops ++ b) = let '(y, d, t) := run_failbit (Ostream s' true (r - size x)) b in (x ++ y, d, t).
Proof.
  induction ops as [|o ops IH]; intros s r x s' R L b; cbn [run app] in *.
  - apply pair_inj in R. destruct R as [<- <-]. replace (r - size (@nil N)) with r by (unfold size; cbn; lia).
    destruct (run_failbit (Ostream s true r) b) as [[y d] t]. reflexivity.
  - destruct (exec s o) as [x1 s2] eqn:E. destruct (run s2 ops) as [x2 s3] eqn:R2. apply pair_inj in R. destruct R as [<- <-]. rewrite size_app in *.
    cbn [run_failbit]. destruct (exec_failbit_cases s r o) as (x1' & s2' & E' & C). rewrite E in E'. apply pair_inj in E'. destruct E' as [<- <-].
    destruct C as [(_ & ->)|(_ & C & _)]; [|lia]. rewrite (IH s2 (r - size x1) x2 s3 R2 ltac:(lia) b).
    replace (r - size x1 - size x2) with (r - (size x1 + size x2)) by lia.
    destruct (run_failbit (Ostream s3 true (r - (size x1 + size x2))) b) as [[y d] t]. rewrite app_assoc. reflexivity.
Qed.

Lemma failbit_failed : forall ops s r, Exists insertion ops -> exists d, run_failbit (Ostream s false r) ops = ([], d, true) /\ o_good d = false.
Proof.
  induction ops as [|o ops IH]; intros s r X; [inversion X|]. cbn [run_failbit].
  destruct o; [exists (Ostream s false r); split; reflexivity|exists (Ostream s false r); split; reflexivity|..];
    (assert (X' : Exists insertion ops) by (apply Exists_cons in X; destruct X as [[]|X]; exact X)); cbn [exec_failbit exec_on o_good o_fmt o_room snd exec negb andb app];
    match goal with |- context [run_failbit (Ostream ?s' false r) ops] => destruct (IH s' r X') as (d & E & G); rewrite E; exists d; split; [reflexivity|exact G] end.
Qed.

Lemma failbit_cut : forall pre s r y s1 o, run s pre = (y, s1) -> r < size y -> insertion o ->
  exists d, run_failbit (Ostream s true r) (pre ++ [o]) = (firstn (N.to_nat r) y, d, true) /\ o_good d = false.
Proof.
  induction pre as [|o1 pre IH]; intros s r y s1 o R L O; cbn [run app] in *.
  - apply pair_inj in R. destruct R as [<- _]. unfold size in L. cbn in L. lia.
  - destruct (exec s o1) as [x1 s2] eqn:E. destruct (run s2 pre) as [x2 s3] eqn:R2. apply pair_inj in R. destruct R as [<- <-]. rewrite size_app in L.
    cbn [run_failbit]. destruct (exec_failbit_cases s r o1) as (x1' & s2' & E' & C). rewrite E in E'. apply pair_inj in E'. destruct E' as [<- <-].
    destruct C as [(F & ->)|(_ & F & ->)].
    + destruct (IH s2 (r - size x1) x2 s3 o R2 ltac:(lia) O) as (d & -> & G). exists d. split; [|exact G]. do 2 f_equal.
      rewrite firstn_app. f_equal; [symmetry; apply firstn_all2; unfold size in F; lia|]. f_equal. unfold size. lia.
    + destruct (failbit_failed (pre ++ [o]) s2 0) as (d & -> & G); [apply Exists_exists; exists o; split; [apply in_or_app; right; left; reflexivity|exact O]|].
      exists d. split; [|exact G]. do 2 f_equal. rewrite app_nil_r, firstn_app. replace (N.to_nat r - length x1)%nat with 0%nat by (unfold size in F; lia).
      cbn [firstn]. rewrite app_nil_r. reflexivity.
Qed.

Lemma orderly_last : forall l, orderly l -> l = [] \/ exists pre o, l = pre ++ [o] /\ insertion o.
Proof.
  intros l O. induction O as [|t l O IH|n l O IH|n l O IH]; [left; reflexivity|right..].
  - destruct IH as [->|(pre & o & -> & I)]; [exists [], (Insert t)|exists (Insert t :: pre), o]; split; (reflexivity || exact I || exact Coq.Init.Logic.I).
  - destruct IH as [->|(pre & o & -> & I)]; [exists [], (Number n)|exists (Number n :: pre), o]; split; (reflexivity || exact I || exact Coq.Init.Logic.I).
  - destruct IH as [->|(pre & o & -> & I)]; [exists [SetHex; SetWidth 2; SetFill 48], (Number n)|exists (SetHex :: SetWidth 2 :: SetFill 48 :: Number n :: pre), o];
      split; (reflexivity || exact I || exact Coq.Init.Logic.I).
Qed.

(* C118, exceptions(failbit): the device has the same octets; there is an exception
   exactly if something before the last insertion of the frame does not fit (y is
   the text before it, z its own text). *)
Theorem C118_failbit_partial : forall m s room f x s', print m s f = Ok (x, s') ->
  exists ops last y s1 z, dump_ops m f = Ok (ops ++ [last]) /\ run s ops = (y, s1) /\ exec s1 last = (z, s') /\ x = y ++ z /\
  exists d thrown, print_failbit m (Ostream s true room) f = Ok (firstn (N.to_nat room) x, d, thrown) /\
    (thrown = true <-> room < size y) /\ (o_good d = true <-> size x <= room).
Proof.
  intros m s room f x s' H. apply print_ops in H. destruct H as (ops & O & R).
  destruct (dump_orderly m f ops O) as [OR _]. destruct (orderly_last ops OR) as [->|(pre & o & -> & I)].
  { exfalso. destruct (print_form m f [] O) as (? & ? & ? & ? & ? & E & _). discriminate E. }
  destruct (run s pre) as [y s1] eqn:RP. destruct (exec s1 o) as [z s2] eqn:E.
  assert (X : x = y ++ z /\ s' = s2).
  { clear -R RP E. revert s x y RP R. induction pre as [|o1 pre IH]; intros s x y RP R; cbn [run app] in *.
    - apply pair_inj in RP. destruct RP as [<- <-]. rewrite E in R. apply pair_inj in R. destruct R as [<- <-]. rewrite app_nil_r. auto.
    - destruct (exec s o1) as [x1 t1]. destruct (run t1 pre) as [x2 t2] eqn:A. destruct (run t1 (pre ++ [o])) as [x3 t3] eqn:B.
      apply pair_inj in RP. destruct RP as [<- ->]. apply pair_inj in R. destruct R as [<- ->].
      destruct (IH t1 x3 x2 A B) as [-> ->]. rewrite app_assoc. auto. }
  destruct X as [-> ->]. exists pre, o, y, s1, z. split; [exact O|]. split; [exact RP|]. split; [exact E|]. split; [reflexivity|].
  unfold print_failbit. rewrite O. cbn [bind]. rewrite size_app. destruct (N.lt_ge_cases room (size y)) as [L|L].
  - destruct (failbit_cut pre s room y s1 o RP L I) as (d & -> & G). exists d, true. split.
    + do 3 f_equal. rewrite firstn_app. replace (N.to_nat room - length y)%nat with 0%nat by (unfold size in L; lia). cbn [firstn]. rewrite app_nil_r. reflexivity.
    + split; [split; [intros _; exact L|reflexivity]|]. rewrite G. split; [discriminate|lia].
  - rewrite (failbit_fits pre s room y s1 RP L [o]). cbn [run_failbit].
    destruct (exec_failbit_cases s1 (room - size y) o) as (z' & s2' & E' & C). rewrite E in E'. apply pair_inj in E'. destruct E' as [<- <-].
    destruct C as [(F & ->)|(_ & F & ->)].
    + exists (Ostream s2 true (room - size y - size z)), false. split; [|split; [split; [discriminate|lia]|cbn [o_good]; split; [intros _; lia|reflexivity]]].
      do 3 f_equal. rewrite app_nil_r. symmetry. apply firstn_all2. unfold size in *. rewrite app_length. lia.
    + exists (Ostream s2 false 0), false. split; [|split; [split; [discriminate|lia]|cbn [o_good]; split; [discriminate|lia]]].
      do 3 f_equal. rewrite app_nil_r, firstn_app. f_equal; [symmetry; apply firstn_all2; unfold size in L; lia|]. f_equal. unfold size. lia.
Qed.

(* With exceptions(failbit) alone a frame can be cut without an exception. *)
Theorem C118_failbit_refuted : forall m s h l x s', print m s (PingFrame h l) = Ok (x, s') ->
  exists room d, print_failbit m (Ostream s true room) (PingFrame h l) = Ok (firstn (N.to_nat room) x, d, false) /\
    room < size x /\ o_good d = false.
Proof.
  intros m s h l x s' H. destruct (C118_failbit_partial m s 0 (PingFrame h l) x s' H) as (ops & o & y & s1 & z & O & R & E & X & _).
  assert (L : 0 < size z).
  { cbn [dump_ops] in O. apply ok_inj in O.
    assert (o = newline) as ->.
    { assert (Q : last (ops ++ [o]) (Number 0) = o) by apply last_last. rewrite <- O in Q. rewrite <- Q. rewrite !app_assoc. apply last_last. }
    unfold newline in E. cbn [exec] in E. apply pair_inj in E. destruct E as [<- _]. unfold pad_string. destruct (adjust s1); rewrite size_app; unfold nl, size; cbn [length]; lia. }
  destruct (C118_failbit_partial m s (size y) (PingFrame h l) x s' H) as (ops2 & o2 & y2 & s2 & z2 & O2 & R2 & E2 & X2 & d & t & P & T & G).
  rewrite O in O2. apply ok_inj in O2. apply app_inj_tail in O2. destruct O2 as [<- <-]. rewrite R in R2. apply pair_inj in R2. destruct R2 as [<- <-].
  assert (t = false) as -> by (destruct t; [pose proof (proj1 T eq_refl); lia|reflexivity]).
  assert (S : size y < size x) by (rewrite X, size_app; lia).
  exists (size y), d. split; [exact P|]. split; [exact S|].
  destruct (o_good d); [pose proof (proj1 G eq_refl); lia|reflexivity].
Qed.

Example C118_case :
  (exists x s, print Strict fresh ping = Ok (x, s) /\ size x = 156) /\
  (exists d, print_throw Strict (Ostream fresh true 10) ping = Ok (octets "=== PING_S", d, true)) /\
  (exists x d, print_throw Strict (Ostream fresh true 135) ping = Ok (x, d, true) /\ base (o_fmt d) = Hex) /\
  (exists x d, print_throw Strict (Ostream fresh true 156) ping = Ok (x, d, false)) /\
  (exists x d, print_all Strict (Ostream fresh true 400) [ping; settings; ping] = Ok (x, 2%nat, d, true) /\ size x = 400) /\
  (exists d, print_failbit Strict (Ostream fresh true 10) ping = Ok (octets "=== PING_S", d, true)) /\
  (exists x d, print_failbit Strict (Ostream fresh true 155) ping = Ok (x, d, false) /\ size x = 155) /\
  (exists xs, texts Strict fresh [ping; settings; ping] xs).
Proof.
  split; [do 2 eexists; split; vm_compute; reflexivity|]. split; [eexists; vm_compute; reflexivity|].
  split; [do 2 eexists; split; vm_compute; reflexivity|]. split; [do 2 eexists; vm_compute; reflexivity|].
  split; [do 2 eexists; split; vm_compute; reflexivity|].
  split; [eexists; vm_compute; reflexivity|]. split; [do 2 eexists; split; vm_compute; reflexivity|].
  eexists. eapply texts_cons; [vm_compute; reflexivity|]. eapply texts_cons; [vm_compute; reflexivity|]. eapply texts_cons; [vm_compute; reflexivity|]. constructor.
Qed.

Print Assumptions C118_prefix.
Print Assumptions C118_failed.
Print Assumptions C118_frames.
Print Assumptions C118_format_partial.
Print Assumptions C118_format_refuted.
Print Assumptions C118_failbit_partial.
Print Assumptions C118_failbit_refuted.
