(* Property C115: frames, header block entries and dynamic tables can be copied,
   moved and swapped like other values. *)
From Coq Require Import ZArith NArith PeanoNat List Bool Lia ZifyBool ZifyNat ZifyN.
From Verif Require Import Base Arith Util IntRep HeaderType DynTable DynTableProofs HeaderEnc HeaderDec FrameHeader Frames FrameBuilder
  Dump Ssl Client SpecBits SpecInt SpecHpack SpecFrame HeaderProofs FrameProofs BlockProofs PropHeader PropSsl PropClient PropRequest Values.
Import ListNotations.
Local Open Scope N_scope.
Ltac Zify.zify_post_hook ::= Z.div_mod_to_equations.

(* ---- Specification ---- *)

(* The variables an operation gives another content. *)
Definition touches (o : op) (z : nat) : Prop :=
  match o with
  | Make x _ | Copy x _ | PushTo x _ | LimitTo x _ | Drop x => z = x
  | Move x y | Swap x y => z = x \/ z = y
  end.

(* holds p z v: after the operations p, the latest first, z is an object with
   the value v, and nothing was moved out of it since it got it. *)
Inductive holds : list op -> nat -> object -> Prop :=
| made : forall p x v, holds (Make x v :: p) x v
| copied : forall p x y v, holds p y v -> holds (Copy x y :: p) x v
| moved : forall p x y v, x <> y -> holds p y v -> holds (Move x y :: p) x v
| swapped_to : forall p x y v, holds p y v -> holds (Swap x y :: p) x v
| swapped_from : forall p x y v, holds p x v -> holds (Swap x y :: p) y v
| pushed : forall p x h t t', holds p x (ATable t) -> dt_push t h = Ok t' -> holds (PushTo x h :: p) x (ATable t')
| limited : forall p x n t t', holds p x (ATable t) -> dt_update_size t n = Ok t' -> holds (LimitTo x n :: p) x (ATable t')
| kept : forall p o z v, ~ touches o z -> holds p z v -> holds (o :: p) z v.

(* Every variable is declared with a class; objects come from constructors. *)
Definition typed (ty : nat -> cls) (o : op) : Prop :=
  match o with
  | Make x v => class_of v = ty x /\ (forall t, v = ATable t -> exists n, t = new_table n)
  | Copy x y | Move x y | Swap x y => ty x = ty y
  | PushTo x _ | LimitTo x _ => ty x = TableClass
  | Drop _ => True
  end.

(* The operation reads only variables that hold a value, moves none into
   itself, and adds no entry larger than the table (which is C15). *)
Definition reads_values (p : list op) (o : op) : Prop :=
  match o with
  | Make _ _ => True
  | Copy _ y => exists v, holds p y v
  | Move x y => x <> y /\ exists v, holds p y v
  | Swap x y => (exists v, holds p x v) /\ exists v, holds p y v
  | PushTo x h => forall v, holds p x v -> exists t, v = ATable t /\ 32 + size (fst h) + size (snd h) <= dt_max t
  | LimitTo x _ => True
  | Drop x => True
  end /\
  match o with PushTo x _ | LimitTo x _ | Drop x => exists v, holds p x v | _ => True end.

Inductive careful (ty : nat -> cls) : list op -> Prop :=
| careful_none : careful ty []
| careful_next : forall p o, careful ty p -> typed ty o -> reads_values p o -> careful ty (o :: p).

Definition nothing : store := fun _ => None.

(* ---- Proofs ---- *)

Lemma put_same : forall s x o, put s x o x = o.
Proof. intros. unfold put. rewrite Nat.eqb_refl. reflexivity. Qed.
Lemma put_other : forall s x o z, z <> x -> put s x o z = s z.
Proof. intros s x o z H. unfold put. destruct (Nat.eqb_spec z x); [contradiction|reflexivity]. Qed.

Lemma class_remains : forall o, class_of (remains o) = class_of o.
Proof. intros [f|e|t]; [destruct f|unfold remains; reflexivity|]; reflexivity. Qed.

Lemma cls_eqb_refl : forall c, cls_eqb c c = true.
Proof. intros [n| |]; cbn; [apply N.eqb_refl|reflexivity|reflexivity]. Qed.

(* Every existing object has the class of its variable. *)
Definition in_class (ty : nat -> cls) (s : store) : Prop := forall x o, s x = Some o -> class_of o = ty x.

Lemma fits_typed : forall ty s x o, in_class ty s -> class_of o = ty x -> fits (s x) o = true.
Proof.
  intros ty s x o I E. unfold fits. destruct (s x) as [c|] eqn:Q; [|reflexivity].
  rewrite (I _ _ Q), E. apply cls_eqb_refl.
Qed.

Lemma in_class_put : forall ty s x o, in_class ty s -> class_of o = ty x -> in_class ty (put s x (Some o)).
Proof.
  intros ty s x o I E z v H. destruct (Nat.eq_dec z x) as [->|D].
  - rewrite put_same in H. injection H as <-. exact E.
  - rewrite put_other in H by exact D. exact (I _ _ H).
Qed.

Lemma in_class_none : forall ty s x, in_class ty s -> in_class ty (put s x None).
Proof.
  intros ty s x I z v H. destruct (Nat.eq_dec z x) as [->|D].
  - rewrite put_same in H. discriminate H.
  - rewrite put_other in H by exact D. exact (I _ _ H).
Qed.

Lemma perform_app : forall p q s, perform s (p ++ q) =
  match perform s p with Some (Ok s') => perform s' q | r => r end.
Proof.
  induction p as [|o p IH]; intros q s; [reflexivity|]. cbn [perform app].
  destruct (step s o) as [[s'| | |]|]; try reflexivity. apply IH.
Qed.

(* Tables that hold a value are tables the library makes. *)
Lemma held_tables : forall ty p, careful ty p -> forall x t, holds p x (ATable t) -> dt_ok t.
Proof.
  intros ty p C. induction C as [|p o C IH T R]; intros x t H; [inversion H|].
  inversion H; subst; try (eapply IH; eassumption).
  - destruct T as (_ & T). destruct (T t eq_refl) as (n & ->). apply new_table_ok.
  - match goal with A : dt_push ?t0 _ = Ok _, B : holds _ _ (ATable ?t0) |- _ =>
      destruct (dt_push_ok t0 _ _ (IH _ _ B) A) as (Q & _); exact Q end.
  - match goal with A : dt_update_size ?t0 _ = Ok _, B : holds _ _ (ATable ?t0) |- _ =>
      destruct (dt_update_ok t0 _ _ (IH _ _ B) A) as (Q & _); exact Q end.
Qed.

Lemma move_to : forall s x y o, x <> y -> move s x y o x = Some o.
Proof. intros s x y o H. unfold move. destruct (Nat.eqb_spec x y); [contradiction|]. apply put_same. Qed.
Lemma move_other : forall s x y o z, z <> x -> z <> y -> move s x y o z = s z.
Proof.
  intros s x y o z H K. unfold move. destruct (Nat.eqb_spec x y); rewrite ?put_other by assumption; reflexivity.
Qed.
Lemma in_class_move : forall ty s x y o, in_class ty s -> class_of o = ty y -> ty x = ty y -> in_class ty (move s x y o).
Proof.
  intros ty s x y o I E T. unfold move. destruct (Nat.eqb_spec x y).
  - apply in_class_put; [exact I|]. rewrite class_remains. congruence.
  - apply in_class_put; [apply in_class_put; [exact I|]|congruence]. rewrite class_remains. exact E.
Qed.

Lemma careful_runs : forall ty p, careful ty p -> exists s, perform nothing (rev p) = Some (Ok s) /\ in_class ty s /\
  forall x v, holds p x v -> s x = Some v.
Proof.
  intros ty p C. induction C as [|p o C (s & P & I & H) T R].
  - exists nothing. split; [reflexivity|]. split; [intros x v E; discriminate E|]. intros x v E. inversion E.
  - assert (G : exists s', step s o = Some (Ok s') /\ in_class ty s' /\ forall x v, holds (o :: p) x v -> s' x = Some v).
    { assert (Ty : forall z w, holds p z w -> class_of w = ty z) by (intros z w E; exact (I _ _ (H _ _ E))).
      destruct o as [x o|x y|x y|x y|x h|x n|x]; cbn [step]; cbn [typed reads_values] in T, R.
      - destruct T as (T & _). rewrite (fits_typed ty s x o I T). eexists. split; [reflexivity|].
        split; [apply in_class_put; assumption|]. intros z w E. inversion E as [| | | | | | |? ? ? ? NT HH]; subst; [apply put_same|].
        rewrite put_other by exact NT. apply H. exact HH.
      - destruct R as ((v & V) & _). rewrite (H _ _ V), (fits_typed ty s x v I) by (rewrite (Ty _ _ V); congruence).
        eexists. split; [reflexivity|].
        split; [apply in_class_put; [assumption|rewrite (Ty _ _ V); congruence]|].
        intros z w E. inversion E as [|? ? ? ? HH| | | | | |? ? ? ? NT HH]; subst.
        + rewrite put_same, <- (H _ _ V). apply H. exact HH.
        + rewrite put_other by exact NT. apply H. exact HH.
      - destruct R as ((D & v & V) & _). rewrite (H _ _ V), (fits_typed ty s x v I) by (rewrite (Ty _ _ V); congruence).
        eexists. split; [reflexivity|].
        split; [apply in_class_move; [assumption|apply Ty; exact V|congruence]|].
        intros z w E. inversion E as [| |? ? ? ? _ HH| | | | |? ? ? ? NT HH]; subst.
        + rewrite move_to by exact D. rewrite <- (H _ _ V). apply H. exact HH.
        + cbn [touches] in NT. rewrite move_other by tauto. apply H. exact HH.
      - destruct R as (((v & V) & w & W) & _). rewrite (H _ _ V), (H _ _ W).
        assert (F : fits (Some v) w = true) by (cbn [fits]; rewrite (Ty _ _ V), (Ty _ _ W), T; apply cls_eqb_refl).
        rewrite F. cbv zeta.
        assert (I1 : in_class ty (put s x (Some (remains v)))) by (apply in_class_put; [exact I|rewrite class_remains; apply Ty; exact V]).
        destruct (Nat.eq_dec y x) as [->|D].
        + rewrite put_same. eexists. split; [reflexivity|]. split.
          * apply in_class_put; [apply in_class_move; [exact I1|rewrite class_remains; apply Ty; exact V|reflexivity]|apply Ty; exact V].
          * intros z u E. inversion E as [| | |? ? ? ? HH|? ? ? ? HH| | |? ? ? ? NT HH]; subst.
            -- rewrite put_same, <- (H _ _ V). apply H. exact HH.
            -- rewrite put_same, <- (H _ _ V). apply H. exact HH.
            -- cbn [touches] in NT. rewrite put_other, move_other, put_other by tauto. apply H. exact HH.
        + rewrite put_other by exact D. rewrite (H _ _ W). eexists. split; [reflexivity|]. split.
          * apply in_class_put; [apply in_class_move; [exact I1|apply Ty; exact W|exact T]|rewrite (Ty _ _ V); exact T].
          * intros z u E. inversion E as [| | |? ? ? ? HH|? ? ? ? HH| | |? ? ? ? NT HH]; subst.
            -- rewrite put_other by congruence. rewrite move_to by congruence. rewrite <- (H _ _ W). apply H. exact HH.
            -- rewrite put_same, <- (H _ _ V). apply H. exact HH.
            -- cbn [touches] in NT. rewrite put_other, move_other, put_other by tauto. apply H. exact HH.
      - destruct R as (R & v & V). destruct (R v V) as (t & -> & L). rewrite (H _ _ V).
        pose proof (held_tables ty p C x t V) as OK. pose proof (dt_push_spec t h OK) as S.
        destruct (N.leb_spec (entry_size h) (dt_max t)) as [B|B].
        2:{ unfold entry_size, ENTRY_OVERHEAD_SIZE in B. lia. }
        rewrite S. cbn [bind]. eexists. split; [reflexivity|]. split; [apply in_class_put; [exact I|rewrite T; reflexivity]|].
        intros z w E. inversion E as [| | | | |? ? ? t0 t0' HH Q| |? ? ? ? NT HH]; subst.
        + pose proof (H _ _ HH) as X. rewrite (H _ _ V) in X. injection X as <-. rewrite S in Q. injection Q as <-. apply put_same.
        + rewrite put_other by exact NT. apply H. exact HH.
      - destruct R as (_ & v & V). pose proof (Ty _ _ V) as Q. rewrite T in Q.
        destruct v as [f|e|t]; [discriminate Q|discriminate Q|]. clear Q. rewrite (H _ _ V).
        pose proof (held_tables ty p C x t V) as OK. pose proof (dt_update_spec t n OK) as S. rewrite S. cbn [bind].
        eexists. split; [reflexivity|]. split; [apply in_class_put; [exact I|rewrite T; reflexivity]|].
        intros z w E. inversion E as [| | | | | |? ? ? t0 t0' HH Q|? ? ? ? NT HH]; subst.
        + pose proof (H _ _ HH) as X. rewrite (H _ _ V) in X. injection X as <-. rewrite S in Q. injection Q as <-. apply put_same.
        + rewrite put_other by exact NT. apply H. exact HH.
      - destruct R as (_ & v & V). rewrite (H _ _ V). eexists. split; [reflexivity|]. split; [apply in_class_none; exact I|].
        intros z w E. inversion E as [| | | | | | |? ? ? ? NT HH]; subst. rewrite put_other by exact NT. apply H. exact HH. }
    destruct G as (s' & G & I' & H'). exists s'. split; [|split; assumption].
    cbn [rev]. rewrite perform_app, P. cbn [perform]. rewrite G. reflexivity.
Qed.

(* ---- Theorems ---- *)

(* A program that does not look at an object it has moved from finds every value
   where it put it, whatever it copies, moves and swaps, also with itself. *)
Theorem C115_values_partial : forall ty p, careful ty p ->
  exists s, perform nothing (rev p) = Some (Ok s) /\ forall x v, holds p x v -> s x = Some v.
Proof. intros ty p C. destruct (careful_runs ty p C) as (s & P & _ & H). exists s. split; assumption. Qed.

(* A copy has nothing in common with its original: what is done to the one
   afterwards (q) does not show in the other. *)
Theorem C115_copy_independent_partial : forall ty p q x y v, x <> y -> careful ty (q ++ Copy x y :: p) -> holds p y v ->
  exists s, perform nothing (rev (q ++ Copy x y :: p)) = Some (Ok s) /\
  (Forall (fun o => ~ touches o y) q -> s y = Some v) /\ (Forall (fun o => ~ touches o x) q -> s x = Some v).
Proof.
  intros ty p q x y v D C H. destruct (C115_values_partial ty _ C) as (s & P & G). exists s. split; [exact P|].
  assert (K : forall z, holds (Copy x y :: p) z v -> Forall (fun o => ~ touches o z) q -> s z = Some v).
  { intros z Z F. apply G. clear - Z F. induction F as [|o q N _ IH]; [exact Z|]. cbn [app]. apply kept; assumption. }
  split; apply K; [apply kept; [|exact H]; cbn; congruence|apply copied; exact H].
Qed.

(* An object that was moved from, or moved into itself, can be given a new value
   and is then as good as new. *)
Theorem C115_reuse_partial : forall ty p x v, careful ty p -> typed ty (Make x v) ->
  exists s, perform nothing (rev (Make x v :: p)) = Some (Ok s) /\ s x = Some v.
Proof.
  intros ty p x v C T. destruct (C115_values_partial ty (Make x v :: p)) as (s & P & G).
  - constructor; [exact C|exact T|]. split; exact Logic.I.
  - exists s. split; [exact P|]. apply G. constructor.
Qed.

Lemma left_prefix : forall host f b, payload_bytes host f = Ok b ->
  exists k, payload_bytes host (frame_left f) = Ok (firstn k b).
Proof.
  intros host f b H. destruct f; cbn [payload_bytes frame_left] in *;
    try (exists (length b); rewrite H, firstn_all; reflexivity); try (exists 0%nat; reflexivity).
  unfold goaway_payload_bytes in *. cbn [g_reserved g_last_stream_id g_error_code g_debug] in *.
  destruct (shl31 (g_reserved p)) as [r| | |]; try discriminate H. cbn [bind] in *. cbv zeta in *.
  match type of H with Ok (?a ++ ?c ++ ?d) = _ => exists (length (a ++ c)); assert (E : b = (a ++ c) ++ d) by (rewrite <- app_assoc; congruence) end.
  rewrite E, firstn_app, firstn_all, Nat.sub_diag. cbn [firstn]. rewrite !app_nil_r. reflexivity.
Qed.

(* An object that was moved from is not empty: a frame keeps its header, with the
   length of the payload that is gone. *)
Theorem C115_moved_frame_refuted : forall host f w, wframe_ok w -> serialize host f = Ok (wire w) ->
  exists k, 9 <= k <= size (wire w) /\ serialize host (frame_left f) = Ok (firstn (N.to_nat k) (wire w)) /\
  (k < size (wire w) -> forall next w1 tail, wframe_ok w1 ->
    firstn (N.to_nat k) (wire w) ++ next = wire w1 ++ tail -> size tail < size next).
Proof.
  intros host f w W S. unfold serialize in *. destruct (payload_bytes host f) as [b| | |] eqn:P; try discriminate S.
  cbn [bind] in S. pose proof (f_equal (fun r => match r with Ok a => a | _ => [] end) S) as E. cbv beta iota in E.
  destruct (left_prefix host f b P) as (j & J). rewrite J. cbn [bind].
  assert (F : frame_fh (frame_left f) = frame_fh f) by (destruct f; reflexivity). rewrite F.
  pose proof (serialize_fh_size host (frame_fh f)) as H9. set (hd := serialize_fh host (frame_fh f)) in *.
  pose proof (wire_size w W) as WS.
  assert (LH : length hd = 9%nat) by (unfold size in H9; lia).
  assert (LB : length (wire w) = (9 + length b)%nat) by (rewrite <- E, app_length, LH; reflexivity).
  exists (N.of_nat (9 + Nat.min j (length b))). split; [unfold size; lia|]. split.
  - rewrite Nat2N.id, <- E. f_equal. rewrite firstn_app, LH.
    replace (firstn (9 + Nat.min j (length b)) hd) with hd by (symmetry; apply firstn_all2; lia).
    f_equal. replace (9 + Nat.min j (length b) - 9)%nat with (Nat.min j (length b)) by lia.
    destruct (Nat.le_ge_cases j (length b)) as [A|A]; [rewrite Nat.min_l by exact A; reflexivity|].
    rewrite Nat.min_r, !firstn_all2 by lia. reflexivity.
  - intros K next w1 tail W1 Q. rewrite Nat2N.id in Q.
    destruct (wire_split w W) as (h & WE & HS & HB). destruct (wire_split w1 W1) as (h1 & WE1 & HS1 & HB1).
    assert (HH : h = h1).
    { apply (f_equal (firstn 9)) in Q. rewrite WE1, <- app_assoc in Q.
      assert (L1 : length h1 = 9%nat) by (unfold size in HS1; lia). assert (L2 : length h = 9%nat) by (unfold size in HS; lia).
      rewrite (firstn_app 9 h1), L1, Nat.sub_diag in Q. rewrite firstn_O in Q. rewrite app_nil_r in Q.
      rewrite (firstn_all2 h1) in Q by lia.
      rewrite firstn_app, firstn_firstn, firstn_length in Q.
      replace (Nat.min 9 (9 + Nat.min j (length b))) with 9%nat in Q by lia.
      replace (9 - Nat.min (9 + Nat.min j (length b)) (length (wire w)))%nat with 0%nat in Q by lia.
      rewrite firstn_O in Q. rewrite app_nil_r, WE, firstn_app, L2, Nat.sub_diag in Q. rewrite firstn_O in Q.
      rewrite app_nil_r, firstn_all2 in Q by lia. exact Q. }
    rewrite HH, HB1 in HB. assert (SZ : size (w_payload w1) = size (w_payload w)) by (unfold header_of in HB; congruence).
    pose proof (wire_size w1 W1) as WS1. apply (f_equal (@length N)) in Q. rewrite !app_length, firstn_length in Q.
    unfold size in *. lia.
Qed.

(* Its text cannot be printed: a DATA frame that was moved from reads outside
   its payload. *)
Theorem C115_moved_text_refuted : forall m hex h p, fh_length h = size p -> 0 < size p ->
  exists u, dump m hex (frame_left (DataFrame h p)) = UB u.
Proof.
  intros m hex h p L P. cbn [frame_left dump]. unfold dump_data.
  destruct (is_flag_set (fh_flags h) F_PADDED); cbn [bind].
  - exists OobRead. reflexivity.
  - destruct (address_of m [] 0) as [[]| |u|] eqn:A; cbn [bind]; try (unfold address_of in A; destruct m; discriminate A).
    + unfold data_length. unfold vrange. change (size (@nil N)) with 0. rewrite L.
      destruct (N.leb_spec (0 + size p) 0); [lia|]. exists OobRead. reflexivity.
    + exists u. reflexivity.
Qed.

(* A dynamic table keeps the size of the entries that are gone; it must not be
   added to once the limit is reached, and its limit must not be lowered. *)
Theorem C115_moved_table_refuted : forall initial ops t, run (new_table initial) ops = Ok t -> dt_entries t <> [] ->
  dt_entries (table_left t) = [] /\ 0 < dt_size (table_left t) /\
  (forall n, n < dt_size t -> dt_update_size (table_left t) n = UB EmptyBack) /\
  (forall h, dt_max t < dt_size t + (32 + size (fst h) + size (snd h)) -> dt_push (table_left t) h = UB EmptyBack).
Proof.
  intros initial ops t R E. destruct (run_ok ops _ _ (new_table_ok initial) R) as (S & M).
  split; [reflexivity|]. split; [|split].
  - cbn [table_left dt_size]. rewrite S. destruct (dt_entries t) as [|e es]; [contradiction|]. rewrite total_cons.
    pose proof (field_size_ge e). lia.
  - intros n L. unfold dt_update_size, resize_table, table_left. cbn [dt_entries dt_size dt_max rev resize_loop].
    destruct (N.ltb_spec n (dt_size t)); [reflexivity|lia].
  - intros h L. unfold dt_push, resize_table, table_left. cbn [dt_entries dt_size dt_max rev resize_loop].
    unfold entry_size, ENTRY_OVERHEAD_SIZE. destruct (N.ltb_spec (dt_max t) (dt_size t + (size (fst h) + size (snd h) + 32))); [reflexivity|lia].
Qed.

(* A header block entry that was moved from is sent as a field whose name and
   value are empty. *)
Theorem C115_moved_entry_refuted : forall k h mode t,
  exists out t', encode_header (entry_left (HEntry (lib_prefix k) (EHeader h))) mode t = Ok out /\
    means (rfc_table t) out ([], []) t'.
Proof.
  intros k h mode t. cbn [entry_left e_content e_prefix].
  destruct (C58_means_header_partial k ([], []) mode t) as (out & E & A & B).
  - intros b B. destruct B.
  - intros b B. destruct B.
  - right. discriminate.
  - exists out. destruct (in_tables_dec t ([], [])) as [I|I].
    + exists (rfc_table t). split; [exact E|]. exact (A I).
    + eexists. split; [exact E|]. exact (B I).
Qed.

(* Objects of one class: the frame classes, entries and tables. *)
Inductive same_class : object -> object -> Prop :=
| both_raw : forall h p h' p', same_class (AFrame (RawFrame h p)) (AFrame (RawFrame h' p'))
| both_data : forall h p h' p', same_class (AFrame (DataFrame h p)) (AFrame (DataFrame h' p'))
| both_headers : forall r h b o d r' h' b' o' d', same_class (AFrame (HeadersFrame r h b o d)) (AFrame (HeadersFrame r' h' b' o' d'))
| both_priority : forall h p h' p', same_class (AFrame (PriorityFrame h p)) (AFrame (PriorityFrame h' p'))
| both_rst_stream : forall h e h' e', same_class (AFrame (RstStreamFrame h e)) (AFrame (RstStreamFrame h' e'))
| both_settings : forall h p h' p', same_class (AFrame (SettingsFrame h p)) (AFrame (SettingsFrame h' p'))
| both_push_promise : forall r h p r' h' p', same_class (AFrame (PushPromiseFrame r h p)) (AFrame (PushPromiseFrame r' h' p'))
| both_ping : forall h p h' p', same_class (AFrame (PingFrame h p)) (AFrame (PingFrame h' p'))
| both_goaway : forall h p h' p', same_class (AFrame (GoawayFrame h p)) (AFrame (GoawayFrame h' p'))
| both_window_update : forall h r w h' r' w', same_class (AFrame (WindowUpdateFrame h r w)) (AFrame (WindowUpdateFrame h' r' w'))
| both_continuation : forall r h b r' h' b', same_class (AFrame (ContinuationFrame r h b)) (AFrame (ContinuationFrame r' h' b'))
| both_entries : forall e e', same_class (AnEntry e) (AnEntry e')
| both_tables : forall t t', same_class (ATable t) (ATable t').

(* The compiler accepts assignments between objects of one class and no others. *)
Theorem C115_classes : forall s x y a b, s x = Some a -> s y = Some b ->
  (same_class a b <-> step s (Copy x y) <> None) /\ (same_class a b <-> step s (Move x y) <> None) /\ (same_class a b <-> step s (Swap x y) <> None).
Proof.
  intros s x y a b A B. assert (F : fits (Some a) b = true <-> same_class a b).
  { cbn [fits]. split.
    - destruct a as [a|a|a], b as [b|b|b]; try (intros X; discriminate X); try (intros _; constructor). destruct a, b; intros X; try discriminate X; constructor.
    - intros S. destruct S; reflexivity. }
  cbn [step]. rewrite A, B. destruct (fits (Some a) b); split; [|split| |split].
  - split; [discriminate|intros _; apply F; reflexivity].
  - split; [discriminate|intros _; apply F; reflexivity].
  - split; [|intros _; apply F; reflexivity]. intros _. cbv zeta. destruct (put s x (Some (remains a)) y) as [w'|] eqn:P.
    + match goal with |- ?g <> None => destruct g eqn:Q; [discriminate|discriminate Q] end.
    + exfalso. unfold put in P. destruct (Nat.eqb y x); [discriminate P|congruence].
  - split; [intros X; apply F in X; discriminate X|intros X; contradiction (X eq_refl)].
  - split; [intros X; apply F in X; discriminate X|intros X; contradiction (X eq_refl)].
  - split; [intros X; apply F in X; discriminate X|intros X; contradiction (X eq_refl)].
Qed.

(* A DATA frame and a table, copied, swapped, moved and added to; the variable
   moved from is given a new value. *)
Ltac held :=
  repeat first
    [ apply made | apply copied | apply moved; [discriminate|] | apply swapped_to | apply swapped_from
    | apply pushed with default_table; [|reflexivity] | apply kept; [cbn; intuition discriminate|] ].
Definition hi : frame := mk_data 0 1 [104; 105].
Definition field_ab : header := ([97], [98]).
Definition shuffled : list op :=
  [PushTo 3 field_ab; Copy 4 3; Make 0 (AFrame (mk_data 1 3 [])); Move 2 0; Swap 0 1;
   Swap 1 1; Copy 1 0; Make 3 (ATable default_table); Make 0 (AFrame hi)].
Example C115_case :
  careful (fun x => if Nat.ltb x 3 then FrameClass 1 else TableClass) shuffled /\
  holds shuffled 2 (AFrame hi) /\ holds shuffled 1 (AFrame hi) /\ holds shuffled 4 (ATable default_table) /\
  holds shuffled 3 (ATable (DynTable [field_ab] 34 4096)) /\
  serialize LittleEndian hi = Ok (wire (WFrame 0 0 0 1 [104; 105])) /\
  serialize LittleEndian (frame_left hi) = Ok [0; 0; 2; 0; 0; 0; 0; 0; 1] /\
  run (new_table 4096) [DynTableProofs.Push field_ab] = Ok (DynTable [field_ab] 34 4096) /\
  dt_update_size (table_left (DynTable [field_ab] 34 4096)) 33 = UB EmptyBack.
Proof.
  unfold shuffled.
  assert (U : forall l v, careful (fun x => if Nat.ltb x 3 then FrameClass 1 else TableClass) l -> holds l 3 v ->
    forall w, holds l 3 w -> w = v).
  { intros l v C H w K. destruct (C115_values_partial _ l C) as (s & _ & G). pose proof (G _ _ H) as A. rewrite (G _ _ K) in A.
    injection A as <-. reflexivity. }
  split; [|split; [held|split; [held|split; [held|split; [held|repeat split]]]]].
  apply careful_next; [|reflexivity|].
  - repeat (apply careful_next;
      [|cbn; try (split; [reflexivity|intros t E; try discriminate E; injection E as <-; exists 4096; reflexivity]); reflexivity
       |cbn; repeat split; try discriminate; eexists; held]).
    apply careful_none.
  - split; [|eexists; held]. intros v V.
    match type of V with holds ?l 3 _ =>
      assert (E : v = ATable default_table) end.
    { refine (U _ (ATable default_table) _ _ v V); [|held].
      repeat (apply careful_next;
        [|cbn; try (split; [reflexivity|intros t E; try discriminate E; injection E as <-; exists 4096; reflexivity]); reflexivity
         |cbn; repeat split; try discriminate; eexists; held]).
      apply careful_none. }
    exists default_table. split; [exact E|]. intros Q. discriminate Q.
Qed.

Print Assumptions C115_values_partial.
Print Assumptions C115_copy_independent_partial.
Print Assumptions C115_reuse_partial.
Print Assumptions C115_moved_frame_refuted.
Print Assumptions C115_moved_text_refuted.
Print Assumptions C115_moved_table_refuted.
Print Assumptions C115_moved_entry_refuted.
Print Assumptions C115_classes.
