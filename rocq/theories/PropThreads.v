(* Property C90: connections made by several threads. *)
From Coq Require Import NArith List Bool Lia Arith.
From Verif Require Import Base Connect PropConnect Threads.
Import ListNotations.
Local Open Scope nat_scope.

(* The BIO_read and BIO_write calls are the only ones made while a connection
   is used. *)
Definition only_io (threads : list (list connection)) : Prop :=
  Forall (Forall (fun k => Forall (fun c => c = BIO_read \/ c = BIO_write) (cn_io k))) threads.

(* The calls one thread made. *)
Definition own (i : nat) (tr : list (nat * ssl_call)) : list ssl_call :=
  map snd (filter (fun x => Nat.eqb (fst x) i) tr).

Definition is_init (c : ssl_call) : bool :=
  match c with SSL_library_init | SSL_load_error_strings => true | _ => false end.

(* Calls that configure, make or use a connection. *)
Definition on_connection (c : ssl_call) : bool :=
  match c with
  | SSL_CTX_new _ | BIO_new_ssl_connect _ | SSL_library_init | SSL_load_error_strings | BIO_free_all | SSL_CTX_free => false
  | _ => true
  end.

(* The calls of the connections of a thread, made one after the other; firsts
   says which of them initialised the library. *)
Fixpoint one_by_one (ks : list connection) (firsts : list bool) : list ssl_call :=
  match ks, firsts with
  | k :: ks', first :: firsts' =>
      lifetime (cn_env k) (cn_mode k) first (cn_host k) (cn_port k) (cn_io k) ++ one_by_one ks' firsts'
  | _, _ => []
  end.

(* ---- the actions of a connection ---- *)

(* What actions amount to when a list says which Once runs load_ssl_lib. *)
Inductive expands : list bool -> list action -> list ssl_call -> Prop :=
| expands_nil : expands [] [] []
| expands_call : forall bs c p cs, expands bs p cs -> expands bs (Call c :: p) (c :: cs)
| expands_once : forall (b : bool) bs p cs, expands bs p cs ->
    expands (b :: bs) (Once :: p) ((if b then load_ssl_lib else []) ++ cs).

Lemma expands_app : forall p q bs cs, expands bs (p ++ q) cs ->
  exists b1 b2 c1 c2, bs = b1 ++ b2 /\ cs = c1 ++ c2 /\ expands b1 p c1 /\ expands b2 q c2.
Proof.
  induction p as [|[c|] p IH]; intros q bs cs E; cbn [app] in E.
  - exists [], bs, [], cs. repeat split; [constructor|exact E].
  - inversion E as [|? ? ? cs' E'|]; subst. destruct (IH _ _ _ E') as (b1 & b2 & c1 & c2 & -> & -> & E1 & E2).
    exists b1, b2, (c :: c1), c2. repeat split; [constructor; exact E1|exact E2].
  - inversion E as [| |b ? ? cs' E']; subst. destruct (IH _ _ _ E') as (b1 & b2 & c1 & c2 & -> & -> & E1 & E2).
    exists (b :: b1), b2, ((if b then load_ssl_lib else []) ++ c1), c2. repeat split; [rewrite app_assoc; reflexivity|constructor; exact E1|exact E2].
Qed.

Lemma expands_snoc_call : forall p bs cs c, expands bs p cs -> expands bs (p ++ [Call c]) (cs ++ [c]).
Proof. intros p bs cs c E. induction E; cbn [app]; [repeat constructor|constructor; exact IHE|]. rewrite <- app_assoc. constructor. exact IHE. Qed.

Lemma expands_snoc_once : forall p bs cs b, expands bs p cs ->
  expands (bs ++ [b]) (p ++ [Once]) (cs ++ if b then load_ssl_lib else []).
Proof.
  intros p bs cs b E. induction E; cbn [app]; [|constructor; exact IHE|].
  - rewrite <- (app_nil_r (if b then load_ssl_lib else [])). constructor. constructor.
  - rewrite <- app_assoc. constructor. exact IHE.
Qed.

Lemma expands_calls : forall l bs cs, expands bs (map Call l) cs -> cs = l.
Proof. induction l as [|c l IH]; intros bs cs E; inversion E; subst; [reflexivity|]. f_equal. eapply IH; eassumption. Qed.

Lemma body_first : forall env mode first host port,
  fst (connect_body env mode first host port) = (if first then load_ssl_lib else []) ++ fst (connect_body env mode false host port) /\
  snd (connect_body env mode first host port) = snd (connect_body env mode false host port).
Proof. intros env mode [] host port; split; reflexivity. Qed.

Lemma guarded_first : forall d pre (p q : code), fst p = pre ++ fst q -> snd p = snd q ->
  fst (guarded d p) = pre ++ fst (guarded d q) /\ snd (guarded d p) = snd (guarded d q).
Proof.
  intros d pre [a r] [b r'] F S. cbn [fst snd] in *. subst a r'. unfold guarded. cbn [fst snd].
  destruct r; cbn [fst snd]; split; try reflexivity. rewrite app_assoc. reflexivity.
Qed.

(* The actions are the sequential model of a connection, whoever initialises
   the library. *)
Lemma connection_expands : forall k bs cs, expands bs (connection_actions k) cs ->
  exists first, cs = lifetime (cn_env k) (cn_mode k) first (cn_host k) (cn_port k) (cn_io k).
Proof.
  intros [env mode host port io] bs cs E. unfold connection_actions, connect_actions in E. cbn [cn_env cn_mode cn_host cn_port cn_io] in *.
  unfold lifetime, ssl_connect.
  destruct (env_ctx_new env) eqn:C; cbn [negb] in E.
  2:{ exists false. apply (expands_calls [SSL_CTX_new false]) in E. subst cs. reflexivity. }
  destruct (env_bio_new env) eqn:B; cbn [negb] in E.
  2:{ exists false. apply (expands_calls [SSL_CTX_new true; BIO_new_ssl_connect false; SSL_CTX_free]) in E. subst cs. reflexivity. }
  assert (X : exists (first : bool) cs', cs = [SSL_CTX_new true; BIO_new_ssl_connect true] ++ (if first then load_ssl_lib else []) ++ cs' /\
    cs' = let '(l, r) := guarded SSL_CTX_free (guarded BIO_free_all (connect_body env mode false host port)) in
          match r with Ok _ => l ++ io ++ ssl_destroy | _ => l end).
  { destruct (guarded SSL_CTX_free (guarded BIO_free_all (connect_body env mode false host port))) as [l r].
    assert (E' : expands bs (Call (SSL_CTX_new true) :: Call (BIO_new_ssl_connect true) :: Once ::
      map Call (match r with Ok _ => l ++ io ++ ssl_destroy | _ => l end)) cs).
    { destruct r; cbn [app] in E; [|exact E..]. rewrite <- map_app in E. exact E. }
    inversion E' as [|? ? ? ? E1|]; subst. inversion E1 as [|? ? ? ? E2|]; subst. inversion E2 as [| |b ? ? cs' E3]; subst.
    exists b, cs'. split; [reflexivity|]. apply expands_calls in E3. exact E3. }
  destruct X as (first & cs' & -> & ->). exists first.
  destruct (body_first env mode first host port) as [F S].
  destruct (guarded_first BIO_free_all _ _ _ F S) as [F1 S1].
  destruct (guarded BIO_free_all (connect_body env mode first host port)) as [l1 r1].
  destruct (guarded BIO_free_all (connect_body env mode false host port)) as [l2 r2]. cbn [fst snd] in F1, S1. subst l1 r1.
  unfold seqc, require, calls, guarded. cbn [fst snd]. destruct r2; cbn [fst snd app]; rewrite <- ?app_assoc; reflexivity.
Qed.

Lemma thread_expands : forall ks bs cs, expands bs (flat_map connection_actions ks) cs ->
  exists firsts, length firsts = length ks /\ cs = one_by_one ks firsts.
Proof.
  induction ks as [|k ks IH]; intros bs cs E; cbn [flat_map] in E.
  - inversion E; subst. exists []. split; reflexivity.
  - destruct (expands_app _ _ _ _ E) as (b1 & b2 & c1 & c2 & -> & -> & E1 & E2).
    destruct (connection_expands _ _ _ E1) as (first & ->). destruct (IH _ _ E2) as (firsts & L & ->).
    exists (first :: firsts). split; [cbn; congruence|reflexivity].
Qed.

(* ---- lists ---- *)

Lemma nth_set_same : forall A (l : list A) i a b, nth_error l i = Some b -> nth_error (set_nth l i a) i = Some a.
Proof. induction l as [|x l IH]; intros [|i] a b E; try discriminate E; cbn in *; [reflexivity|eapply IH; exact E]. Qed.

Lemma nth_set_other : forall A (l : list A) i j a, i <> j -> nth_error (set_nth l i a) j = nth_error l j.
Proof. induction l as [|x l IH]; intros [|i] [|j] a N; cbn; try reflexivity; [lia|]. apply IH. lia. Qed.

Lemma own_app : forall i a b, own i (a ++ b) = own i a ++ own i b.
Proof. intros. unfold own. rewrite filter_app, map_app. reflexivity. Qed.

Lemma own_one : forall i j c, own i [(j, c)] = if Nat.eqb j i then [c] else [].
Proof. intros i j c. unfold own. cbn. destruct (Nat.eqb j i); reflexivity. Qed.

(* ---- the invariant ---- *)

(* What of load_ssl_lib has been called. *)
Definition loaded_part (o : once_state) (cs : list ssl_call) : Prop :=
  match o with
  | Fresh => cs = []
  | Loading _ rest => cs ++ rest = load_ssl_lib
  | Loaded => cs = load_ssl_lib
  end.

Definition mid (o : once_state) (i : nat) (cs : list ssl_call) : Prop :=
  match o with
  | Loading j rest => if Nat.eqb j i then cs ++ rest = load_ssl_lib else cs = []
  | _ => cs = []
  end.

Definition no_init (p : list action) : Prop := forall c, In (Call c) p -> is_init c = false.

(* Calls on a connection only after Once. *)
Definition gated (p : list action) : Prop :=
  forall a c b, p = a ++ Call c :: b -> on_connection c = true -> In Once a.

Definition thread_ok (o : once_state) (tr : list (nat * ssl_call)) (i : nat) (p rest : list action) : Prop :=
  exists done bs cs m, p = done ++ rest /\ expands bs done cs /\ own i tr = cs ++ m /\ mid o i m /\
    (In Once done -> o = Loaded).

Definition init_calls (tr : list (nat * ssl_call)) : list ssl_call := filter is_init (map snd tr).

Record inv (ps : list (list action)) (s : process) : Prop := Inv {
  inv_len : length (ps_threads s) = length ps;
  inv_thread : forall i p rest, nth_error ps i = Some p -> nth_error (ps_threads s) i = Some rest ->
    thread_ok (ps_once s) (ps_trace s) i p rest;
  inv_load : loaded_part (ps_once s) (init_calls (ps_trace s));
  inv_loading : forall i cs, ps_once s = Loading i cs -> exists p, nth_error (ps_threads s) i = Some (Once :: p);
  inv_order : forall a i c b, ps_trace s = a ++ (i, c) :: b -> on_connection c = true ->
    init_calls a = load_ssl_lib
}.

Lemma init_app : forall a b, init_calls (a ++ b) = init_calls a ++ init_calls b.
Proof. intros. unfold init_calls. rewrite map_app, filter_app. reflexivity. Qed.

Lemma seqc_all : forall (P : ssl_call -> Prop) (p q : code), Forall P (fst p) -> Forall P (fst q) -> Forall P (fst (seqc p q)).
Proof. intros P [a r] [b r'] A B. unfold seqc. cbn [fst snd] in *. destruct r; cbn [fst]; [apply Forall_app; auto|exact A..]. Qed.

Lemma body_no_init : forall env mode host port, Forall (fun c => is_init c = false) (fst (connect_body env mode false host port)).
Proof.
  intros env mode host port. unfold connect_body, calls, require.
  repeat (apply seqc_all; [destruct mode; repeat constructor|]). constructor.
Qed.

Lemma guarded_all : forall (P : ssl_call -> Prop) d (p : code), P d -> Forall P (fst p) -> Forall P (fst (guarded d p)).
Proof. intros P d [a r] D A. unfold guarded. cbn [fst snd] in *. destruct r; cbn [fst]; try exact A. apply Forall_app. split; [exact A|repeat constructor; exact D]. Qed.

Lemma in_calls : forall c l, In (Call c) (map Call l) -> In c l.
Proof. intros c l I. apply in_map_iff in I. destruct I as (x & E & I). injection E as ->. exact I. Qed.

Lemma connection_no_init : forall k, Forall (fun c => c = BIO_read \/ c = BIO_write) (cn_io k) ->
  no_init (connection_actions k) /\ gated (connection_actions k).
Proof.
  intros [env mode host port io] IO. cbn [cn_io] in IO. unfold connection_actions, connect_actions. cbn [cn_env cn_mode cn_host cn_port cn_io].
  destruct (env_ctx_new env); cbn [negb].
  2:{ split.
      - intros c [E|[]]. injection E as <-. reflexivity.
      - intros [|x a] c b E O; [|destruct a; discriminate E]. injection E as <- <-. discriminate O. }
  destruct (env_bio_new env); cbn [negb].
  2:{ split.
      - intros c [E|[E|[E|[]]]]; injection E as <-; reflexivity.
      - intros [|x [|y [|z a]]] c b E O; cbn [app] in E; try (injection E; intros; subst; discriminate O).
        exfalso. apply (f_equal (@length action)) in E. cbn [length] in E. rewrite app_length in E. cbn [length] in E. lia. }
  pose proof (guarded_all _ SSL_CTX_free _ eq_refl (guarded_all _ BIO_free_all _ eq_refl (body_no_init env mode host port))) as NI.
  destruct (guarded SSL_CTX_free (guarded BIO_free_all (connect_body env mode false host port))) as [l r]. cbn [fst] in NI.
  assert (G : exists l', Forall (fun c => is_init c = false) l' /\
    (match r with Ok _ => ([Call (SSL_CTX_new true); Call (BIO_new_ssl_connect true); Once] ++ map Call l) ++ map Call (io ++ ssl_destroy)
     | _ => [Call (SSL_CTX_new true); Call (BIO_new_ssl_connect true); Once] ++ map Call l end) =
    [Call (SSL_CTX_new true); Call (BIO_new_ssl_connect true); Once] ++ map Call l').
  { destruct r; [|exists l; split; [exact NI|reflexivity]..]. exists (l ++ io ++ ssl_destroy). split.
    - apply Forall_app. split; [exact NI|]. apply Forall_app. split; [|repeat constructor].
      eapply Forall_impl; [|exact IO]. intros c [->| ->]; reflexivity.
    - rewrite <- app_assoc, <- map_app. reflexivity. }
  destruct G as (l' & NL & ->). split.
  - intros c I. apply in_app_or in I. destruct I as [[E|[E|[E|[]]]]|I]; [injection E as <-; reflexivity..|discriminate E|].
    apply in_calls in I. rewrite Forall_forall in NL. exact (NL c I).
  - intros [|x [|y [|z a]]] c b E O; cbn [app] in E; injection E; intros; subst; try discriminate O; try discriminate. right. right. left. reflexivity.
Qed.

Lemma app_cut : forall A (x y a : list A) c b, x ++ y = a ++ c :: b ->
  (exists b', x = a ++ c :: b') \/ exists a', a = x ++ a' /\ y = a' ++ c :: b.
Proof.
  intros A x. induction x as [|h x IH]; intros y a c b E; cbn [app] in E.
  - right. exists a. auto.
  - destruct a as [|h' a]; cbn [app] in E; injection E as <- E; [left; exists x; reflexivity|].
    destruct (IH y a c b E) as [(b' & ->)|(a' & -> & ->)]; [left; exists b'; reflexivity|right; exists a'; auto].
Qed.

Lemma thread_shape : forall ks, Forall (fun k => Forall (fun c => c = BIO_read \/ c = BIO_write) (cn_io k)) ks ->
  no_init (flat_map connection_actions ks) /\ gated (flat_map connection_actions ks).
Proof.
  induction ks as [|k ks IH]; intros F; cbn [flat_map].
  - split; [intros c []|]. intros a c b E. destruct a; discriminate E.
  - destruct (connection_no_init k (Forall_inv F)) as [N1 G1]. destruct (IH (Forall_inv_tail F)) as [N2 G2]. split.
    + intros c I. apply in_app_or in I. destruct I as [I|I]; [exact (N1 c I)|exact (N2 c I)].
    + intros a c b E O. apply app_cut in E. destruct E as [(b' & E)|(a' & -> & E)]; [exact (G1 a c b' E O)|].
      apply in_or_app. right. exact (G2 a' c b E O).
Qed.

Lemma start_inv : forall ps, inv ps (Process ps Fresh []).
Proof.
  intros ps. constructor; cbn [ps_threads ps_once ps_trace].
  - reflexivity.
  - intros i p rest A B. rewrite A in B. injection B as <-. exists [], [], [], []. repeat split; [constructor|intros []].
  - reflexivity.
  - discriminate.
  - intros a i c b E. destruct a; discriminate E.
Qed.

Lemma snoc_split : forall A (l : list A) x a y b, l ++ [x] = a ++ y :: b ->
  (a = l /\ y = x /\ b = []) \/ exists b', b = b' ++ [x] /\ l = a ++ y :: b'.
Proof.
  intros A l x a y b E. destruct b as [|z b] using rev_ind.
  - left. apply app_inj_tail in E. destruct E as [-> ->]. auto.
  - right. exists b. rewrite app_comm_cons, app_assoc in E. apply app_inj_tail in E. destruct E as [-> ->]. auto.
Qed.

Lemma step_inv : forall ps s s', Forall (fun p => no_init p /\ gated p) ps -> inv ps s -> step s s' -> inv ps s'.
Proof.
  intros ps s s' SH [LEN TH LD LG OR] ST.
  assert (PS : forall i rest, nth_error (ps_threads s) i = Some rest -> exists p, nth_error ps i = Some p /\ no_init p /\ gated p).
  { intros i rest E. destruct (nth_error ps i) as [p|] eqn:Q.
    - exists p. split; [reflexivity|]. rewrite Forall_forall in SH. apply SH. eapply nth_error_In. exact Q.
    - apply nth_error_None in Q. assert (X : i < length (ps_threads s)) by (apply nth_error_Some; congruence). lia. }
  assert (SL : forall (ts : list (list action)) i a, length (set_nth ts i a) = length ts).
  { clear. induction ts as [|x ts IH]; intros [|i] a; cbn; congruence. }
  destruct ST as [ts o tr i c p E|ts tr i p E|ts tr i c cs|ts tr i p E|ts tr i p E]; cbn [ps_threads ps_once ps_trace] in *.
  - destruct (PS i _ E) as (P & NP & NI & GA). destruct (TH i P _ NP E) as (done & bs & cs & m & PE & EX & OW & MI & ON).
    assert (NL : forall r, o <> Loading i r) by (intros r ->; destruct (LG i r eq_refl) as (q & Q); congruence).
    assert (M0 : m = []).
    { destruct o as [|j r|]; cbn [mid] in MI; try exact MI. destruct (Nat.eqb_spec j i) as [->|_]; [destruct (NL r eq_refl)|exact MI]. }
    subst m. rewrite app_nil_r in OW.
    assert (IC : is_init c = false) by (apply NI; rewrite PE; apply in_or_app; right; left; reflexivity).
    constructor; cbn [ps_threads ps_once ps_trace].
    + rewrite SL. exact LEN.
    + intros j q rest A B. destruct (Nat.eq_dec i j) as [<-|N].
      * rewrite (nth_set_same _ _ _ _ _ E) in B. injection B as <-. rewrite NP in A. injection A as <-.
        exists (done ++ [Call c]), bs, (cs ++ [c]), []. split; [rewrite <- app_assoc; exact PE|]. split; [apply expands_snoc_call; exact EX|].
        split; [rewrite own_app, own_one, Nat.eqb_refl, OW, app_nil_r; reflexivity|].
        split; [exact MI|]. intros I. apply in_app_or in I. destruct I as [I|[I|[]]]; [exact (ON I)|discriminate I].
      * rewrite nth_set_other in B by exact N. destruct (TH j q rest A B) as (done' & bs' & cs' & m' & R).
        exists done', bs', cs', m'. rewrite own_app, own_one. destruct (Nat.eqb_spec i j); [contradiction|]. rewrite app_nil_r. exact R.
    + rewrite init_app. unfold init_calls at 2. cbn [map filter snd]. rewrite IC, app_nil_r. exact LD.
    + intros j r Q. destruct (LG j r Q) as (q & X). exists q. rewrite nth_set_other; [exact X|]. intros <-. exact (NL r Q).
    + intros a j c' b Q OC. apply snoc_split in Q. destruct Q as [(-> & Q & _)|(b' & _ & Q)]; [|exact (OR a j c' b' Q OC)].
      injection Q as -> ->. specialize (ON (GA done c p PE OC)). subst o. exact LD.
  - constructor; cbn [ps_threads ps_once ps_trace]; [exact LEN| | | |exact OR].
    + intros j q rest A B. destruct (TH j q rest A B) as (done & bs & cs & m & PE & EX & OW & MI & ON).
      exists done, bs, cs, m. split; [exact PE|]. split; [exact EX|]. split; [exact OW|]. cbn [mid] in *. subst m. split; [destruct (Nat.eqb i j); reflexivity|].
      intros I. discriminate (ON I).
    + cbn [loaded_part] in *. rewrite LD. reflexivity.
    + intros j cs Q. injection Q as <- <-. exists p. exact E.
  - assert (IC : is_init c = true).
    { cbn [loaded_part] in LD. assert (I : In c load_ssl_lib) by (rewrite <- LD; apply in_or_app; right; left; reflexivity).
      destruct I as [<-|[<-|[]]]; reflexivity. }
    constructor; cbn [ps_threads ps_once ps_trace]; [exact LEN| | | |].
    + intros j q rest A B. destruct (TH j q rest A B) as (done & bs & cs' & m & PE & EX & OW & MI & ON). cbn [mid] in *.
      destruct (Nat.eqb_spec i j) as [->|N].
      * exists done, bs, cs', (m ++ [c]). split; [exact PE|]. split; [exact EX|]. split; [rewrite own_app, own_one, Nat.eqb_refl, OW, app_assoc; reflexivity|].
        split; [cbn [mid]; rewrite Nat.eqb_refl, <- app_assoc; exact MI|]. intros I. discriminate (ON I).
      * exists done, bs, cs', m. split; [exact PE|]. split; [exact EX|]. split; [rewrite own_app, own_one; destruct (Nat.eqb_spec i j); [contradiction|]; rewrite app_nil_r; exact OW|].
        split; [cbn [mid]; destruct (Nat.eqb_spec i j); [contradiction|]; exact MI|]. intros I. discriminate (ON I).
    + cbn [loaded_part] in *. rewrite init_app. unfold init_calls at 2. cbn [map filter snd]. rewrite IC, <- app_assoc. exact LD.
    + intros j r Q. injection Q as <- <-. exact (LG i (c :: cs) eq_refl).
    + intros a j c' b Q OC. apply snoc_split in Q. destruct Q as [(-> & Q & _)|(b' & _ & Q)]; [|exact (OR a j c' b' Q OC)].
      injection Q as -> ->. destruct c; discriminate.
  - constructor; cbn [ps_threads ps_once ps_trace]; [rewrite SL; exact LEN| | |discriminate|exact OR].
    + intros j q rest A B. destruct (Nat.eq_dec i j) as [<-|N].
      * rewrite (nth_set_same _ _ _ _ _ E) in B. injection B as <-. destruct (TH i q _ A E) as (done & bs & cs & m & PE & EX & OW & MI & ON).
        cbn [mid] in MI. rewrite Nat.eqb_refl, app_nil_r in MI. subst m.
        exists (done ++ [Once]), (bs ++ [true]), (cs ++ load_ssl_lib), []. split; [rewrite <- app_assoc; exact PE|].
        split; [apply (expands_snoc_once _ _ _ true); exact EX|]. split; [rewrite app_nil_r; exact OW|]. split; [reflexivity|]. reflexivity.
      * rewrite nth_set_other in B by exact N. destruct (TH j q rest A B) as (done & bs & cs & m & PE & EX & OW & MI & ON).
        exists done, bs, cs, m. split; [exact PE|]. split; [exact EX|]. split; [exact OW|]. cbn [mid] in *.
        destruct (Nat.eqb_spec i j); [contradiction|]. split; [exact MI|]. reflexivity.
    + cbn [loaded_part] in *. rewrite app_nil_r in LD. exact LD.
  - constructor; cbn [ps_threads ps_once ps_trace]; [rewrite SL; exact LEN| |exact LD|discriminate|exact OR].
    intros j q rest A B. destruct (Nat.eq_dec i j) as [<-|N].
    + rewrite (nth_set_same _ _ _ _ _ E) in B. injection B as <-. destruct (TH i q _ A E) as (done & bs & cs & m & PE & EX & OW & MI & ON).
      cbn [mid] in MI. subst m.
      exists (done ++ [Once]), (bs ++ [false]), (cs ++ []), []. split; [rewrite <- app_assoc; exact PE|].
      split; [apply (expands_snoc_once _ _ _ false); exact EX|]. split; [rewrite app_nil_r; exact OW|]. split; reflexivity.
    + rewrite nth_set_other in B by exact N. exact (TH j q rest A B).
Qed.

Lemma reach_inv : forall threads n s, only_io threads -> steps n (start threads) s ->
  inv (map (flat_map connection_actions) threads) s.
Proof.
  intros threads n s IO R.
  assert (SH : Forall (fun p => no_init p /\ gated p) (map (flat_map connection_actions) threads)).
  { apply Forall_map. eapply Forall_impl; [|exact IO]. intros ks F. apply thread_shape. exact F. }
  remember (start threads) as s0 eqn:S0. induction R as [s|n s s' s'' R IH ST].
  - subst s. apply start_inv.
  - exact (step_inv _ _ _ SH (IH S0) ST).
Qed.

(* ---- the property ---- *)

(* In every interleaving the library is initialised at most once, by the two
   calls in their order. *)
Theorem C90_once : forall threads n s, only_io threads -> steps n (start threads) s ->
  exists rest, filter is_init (map snd (ps_trace s)) ++ rest = [SSL_library_init; SSL_load_error_strings].
Proof.
  intros threads n s IO R. pose proof (inv_load _ _ (reach_inv threads n s IO R)) as L. change (filter is_init (map snd (ps_trace s))) with (init_calls (ps_trace s)).
  destruct (ps_once s) as [|i r|]; cbn [loaded_part] in L.
  - rewrite L. exists load_ssl_lib. reflexivity.
  - exists r. exact L.
  - rewrite L. exists []. reflexivity.
Qed.

(* Whatever configures, makes or uses a connection comes after both calls,
   whichever thread makes it. *)
Theorem C90_initialised_partial : forall threads n s a i c b, only_io threads -> steps n (start threads) s ->
  ps_trace s = a ++ (i, c) :: b -> on_connection c = true ->
  filter is_init (map snd a) = [SSL_library_init; SSL_load_error_strings].
Proof. intros threads n s a i c b IO R E O. exact (inv_order _ _ (reach_inv threads n s IO R) a i c b E O). Qed.

(* Each thread makes the calls the sequential model says, as if it were alone:
   the theorems about one connection hold for each of them. *)
Theorem C90_thread_alone : forall threads n s i ks, only_io threads -> steps n (start threads) s ->
  nth_error threads i = Some ks -> nth_error (ps_threads s) i = Some [] ->
  exists firsts, length firsts = length ks /\ own i (ps_trace s) = one_by_one ks firsts.
Proof.
  intros threads n s i ks IO R K F. pose proof (reach_inv threads n s IO R) as V.
  assert (P : nth_error (map (flat_map connection_actions) threads) i = Some (flat_map connection_actions ks)) by (rewrite nth_error_map, K; reflexivity).
  destruct (inv_thread _ _ V i _ _ P F) as (done & bs & cs & m & PE & EX & OW & MI & ON). rewrite app_nil_r in PE. subst done.
  assert (M0 : m = []).
  { destruct (ps_once s) as [|j r|] eqn:O; cbn [mid] in MI; try exact MI. destruct (Nat.eqb_spec j i) as [->|_]; [|exact MI].
    destruct (inv_loading _ _ V i r O) as (q & Q). congruence. }
  subst m. rewrite app_nil_r in OW. rewrite OW. eapply thread_expands. exact EX.
Qed.

(* No deadlock: unless all threads have finished, one of them can go on. *)
Theorem C90_progress : forall threads n s, only_io threads -> steps n (start threads) s ->
  Forall (fun p => p = []) (ps_threads s) \/ exists s', step s s'.
Proof.
  intros threads n s IO R. pose proof (reach_inv threads n s IO R) as V. destruct s as [ts o tr].
  pose proof (inv_loading _ _ V) as LG. cbn [ps_threads ps_once] in *. clear V R.
  destruct (existsb (fun p => match p with [] => false | _ => true end) ts) eqn:X.
  - right. apply existsb_exists in X. destruct X as (p & I & NE). apply In_nth_error in I. destruct I as (i & I).
    destruct p as [|[c|] p]; [discriminate NE|eexists; eapply step_call; exact I|].
    destruct o as [|j [|c r]|].
    + eexists. eapply step_enter. exact I.
    + destruct (LG j [] eq_refl) as (q & Q). eexists. eapply step_loaded. exact Q.
    + eexists. apply step_load.
    + eexists. eapply step_skip. exact I.
  - left. apply Forall_forall. intros p I. destruct p as [|x p]; [reflexivity|].
    assert (Y : existsb (fun p => match p with [] => false | _ => true end) ts = true) by (apply existsb_exists; exists (x :: p); auto). congruence.
Qed.

(* No execution goes on for ever. *)
Definition work (s : process) : nat :=
  list_sum (map (@length action) (ps_threads s)) +
  match ps_once s with Fresh => 3 | Loading _ r => length r | Loaded => 0 end.

Lemma work_set : forall (ts : list (list action)) i x p, nth_error ts i = Some (x :: p) ->
  list_sum (map (@length action) ts) = S (list_sum (map (@length action) (set_nth ts i p))).
Proof.
  induction ts as [|q ts IH]; intros [|i] x p E; try discriminate E; cbn [nth_error] in E; cbn [set_nth map].
  - injection E as ->. reflexivity.
  - change (length q + list_sum (map (@length action) ts) = S (length q + list_sum (map (@length action) (set_nth ts i p)))). rewrite (IH _ _ _ E). lia.
Qed.

Lemma step_work : forall s s', step s s' -> S (work s') <= work s.
Proof.
  intros s s' [ts o tr i c p E|ts tr i p E|ts tr i c cs|ts tr i p E|ts tr i p E]; unfold work; cbn [ps_threads ps_once];
    try rewrite (work_set _ _ _ _ E); cbn [length load_ssl_lib]; lia.
Qed.

Theorem C90_terminates : forall threads n s, steps n (start threads) s ->
  n <= list_sum (map (fun ks => list_sum (map (fun k => length (connection_actions k)) ks)) threads) + 3.
Proof.
  intros threads n s R. assert (G : n + work s <= work (start threads)).
  { induction R as [s|n s s' s'' R IH ST]; [lia|]. apply step_work in ST. lia. }
  unfold work at 2, start in G. cbn [ps_threads ps_once] in G. rewrite map_map in G.
  replace (map (fun x => length (flat_map connection_actions x)) threads) with
    (map (fun ks => list_sum (map (fun k => length (connection_actions k)) ks)) threads) in G; [lia|].
  apply map_ext. intros ks. clear. induction ks as [|k ks IH]; [reflexivity|]. cbn [map flat_map]. rewrite app_length, <- IH. reflexivity.
Qed.

(* Not every use of the library comes after its initialisation: the thread that
   initialises it has made a context and a BIO before. *)
Definition made_before (p : list action) : Prop :=
  forall a b, p = a ++ Once :: b -> In (Call (SSL_CTX_new true)) a /\ In (Call (BIO_new_ssl_connect true)) a.

Lemma connection_made_before : forall k, made_before (connection_actions k).
Proof.
  intros [env mode host port io]. unfold connection_actions, connect_actions. cbn [cn_env cn_mode cn_host cn_port cn_io].
  assert (NO : forall l a b, map Call l <> a ++ Once :: b).
  { intros l a b E. assert (I : In Once (map Call l)) by (rewrite E; apply in_or_app; right; left; reflexivity).
    apply in_map_iff in I. destruct I as (x & X & _). discriminate X. }
  destruct (env_ctx_new env); cbn [negb]; [|intros a b E; destruct (NO [SSL_CTX_new false] a b E)].
  destruct (env_bio_new env); cbn [negb]; [|intros a b E; destruct (NO [SSL_CTX_new true; BIO_new_ssl_connect false; SSL_CTX_free] a b E)].
  destruct (guarded SSL_CTX_free (guarded BIO_free_all (connect_body env mode false host port))) as [l r].
  assert (G : forall q, made_before ([Call (SSL_CTX_new true); Call (BIO_new_ssl_connect true); Once] ++ q)).
  { intros q [|x [|y a]] b E; cbn [app] in E; try discriminate E. injection E as <- <- _. split; [left; reflexivity|right; left; reflexivity]. }
  destruct r; [rewrite <- app_assoc|..]; apply G.
Qed.

Lemma thread_made_before : forall ks, made_before (flat_map connection_actions ks).
Proof.
  induction ks as [|k ks IH]; intros a b E; cbn [flat_map] in E; [destruct a; discriminate E|].
  apply app_cut in E. destruct E as [(b' & E)|(a' & -> & E)]; [exact (connection_made_before k a b' E)|].
  destruct (IH a' b E) as [X Y]. split; apply in_or_app; right; assumption.
Qed.

Lemma expands_in : forall bs p cs c, expands bs p cs -> In (Call c) p -> In c cs.
Proof.
  intros bs p cs c E. induction E as [|bs c' p cs E IH|b bs p cs E IH]; intros I.
  - destruct I.
  - destruct I as [I|I]; [injection I as ->; left; reflexivity|right; exact (IH I)].
  - destruct I as [I|I]; [discriminate I|]. apply in_or_app. right. exact (IH I).
Qed.

Lemma own_in : forall i c tr, In c (own i tr) -> In (i, c) tr.
Proof.
  intros i c tr I. unfold own in I. apply in_map_iff in I. destruct I as ([j c'] & E & I). cbn in E. subst c'.
  apply filter_In in I. destruct I as [I J]. cbn in J. apply Nat.eqb_eq in J. subst j. exact I.
Qed.

Theorem C90_used_before_refuted : forall threads n s a i b, only_io threads -> steps n (start threads) s ->
  ps_trace s = a ++ (i, SSL_library_init) :: b ->
  In (i, SSL_CTX_new true) a /\ In (i, BIO_new_ssl_connect true) a.
Proof.
  intros threads n s a i b IO R. remember (start threads) as s0 eqn:S0. revert a b.
  induction R as [s|n s s' s'' R IH ST]; intros a b E.
  - subst s. destruct a; discriminate E.
  - subst s. specialize (IH eq_refl). pose proof (reach_inv threads n s' IO R) as V. pose proof (inv_load _ _ V) as LD.
    destruct ST as [ts o tr j c p H|ts tr j p H|ts tr j c cs|ts tr j p H|ts tr j p H]; cbn [ps_threads ps_once ps_trace] in *; try exact (IH a b E).
    + apply snoc_split in E. destruct E as [(-> & E & _)|(b' & _ & E)]; [|exact (IH a b' E)]. injection E as <- <-. exfalso.
      assert (SH : Forall (fun p => no_init p /\ gated p) (map (flat_map connection_actions) threads)).
      { apply Forall_map. eapply Forall_impl; [|exact IO]. intros ks F. apply thread_shape. exact F. }
      destruct (nth_error (map (flat_map connection_actions) threads) i) as [P|] eqn:Q.
      * destruct (inv_thread _ _ V i P _ Q H) as (done & bs & cs & m & PE & _). rewrite Forall_forall in SH.
        destruct (SH P (nth_error_In _ _ Q)) as [NI _]. discriminate (NI SSL_library_init). rewrite PE. apply in_or_app. right. left. reflexivity.
      * apply nth_error_None in Q. assert (X : i < length ts) by (apply nth_error_Some; congruence). pose proof (inv_len _ _ V) as L. cbn [ps_threads] in L. lia.
    + apply snoc_split in E. destruct E as [(-> & E & _)|(b' & _ & E)]; [|exact (IH a b' E)]. injection E as <- <-.
      destruct (inv_loading _ _ V i (SSL_library_init :: cs) eq_refl) as (p & H). cbn [ps_threads] in H.
      destruct (nth_error threads i) as [ks|] eqn:K.
      * assert (P : nth_error (map (flat_map connection_actions) threads) i = Some (flat_map connection_actions ks)) by (rewrite nth_error_map, K; reflexivity).
        destruct (inv_thread _ _ V i _ _ P H) as (done & bs & cs' & m & PE & EX & OW & _). cbn [ps_trace] in OW.
        destruct (thread_made_before ks done p PE) as [X Y].
        split; apply own_in; rewrite OW; apply in_or_app; left; eapply expands_in; eassumption.
      * apply nth_error_None in K. assert (X : i < length ts) by (apply nth_error_Some; congruence). pose proof (inv_len _ _ V) as L. cbn [ps_threads] in L.
        rewrite map_length in L. lia.
Qed.

(* ---- a case ---- *)

(* The step thread i can make. *)
Definition turn (i : nat) (s : process) : option process :=
  match nth_error (ps_threads s) i, ps_once s with
  | Some (Call c :: p), o => Some (Process (set_nth (ps_threads s) i p) o (ps_trace s ++ [(i, c)]))
  | Some (Once :: _), Fresh => Some (Process (ps_threads s) (Loading i load_ssl_lib) (ps_trace s))
  | Some (Once :: p), Loading j (c :: cs) =>
      if Nat.eqb j i then Some (Process (ps_threads s) (Loading j cs) (ps_trace s ++ [(j, c)])) else None
  | Some (Once :: p), Loading j [] => if Nat.eqb j i then Some (Process (set_nth (ps_threads s) i p) Loaded (ps_trace s)) else None
  | Some (Once :: p), Loaded => Some (Process (set_nth (ps_threads s) i p) Loaded (ps_trace s))
  | _, _ => None
  end.

Fixpoint turns (is : list nat) (s : process) : option process :=
  match is with
  | [] => Some s
  | i :: is' => match turn i s with Some s' => turns is' s' | None => None end
  end.

Lemma turn_step : forall i s s', turn i s = Some s' -> step s s'.
Proof.
  intros i [ts o tr] s' T. unfold turn in T. cbn [ps_threads ps_once ps_trace] in T. destruct (nth_error ts i) as [[|[c|] p]|] eqn:E; try discriminate T.
  - injection T as <-. apply step_call. exact E.
  - destruct o as [|j [|c cs]|].
    + injection T as <-. eapply step_enter. exact E.
    + destruct (Nat.eqb_spec j i) as [->|_]; [|discriminate T]. injection T as <-. apply step_loaded. exact E.
    + destruct (Nat.eqb_spec j i) as [->|_]; [|discriminate T]. injection T as <-. apply step_load.
    + injection T as <-. apply step_skip. exact E.
Qed.

Lemma turns_steps : forall is s0 n s s', steps n s0 s -> turns is s = Some s' -> steps (length is + n) s0 s'.
Proof.
  induction is as [|i is IH]; intros s0 n s s' R T; cbn [turns] in T.
  - injection T as <-. exact R.
  - destruct (turn i s) as [s1|] eqn:E; [|discriminate T]. apply turn_step in E.
    replace (length (i :: is) + n) with (length is + S n) by (cbn [length]; lia). apply (IH s0 (S n) s1 s'); [|exact T]. econstructor; eassumption.
Qed.

Definition good_env : tls_env := TlsEnv true true true true true true true true [104; 50]%N true.

(* Two threads, one connection each; the second thread waits while the first
   initialises the library (its turn would be refused). *)
Example C90_case :
  let k := Conn good_env VERIFY_SERVER_CERT [104]%N 443%N [BIO_write; BIO_read] in
  let threads := [[k]; [k]] in
  let early := [0; 1; 0; 1; 0; 0] in
  only_io threads /\
  (exists s, turns early (start threads) = Some s /\ turn 1 s = None) /\
  (exists s, steps 35 (start threads) s /\ Forall (fun p => p = []) (ps_threads s) /\
     filter is_init (map snd (ps_trace s)) = [SSL_library_init; SSL_load_error_strings] /\
     own 0 (ps_trace s) = one_by_one [k] [true] /\ own 1 (ps_trace s) = one_by_one [k] [false]).
Proof.
  cbv zeta. split; [repeat first [apply Forall_cons|apply Forall_nil]; auto|]. split.
  - eexists. split; vm_compute; reflexivity.
  - destruct (turns ([0; 1; 0; 1; 0; 0] ++ [0; 0] ++ concat (repeat [1; 0] 13) ++ [1]) (start [[Conn good_env VERIFY_SERVER_CERT [104]%N 443%N [BIO_write; BIO_read]];
      [Conn good_env VERIFY_SERVER_CERT [104]%N 443%N [BIO_write; BIO_read]]])) as [s|] eqn:T; [|vm_compute in T; discriminate T].
    exists s. split; [pose proof (turns_steps _ _ 0 _ _ (steps_none _) T) as R; exact R|].
    vm_compute in T. injection T as <-. vm_compute. repeat split; repeat constructor.
Qed.

Print Assumptions C90_once.
Print Assumptions C90_initialised_partial.
Print Assumptions C90_thread_alone.
Print Assumptions C90_progress.
Print Assumptions C90_terminates.
Print Assumptions C90_used_before_refuted.
