(* Property C96: one client used by several threads. *)
From Coq Require Import String.
From Coq Require Import ZArith NArith List Bool Lia ZifyBool ZifyNat ZifyN.
From Verif Require Import Base Arith Util StaticTable HeaderType DynTable HeaderEnc HeaderDec FrameHeader Frames FrameBuilder Ssl Client
  SpecBits SpecHpack SpecFrame DynTableProofs StaticProofs HeaderProofs HeaderProofs2 FrameProofs BlockProofs HistoryProofs
  PropHeader PropFrame PropBlock PropSsl PropClient PropHistory PropRequest PropDuplex Shared.
Import ListNotations.
Local Open Scope string_scope.
Local Open Scope list_scope.
Local Open Scope N_scope.
Ltac Zify.zify_post_hook ::= Z.div_mod_to_equations.

(* ---------------------------------------------------------------- the calls *)

(* The calls of C73 as steps. *)
Definition io_perform (host : endian) (q : request) : io (res unit) :=
  GetTable Request (fun t =>
  match mk_headers (q_flags q) (q_stream q) (q_block q) (q_mode q) t (q_padding q)
          (Prio (q_exclusive q) (q_dependency q) (q_weight q)) with
  | Ok f => andthen (io_send_frame host f) (fun r =>
      match r with Ok _ => io_update_request_dynamic_table (q_block q) | _ => Ret r end)
  | Throw x => Ret (Throw x)
  | UB u => Ret (UB u)
  | NoFuel => Ret NoFuel
  end).

Definition io_call (host : endian) (m : ub_mode) (k : call) : io returned :=
  let unit_call p := andthen p (fun r => Ret (Returned r)) in
  match k with
  | CallRequest q => unit_call (io_perform host q)
  | CallSend f => unit_call (io_send_frame host f)
  | CallRaw d => unit_call (io_send_raw_data d)
  | CallPreface => unit_call (io_send_raw_data connection_preface)
  | CallUpdate b => unit_call (io_update_request_dynamic_table b)
  | CallResize n => unit_call (io_update_request_table_size n)
  | CallReceive => andthen (io_receive_frame m) (fun r => Ret (Received r))
  end.

(* A thread: calls made one after the other, with what they return. *)
Fixpoint thread (host : endian) (m : ub_mode) (ks : list call) : io (list returned) :=
  match ks with
  | [] => Ret []
  | k :: ks' => andthen (io_call host m k) (fun r => andthen (thread host m ks') (fun rs => Ret (r :: rs)))
  end.

(* ---------------------------------------------------------------- a thread alone *)

Fixpoint alone {A} (p : io A) (c : client) : A * client :=
  match p with
  | Ret a => (a, c)
  | BioWrite d k => let '(r, s) := bio_write (c_tls c) d in alone (k r) (set_tls c s)
  | BioRead n k => let '(r, s) := bio_read (c_tls c) n in alone (k r) (set_tls c s)
  | GetTable w k => alone (k (match w with Request => c_req c | Response => c_resp c end)) c
  | SetTable w t k =>
      alone k (match w with Request => Client (c_tls c) t (c_resp c) | Response => Client (c_tls c) (c_req c) t end)
  end.

Lemma alone_andthen : forall A B (p : io A) (f : A -> io B) c,
  alone (andthen p f) c = let '(a, c1) := alone p c in alone (f a) c1.
Proof.
  induction p as [a|d k IH|n k IH|w k IH|w t k IH]; intros f c; cbn [andthen alone].
  - reflexivity.
  - destruct (bio_write (c_tls c) d) as [r s]. apply IH.
  - destruct (bio_read (c_tls c) n) as [r s]. apply IH.
  - apply IH.
  - apply IH.
Qed.

Lemma set_tls_same : forall c, set_tls c (c_tls c) = c.
Proof. intros []. reflexivity. Qed.

Lemma alone_write : forall n d c, alone (io_write n d) c = let '(r, s) := write_loop n (c_tls c) d in (r, set_tls c s).
Proof.
  induction n as [|n IH]; intros d c; destruct d as [|x d]; cbn [io_write write_loop alone]; rewrite ?set_tls_same; try reflexivity.
  destruct (bio_write (c_tls c) (x :: d)) as [[j|] s]; [|reflexivity]. rewrite IH. reflexivity.
Qed.

Lemma alone_read : forall n k got c, alone (io_read n k got) c =
  let '(r, s) := read_loop n (c_tls c) k in (let* d := r in Ok (got ++ d), set_tls c s).
Proof.
  induction n as [|n IH]; intros k got c; cbn [io_read read_loop]; destruct (0 <? k); cbn [alone bind];
    rewrite ?set_tls_same, ?app_nil_r; try reflexivity.
  destruct (bio_read (c_tls c) k) as [[d|] s]; [|reflexivity]. rewrite IH. cbn [set_tls c_tls].
  destruct (read_loop n s (k - size d)) as [r s']. destruct r; cbn [bind]; rewrite <- ?app_assoc; reflexivity.
Qed.

Lemma alone_send_raw : forall d c, alone (io_send_raw_data d) c = send_raw_data c d.
Proof. intros d c. apply alone_write. Qed.

Lemma alone_receive_raw : forall n c, alone (io_receive_raw_data n) c = receive_raw_data c n.
Proof.
  intros n c. unfold io_receive_raw_data, receive_raw_data, ssl_read. rewrite alone_read.
  destruct (read_loop (N.to_nat n) (c_tls c) n) as [r s]. destruct r; reflexivity.
Qed.

Lemma alone_send_frame : forall host f c, alone (io_send_frame host f) c = send_frame host c f.
Proof. intros host f c. unfold io_send_frame, send_frame. destruct (serialize host f); try reflexivity. apply alone_send_raw. Qed.

Lemma alone_update : forall b c, alone (io_update_request_dynamic_table b) c = update_request_dynamic_table c b.
Proof.
  intros b [s T R]. unfold io_update_request_dynamic_table, update_request_dynamic_table. cbn [alone c_req].
  destruct (update_block T b) as [r t]. reflexivity.
Qed.

Lemma alone_resize : forall n c, alone (io_update_request_table_size n) c = update_request_table_size c n.
Proof.
  intros n [s T R]. unfold io_update_request_table_size, update_request_table_size. cbn [alone c_req].
  destruct (dt_update_size T n); reflexivity.
Qed.

Lemma alone_receive : forall m c, alone (io_receive_frame m) c = receive_frame m c.
Proof.
  intros m c. unfold io_receive_frame, receive_frame. rewrite alone_andthen, alone_receive_raw.
  destruct (receive_raw_data c FRAME_HEADER_BYTES) as [r c1].
  destruct (let* raw_fh := r in build_frame_header raw_fh) as [fh| | |]; try reflexivity.
  rewrite alone_andthen.
  assert (E : alone (if 0 <? fh_length fh then io_receive_raw_data (fh_length fh) else Ret (Ok [])) c1 =
              if 0 <? fh_length fh then receive_raw_data c1 (fh_length fh) else (Ok [], c1)).
  { destruct (0 <? fh_length fh); [apply alone_receive_raw|reflexivity]. }
  rewrite E. destruct (if 0 <? fh_length fh then receive_raw_data c1 (fh_length fh) else (Ok [], c1)) as [r2 c2].
  cbn [alone]. destruct (let* raw := r2 in build_frame m fh raw (c_resp c2)) as [f| | |]; try reflexivity.
  destruct (update_frame (c_resp c2) f) as [r3 t]. reflexivity.
Qed.

Lemma alone_call : forall host m k c, alone (io_call host m k) c = make_call host m c k.
Proof.
  intros host m k c. destruct k; cbn [io_call make_call]; rewrite alone_andthen.
  - assert (E : alone (io_perform host q) c = perform host c q).
    { unfold io_perform, perform, get_request_dynamic_table. cbn [alone].
      destruct (mk_headers _ _ _ _ _ _ _) as [f| | |]; try reflexivity.
      rewrite alone_andthen, alone_send_frame. destruct (send_frame host c f) as [r c1].
      destruct r; try reflexivity. apply alone_update. }
    rewrite E. destruct (perform host c q). reflexivity.
  - rewrite alone_send_frame. destruct (send_frame host c f). reflexivity.
  - rewrite alone_send_raw. destruct (send_raw_data c data). reflexivity.
  - rewrite alone_send_raw. unfold send_connection_preface. destruct (send_raw_data c connection_preface). reflexivity.
  - rewrite alone_update. destruct (update_request_dynamic_table c b). reflexivity.
  - rewrite alone_resize. destruct (update_request_table_size c n). reflexivity.
  - rewrite alone_receive. destruct (receive_frame m c). reflexivity.
Qed.

Lemma alone_thread : forall host m ks c, alone (thread host m ks) c = make_calls host m c ks.
Proof.
  induction ks as [|k ks IH]; intros c; cbn [thread make_calls]; [reflexivity|].
  rewrite alone_andthen, alone_call. destruct (make_call host m c k) as [r c1].
  rewrite alone_andthen, IH. destruct (make_calls host m c1 ks). reflexivity.
Qed.

(* ---------------------------------------------------------------- what a thread touches *)

(* The steps of p are on the sending side if w (BIO_write, request table), on
   the receiving side if r (BIO_read, response table). *)
Definition side (w r : bool) (x : which) : bool := match x with Request => w | Response => r end.
Fixpoint touches {A} (w r : bool) (p : io A) : Prop :=
  match p with
  | Ret _ => True
  | BioWrite _ k => w = true /\ forall x, touches w r (k x)
  | BioRead _ k => r = true /\ forall x, touches w r (k x)
  | GetTable x k => side w r x = true /\ forall t, touches w r (k t)
  | SetTable x _ k => side w r x = true /\ touches w r k
  end.

Lemma touches_andthen : forall A B w r (p : io A) (f : A -> io B), touches w r p -> (forall a, touches w r (f a)) ->
  touches w r (andthen p f).
Proof.
  induction p as [a|d k IH|n k IH|x k IH|x t k IH]; intros f T F; cbn [andthen touches] in *; auto; destruct T as [T1 T2]; split; auto.
Qed.

Lemma touches_write : forall r n d, touches true r (io_write n d).
Proof.
  induction n as [|n IH]; intros [|x d]; cbn [io_write touches]; auto. split; [reflexivity|]. intros [j|]; [apply IH|exact I].
Qed.

Lemma touches_read : forall w n k got, touches w true (io_read n k got).
Proof.
  induction n as [|n IH]; intros k got; cbn [io_read]; destruct (0 <? k); cbn [touches]; auto.
  split; [reflexivity|]. intros [d|]; [apply IH|exact I].
Qed.

Lemma touches_send_frame : forall r host f, touches true r (io_send_frame host f).
Proof. intros r host f. unfold io_send_frame. destruct (serialize host f); try exact I. apply touches_write. Qed.

Lemma touches_update : forall r b, touches true r (io_update_request_dynamic_table b).
Proof. intros r b. cbn. split; [reflexivity|]. intros t. destruct (update_block t b). cbn. auto. Qed.

Lemma touches_call : forall host m k, touches (negb (is_receive k)) (is_receive k) (io_call host m k).
Proof.
  intros host m k. destruct k; cbn [io_call is_receive negb]; (apply touches_andthen; [|intros; exact I]).
  - cbn [io_perform touches side]. split; [reflexivity|]. intros t. destruct (mk_headers _ _ _ _ _ _ _); try exact I.
    apply touches_andthen; [apply touches_send_frame|]. intros [| | |]; try exact I. apply touches_update.
  - apply touches_send_frame.
  - apply touches_write.
  - apply touches_write.
  - apply touches_update.
  - cbn. split; [reflexivity|]. intros t. destruct (dt_update_size t n); cbn; auto.
  - unfold io_receive_frame. apply touches_andthen; [apply touches_read|]. intros r.
    destruct (let* raw_fh := r in build_frame_header raw_fh); try exact I.
    apply touches_andthen; [destruct (0 <? fh_length a); [apply touches_read|exact I]|]. intros r2.
    cbn [touches side]. split; [reflexivity|]. intros t. destruct (let* raw := r2 in build_frame m a raw t); try exact I.
    destruct (update_frame t a0). cbn. auto.
Qed.

Lemma touches_more : forall A w r (p : io A), touches w r p -> forall w' r', (w = true -> w' = true) -> (r = true -> r' = true) -> touches w' r' p.
Proof.
  intros A w r p T w' r' W R. induction p as [a|d k IH|n k IH|x k IH|x t k IH]; cbn [touches] in *; auto; destruct T as [T1 T2];
    (split; [try destruct x; cbn [side] in *; auto|auto]).
Qed.

Lemma touches_thread : forall w r host m ks, Forall (fun k => if is_receive k then r = true else w = true) ks ->
  touches w r (thread host m ks).
Proof.
  intros w r host m ks F. induction F as [|k ks K F IH]; cbn [thread]; [exact I|].
  apply touches_andthen.
  - eapply touches_more; [apply touches_call|..]; destruct (is_receive k); cbn; auto; discriminate.
  - intros x. apply touches_andthen; [exact IH|]. intros rs. exact I.
Qed.

(* ---------------------------------------------------------------- simulation *)

(* The events of the BIO calls made by thread i. *)
Definition events_of (i : nat) (tr : list (nat * option io_event)) : list io_event :=
  flat_map (fun x => if Nat.eqb (fst x) i then match snd x with Some e => [e] | None => [] end else []) tr.

(* A client of its own, in the same state, for which OpenSSL behaves as in es. *)
Definition client_of (s : shared) (es : list io_event) : client :=
  Client (Tls (sh_in s) (sh_out s) es) (sh_req s) (sh_resp s).

Definition agrees (w r : bool) (s : shared) (c : client) : Prop :=
  (w = true -> tls_out (c_tls c) = sh_out s /\ c_req c = sh_req s) /\
  (r = true -> tls_in (c_tls c) = sh_in s /\ c_resp c = sh_resp s).

Definition the_event (ev : option io_event) : list io_event := match ev with Some e => [e] | None => [] end.

Lemma own_step : forall A w r (p p1 : io A) s s1 ev c es, touches w r p -> agrees w r s c -> tls_sched (c_tls c) = the_event ev ++ es ->
  next s p ev = Some (s1, p1) ->
  exists c1, alone p c = alone p1 c1 /\ touches w r p1 /\ agrees w r s1 c1 /\ tls_sched (c_tls c1) = es.
Proof.
  intros A w r p p1 s s1 ev [[ci co cs] T R] es U [G1 G2] E N. destruct s as [i o T' R'].
  cbn [c_tls tls_sched tls_in tls_out c_req c_resp sh_in sh_out sh_req sh_resp] in *. subst cs.
  destruct p as [a|d k|n k|x k|x t k]; destruct ev as [e|]; try discriminate N; cbn [touches] in U; destruct U as [U1 U2];
    cbn [next the_event app sh_in sh_out sh_req sh_resp] in *.
  - destruct (G1 U1) as [-> ->]. cbn [alone c_tls].
    assert (B : bio_write (Tls ci o (e :: es)) d =
      (fst (bio_write (Tls i o [e]) d), Tls ci (tls_out (snd (bio_write (Tls i o [e]) d))) es)).
    { unfold bio_write. cbn [tls_sched tls_in tls_out pop_sched tl]. destruct e as [c|]; [destruct (to_positive_int (size d))|]; reflexivity. }
    assert (I : tls_in (snd (bio_write (Tls i o [e]) d)) = i).
    { unfold bio_write. cbn [tls_sched tls_in tls_out pop_sched tl]. destruct e as [c|]; [destruct (to_positive_int (size d))|]; reflexivity. }
    rewrite B. destruct (bio_write (Tls i o [e]) d) as [x y]. cbn [fst snd] in *. injection N as <- <-.
    eexists. split; [reflexivity|]. split; [apply U2|]. split; [|reflexivity].
    split; cbn [set_tls c_tls tls_out c_req sh_out sh_req tls_in c_resp sh_in sh_resp]; [auto|]. rewrite I. exact G2.
  - destruct (G2 U1) as [-> ->]. cbn [alone c_tls].
    assert (B : bio_read (Tls i co (e :: es)) n =
      (fst (bio_read (Tls i o [e]) n), Tls (tls_in (snd (bio_read (Tls i o [e]) n))) co es)).
    { unfold bio_read. cbn [tls_sched tls_in tls_out pop_sched tl]. destruct e as [c|]; [destruct (to_positive_int n); destruct i|]; reflexivity. }
    assert (I : tls_out (snd (bio_read (Tls i o [e]) n)) = o).
    { unfold bio_read. cbn [tls_sched tls_in tls_out pop_sched tl]. destruct e as [c|]; [destruct (to_positive_int n); destruct i|]; reflexivity. }
    rewrite B. destruct (bio_read (Tls i o [e]) n) as [x y]. cbn [fst snd] in *. injection N as <- <-.
    eexists. split; [reflexivity|]. split; [apply U2|]. split; [|reflexivity].
    split; cbn [set_tls c_tls tls_out c_req sh_out sh_req tls_in c_resp sh_in sh_resp]; [|auto]. rewrite I. exact G1.
  - injection N as <- <-. eexists. cbn [alone c_req c_resp get_table sh_req sh_resp].
    destruct x; cbn [side] in U1; [destruct (G1 U1) as [-> ->]|destruct (G2 U1) as [-> ->]];
      (split; [reflexivity|]; split; [apply U2|]; split; [|reflexivity]; split; cbn; auto).
  - injection N as <- <-. cbn [alone c_tls c_req c_resp].
    destruct x; cbn [side set_table sh_in sh_out sh_req sh_resp] in *; eexists; (split; [reflexivity|]; split; [exact U2|]; split; [|reflexivity]);
      split; cbn; intros H; [destruct (G1 H)|destruct (G2 H)|destruct (G1 H)|destruct (G2 H)]; auto.
Qed.

Lemma other_step : forall A w r w' r' (p p1 : io A) s s1 ev c, touches w' r' p -> w && w' = false -> r && r' = false ->
  agrees w r s c -> next s p ev = Some (s1, p1) -> agrees w r s1 c /\ touches w' r' p1.
Proof.
  intros A w r w' r' p p1 s s1 ev c U W R [G1 G2] N. destruct s as [i o T' R']. cbn [sh_in sh_out sh_req sh_resp] in *.
  destruct p as [a|d k|n k|x k|x t k]; destruct ev as [e|]; try discriminate N; cbn [touches] in U; destruct U as [U1 U2];
    cbn [next sh_in sh_out sh_req sh_resp] in *.
  - subst w'. assert (I : tls_in (snd (bio_write (Tls i o [e]) d)) = i).
    { unfold bio_write. cbn [tls_sched tls_in tls_out pop_sched tl]. destruct e as [?|]; [destruct (to_positive_int (size d))|]; reflexivity. }
    destruct (bio_write (Tls i o [e]) d) as [x y]. cbn [snd] in I. injection N as <- <-. split; [|apply U2].
    split; cbn [sh_in sh_out sh_req sh_resp]; [intros ->; discriminate W|rewrite I; exact G2].
  - subst r'. assert (I : tls_out (snd (bio_read (Tls i o [e]) n)) = o).
    { unfold bio_read. cbn [tls_sched tls_in tls_out pop_sched tl]. destruct e as [?|]; [destruct (to_positive_int n); destruct i|]; reflexivity. }
    destruct (bio_read (Tls i o [e]) n) as [x y]. cbn [snd] in I. injection N as <- <-. split; [|apply U2].
    split; cbn [sh_in sh_out sh_req sh_resp]; [rewrite I; exact G1|intros ->; discriminate R].
  - injection N as <- <-. split; [split; assumption|apply U2].
  - injection N as <- <-. split; [|exact U2]. destruct x; cbn [side set_table sh_in sh_out sh_req sh_resp] in *; subst; split; cbn [sh_in sh_out sh_req sh_resp]; auto;
      intros ->; [discriminate W|discriminate R].
Qed.

Lemma runs_alone : forall A s (ts : list (io A)) tr s' ts', runs s ts tr s' ts' ->
  forall p a c, ts = [p] -> ts' = [Ret a] -> agrees true true s c -> tls_sched (c_tls c) = events_of 0 tr -> touches true true p ->
  exists c', alone p c = (a, c') /\ agrees true true s' c' /\ tls_sched (c_tls c') = [].
Proof.
  intros A s ts tr s' ts' H. induction H as [s ts|s ts i ev tr p s1 p1 s' ts' E N H IH]; intros q a c E1 E2 G S U.
  - rewrite E1 in E2. injection E2 as ->. exists c. auto.
  - subst ts ts'. destruct i as [|i]; [|destruct i; discriminate E]. cbn [nth_error] in E. injection E as <-. cbn [replace_nth] in *.
    destruct (own_step _ true true q p1 s s1 ev c (events_of 0 tr) U G) as (c1 & X & U1 & G1 & S1); [|exact N|].
    { rewrite S. destruct ev; reflexivity. }
    destruct (IH p1 a c1 eq_refl eq_refl G1 S1 U1) as (c' & Y & Z). exists c'. rewrite X. auto.
Qed.

Lemma runs_two : forall A s (ts : list (io A)) tr s' ts', runs s ts tr s' ts' ->
  forall p q a b cp cq, ts = [p; q] -> ts' = [Ret a; Ret b] ->
  agrees true false s cp -> tls_sched (c_tls cp) = events_of 0 tr -> touches true false p ->
  agrees false true s cq -> tls_sched (c_tls cq) = events_of 1 tr -> touches false true q ->
  exists cp' cq', alone p cp = (a, cp') /\ agrees true false s' cp' /\ tls_sched (c_tls cp') = [] /\
    alone q cq = (b, cq') /\ agrees false true s' cq' /\ tls_sched (c_tls cq') = [].
Proof.
  intros A s ts tr s' ts' H. induction H as [s ts|s ts i ev tr p0 s1 p1 s' ts' E N H IH]; intros p q a b cp cq E1 E2 Gp Sp Up Gq Sq Uq.
  - rewrite E1 in E2. injection E2 as -> ->. exists cp, cq. auto 10.
  - subst ts ts'. destruct i as [|[|i]]; [| |destruct i; discriminate E]; cbn [nth_error] in E; injection E as <-; cbn [replace_nth] in *.
    + destruct (own_step _ true false p p1 s s1 ev cp (events_of 0 tr) Up Gp) as (c1 & X & U1 & G1 & S1); [|exact N|].
      { rewrite Sp. destruct ev; reflexivity. }
      destruct (other_step _ false true true false p p1 s s1 ev cq Up eq_refl eq_refl Gq N) as [Gq1 _].
      destruct (IH p1 q a b c1 cq eq_refl eq_refl G1 S1 U1 Gq1) as (cp' & cq' & Y & Z); [exact Sq|exact Uq|].
      exists cp', cq'. rewrite X. auto.
    + destruct (own_step _ false true q p1 s s1 ev cq (events_of 1 tr) Uq Gq) as (c1 & X & U1 & G1 & S1); [|exact N|].
      { rewrite Sq. destruct ev; reflexivity. }
      destruct (other_step _ true false false true q p1 s s1 ev cp Uq eq_refl eq_refl Gp N) as [Gp1 _].
      destruct (IH p p1 a b cp c1 eq_refl eq_refl Gp1 Sp Up G1 S1 U1) as (cp' & cq' & Y & Z).
      exists cp', cq'. rewrite X. auto.
Qed.

(* A thread that has the client to itself does what the calls of Client.v do,
   for every behaviour of the TLS layer. *)
Theorem C96_alone : forall host m ks s tr s' rs, runs s [thread host m ks] tr s' [Ret rs] ->
  make_calls host m (client_of s (events_of 0 tr)) ks = (rs, client_of s' []).
Proof.
  intros host m ks s tr s' rs H.
  destruct (runs_alone _ _ _ _ _ _ H _ rs (client_of s (events_of 0 tr)) eq_refl eq_refl) as (c' & X & [G1 G2] & S).
  { split; intros _; split; reflexivity. }
  { reflexivity. }
  { apply touches_thread. apply Forall_forall. intros k _. destruct (is_receive k); reflexivity. }
  rewrite alone_thread in X. rewrite X. f_equal. destruct (G1 eq_refl) as [A B], (G2 eq_refl) as [C D].
  destruct c' as [[i o es] T R]. cbn in *. subst. reflexivity.
Qed.

(* One thread sends, another receives: in every interleaving each gets the
   results it would get with a client of its own, and leaves its side of the
   connection in the same state. *)
Theorem C96_sender_and_receiver_partial : forall host m ks n s tr s' rs rr, Forall (fun k => is_receive k = false) ks ->
  runs s [thread host m ks; thread host m (repeat CallReceive n)] tr s' [Ret rs; Ret rr] ->
  exists cs cr, make_calls host m (client_of s (events_of 0 tr)) ks = (rs, cs) /\
    make_calls host m (client_of s (events_of 1 tr)) (repeat CallReceive n) = (rr, cr) /\
    tls_out (c_tls cs) = sh_out s' /\ c_req cs = sh_req s' /\ tls_in (c_tls cr) = sh_in s' /\ c_resp cr = sh_resp s'.
Proof.
  intros host m ks n s tr s' rs rr F H.
  destruct (runs_two _ _ _ _ _ _ H _ _ rs rr (client_of s (events_of 0 tr)) (client_of s (events_of 1 tr)) eq_refl eq_refl)
    as (cp & cq & X & [G1 _] & _ & Y & [_ G2] & _).
  { split; [intros _; split; reflexivity|discriminate]. }
  { reflexivity. }
  { apply touches_thread. eapply Forall_impl; [|exact F]. cbv beta. intros k ->. reflexivity. }
  { split; [discriminate|intros _; split; reflexivity]. }
  { reflexivity. }
  { apply touches_thread. apply Forall_forall. intros k I. apply repeat_spec in I. subst k. reflexivity. }
  rewrite alone_thread in X, Y. exists cp, cq. destruct (G1 eq_refl), (G2 eq_refl). auto 10.
Qed.

(* ---------------------------------------------------------------- several senders *)

(* l takes its elements from the lists ls, from each in order. *)
Inductive merged {A} : list (list A) -> list A -> Prop :=
| merged_none : forall ls, Forall (fun l => l = []) ls -> merged ls []
| merged_next : forall ls i x rest l, nth_error ls i = Some (x :: rest) -> merged (replace_nth ls i rest) l -> merged ls (x :: l).

(* What is left to write when d is left of the current piece. *)
Definition still (d : bytes) (ds : list bytes) : list bytes := match d with [] => ds | _ => d :: ds end.

(* A thread that has the pieces ds to write and then ends with rs. *)
Inductive sends : io (list returned) -> list bytes -> list returned -> Prop :=
| sends_ret : forall rs, sends (Ret rs) [] rs
| sends_write : forall d k ds rs, d <> [] -> size d < 2 ^ 31 ->
    (forall j, 0 < j -> j <= size d ->
       sends (k (Some j)) (still (skipn (N.to_nat j) d) ds) rs) ->
    sends (BioWrite d k) (d :: ds) rs.

Lemma sends_then : forall p ds rs r, sends p ds rs -> sends (andthen p (fun x => Ret (r :: x))) ds (r :: rs).
Proof.
  intros p ds rs r H. induction H as [rs|d k ds rs D L _ IH]; cbn [andthen]; constructor; auto.
Qed.

Lemma sends_write_loop : forall n d (f : res unit -> io (list returned)) ds rs, (length d <= n)%nat -> size d < 2 ^ 31 -> sends (f (Ok tt)) ds rs ->
  sends (andthen (io_write n d) f) (still d ds) rs.
Proof.
  induction n as [|n IH]; intros d f ds rs L S F.
  - destruct d; [exact F|cbn in L; lia].
  - destruct d as [|x d]; [exact F|]. cbn [io_write andthen]. apply sends_write; [discriminate|exact S|].
    intros j J1 J2. apply IH; [|unfold size in *; rewrite skipn_length; lia|exact F].
    rewrite skipn_length. cbn [length] in *. lia.
Qed.

Definition sends_ok (host : endian) (f : frame) (w : list N) : Prop := serialize host f = Ok w /\ w <> [] /\ size w < 2 ^ 31.

Lemma sends_frames : forall host m fs ws, Forall2 (sends_ok host) fs ws ->
  sends (thread host m (map CallSend fs)) ws (map (fun _ => Returned (Ok tt)) fs).
Proof.
  intros host m fs ws H. induction H as [|f w fs ws (E & N & S) H IH]; cbn [map thread]; [constructor|].
  cbn [io_call]. unfold io_send_frame. rewrite E. unfold io_send_raw_data.
  assert (AS : forall (p : io (res unit)) (h : returned -> io (list returned)) ds rs,
            sends (andthen p (fun r => h (Returned r))) ds rs -> sends (andthen (andthen p (fun r => Ret (Returned r))) h) ds rs).
  { clear. intros p h. induction p as [a|d k IHp|n k IHp|x k IHp|x t k IHp]; intros ds rs Q; cbn [andthen] in *; auto; try (inversion Q; fail).
    inversion Q; subst. constructor; auto. }
  apply AS. replace (w :: ws) with (still w ws) by (destruct w; [contradiction|reflexivity]).
  apply sends_write_loop; [lia|exact S|]. apply sends_then. exact IH.
Qed.

Lemma Forall2_nth : forall A B (P : A -> B -> Prop) l l' i a, Forall2 P l l' -> nth_error l i = Some a ->
  exists b, nth_error l' i = Some b /\ P a b.
Proof.
  intros A B P l l' i a H. revert i. induction H as [|x y l l' Q H IH]; intros [|i] E; try discriminate E.
  - injection E as <-. exists y. auto.
  - apply IH, E.
Qed.

Lemma Forall2_replace : forall A B (P : A -> B -> Prop) l l' i a b, Forall2 P l l' -> P a b -> Forall2 P (replace_nth l i a) (replace_nth l' i b).
Proof.
  intros A B P l l' i a b H Q. revert i. induction H as [|x y l l' R H IH]; intros [|i]; cbn [replace_nth]; constructor; auto.
Qed.

Lemma map_replace : forall A B (f : A -> B) l i a, map f (replace_nth l i a) = replace_nth (map f l) i (f a).
Proof. induction l as [|x l IH]; intros [|i] a; cbn [map replace_nth]; try reflexivity. rewrite IH. reflexivity. Qed.

Lemma replace_replace : forall A (l : list A) i a b, replace_nth (replace_nth l i a) i b = replace_nth l i b.
Proof. induction l as [|x l IH]; intros [|i] a b; cbn [replace_nth]; try reflexivity. rewrite IH. reflexivity. Qed.

Lemma nth_replace : forall A (l : list A) i a b, nth_error l i = Some a -> nth_error (replace_nth l i b) i = Some b.
Proof. induction l as [|x l IH]; intros [|i] a b E; try discriminate E; [reflexivity|]. cbn. eapply IH, E. Qed.

Lemma merged_app : forall A (x : list A) ls i rest l, nth_error ls i = Some (x ++ rest) -> merged (replace_nth ls i rest) l -> merged ls (x ++ l).
Proof.
  induction x as [|a x IH]; intros ls i rest l E M; cbn [app] in *.
  - assert (Q : replace_nth ls i rest = ls).
    { clear M. revert i E. induction ls as [|y ls IH]; intros [|i] E; try discriminate E; cbn in *; [injection E as ->; reflexivity|rewrite IH by exact E; reflexivity]. }
    rewrite Q in M. exact M.
  - apply (merged_next _ i a (x ++ rest)); [exact E|]. apply IH with (i := i) (rest := rest); [eapply nth_replace, E|].
    rewrite replace_replace. exact M.
Qed.

(* The threads of a run, each with its result. *)
Definition sending (rss : list (list returned)) (ts : list (io (list returned))) (dss : list (list bytes)) : Prop :=
  Forall2 (fun (t : io (list returned) * list returned) ds => sends (fst t) ds (snd t)) (combine ts rss) dss /\ length ts = length rss.

Lemma combine_nth : forall A B (l : list A) (l' : list B) i a, length l = length l' -> nth_error l i = Some a ->
  exists b, nth_error (combine l l') i = Some (a, b).
Proof.
  induction l as [|x l IH]; intros [|y l'] [|i] a L E; try discriminate E; try discriminate L; cbn in *.
  - injection E as ->. eauto.
  - apply IH; [lia|exact E].
Qed.

Lemma combine_replace : forall A B (l : list A) (l' : list B) i a b, nth_error l' i = Some b ->
  combine (replace_nth l i a) l' = replace_nth (combine l l') i (a, b).
Proof.
  induction l as [|x l IH]; intros [|y l'] [|i] a b E; try discriminate E; cbn in *; try reflexivity.
  - injection E as ->. reflexivity.
  - rewrite (IH _ _ _ b E). reflexivity.
Qed.

Lemma replace_length : forall A (l : list A) i a, length (replace_nth l i a) = length l.
Proof. induction l as [|x l IH]; intros [|i] a; cbn; try reflexivity. rewrite IH. reflexivity. Qed.

Lemma combine_snd : forall A B (l : list A) (l' : list B) i a b, nth_error (combine l l') i = Some (a, b) -> nth_error l' i = Some b.
Proof.
  induction l as [|x l IH]; intros [|y l'] [|i] a b E; try discriminate E; cbn in *.
  - injection E as _ ->. reflexivity.
  - eapply IH, E.
Qed.

(* One step of a sending thread under an event that is not a failure. *)
Lemma sending_step : forall rss ts dss i p s ev s1 p1, sending rss ts dss -> nth_error ts i = Some p -> next s p ev = Some (s1, p1) ->
  (forall e, ev = Some e -> exists c, e = Chunk c) ->
  exists c d ds, ev = Some (Chunk c) /\ nth_error dss i = Some (d :: ds) /\
    let j := N.to_nat (N.min (c + 1) (size d)) in
    s1 = Shared (sh_in s) (sh_out s ++ firstn j d) (sh_req s) (sh_resp s) /\
    sending rss (replace_nth ts i p1) (replace_nth dss i (still (skipn j d) ds)).
Proof.
  intros rss ts dss i p s ev s1 p1 [H L] E N C. destruct (combine_nth _ _ _ rss _ _ L E) as (r & CN).
  destruct (Forall2_nth _ _ _ _ _ _ _ H CN) as (ds0 & E2 & Q). cbn [fst snd] in Q.
  inversion Q as [rs X1 X2 X3|d k ds rs D S K X1 X2 X3]; subst; [destruct ev; discriminate N|].
  destruct ev as [e|]; [|discriminate N]. destruct (C e eq_refl) as (c & ->).
  exists c, d, ds. split; [reflexivity|]. split; [exact E2|]. cbn [next] in N. unfold bio_write in N. cbn [tls_sched] in N.
  assert (P : to_positive_int (size d) = Some (size d)).
  { unfold to_positive_int. change (2 ^ 31) with 2147483648 in *. change (2 ^ 32) with 4294967296.
    assert (0 < size d) by (destruct d; [contradiction|unfold size; cbn [length]; lia]).
    rewrite N.mod_small by lia. replace (0 <? size d) with true by (symmetry; apply N.ltb_lt; assumption).
    replace (size d <? 2147483648) with true by (symmetry; apply N.ltb_lt; assumption). reflexivity. }
  rewrite P in N. cbn [tls_in tls_out] in N. injection N as <- <-. split; [reflexivity|].
  assert (0 < size d) by (destruct d; [contradiction|unfold size; cbn [length]; lia]).
  split; [|rewrite replace_length; exact L].
  rewrite (combine_replace _ _ ts rss i _ r (combine_snd _ _ _ _ _ _ _ CN)).
  apply Forall2_replace; [exact H|]. cbn [fst snd]. apply K; lia.
Qed.

Lemma sending_end : forall (rss : list (list returned)) rss' dss, sending rss (map Ret rss') dss -> rss' = rss /\ Forall (fun ds => ds = []) dss.
Proof.
  intros rss rss' dss [H L]. rewrite map_length in L. revert rss' dss L H. induction rss as [|r rss IH]; intros [|r' rss'] dss L H; try discriminate L.
  - cbn in H. inversion H. split; [reflexivity|constructor].
  - cbn [map combine] in H. inversion H as [|x ds l dss' Q H' X1 X2]; subst. cbn [fst snd] in Q. inversion Q; subst.
    destruct (IH rss' dss' ltac:(cbn in L; lia) H') as [-> F]. split; [reflexivity|constructor; auto].
Qed.

Lemma sending_start : forall host m fss wss, Forall2 (Forall2 (sends_ok host)) fss wss ->
  sending (map (map (fun _ => Returned (Ok tt))) fss) (map (fun fs => thread host m (map CallSend fs)) fss) wss.
Proof.
  intros host m fss wss H. split; [|rewrite !map_length; reflexivity].
  induction H as [|fs ws fss wss F H IH]; cbn [map combine]; constructor; [apply sends_frames, F|exact IH].
Qed.

(* No octet is lost, repeated or reordered within a thread. *)
Theorem C96_octets_kept : forall host m fss wss s tr s' rss, Forall2 (Forall2 (sends_ok host)) fss wss ->
  runs s (map (fun fs => thread host m (map CallSend fs)) fss) tr s' (map Ret rss) ->
  (forall i e, In (i, Some e) tr -> e <> Fail) ->
  rss = map (map (fun _ => Returned (Ok tt))) fss /\
  exists o, merged (map (@concat N) wss) o /\ s' = Shared (sh_in s) (sh_out s ++ o) (sh_req s) (sh_resp s).
Proof.
  intros host m fss wss s tr s' rss F H NF. pose proof (sending_start host m fss wss F) as I0.
  set (goal := map (map (fun _ => Returned (Ok tt))) fss) in *. clearbody goal. clear F.
  remember (map (fun fs => thread host m (map CallSend fs)) fss) as ts eqn:X. clear X.
  remember (map Ret rss) as ts' eqn:E'. revert wss I0 NF E'.
  induction H as [s ts|s ts i ev tr p s1 p1 s' ts' E N H IH]; intros dss I0 NF E'.
  - subst ts. apply sending_end in I0. destruct I0 as [-> D]. split; [reflexivity|]. exists []. rewrite app_nil_r. split; [|destruct s; reflexivity].
    constructor. clear -D. induction D as [|ds dss -> D IH]; cbn; constructor; auto.
  - destruct (sending_step _ _ _ _ _ _ _ _ _ I0 E N) as (c & d & ds & -> & ND & S1 & I1).
    { intros e ->. specialize (NF i e (or_introl eq_refl)). destruct e; [eauto|contradiction]. }
    destruct (IH _ I1 (fun i e J => NF i e (or_intror J)) E') as (R & o & M & S'). split; [exact R|].
    set (j := N.to_nat (N.min (c + 1) (size d))) in *. subst s1. cbn [sh_in sh_out sh_req sh_resp] in S'.
    exists (firstn j d ++ o). rewrite app_assoc. split; [|exact S']. rewrite map_replace in M.
    apply (merged_app _ _ _ i (skipn j d ++ concat ds)).
    + rewrite app_assoc, firstn_skipn. rewrite nth_error_map, ND. reflexivity.
    + destruct (skipn j d) as [|x l]; exact M.
Qed.

(* If OpenSSL takes every frame at once, frames are sent whole. *)
Theorem C96_whole_frames_partial : forall host m fss wss s tr s' rss, Forall2 (Forall2 (sends_ok host)) fss wss ->
  runs s (map (fun fs => thread host m (map CallSend fs)) fss) tr s' (map Ret rss) ->
  (forall i e, In (i, Some e) tr -> exists c, e = Chunk c /\ forall ws w, In ws wss -> In w ws -> size w <= c + 1) ->
  rss = map (map (fun _ => Returned (Ok tt))) fss /\
  exists ws, merged wss ws /\ s' = Shared (sh_in s) (sh_out s ++ concat ws) (sh_req s) (sh_resp s).
Proof.
  intros host m fss wss s tr s' rss F H NF. pose proof (sending_start host m fss wss F) as I0.
  set (goal := map (map (fun _ => Returned (Ok tt))) fss) in *. clearbody goal. clear F.
  remember (map (fun fs => thread host m (map CallSend fs)) fss) as ts eqn:X. clear X.
  remember (map Ret rss) as ts' eqn:E'.
  assert (X : exists all, all = wss) by eauto. destruct X as (all & X). rewrite <- X in NF.
  assert (SUB : forall ws w, In ws wss -> In w ws -> exists ws', In ws' all /\ In w ws') by (rewrite X; eauto). clear X. revert wss I0 SUB NF E'.
  induction H as [s ts|s ts i ev tr p s1 p1 s' ts' E N H IH]; intros dss I0 SUB NF E'.
  - subst ts. apply sending_end in I0. destruct I0 as [-> D]. split; [reflexivity|]. exists []. cbn [concat]. rewrite app_nil_r. split; [|destruct s; reflexivity].
    constructor. exact D.
  - destruct (sending_step _ _ _ _ _ _ _ _ _ I0 E N) as (c & d & ds & -> & ND & S1 & I1).
    { intros e ->. destruct (NF i e (or_introl eq_refl)) as (c & -> & _). eauto. }
    destruct (NF i _ (or_introl eq_refl)) as (c' & C & A). injection C as <-.
    assert (B : size d <= c + 1).
    { destruct (SUB (d :: ds) d (nth_error_In _ _ ND) (or_introl eq_refl)) as (ws' & W1 & W2). eapply A; eassumption. }
    replace (N.to_nat (N.min (c + 1) (size d))) with (length d) in * by (unfold size in *; lia).
    rewrite firstn_all in S1. rewrite skipn_all in I1.
    destruct (IH _ I1) as (R & ws & M & S').
    { intros ws w J1 J2. assert (K : In ws dss \/ ws = ds).
      { clear -J1. revert i J1. induction dss as [|x dss IH]; intros [|i] J; cbn in *; try tauto; [destruct J; auto|destruct J as [J|J]; [auto|destruct (IH _ J); auto]]. }
      destruct K as [K| ->]; [eapply SUB; eassumption|]. apply (SUB (d :: ds) w (nth_error_In _ _ ND)). right. exact J2. }
    { intros i' e J. apply (NF i' e). right. exact J. }
    { exact E'. }
    split; [exact R|]. exists (d :: ws). subst s1. cbn [sh_in sh_out sh_req sh_resp concat] in *. rewrite app_assoc. split; [|exact S'].
    eapply merged_next; [exact ND|exact M].
Qed.

(* ---------------------------------------------------------------- what goes wrong *)

Definition no_failure (tr : list (nat * option io_event)) : Prop := forall i e, In (i, Some e) tr -> e <> Fail.

Lemma positive_int : forall n, 0 < n -> n < 2 ^ 31 -> to_positive_int n = Some n.
Proof.
  intros n P L. unfold to_positive_int. change (2 ^ 31) with 2147483648 in *. change (2 ^ 32) with 4294967296.
  rewrite N.mod_small by lia. replace (0 <? n) with true by (symmetry; apply N.ltb_lt; assumption).
  replace (n <? 2147483648) with true by (symmetry; apply N.ltb_lt; assumption). reflexivity.
Qed.

(* The octets of a frame: three for the length, one for the type. *)
Lemma wire_head : forall w, exists l2 l1 l0 rest, wire w = l2 :: l1 :: l0 :: w_type w :: rest /\
  l2 = (size (w_payload w) / 65536) mod 256.
Proof. intros w. eexists _, _, _, _. split; reflexivity. Qed.

(* Two threads send a frame each; OpenSSL takes three octets in the first call.
   Both calls return normally, and the server gets neither order of the two
   frames. *)
Theorem C96_two_senders_refuted : forall host m s f g a b, wframe_ok a -> wframe_ok b ->
  serialize host f = Ok (wire a) -> serialize host g = Ok (wire b) ->
  w_type a <> DATA -> w_type b <> DATA -> size (w_payload b) < 65536 ->
  exists tr o s', runs s [thread host m [CallSend f]; thread host m [CallSend g]] tr s' [Ret [Returned (Ok tt)]; Ret [Returned (Ok tt)]] /\
    no_failure tr /\ sh_out s' = sh_out s ++ o /\ o <> wire a ++ wire b /\ o <> wire b ++ wire a.
Proof.
  intros host m s f g a b WA WB SA SB TA TB LB.
  pose proof (wire_size a WA) as ZA. pose proof (wire_size b WB) as ZB.
  assert (L31A : size (wire a) < 2 ^ 31).
  { destruct WA as (_ & _ & _ & _ & _ & L). rewrite ZA. change (2 ^ 24) with 16777216 in L. change (2 ^ 31) with 2147483648. lia. }
  assert (L31B : size (wire b) < 2 ^ 31) by (rewrite ZB; change (2 ^ 31) with 2147483648; lia).
  destruct (wire_head a) as (a2 & a1 & a0 & ra & EA & HA). destruct (wire_head b) as (b2 & b1 & b0 & rb & EB & HB).
  assert (Hb2 : b2 = 0) by (rewrite HB, (N.div_small _ _ LB); reflexivity).
  assert (Lra : 0 < size (w_type a :: ra)) by (unfold size; cbn [length]; lia).
  assert (Lra31 : size (w_type a :: ra) < 2 ^ 31).
  { rewrite EA in L31A. unfold size in *. cbn [length] in *. change (2 ^ 31) with 2147483648 in *. lia. }
  exists [(0%nat, Some (Chunk 2)); (1%nat, Some (Chunk (size (wire b)))); (0%nat, Some (Chunk (size (wire a))))].
  exists ([a2; a1; a0] ++ wire b ++ w_type a :: ra).
  eexists. split; [|split; [|split; [|split]]].
  - econstructor; [reflexivity| |].
    { cbn [thread io_call]. unfold io_send_frame. rewrite SA. unfold io_send_raw_data. rewrite EA at 2. cbn [length io_write andthen].
      rewrite EA at 1. cbn [length io_write andthen next]. unfold bio_write. cbn [tls_sched]. rewrite <- EA at 1.
      rewrite positive_int; [|rewrite ZA; clear; lia|exact L31A].
      replace (N.min (2 + 1) (size (wire a))) with 3 by (rewrite ZA; lia). reflexivity. }
    cbn [replace_nth]. econstructor; [reflexivity| |].
    { cbn [thread io_call]. unfold io_send_frame. rewrite SB. unfold io_send_raw_data. rewrite EB at 1 2. cbn [length io_write andthen next].
      unfold bio_write. cbn [tls_sched]. rewrite <- EB at 1. rewrite positive_int; [|rewrite ZB; clear; lia|exact L31B].
      replace (N.min (size (wire b) + 1) (size (wire b))) with (size (wire b)) by lia. cbn [tls_in tls_out].
      replace (N.to_nat (size (wire b))) with (length (b2 :: b1 :: b0 :: w_type b :: rb)) by (rewrite <- EB; unfold size; lia).
      rewrite firstn_all, skipn_all. cbn [io_write andthen]. reflexivity. }
    cbn [replace_nth]. econstructor; [reflexivity| |].
    { change (N.to_nat 3) with 3%nat. cbn [skipn io_write andthen]. cbn [length io_write andthen next].
      unfold bio_write. cbn [tls_sched]. rewrite positive_int; [|exact Lra|exact Lra31].
      replace (N.min (size (wire a) + 1) (size (w_type a :: ra))) with (size (w_type a :: ra))
        by (rewrite EA; unfold size; cbn [length]; lia). cbn [tls_in tls_out].
      replace (N.to_nat (size (w_type a :: ra))) with (length (w_type a :: ra)) by (unfold size; lia).
      rewrite firstn_all, skipn_all. cbn [io_write andthen]. reflexivity. }
    cbn [replace_nth]. constructor.
  - intros i e [E|[E|[E|[]]]]; injection E as _ <-; discriminate.
  - cbn [sh_out]. change (N.to_nat 3) with 3%nat. cbn [firstn]. rewrite <- !app_assoc. rewrite <- EB. reflexivity.
  - rewrite EA, EB. cbn [app]. intros E. injection E as E _. apply TA. rewrite <- E. exact Hb2.
  - rewrite EA, EB. cbn [app]. intros E. injection E as _ _ _ E _. apply TB. rewrite <- E. exact Hb2.
Qed.

Lemma runs_app : forall A s (ts : list (io A)) tr s1 ts1, runs s ts tr s1 ts1 -> forall tr' s2 ts2, runs s1 ts1 tr' s2 ts2 ->
  runs s ts (tr ++ tr') s2 ts2.
Proof.
  intros A s ts tr s1 ts1 H. induction H as [|s ts i ev tr p s1 p1 s' ts' E N H IH]; intros tr' s2 ts2 K; [exact K|].
  cbn [app]. econstructor; [exact E|exact N|]. apply IH, K.
Qed.

Lemma read_shape : forall n, 0 < n -> exists k, io_receive_raw_data n = BioRead n k /\ forall d, size d = n -> k (Some d) = Ret (Ok d).
Proof.
  intros n P. unfold io_receive_raw_data. destruct (N.to_nat n) as [|x] eqn:X; [lia|].
  cbn [io_read]. replace (0 <? n) with true by (symmetry; apply N.ltb_lt; exact P). eexists. split; [reflexivity|].
  intros d D. cbv beta iota. rewrite D, N.sub_diag. destruct x; reflexivity.
Qed.

Lemma read_next : forall A (k : option bytes -> io A) s n d rest, 0 < n -> n < 2 ^ 31 -> size d = n -> sh_in s = d ++ rest ->
  next s (BioRead n k) (Some (Chunk n)) = Some (Shared rest (sh_out s) (sh_req s) (sh_resp s), k (Some d)).
Proof.
  intros A k s n d rest P L D E. cbn [next]. unfold bio_read. cbn [tls_sched tls_in tls_out]. rewrite positive_int by assumption.
  rewrite E. destruct (d ++ rest) as [|x y] eqn:X.
  - apply app_eq_nil in X. destruct X as [-> _]. cbn in D. lia.
  - rewrite <- X. replace (N.to_nat (N.min (n + 1) (N.min n (size (d ++ rest))))) with (length d)
      by (rewrite size_app; unfold size in *; lia).
    rewrite firstn_app, firstn_all, Nat.sub_diag, skipn_app, skipn_all, Nat.sub_diag. cbn [firstn skipn app]. rewrite app_nil_r. reflexivity.
Qed.

(* What is left of a receiving thread when the frame header has been read. *)
Definition after_header (m : ub_mode) (fh : frame_header) : io (list returned) :=
  andthen (andthen (andthen (if 0 <? fh_length fh then io_receive_raw_data (fh_length fh) else Ret (Ok [])) (fun r2 =>
      GetTable Response (fun t =>
      match (let* raw := r2 in build_frame m fh raw t) with
      | Throw x => Ret (Throw x)
      | UB u => Ret (UB u)
      | NoFuel => Ret NoFuel
      | Ok f => let '(r3, t') := update_frame t f in SetTable Response t' (Ret (let* _ := r3 in Ok f))
      end))) (fun r => Ret (Received r))) (fun r => Ret [r]).

Lemma header_run : forall host m ts i s head fh rest, nth_error ts i = Some (thread host m [CallReceive]) -> sh_in s = head ++ rest -> size head = 9 ->
  build_frame_header head = Ok fh ->
  runs s ts [(i, Some (Chunk 9))] (Shared rest (sh_out s) (sh_req s) (sh_resp s)) (replace_nth ts i (after_header m fh)).
Proof.
  intros host m ts i s head fh rest E S H B. destruct (read_shape 9 eq_refl) as (k & K & KD).
  econstructor; [exact E| |constructor].
  cbn [thread io_call]. unfold io_receive_frame. change FRAME_HEADER_BYTES with 9. rewrite K. cbn [andthen].
  rewrite (read_next _ _ s 9 head rest eq_refl eq_refl H S). rewrite (KD _ H). cbn [andthen bind]. rewrite B. reflexivity.
Qed.

(* The frame with header fh and this payload. *)
Definition treated (m : ub_mode) (t : dyn_table) (fh : frame_header) (payload : list N) : res frame * dyn_table :=
  match build_frame m fh payload t with
  | Ok f => let '(r, t') := update_frame t f in (let* _ := r in Ok f, t')
  | Throw x => (Throw x, t)
  | UB u => (UB u, t)
  | NoFuel => (NoFuel, t)
  end.

Lemma rest_run : forall m ts i s fh payload rest, nth_error ts i = Some (after_header m fh) -> sh_in s = payload ++ rest ->
  size payload = fh_length fh -> fh_length fh < 2 ^ 31 ->
  exists tr, no_failure tr /\
    runs s ts tr (Shared rest (sh_out s) (sh_req s) (snd (treated m (sh_resp s) fh payload)))
      (replace_nth ts i (Ret [Received (fst (treated m (sh_resp s) fh payload))])).
Proof.
  intros m ts i s fh payload rest E S H L.
  (* once the payload is there *)
  assert (T : forall ts s, nth_error ts i = Some (andthen (andthen (GetTable Response (fun t =>
      match (let* raw := Ok payload in build_frame m fh raw t) with
      | Throw x => Ret (Throw x)
      | UB u => Ret (UB u)
      | NoFuel => Ret NoFuel
      | Ok f => let '(r3, t') := update_frame t f in SetTable Response t' (Ret (let* _ := r3 in Ok f))
      end)) (fun r => Ret (Received r))) (fun r => Ret [r])) -> sh_in s = rest -> exists tr, no_failure tr /\
    runs s ts tr (Shared rest (sh_out s) (sh_req s) (snd (treated m (sh_resp s) fh payload)))
      (replace_nth ts i (Ret [Received (fst (treated m (sh_resp s) fh payload))]))).
  { clear. intros ts [si so sq sr] E S. cbn [sh_in sh_out sh_req sh_resp] in *. subst si. cbn [andthen bind] in E.
    unfold treated. destruct (build_frame m fh payload sr) as [f|x|u|] eqn:B.
    - destruct (update_frame sr f) as [r3 t'] eqn:U. cbn [fst snd].
      exists [(i, None); (i, None)]. split; [intros i' e [X|[X|[]]]; discriminate X|].
      econstructor; [exact E|cbn [next get_table sh_resp]; rewrite B, U; reflexivity|].
      cbn [andthen]. econstructor; [eapply nth_replace, E|reflexivity|]. rewrite replace_replace. constructor.
    - exists [(i, None)]. split; [intros i' e [X|[]]; discriminate X|].
      econstructor; [exact E|cbn [next get_table sh_resp]; rewrite B; reflexivity|]. constructor.
    - exists [(i, None)]. split; [intros i' e [X|[]]; discriminate X|].
      econstructor; [exact E|cbn [next get_table sh_resp]; rewrite B; reflexivity|]. constructor.
    - exists [(i, None)]. split; [intros i' e [X|[]]; discriminate X|].
      econstructor; [exact E|cbn [next get_table sh_resp]; rewrite B; reflexivity|]. constructor. }
  unfold after_header in E. destruct (0 <? fh_length fh) eqn:P.
  - apply N.ltb_lt in P. destruct (read_shape _ P) as (k & K & KD). rewrite K in E. cbn [andthen] in E.
    set (s1 := Shared rest (sh_out s) (sh_req s) (sh_resp s)).
    destruct (T (replace_nth ts i (andthen (andthen (GetTable Response (fun t =>
      match (let* raw := Ok payload in build_frame m fh raw t) with
      | Throw x => Ret (Throw x)
      | UB u => Ret (UB u)
      | NoFuel => Ret NoFuel
      | Ok f => let '(r3, t') := update_frame t f in SetTable Response t' (Ret (let* _ := r3 in Ok f))
      end)) (fun r => Ret (Received r))) (fun r => Ret [r]))) s1) as (tr & NF & R); [eapply nth_replace, E|reflexivity|].
    exists ((i, Some (Chunk (fh_length fh))) :: tr). split.
    + intros i' e [X|X]; [injection X as _ <-; discriminate|exact (NF _ _ X)].
    + econstructor; [exact E|rewrite (read_next _ _ s _ payload rest P L H S), (KD _ H); reflexivity|].
      rewrite replace_replace in R. exact R.
  - apply N.ltb_ge in P. assert (payload = []) by (destruct payload; [reflexivity|unfold size in H; cbn [length] in H; lia]). subst payload.
    cbn [app] in S. apply T; [exact E|exact S].
Qed.

Lemma be_are_octets : forall k x, is_octets (be_octets k x).
Proof. induction k as [|k IH]; intros x b J; cbn in J; [contradiction|]. destruct J as [<-|J]; [apply N.mod_lt; discriminate|exact (IH _ _ J)]. Qed.

Lemma wire_octets : forall w, wframe_ok w -> is_octets (wire w).
Proof.
  intros w (T & F & _ & _ & O & _) b J. unfold wire, wire_frame, wire_header in J. rewrite !in_app_iff in J.
  destruct J as [[J|[[<-|[<-|[]]]|J]]|J]; try assumption; [exact (be_are_octets _ _ _ J)|exact (be_are_octets _ _ _ J)|exact (O _ J)].
Qed.

(* Two threads receive while a DATA frame arrives whose data are the octets of
   another frame h: one thread gets h, which the server never sent as a frame,
   and the other gets the octets after the DATA frame as its data.  h is
   arbitrary, and handled as if it had been received (it may, say, add entries to
   the response table). *)
Theorem C96_two_receivers_refuted : forall host m s flags sid h later rest, wframe_ok h -> flags < 256 -> sid < 2 ^ 31 ->
  size (wire h) < 2 ^ 24 -> size later = size (wire h) ->
  sh_in s = wire (WFrame DATA flags 0 sid (wire h)) ++ later ++ rest ->
  exists tr s', runs s [thread host m [CallReceive]; thread host m [CallReceive]] tr s'
      [Ret [Received (Ok (mk_data flags sid later))]; Ret [Received (fst (handled m (sh_resp s) h))]] /\
    no_failure tr /\ sh_in s' = rest /\ sh_resp s' = snd (handled m (sh_resp s) h).
Proof.
  intros host m s flags sid h later rest H F S L LL I.
  assert (D : wframe_ok (WFrame DATA flags 0 sid (wire h))).
  { repeat split; cbn [w_type w_flags w_reserved w_stream w_payload]; try assumption; try reflexivity. apply wire_octets, H. }
  destruct (wire_split _ D) as (hd & WD & SD & BD). destruct (wire_split _ H) as (hh & WH & SH & BH).
  rewrite WD in I. cbn [w_payload] in I. rewrite <- app_assoc in I.
  pose proof (header_run host m [thread host m [CallReceive]; thread host m [CallReceive]] 0 s hd _ _ eq_refl I SD BD) as R1.
  set (s1 := Shared (wire h ++ later ++ rest) (sh_out s) (sh_req s) (sh_resp s)) in *. cbn [replace_nth] in R1.
  pose proof (header_run host m [after_header m (header_of (WFrame DATA flags 0 sid (wire h))); thread host m [CallReceive]] 1 s1 hh _
                (w_payload h ++ later ++ rest) eq_refl ltac:(cbn [s1 sh_in]; rewrite WH, <- app_assoc; reflexivity) SH BH) as R2.
  cbn [replace_nth s1 sh_out sh_req sh_resp] in R2.
  set (s2 := Shared (w_payload h ++ later ++ rest) (sh_out s) (sh_req s) (sh_resp s)) in *.
  destruct (rest_run m [after_header m (header_of (WFrame DATA flags 0 sid (wire h))); after_header m (header_of h)] 1 s2 _ (w_payload h) (later ++ rest)
              eq_refl eq_refl eq_refl) as (tr3 & NF3 & R3).
  { cbn [header_of fh_length]. destruct H as (_ & _ & _ & _ & _ & H). change (2 ^ 24) with 16777216 in H. change (2 ^ 31) with 2147483648. lia. }
  cbn [replace_nth s2 sh_out sh_req sh_resp] in R3.
  set (s3 := Shared (later ++ rest) (sh_out s) (sh_req s) (snd (treated m (sh_resp s) (header_of h) (w_payload h)))) in *.
  destruct (rest_run m [after_header m (header_of (WFrame DATA flags 0 sid (wire h))); Ret [Received (fst (treated m (sh_resp s) (header_of h) (w_payload h)))]]
              0 s3 _ later rest eq_refl eq_refl) as (tr4 & NF4 & R4).
  { exact LL. }
  { cbn [header_of fh_length w_payload]. change (2 ^ 24) with 16777216 in L. change (2 ^ 31) with 2147483648. lia. }
  cbn [replace_nth s3 sh_out sh_req sh_resp] in R4.
  eexists _, _. split; [|split; [|split]].
  - eapply runs_app; [exact R1|]. eapply runs_app; [exact R2|]. eapply runs_app; [exact R3|exact R4].
  - intros i e J. rewrite !in_app_iff in J. destruct J as [[J|[]]|[[J|[]]|[J|J]]]; try (injection J as _ <-; discriminate); [exact (NF3 _ _ J)|exact (NF4 _ _ J)].
  - reflexivity.
  - reflexivity.
Qed.

(* ---------------------------------------------------------------- cases *)

Fixpoint exec {A} (s : shared) (ts : list (io A)) (tr : list (nat * option io_event)) : option (shared * list (io A)) :=
  match tr with
  | [] => Some (s, ts)
  | (i, ev) :: tr' =>
      match nth_error ts i with
      | Some p => match next s p ev with Some (s1, p1) => exec s1 (replace_nth ts i p1) tr' | None => None end
      | None => None
      end
  end.

Lemma exec_runs : forall A tr s (ts : list (io A)) s' ts', exec s ts tr = Some (s', ts') -> runs s ts tr s' ts'.
Proof.
  induction tr as [|[i ev] tr IH]; intros s ts s' ts' E; cbn [exec] in E.
  - injection E as <- <-. constructor.
  - destruct (nth_error ts i) as [p|] eqn:P; [|discriminate E]. destruct (next s p ev) as [[s1 p1]|] eqn:N; [|discriminate E].
    econstructor; [exact P|exact N|]. apply IH, E.
Qed.

(* A thread performs a request and sends a PING while another receives a SETTINGS
   frame and a HEADERS frame that adds an entry to the response table. *)
Definition case_request : request :=
  PropRequest.Request 5 1 [HEntry IncrementalIndexing (EHeader (octets "k", octets "v"))] ModeNone [] 0 0 0.
Definition case_ping : frame := PingFrame (FH 8 T_PING 0 0 0) [1; 2; 3; 4; 5; 6; 7; 8].
Definition case_in : list N :=
  wire (WFrame SETTINGS 0 0 0 [0; 3; 0; 0; 0; 9]) ++ wire (WFrame HEADERS 4 0 1 [64; 1; 97; 1; 98]).

Example C96_case : exists s' rs rr,
  runs (Shared case_in [] default_table default_table)
    [thread LittleEndian Strict [CallRequest case_request; CallSend case_ping]; thread LittleEndian Strict (repeat CallReceive 2)]
    [(0, None); (1, Some (Chunk 4)); (0, Some (Chunk 6)); (1, Some (Chunk 3)); (1, Some (Chunk 9)); (0, Some (Chunk 99)); (1, None);
     (0, None); (0, None); (1, None); (1, Some (Chunk 8)); (0, Some (Chunk 0)); (1, Some (Chunk 1)); (0, Some (Chunk 99));
     (1, Some (Chunk 9)); (1, None); (1, None)]%nat
    s' [Ret rs; Ret rr] /\
  rs = [Returned (Ok tt); Returned (Ok tt)] /\
  map (fun r => match r with Received (Ok f) => fh_type (frame_fh f) | _ => 99 end) rr = [4; 1] /\
  sh_in s' = [] /\ length (sh_out s') = 31%nat /\
  dt_entries (sh_req s') = [(octets "k", octets "v")] /\ dt_entries (sh_resp s') = [(octets "a", octets "b")].
Proof.
  eexists _, _, _. split; [apply exec_runs; vm_compute; reflexivity|]. repeat split.
Qed.

(* Two threads that send two frames each, taken in pieces. *)
Example C96_senders_case :
  let f := case_ping in let g := RstStreamFrame (FH 4 T_RST_STREAM 0 0 3) 8 in
  exists wf wg s', sends_ok LittleEndian f wf /\ sends_ok LittleEndian g wg /\
  runs (Shared [] [] default_table default_table)
    [thread LittleEndian Strict (map CallSend [f; g]); thread LittleEndian Strict (map CallSend [g])]
    [(0, Some (Chunk 16)); (1, Some (Chunk 3)); (0, Some (Chunk 99)); (1, Some (Chunk 99))]%nat
    s' (map Ret [[Returned (Ok tt); Returned (Ok tt)]; [Returned (Ok tt)]]) /\
  sh_out s' = wf ++ firstn 4 wg ++ wg ++ skipn 4 wg.
Proof.
  cbv zeta. eexists _, _, _. split; [|split; [|split]].
  - split; [vm_compute; reflexivity|]. split; [discriminate|reflexivity].
  - split; [vm_compute; reflexivity|]. split; [discriminate|reflexivity].
  - apply exec_runs. vm_compute. reflexivity.
  - reflexivity.
Qed.

(* The hypotheses of the two refutations hold of a PING and a RST_STREAM frame,
   and of a DATA frame that contains a HEADERS frame and is followed by 14 more
   octets. *)
Example C96_refuted_case :
  let a := WFrame PING 0 0 0 [1; 2; 3; 4; 5; 6; 7; 8] in let b := WFrame RST_STREAM 0 0 3 [0; 0; 0; 8] in
  wframe_ok a /\ wframe_ok b /\ serialize LittleEndian case_ping = Ok (wire a) /\
  serialize LittleEndian (RstStreamFrame (FH 4 T_RST_STREAM 0 0 3) 8) = Ok (wire b) /\
  let h := WFrame HEADERS 4 0 1 [64; 1; 97; 1; 98] in
  wframe_ok h /\ size (wire h) = 14 /\ size (wire b ++ [0]) = size (wire h) /\
  snd (handled Strict default_table h) <> default_table.
Proof.
  cbv zeta. assert (O : forall l, forallb (fun b => b <? 256) l = true -> is_octets l).
  { intros l H b I. rewrite forallb_forall in H. apply N.ltb_lt, H, I. }
  repeat split; try (apply O; reflexivity). vm_compute. discriminate.
Qed.

Print Assumptions C96_alone.
Print Assumptions C96_sender_and_receiver_partial.
Print Assumptions C96_octets_kept.
Print Assumptions C96_whole_frames_partial.
Print Assumptions C96_two_senders_refuted.
Print Assumptions C96_two_receivers_refuted.
