(* Property C113: running out of memory while a client is made. *)
From Coq Require Import String.
From Coq Require Import ZArith NArith List Bool Lia ZifyBool ZifyNat ZifyN.
From Verif Require Import Base Arith Dump Connect Ssl Client Memory ConnectMemory DumpProofs PropConnect PropMemory.
Import ListNotations.
Local Open Scope string_scope. Local Open Scope list_scope. Local Open Scope N_scope.

(* ------------------------------------------------------ specification *)

(* What exists after an attempt that ended so: both OpenSSL objects if it
   succeeded, else nothing (see PropConnect.uses for what calls do). *)
Definition left_over (r : outcome unit) : bool * bool :=
  match r with Returns (Ok _) => (true, true) | _ => (false, false) end.

Definition releases (c : ssl_call) : Prop := c = BIO_free_all \/ c = SSL_CTX_free.

Definition is_init (c : ssl_call) : bool := match c with SSL_library_init => true | _ => false end.

(* How often the library has been initialised *)
Definition inits (cs : list ssl_call) : nat := length (filter is_init cs).

(* The clients that were made were only used to read and write. *)
Definition only_io (l : list (attempt * list ssl_call)) : Prop :=
  Forall (fun x => Forall (fun c => c = BIO_read \/ c = BIO_write) (snd x)) l.

(* ------------------------------------------------------------- proofs *)

(* c does what q does, but may run out of memory on the way; it does not load
   the library. *)
Definition sim (c : mcode) (q : code) : Prop := forall p mem cs r p' mem', c p mem = (cs, r, p', mem') ->
  p_loaded p' = p_loaded p /\
  ((r = Returns (snd q) /\ cs = fst q) \/ (r = BadAlloc /\ exists todo, fst q = cs ++ todo)) /\
  (plenty mem -> r <> BadAlloc /\ plenty mem').

Lemma sim_calls : forall l, sim (mcalls l) (calls l).
Proof.
  intros l p mem cs r p' mem' E. injection E as <- <- <- <-.
  split; [reflexivity|]. split; [left; split; reflexivity|]. intros P. split; [discriminate|exact P].
Qed.

Lemma alloc_cases : forall mem, exists b mem', alloc mem = (b, mem') /\ (plenty mem -> b = true /\ plenty mem').
Proof.
  intros mem. destruct (alloc mem) as [b mem'] eqn:A. exists b, mem'. split; [reflexivity|].
  intros P. destruct (alloc_plenty mem P) as (m & A' & P'). rewrite A in A'. injection A' as -> ->. split; [reflexivity|exact P'].
Qed.

Lemma sim_require : forall b, sim (mrequire b) (require b).
Proof.
  intros b p mem cs r p' mem' E. unfold mrequire in E. destruct b.
  - injection E as <- <- <- <-. split; [reflexivity|]. split; [left; split; reflexivity|]. intros P. split; [discriminate|exact P].
  - destruct (alloc_cases mem) as (ok & m & A & P). rewrite A in E. injection E as <- <- <- <-. split; [reflexivity|]. destruct ok.
    + split; [left; split; reflexivity|]. intros Q. destruct (P Q) as [_ P']. split; [discriminate|exact P'].
    + split; [right; split; [reflexivity|exists []; reflexivity]|]. intros Q. destruct (P Q) as [X _]. discriminate X.
Qed.

Lemma sim_seq : forall c q d q', sim c q -> sim d q' -> sim (mseq c d) (seqc q q').
Proof.
  intros c q d q' C D p mem cs r p' mem' E. unfold mseq in E. destruct (c p mem) as [[[cs1 r1] p1] mem1] eqn:E1.
  destruct (C _ _ _ _ _ _ E1) as (L1 & R1 & P1). unfold seqc. destruct R1 as [(-> & ->)|(-> & todo & T)].
  - destruct (snd q) as [[]|x|u|] eqn:Q.
    + destruct (d p1 mem1) as [[[cs2 r2] p2] mem2] eqn:E2. injection E as <- <- <- <-.
      destruct (D _ _ _ _ _ _ E2) as (L2 & R2 & P2). split; [congruence|]. split.
      * destruct R2 as [(-> & ->)|(-> & todo & T)]; [left; split; reflexivity|].
        right. split; [reflexivity|]. exists todo. cbn [fst]. rewrite T, app_assoc. reflexivity.
      * intros P. apply P2. apply P1. exact P.
    + injection E as <- <- <- <-. split; [exact L1|]. split; [left; split; reflexivity|]. intros P. exact (P1 P).
    + injection E as <- <- <- <-. split; [exact L1|]. split; [left; split; reflexivity|]. intros P. exact (P1 P).
    + injection E as <- <- <- <-. split; [exact L1|]. split; [left; split; reflexivity|]. intros P. exact (P1 P).
  - injection E as <- <- <- <-. split; [exact L1|]. split; [|intros P; exact (P1 P)].
    right. split; [reflexivity|]. destruct (snd q) as [[]|x|u|]; cbn [fst]; rewrite T; [|exists todo; reflexivity..].
    rewrite <- app_assoc. eexists. reflexivity.
Qed.

(* A step that makes no call and may only run out of memory. *)
Definition quiet (c : mcode) : Prop := sim c ([], Ok tt).

Lemma quiet_seq : forall c d q, quiet c -> sim d q -> sim (mseq c d) q.
Proof.
  intros c d q C D. pose proof (sim_seq _ _ _ _ C D) as H. unfold seqc in H. cbn in H. destruct q as [a b]. exact H.
Qed.

Lemma quiet_room : quiet mroom.
Proof.
  intros p mem cs r p' mem' E. unfold mroom in E. destruct (alloc_cases mem) as (ok & m & A & P). rewrite A in E.
  injection E as <- <- <- <-. split; [reflexivity|]. destruct ok.
  - split; [left; split; reflexivity|]. intros Q. destruct (P Q) as [_ P']. split; [discriminate|exact P'].
  - split; [right; split; [reflexivity|exists []; reflexivity]|]. intros Q. destruct (P Q) as [X _]. discriminate X.
Qed.

Lemma quiet_protos : quiet mprotos.
Proof.
  intros p mem cs r p' mem' E. unfold mprotos in E. destruct (p_protos p).
  - injection E as <- <- <- <-. split; [reflexivity|]. split; [left; split; reflexivity|]. intros P. split; [discriminate|exact P].
  - destruct (alloc_cases mem) as (ok & m & A & P). rewrite A in E. destruct ok; injection E as <- <- <- <-; (split; [reflexivity|]).
    + split; [left; split; reflexivity|]. intros Q. destruct (P Q) as [_ P']. split; [discriminate|exact P'].
    + split; [right; split; [reflexivity|exists []; reflexivity]|]. intros Q. destruct (P Q) as [X _]. discriminate X.
Qed.

Lemma calls_two : forall a b q, seqc (calls [a; b]) q = seqc (calls [a]) (seqc (calls [b]) q).
Proof. intros a b [cs r]. reflexivity. Qed.

Lemma all_seq : forall P p q, Forall P (fst p) -> Forall P (fst q) -> Forall P (fst (seqc p q)).
Proof. intros P p q A B. unfold seqc. destruct (snd p) as [[]|x|u|]; [|exact A..]. apply Forall_app. split; assumption. Qed.

Lemma all_require : forall P b, Forall P (fst (require b)).
Proof. intros P b. constructor. Qed.

Lemma inits_app : forall a b, inits (a ++ b) = (inits a + inits b)%nat.
Proof. intros a b. unfold inits. rewrite filter_app, app_length. reflexivity. Qed.

Lemma none_inits : forall cs, Forall (fun c => is_init c = false) cs -> inits cs = 0%nat.
Proof. intros cs F. unfold inits. induction F as [|c l N F IH]; [reflexivity|]. cbn [filter]. rewrite N. exact IH. Qed.

Lemma body_sim : forall env mode host port p mem cs r p' mem',
  connect_body_mem env mode host port p mem = (cs, r, p', mem') ->
  let q := connect_body env mode (negb (p_loaded p)) host port in
  p_loaded p' = true /\
  ((r = Returns (snd q) /\ cs = fst q) \/
   (r = BadAlloc /\ exists todo, fst q = cs ++ todo)) /\
  (plenty mem -> r <> BadAlloc) /\
  inits cs = if p_loaded p then 0%nat else 1%nat.
Proof.
  intros env mode host port p mem cs r p' mem' E q. unfold connect_body_mem in E. unfold mseq at 1 in E.
  unfold q, connect_body. clear q. match type of E with context [mseq mroom ?rest] => set (d := mseq mroom rest) in * end.
  match goal with |- context [seqc (calls (if _ then _ else _)) ?q0] => set (q := q0) end.
  assert (SM : sim d q).
  { unfold d, q. apply quiet_seq; [apply quiet_room|]. apply sim_seq; [apply sim_calls|]. apply sim_seq; [apply sim_calls|].
    apply sim_seq; [apply sim_require|]. rewrite calls_two. apply sim_seq; [apply sim_calls|].
    apply quiet_seq; [apply quiet_protos|]. apply sim_seq; [apply sim_calls|]. apply sim_seq; [apply sim_require|].
    apply sim_seq; [apply sim_calls|]. apply sim_seq; [apply sim_require|]. apply sim_seq; [apply sim_calls|].
    apply sim_seq; [apply sim_require|]. apply sim_seq; [apply sim_calls|]. apply sim_seq; [apply sim_require|].
    apply sim_seq; [destruct mode; [apply sim_calls|apply sim_seq; [apply sim_calls|apply sim_require]]|].
    apply sim_seq; [apply sim_calls|]. apply quiet_seq; [apply quiet_room|apply sim_require]. }
  assert (Q : Forall (fun c => is_init c = false) (fst q)).
  { unfold q. repeat (apply all_seq; [first [apply all_require | solve [repeat constructor] | destruct mode; [constructor|apply all_seq; [repeat constructor|apply all_require]]]|]).
    apply all_require. }
  assert (Z : forall cs0, (exists todo, fst q = cs0 ++ todo) -> inits cs0 = 0%nat).
  { intros cs0 (todo & T). rewrite T in Q. apply Forall_app in Q. apply none_inits. apply Q. }
  clearbody d q. unfold mload in E. destruct (p_loaded p) eqn:L.
  - destruct (d p mem) as [[[cs2 r2] p2] mem2] eqn:E2. injection E as <- <- <- <-.
    destruct (SM _ _ _ _ _ _ E2) as (L2 & R2 & P2). split; [congruence|]. cbn [app seqc calls negb fst snd]. split.
    + destruct R2 as [R2|(-> & todo & T)]; [left; exact R2|]. right. split; [reflexivity|]. exists todo. exact T.
    + split; [intros P; apply P2; exact P|]. apply Z. destruct R2 as [(_ & ->)|(_ & T)]; [exists []; rewrite app_nil_r; reflexivity|exact T].
  - destruct (d (Process true (p_protos p)) mem) as [[[cs2 r2] p2] mem2] eqn:E2. injection E as <- <- <- <-.
    destruct (SM _ _ _ _ _ _ E2) as (L2 & R2 & P2). split; [exact L2|]. cbn [app seqc calls negb fst snd].
    assert (Y : inits cs2 = 0%nat) by (apply Z; destruct R2 as [(_ & ->)|(_ & T)]; [exists []; rewrite app_nil_r; reflexivity|exact T]).
    split.
    + destruct R2 as [(-> & ->)|(-> & todo & T)]; [left; split; reflexivity|]. right. split; [reflexivity|]. exists todo.
      rewrite T. reflexivity.
    + split; [intros P; apply P2; exact P|]. change (S (inits cs2) = 1%nat). rewrite Y. reflexivity.
Qed.

(* The calls of the body need both objects and release none. *)
Definition neutral (c : ssl_call) : Prop := use (true, true) c = Some (true, true).

Lemma body_neutral : forall env mode first host port, Forall neutral (fst (connect_body env mode first host port)).
Proof.
  intros env mode first host port. unfold connect_body.
  repeat (apply all_seq; [first [apply all_require | solve [repeat constructor] | solve [destruct first; repeat constructor]
    | destruct mode; [constructor|apply all_seq; [repeat constructor|apply all_require]]]|]).
  apply all_require.
Qed.

Lemma body_ends : forall env mode first host port,
  snd (connect_body env mode first host port) = Ok tt \/ exists x, snd (connect_body env mode first host port) = Throw x.
Proof.
  intros env mode first host port. unfold connect_body.
  assert (A : forall p q : code, (snd p = Ok tt \/ exists x, snd p = Throw x) -> (snd q = Ok tt \/ exists x, snd q = Throw x) ->
    snd (seqc p q) = Ok tt \/ exists x, snd (seqc p q) = Throw x).
  { intros p q [P|(x & P)] Q; unfold seqc; rewrite P; [exact Q|]. right. exists x. reflexivity. }
  assert (R : forall b, snd (require b) = Ok tt \/ exists x, snd (require b) = Throw x).
  { intros []; [left; reflexivity|right; exists RuntimeError; reflexivity]. }
  repeat (apply A; [first [apply R | solve [left; reflexivity] | destruct mode; [left; reflexivity|apply A; [left; reflexivity|apply R]]]|]).
  apply R.
Qed.

Lemma neutral_uses : forall cs, Forall neutral cs -> uses (true, true) cs = Some (true, true).
Proof. intros cs F. induction F as [|c cs N F IH]; [reflexivity|]. cbn [uses]. rewrite N. exact IH. Qed.

(* What a call of the constructor amounts to. *)
Lemma connect_outcome : forall env mode host port p mem cs r p' mem',
  client_connect_mem env mode host port p mem = (cs, r, p', mem') ->
  let q := ssl_connect env mode (negb (p_loaded p)) host port in
  uses (false, false) cs = Some (left_over r) /\
  ((r = Returns (snd q) /\ cs = fst q) \/
   (r = BadAlloc /\ exists made todo frees, fst q = made ++ todo /\ cs = made ++ frees /\ Forall releases frees)) /\
  (plenty mem -> r <> BadAlloc) /\
  (p_loaded p = true -> p_loaded p' = true) /\
  inits cs = if negb (p_loaded p) && p_loaded p' then 1%nat else 0%nat.
Proof.
  intros env mode host port p mem cs r p' mem' E q. unfold client_connect_mem in E. unfold mseq at 1 in E. unfold mroom in E.
  destruct (alloc_cases mem) as (ok & mem1 & A & P). rewrite A in E. destruct ok.
  2: { injection E as <- <- <- <-. split; [reflexivity|].
       split; [right; split; [reflexivity|]; exists [], (fst q), []; repeat split; constructor|].
       split; [intros Q; destruct (P Q) as [X _]; discriminate X|]. split; [tauto|].
       destruct (p_loaded p); reflexivity. }
  assert (P1 : plenty mem -> plenty mem1) by (intros Q; apply P; exact Q). clear A P.
  unfold ssl_connect_mem in E. unfold mseq at 1, mcalls at 1 in E. cbn iota beta in E.
  unfold q, ssl_connect. clear q. unfold mseq at 1, mrequire at 1 in E.
  destruct (env_ctx_new env) eqn:CTX.
  2: { destruct (alloc_cases mem1) as (ok & mem2 & A & P). rewrite A in E. destruct ok; injection E as <- <- <- <-.
       - split; [reflexivity|]. split; [left; split; reflexivity|]. split; [discriminate|]. split; [tauto|]. destruct (p_loaded p); reflexivity.
       - split; [reflexivity|]. split; [right; split; [reflexivity|]; exists [SSL_CTX_new false], [], []; repeat split; constructor|].
         split; [intros Q; destruct (P (P1 Q)) as [X _]; discriminate X|]. split; [tauto|]. destruct (p_loaded p); reflexivity. }
  unfold mguarded at 1 in E. unfold mseq at 1, mcalls at 1 in E. cbn iota beta in E. unfold mseq at 1, mrequire at 1 in E.
  destruct (env_bio_new env) eqn:BIO.
  2: { destruct (alloc_cases mem1) as (ok & mem2 & A & P). rewrite A in E. destruct ok; injection E as <- <- <- <-.
       - split; [reflexivity|]. split; [left; split; reflexivity|]. split; [discriminate|]. split; [tauto|]. destruct (p_loaded p); reflexivity.
       - split; [reflexivity|].
         split; [right; split; [reflexivity|]; exists [SSL_CTX_new true; BIO_new_ssl_connect false], [SSL_CTX_free], [SSL_CTX_free];
                 repeat split; constructor; [right; reflexivity|constructor]|].
         split; [intros Q; destruct (P (P1 Q)) as [X _]; discriminate X|]. split; [tauto|]. destruct (p_loaded p); reflexivity. }
  unfold mguarded in E. destruct (connect_body_mem env mode host port p mem1) as [[[cs1 r1] p1] mem2] eqn:B.
  destruct (body_sim _ _ _ _ _ _ _ _ _ _ B) as (L & R & Q & I). clear B. cbv zeta in R.
  pose proof (body_neutral env mode (negb (p_loaded p)) host port) as N.
  set (b := connect_body env mode (negb (p_loaded p)) host port) in *.
  assert (U : uses (true, true) cs1 = Some (true, true)).
  { apply neutral_uses. destruct R as [(_ & ->)|(_ & todo & T)]; [exact N|]. rewrite T in N. apply Forall_app in N. apply N. }
  assert (C : forall n, n = inits cs1 -> n = if negb (p_loaded p) && p_loaded p1 then 1%nat else 0%nat).
  { intros n ->. rewrite I, L. destruct (p_loaded p); reflexivity. }
  pose proof (body_ends env mode (negb (p_loaded p)) host port) as BE. fold b in BE. clearbody b.
  assert (UF : uses (false, false) ([SSL_CTX_new true] ++ [BIO_new_ssl_connect true] ++ cs1 ++ [BIO_free_all] ++ [SSL_CTX_free]) = Some (false, false)).
  { cbn [app uses use]. rewrite uses_app, U. reflexivity. }
  assert (CF : inits ([SSL_CTX_new true] ++ [BIO_new_ssl_connect true] ++ cs1 ++ [BIO_free_all] ++ [SSL_CTX_free]) = inits cs1).
  { rewrite !inits_app. cbn. lia. }
  assert (M : p_loaded p = true -> p_loaded p1 = true) by (intros _; exact L).
  destruct R as [(-> & ->)|(-> & todo & T)].
  - cbn [calls seqc require fst snd]. destruct BE as [SB|(x & SB)]; rewrite SB in E; unfold guarded; rewrite SB; cbn [fst snd]; rewrite ?SB;
      cbn [fst snd]; injection E as <- <- <- <-; cbn [left_over]; rewrite <- ?app_assoc in *.
    + split; [cbn [app uses use]; exact U|]. split; [left; split; reflexivity|]. split; [discriminate|]. split; [exact M|]. apply C. reflexivity.
    + split; [exact UF|]. split; [left; split; reflexivity|]. split; [discriminate|]. split; [exact M|]. apply C. exact CF.
  - injection E as <- <- <- <-. rewrite <- ?app_assoc. split; [exact UF|]. split.
    + right. split; [reflexivity|]. cbn [calls seqc require fst snd]. unfold guarded.
      exists ([SSL_CTX_new true] ++ [BIO_new_ssl_connect true] ++ cs1).
      destruct BE as [SB|(x & SB)]; rewrite SB; cbn [fst snd]; rewrite ?SB; cbn [fst snd]; rewrite T;
        eexists; exists [BIO_free_all; SSL_CTX_free]; cbn [app]; rewrite <- ?app_assoc; (split; [reflexivity|]); (split; [reflexivity|]);
        (constructor; [left; reflexivity|constructor; [right; reflexivity|constructor]]).
    + split; [intros X; exfalso; apply (Q (P1 X)); reflexivity|]. split; [exact M|]. apply C. exact CF.
Qed.

(* ---------------------------------------------------------------- C113 *)

(* Whatever allocation fails, an attempt that throws leaves nothing behind,
   and nothing is used or released out of turn. *)
Theorem C113_released : forall env mode host port p mem cs r p' mem',
  client_connect_mem env mode host port p mem = (cs, r, p', mem') -> uses (false, false) cs = Some (left_over r).
Proof. intros env mode host port p mem cs r p' mem' E. exact (proj1 (connect_outcome _ _ _ _ _ _ _ _ _ _ E)). Qed.

(* An attempt that does not end in std::bad_alloc has made exactly the calls it
   makes with memory enough, and ends in the same way: with a client only if
   the server was verified as asked and chose h2. *)
Theorem C113_reported : forall env mode host port p mem cs r p' mem',
  client_connect_mem env mode host port p mem = (cs, Returns r, p', mem') ->
  (cs, r) = ssl_connect env mode (negb (p_loaded p)) host port.
Proof.
  intros env mode host port p mem cs r p' mem' E. destruct (connect_outcome _ _ _ _ _ _ _ _ _ _ E) as (_ & R & _).
  destruct R as [(R & C)|(R & _)]; [|discriminate R]. assert (X : r = snd (ssl_connect env mode (negb (p_loaded p)) host port)) by (now inversion R).
  rewrite X, C. symmetry. apply surjective_pairing.
Qed.

(* One that does has made the first of these calls and then only released what
   it had made. *)
Theorem C113_interrupted : forall env mode host port p mem cs p' mem',
  client_connect_mem env mode host port p mem = (cs, BadAlloc, p', mem') ->
  exists made todo frees, fst (ssl_connect env mode (negb (p_loaded p)) host port) = made ++ todo /\
    cs = made ++ frees /\ Forall releases frees.
Proof.
  intros env mode host port p mem cs p' mem' E. destruct (connect_outcome _ _ _ _ _ _ _ _ _ _ E) as (_ & R & _).
  destruct R as [(R & _)|(_ & R)]; [discriminate R|exact R].
Qed.

Lemma last_attempt : forall l p a io, exists rest, fst (attempts p (l ++ [(a, io)])) = fst (attempts p l) ++ [rest] /\
  rest = (let '(cs, r, _, _) := client_connect_mem (a_env a) (a_mode a) (a_host a) (a_port a) (snd (attempts p l)) (a_memory a) in
          (match r with Returns (Ok _) => cs ++ io ++ ssl_destroy | _ => cs end, r)).
Proof.
  induction l as [|[b bio] l IH]; intros p a io; cbn [app attempts].
  - cbn [fst snd app]. destruct (client_connect_mem (a_env a) (a_mode a) (a_host a) (a_port a) p (a_memory a)) as [[[cs r] p'] mem'].
    eexists. split; reflexivity.
  - destruct (client_connect_mem (a_env b) (a_mode b) (a_host b) (a_port b) p (a_memory b)) as [[[cs r] p'] mem'].
    destruct (IH p' a io) as (rest & F & R). destruct (attempts p' (l ++ [(a, io)])) as [r1 p1]. destruct (attempts p' l) as [r2 p2].
    cbn [fst snd] in *. exists rest. split; [rewrite F; reflexivity|exact R].
Qed.

Lemma io_inits : forall io, Forall (fun c => c = BIO_read \/ c = BIO_write) io -> inits (io ++ ssl_destroy) = 0%nat.
Proof.
  intros io F. rewrite inits_app. rewrite none_inits; [reflexivity|]. eapply Forall_impl; [|exact F]. intros c [-> | ->]; reflexivity.
Qed.

Lemma history_inits : forall l p, only_io l ->
  inits (concat (map fst (fst (attempts p l)))) = (if negb (p_loaded p) && p_loaded (snd (attempts p l)) then 1%nat else 0%nat) /\
  (p_loaded p = true -> p_loaded (snd (attempts p l)) = true).
Proof.
  induction l as [|[a io] l IH]; intros p F.
  - cbn. destruct (p_loaded p); split; auto.
  - inversion F as [|x y F1 F2]; subst. cbn [snd] in F1. cbn [attempts].
    destruct (client_connect_mem (a_env a) (a_mode a) (a_host a) (a_port a) p (a_memory a)) as [[[cs r] p'] mem'] eqn:E.
    destruct (connect_outcome _ _ _ _ _ _ _ _ _ _ E) as (_ & _ & _ & M & I). destruct (IH p' F2) as [H K].
    destruct (attempts p' l) as [rest p'']. cbn [fst snd map concat] in *.
    assert (Z : inits (match r with Returns (Ok _) => cs ++ io ++ ssl_destroy | _ => cs end) = inits cs).
    { destruct r as [[[]|x|u|]|]; try reflexivity. rewrite inits_app, io_inits by exact F1. lia. }
    rewrite inits_app, Z, I, H. split; [|intros X; apply K, M, X].
    destruct (p_loaded p) eqn:P0; [rewrite (M eq_refl) in *; reflexivity|].
    destruct (p_loaded p') eqn:P1; [rewrite (K eq_refl); reflexivity|reflexivity].
Qed.

(* Any number of attempts, with any failures, in one process: each leaves nothing
   behind in the end, and the library is initialised at most once. *)
Theorem C113_history : forall l, only_io l ->
  Forall (fun x => uses (false, false) (fst x) = Some (false, false)) (fst (attempts new_process l)) /\
  (inits (concat (map fst (fst (attempts new_process l)))) <= 1)%nat.
Proof.
  intros l F. split.
  - generalize new_process. induction F as [|[a io] l F1 F2 IH]; intros p; [constructor|]. cbn [snd] in F1. cbn [attempts].
    destruct (client_connect_mem (a_env a) (a_mode a) (a_host a) (a_port a) p (a_memory a)) as [[[cs r] p'] mem'] eqn:E.
    pose proof (C113_released _ _ _ _ _ _ _ _ _ _ E) as U. specialize (IH p'). destruct (attempts p' l) as [rest p'']. constructor; [|exact IH].
    cbn [fst]. destruct r as [[[]|x|u|]|]; try exact U. rewrite uses_app, U. cbn [left_over]. rewrite uses_app.
    replace (uses (true, true) io) with (Some (true, true)); [reflexivity|].
    clear -F1. induction F1 as [|c io [-> | ->] F IH]; [reflexivity|exact IH..].
  - destruct (history_inits l new_process F) as [-> _]. destruct (negb (p_loaded new_process) && p_loaded (snd (attempts new_process l))); lia.
Qed.

(* After any such history, an attempt with memory enough does exactly what it
   does in a new process (ssl_connect and lifetime in Connect.v), but for the
   initialisation of the library if that has been done. *)
Theorem C113_retry : forall l a io, only_io l -> plenty (a_memory a) ->
  let before := fst (attempts new_process l) in
  let first := Nat.eqb (inits (concat (map fst before))) 0 in
  fst (attempts new_process (l ++ [(a, io)])) =
  before ++ [(lifetime (a_env a) (a_mode a) first (a_host a) (a_port a) io,
              Returns (snd (ssl_connect (a_env a) (a_mode a) first (a_host a) (a_port a))))].
Proof.
  intros l a io F P before first. destruct (last_attempt l new_process a io) as (rest & H & R). rewrite H. fold before. f_equal. f_equal.
  destruct (history_inits l new_process F) as [I _]. fold before in I.
  assert (FI : first = negb (p_loaded (snd (attempts new_process l)))).
  { unfold first. rewrite I. destruct (p_loaded (snd (attempts new_process l))); reflexivity. }
  destruct (client_connect_mem (a_env a) (a_mode a) (a_host a) (a_port a) (snd (attempts new_process l)) (a_memory a)) as [[[cs r] p'] mem'] eqn:E.
  destruct (connect_outcome _ _ _ _ _ _ _ _ _ _ E) as (_ & Q & N & _). rewrite <- FI in Q. clear H I FI E. subst rest.
  destruct Q as [(-> & ->)|(-> & _)]; [|destruct (N P); reflexivity].
  unfold lifetime. destruct (ssl_connect (a_env a) (a_mode a) first (a_host a) (a_port a)) as [c1 r1]. cbn [fst snd].
  destruct r1 as [[]|x|u|]; reflexivity.
Qed.

(* ---- which allocations an attempt can fail at ---- *)

Definition keeps (c : mcode) : Prop := forall p mem cs r p' mem', c p mem = (cs, r, p', mem') -> p_protos p = true -> p_protos p' = true.
Definition reaches (c : mcode) : Prop := forall p mem cs p' mem', c p mem = (cs, Returns (Ok tt), p', mem') -> p_protos p' = true.

Lemma keeps_calls : forall l, keeps (mcalls l).
Proof. intros l p mem cs r p' mem' E. injection E as <- <- <- <-. auto. Qed.

Lemma keeps_room : keeps mroom.
Proof. intros p mem cs r p' mem' E. unfold mroom in E. destruct (alloc mem) as [ok m]. injection E as <- <- <- <-. auto. Qed.

Lemma keeps_require : forall b, keeps (mrequire b).
Proof.
  intros b p mem cs r p' mem' E. unfold mrequire in E. destruct b; [injection E as <- <- <- <-; auto|].
  destruct (alloc mem) as [ok m]. injection E as <- <- <- <-. auto.
Qed.

Lemma keeps_load : keeps mload.
Proof. intros p mem cs r p' mem' E. unfold mload in E. destruct (p_loaded p); injection E as <- <- <- <-; auto. Qed.

Lemma keeps_protos : keeps mprotos.
Proof.
  intros p mem cs r p' mem' E K. unfold mprotos in E. rewrite K in E. injection E as <- <- <- <-. exact K.
Qed.

Lemma keeps_seq : forall c d, keeps c -> keeps d -> keeps (mseq c d).
Proof.
  intros c d C D p mem cs r p' mem' E K. unfold mseq in E. destruct (c p mem) as [[[cs1 r1] p1] m1] eqn:E1.
  pose proof (C _ _ _ _ _ _ E1 K) as K1. destruct r1 as [[a|x|u|]|]; try (injection E as <- <- <- <-; exact K1).
  destruct (d p1 m1) as [[[cs2 r2] p2] m2] eqn:E2. injection E as <- <- <- <-. exact (D _ _ _ _ _ _ E2 K1).
Qed.

Lemma keeps_guarded : forall g c, keeps c -> keeps (mguarded g c).
Proof.
  intros g c C p mem cs r p' mem' E K. unfold mguarded in E. destruct (c p mem) as [[[cs1 r1] p1] m1] eqn:E1.
  pose proof (C _ _ _ _ _ _ E1 K) as K1. destruct r1 as [[a|x|u|]|]; injection E as <- <- <- <-; exact K1.
Qed.

Lemma reaches_protos : reaches mprotos.
Proof.
  intros p mem cs p' mem' E. unfold mprotos in E. destruct (p_protos p) eqn:P; [injection E as <- <- <-; exact P|].
  destruct (alloc mem) as [[] m]; [injection E as <- <- <-; reflexivity|discriminate E].
Qed.

Lemma reaches_first : forall c d, reaches c -> keeps d -> reaches (mseq c d).
Proof.
  intros c d C D p mem cs p' mem' E. unfold mseq in E. destruct (c p mem) as [[[cs1 r1] p1] m1] eqn:E1.
  destruct r1 as [[[]|x|u|]|]; try discriminate E. destruct (d p1 m1) as [[[cs2 r2] p2] m2] eqn:E2. injection E as <- -> <- <-.
  exact (D _ _ _ _ _ _ E2 (C _ _ _ _ _ E1)).
Qed.

Lemma reaches_then : forall c d, reaches d -> reaches (mseq c d).
Proof.
  intros c d D p mem cs p' mem' E. unfold mseq in E. destruct (c p mem) as [[[cs1 r1] p1] m1] eqn:E1.
  destruct r1 as [[[]|x|u|]|]; try discriminate E. destruct (d p1 m1) as [[[cs2 r2] p2] m2] eqn:E2. injection E as <- -> <- <-.
  exact (D _ _ _ _ _ E2).
Qed.

Lemma reaches_guarded : forall g c, reaches c -> reaches (mguarded g c).
Proof.
  intros g c C p mem cs p' mem' E. unfold mguarded in E. destruct (c p mem) as [[[cs1 r1] p1] m1] eqn:E1.
  destruct r1 as [[[]|x|u|]|]; try discriminate E. injection E as <- <- <-. exact (C _ _ _ _ _ E1).
Qed.

Lemma connect_keeps : forall env mode host port, keeps (client_connect_mem env mode host port).
Proof.
  intros env mode host port. unfold client_connect_mem, ssl_connect_mem, connect_body_mem.
  repeat first [apply keeps_calls | apply keeps_room | apply keeps_require | apply keeps_load | apply keeps_protos | apply keeps_seq |
                apply keeps_guarded | destruct mode].
Qed.

Lemma connect_reaches : forall env mode host port, reaches (client_connect_mem env mode host port).
Proof.
  intros env mode host port. unfold client_connect_mem, ssl_connect_mem, connect_body_mem.
  apply reaches_then, reaches_then, reaches_then, reaches_guarded, reaches_then, reaches_then, reaches_guarded.
  do 6 apply reaches_then. apply reaches_first; [apply reaches_protos|].
  repeat first [apply keeps_calls | apply keeps_room | apply keeps_require | apply keeps_load | apply keeps_protos | apply keeps_seq |
                apply keeps_guarded | destruct mode].
Qed.

Lemma seqc_ok : forall p q, snd (seqc p q) = Ok tt -> snd p = Ok tt /\ snd q = Ok tt.
Proof.
  intros p q H. unfold seqc in H. destruct (snd p) as [[]|x|u|] eqn:P; cbn [fst snd] in H; [split; [reflexivity|exact H]|rewrite ?P in H; discriminate H..].
Qed.

Lemma guarded_ok : forall g q, snd (guarded g q) = Ok tt -> snd q = Ok tt.
Proof. intros g q H. unfold guarded in H. destruct (snd q) as [[]|x|u|] eqn:P; cbn [fst snd] in H; rewrite ?P in H; [reflexivity|discriminate H..]. Qed.

Lemma require_ok : forall b, snd (require b) = Ok tt -> b = true.
Proof. intros [] H; [reflexivity|discriminate H]. Qed.

Lemma rooms_exact : forall env mode host port p mem first, snd (ssl_connect env mode first host port) = Ok tt ->
  snd (fst (fst (client_connect_mem env mode host port p mem))) =
  if forallb (fun b => b) (firstn (if p_protos p then 3 else 4) mem) then Returns (Ok tt) else BadAlloc.
Proof.
  intros env mode host port p mem first G. unfold ssl_connect in G.
  apply seqc_ok in G. destruct G as [_ G]. apply seqc_ok in G. destruct G as [E1 G]. apply require_ok in E1. apply guarded_ok in G.
  apply seqc_ok in G. destruct G as [_ G]. apply seqc_ok in G. destruct G as [E2 G]. apply require_ok in E2. apply guarded_ok in G.
  unfold connect_body in G.
  apply seqc_ok in G. destruct G as [_ G]. apply seqc_ok in G. destruct G as [_ G]. apply seqc_ok in G. destruct G as [_ G].
  apply seqc_ok in G. destruct G as [E3 G]. apply require_ok in E3. apply seqc_ok in G. destruct G as [_ G].
  apply seqc_ok in G. destruct G as [E4 G]. apply require_ok in E4. apply seqc_ok in G. destruct G as [_ G].
  apply seqc_ok in G. destruct G as [E5 G]. apply require_ok in E5. apply seqc_ok in G. destruct G as [_ G].
  apply seqc_ok in G. destruct G as [E6 G]. apply require_ok in E6. apply seqc_ok in G. destruct G as [_ G].
  apply seqc_ok in G. destruct G as [E7 G]. apply require_ok in E7. apply seqc_ok in G. destruct G as [E8 G].
  apply seqc_ok in G. destruct G as [_ A]. apply require_ok in A.
  assert (V : mode = VERIFY_NONE \/ env_verify_ok env = true)
    by (destruct mode; [left; reflexivity|]; right; apply seqc_ok in E8; destruct E8 as [_ E8]; apply require_ok in E8; exact E8).
  clear E8. unfold client_connect_mem, ssl_connect_mem, connect_body_mem. rewrite E1, E2, E3, E4, E5, E6, E7, A.
  generalize (BIO_set_conn_hostname (c_str (host ++ [58] ++ to_string port))). intros named.
  assert (W : exists v, (match mode with VERIFY_NONE => mcalls [] | VERIFY_SERVER_CERT => mseq (mcalls [SSL_get_verify_result]) (mrequire (env_verify_ok env)) end) = mcalls v).
  { destruct V as [-> | ->]; [exists []; reflexivity|]. destruct mode; [exists []|exists [SSL_get_verify_result]]; reflexivity. }
  destruct W as (v & ->). clear. destruct p as [l pr].
  destruct l, pr, mem as [|[] [|[] [|[] [|[] mem]]]]; vm_compute; reflexivity.
Qed.

Lemma history_protos : forall l p, (p_protos p = true -> p_protos (snd (attempts p l)) = true) /\
  (In (Returns (Ok tt)) (map snd (fst (attempts p l))) -> p_protos (snd (attempts p l)) = true).
Proof.
  induction l as [|[a io] l IH]; intros p; cbn [attempts]; [split; [auto|intros []]|].
  destruct (client_connect_mem (a_env a) (a_mode a) (a_host a) (a_port a) p (a_memory a)) as [[[cs r] p'] mem'] eqn:E.
  destruct (IH p') as [K R]. destruct (attempts p' l) as [rest p'']. cbn [fst snd map In] in *. split.
  - intros P. apply K. exact (connect_keeps _ _ _ _ _ _ _ _ _ _ E P).
  - intros [-> | I]; [|exact (R I)]. apply K. exact (connect_reaches _ _ _ _ _ _ _ _ _ E).
Qed.

(* An attempt with a good server can run out of memory in four places if it is
   the first of the process, and in three once a client has been made: what was
   allocated for the whole process is not allocated again. *)
Theorem C113_places : forall a, snd (ssl_connect (a_env a) (a_mode a) true (a_host a) (a_port a)) = Ok tt ->
  (forall io, map snd (fst (attempts new_process [(a, io)])) =
     [if forallb (fun b => b) (firstn 4 (a_memory a)) then Returns (Ok tt) else BadAlloc]) /\
  (forall l io, In (Returns (Ok tt)) (map snd (fst (attempts new_process l))) ->
     map snd (fst (attempts new_process (l ++ [(a, io)]))) =
     map snd (fst (attempts new_process l)) ++ [if forallb (fun b => b) (firstn 3 (a_memory a)) then Returns (Ok tt) else BadAlloc]).
Proof.
  intros a G.
  assert (H : forall l io, map snd (fst (attempts new_process (l ++ [(a, io)]))) = map snd (fst (attempts new_process l)) ++
    [if forallb (fun b => b) (firstn (if p_protos (snd (attempts new_process l)) then 3 else 4) (a_memory a)) then Returns (Ok tt) else BadAlloc]).
  { intros l io. destruct (last_attempt l new_process a io) as (rest & H & R). rewrite H, map_app. cbn [map]. f_equal. f_equal.
    rewrite <- (rooms_exact _ _ _ _ (snd (attempts new_process l)) (a_memory a) _ G). rewrite R.
    destruct (client_connect_mem (a_env a) (a_mode a) (a_host a) (a_port a) (snd (attempts new_process l)) (a_memory a)) as [[[cs r] p'] mem'].
    reflexivity. }
  split; [intros io; exact (H [] io)|]. intros l io I. rewrite H.
  rewrite (proj2 (history_protos l new_process) I). reflexivity.
Qed.

(* The preface: if its text cannot be allocated nothing is written and the call
   can be made again; otherwise it is sent as with memory enough.  Once it has
   been allocated it never is again. *)
Theorem C113_preface : forall made mem c r c' made' mem',
  send_connection_preface_mem made mem c = (r, c', made', mem') ->
  (r = BadAlloc /\ c' = c /\ made = false /\ made' = false) \/
  (exists x, r = Returns x /\ (x, c') = send_connection_preface c /\ made' = true /\ (made = true -> mem' = mem)).
Proof.
  intros made mem c r c' made' mem' E. unfold send_connection_preface_mem in E.
  destruct (send_connection_preface c) as [x c1]. destruct made.
  - injection E as <- <- <- <-. right. exists x. repeat split.
  - destruct (alloc mem) as [[] mem1]; injection E as <- <- <- <-; [right; exists x; repeat split; discriminate|left; repeat split].
Qed.

Theorem C113_preface_enough : forall made mem c, made = true \/ plenty mem ->
  fst (fst (send_connection_preface_mem made mem c)) =
  (Returns (fst (send_connection_preface c)), snd (send_connection_preface c)).
Proof.
  intros made mem c H. unfold send_connection_preface_mem. destruct (send_connection_preface c) as [x c1]. destruct made; [reflexivity|].
  destruct H as [H|H]; [discriminate H|]. destruct (alloc_plenty mem H) as (mem1 & A & _). rewrite A. reflexivity.
Qed.

Example C113_case :
  let good := TlsEnv true true true true true true true true [104; 50] true in
  let a mem := Attempt ([97]) 443 VERIFY_SERVER_CERT good mem in
  let l := [(a [false], []); (a [true; false], []); (a [true; true; false], []); (a [true; true; true; false], [])] in
  only_io l /\ only_io [(a [], [BIO_write; BIO_read])] /\ plenty (a_memory (a [true; true])) /\
  map snd (fst (attempts new_process l)) = [BadAlloc; BadAlloc; BadAlloc; BadAlloc] /\
  map fst (fst (attempts new_process l)) =
    [[];
     [SSL_CTX_new true; BIO_new_ssl_connect true; SSL_library_init; SSL_load_error_strings; BIO_free_all; SSL_CTX_free];
     [SSL_CTX_new true; BIO_new_ssl_connect true; BIO_set_conn_hostname ([97; 58; 52; 52; 51]); BIO_get_ssl; SSL_set_mode_auto_retry; BIO_free_all; SSL_CTX_free];
     [SSL_CTX_new true; BIO_new_ssl_connect true; BIO_set_conn_hostname ([97; 58; 52; 52; 51]); BIO_get_ssl; SSL_set_mode_auto_retry;
      SSL_set_alpn_protos [2; 104; 50]; SSL_CTX_set_default_verify_paths; BIO_do_connect; BIO_do_handshake; SSL_get_verify_result;
      SSL_get0_alpn_selected; BIO_free_all; SSL_CTX_free]] /\
  map snd (fst (attempts new_process (l ++ [(a [], [BIO_write])]))) = [BadAlloc; BadAlloc; BadAlloc; BadAlloc; Returns (Ok tt)] /\
  inits (concat (map fst (fst (attempts new_process (l ++ [(a [], [BIO_write])]))))) = 1%nat /\
  snd (ssl_connect good VERIFY_SERVER_CERT true [97] 443) = Ok tt /\
  map snd (fst (attempts new_process [(a [], []); (a [true; true; true; false], []); (a [true; true; false], [])])) =
    [Returns (Ok tt); Returns (Ok tt); BadAlloc] /\
  (let c := new_client (Tls [] [] [Chunk 24]) in
   send_connection_preface_mem false [false; true] c = (BadAlloc, c, false, [true]) /\
   exists c', send_connection_preface_mem false [true] c = (Returns (Ok tt), c', true, [])).
Proof.
  cbv zeta. split; [repeat (constructor; [cbn; repeat constructor; auto|]); constructor|].
  split; [constructor; [constructor; [right; reflexivity|constructor; [left; reflexivity|constructor]]|constructor]|].
  split; [repeat constructor|]. do 6 (split; [vm_compute; reflexivity|]). split; [vm_compute; reflexivity|].
  eexists. vm_compute. reflexivity.
Qed.

Print Assumptions C113_released.
Print Assumptions C113_reported.
Print Assumptions C113_interrupted.
Print Assumptions C113_history.
Print Assumptions C113_retry.
Print Assumptions C113_places.
Print Assumptions C113_preface.
Print Assumptions C113_preface_enough.
