(* Property C116: the sample program tells why it gives up. *)
From Coq Require Import String.
From Coq Require Import ZArith NArith List Bool Lia ZifyBool ZifyNat ZifyN.
From Verif Require Import Base Arith Util StaticTable HeaderType DynTable HeaderEnc HeaderDec FrameHeader Frames FrameBuilder Ssl Client Dump Sample
  Messages Report SpecBits SpecInt SpecHpack SpecFrame UtilProofs StaticProofs DynTableProofs HeaderProofs FrameProofs HistoryProofs
  PropHeader PropFrame PropSsl PropClient PropHistory PropRequest PropDump PropMessages PropDuties PropSample.
Import ListNotations.
Local Open Scope string_scope.
Local Open Scope list_scope.
Local Open Scope N_scope.
Ltac Zify.zify_post_hook ::= Z.div_mod_to_equations.

(* ---- specification ---- *)

(* Octets taken from the connection after which the client gives up with
   exception x: a complete frame that the message is about, or less than a frame,
   because the connection failed, and the message tells the result of the read
   and how many octets were asked for. *)
Definition reason (result : Z) (taken : list N) (x : exn) (w : what) : Prop :=
  (exists wf, wframe_ok wf /\ taken = wire wf /\ frame_message (w_type wf) (w_payload wf) x w) \/
  (exists asked, x = RuntimeError /\ io_message "BIO_read" result asked w /\
     ((asked = 9 /\ size taken < 9) \/
      (exists more body, taken = be_octets 3 asked ++ more ++ body /\ length more = 6%nat /\ size body < asked))).

(* The line that reports it; std is the text of the standard library's own
   exceptions. *)
Definition report_line (std : list N) (w : what) (line : list N) : Prop :=
  match w with Text text => line = text ++ [10] | StdText => line = std ++ [10] end.

(* ---- proofs: the loop ---- *)

Lemma octets_right : forall a b, is_octets (a ++ b) -> is_octets b.
Proof. intros a b O y Y. apply O. apply in_or_app. right. exact Y. Qed.

Lemma line_of : forall std w, report_line std w (said std w ++ nl).
Proof. intros std [t|]; reflexivity. Qed.

Lemma dump_no_throw : forall m hex w t f x, wframe_ok w -> build_frame m (header_of w) (w_payload w) t = Ok f -> dump m hex f <> Throw x.
Proof.
  intros m hex w t f x W B T. assert (O : is_octets (w_payload w)) by apply W.
  assert (L : size (w_payload w) < 2 ^ 32).
  { destruct W as (_ & _ & _ & _ & _ & L). change (2 ^ 32) with 4294967296. change (2 ^ 24) with 16777216 in L. lia. }
  assert (NP : ~ PropDump.printable m f).
  { intros P. destruct (C56_dump_safe_partial m hex _ _ _ _ O L B P) as (a & b & E). congruence. }
  destruct (C56_unprintable_refuted m hex _ _ _ _ O L B NP) as [u E]. congruence.
Qed.

Lemma recv_done : forall result std m s f s1, is_octets (tls_in (c_tls (mc_client s))) -> receive_report result std m s = (Done f, s1) ->
  exists wf, wframe_ok wf /\ tls_in (c_tls (mc_client s)) = wire wf ++ tls_in (c_tls (mc_client s1)) /\
    build_frame m (header_of wf) (w_payload wf) (c_resp (mc_client s)) = Ok f /\
    update_frame (c_resp (mc_client s)) f = (Ok tt, c_resp (mc_client s1)) /\
    mc_text s1 = mc_text s /\ mc_hex s1 = mc_hex s /\ tls_out (c_tls (mc_client s1)) = tls_out (c_tls (mc_client s)) /\
    c_req (mc_client s1) = c_req (mc_client s).
Proof.
  intros result std m s f s1 O H. unfold receive_report in H.
  pose proof (forget_receive result m (mc_client s)) as FR.
  destruct (receive_frame_told result m (mc_client s)) as [[r p] c] eqn:E. cbn [fst snd] in FR.
  assert (R : r = Done f) by congruence. subst r. cbn [forget] in FR.
  destruct p as [w|]; [destruct (C108_printed _ _ _ _ _ _ O E) as (X & _); discriminate X|].
  assert (S : s1 = Machine c (mc_text s) (mc_hex s)) by congruence. subst s1. cbn [mc_client mc_text mc_hex].
  destruct (receive_told_cases _ _ _ _ _ _ O E) as (taken & T & [(w & asked & X & _)|(wf & q & W & -> & _ & _)]); [discriminate X|].
  symmetry in FR. destruct (receive_keeps _ _ _ _ FR) as [OUT Q].
  exists wf. split; [exact W|]. split; [exact T|].
  destruct (receive_any m (mc_client s) wf _ W T) as (pr & R & [(s' & -> & _)|(s' & -> & _)]); rewrite FR in R; [discriminate R|].
  destruct (handled m (c_resp (mc_client s)) wf) as [r t'] eqn:HD. cbn [fst snd] in R.
  assert (r = Ok f) by congruence. subst r. apply handled_split in HD. destruct HD as [B U].
  assert (C : c = Client s' (c_req (mc_client s)) t') by congruence.
  split; [exact B|]. split; [rewrite C; exact U|]. auto.
Qed.

Lemma recv_says : forall result std m s x w s1, is_octets (tls_in (c_tls (mc_client s))) -> receive_report result std m s = (Says x w, s1) ->
  exists taken, tls_in (c_tls (mc_client s)) = taken ++ tls_in (c_tls (mc_client s1)) /\ reason result taken x w /\
    mc_text s1 = mc_text s /\ mc_hex s1 = mc_hex s /\ tls_out (c_tls (mc_client s1)) = tls_out (c_tls (mc_client s)) /\
    c_req (mc_client s1) = c_req (mc_client s).
Proof.
  intros result std m s x w s1 O H. unfold receive_report in H.
  pose proof (forget_receive result m (mc_client s)) as FR.
  destruct (receive_frame_told result m (mc_client s)) as [[r p] c] eqn:E. cbn [fst snd] in FR.
  assert (R : r = Says x w) by congruence. subst r. cbn [forget] in FR. symmetry in FR. destruct (receive_keeps _ _ _ _ FR) as [OUT Q].
  destruct (C108_receive_partial _ _ _ _ _ _ _ O E) as (-> & taken & T & X).
  assert (S : s1 = Machine c (mc_text s) (mc_hex s)) by congruence. subst s1. cbn [mc_client mc_text mc_hex].
  exists taken. split; [exact T|]. split; [exact X|]. auto.
Qed.

Lemma try_says : forall result std m fuel s x w s1, is_octets (tls_in (c_tls (mc_client s))) -> try_loop result std m fuel s = (Says x w, s1) ->
  exists ws taken text t, Forall wframe_ok ws /\ Forall (fun v => ~ final_frame v) ws /\
    tls_in (c_tls (mc_client s)) = concat (map wire ws) ++ taken ++ tls_in (c_tls (mc_client s1)) /\
    shown m (c_resp (mc_client s)) (mc_hex s) ws text t (mc_hex s1) /\ reason result taken x w /\
    mc_text s1 = mc_text s ++ text /\ tls_out (c_tls (mc_client s1)) = tls_out (c_tls (mc_client s)) /\
    c_req (mc_client s1) = c_req (mc_client s).
Proof.
  intros result std m. induction fuel as [|fuel IH]; intros s x w s1 O H; [discriminate H|]. cbn [try_loop] in H.
  destruct (receive_report result std m s) as [r s2] eqn:R. destruct r as [f|y v|u|]; try discriminate H.
  - destruct (recv_done _ _ _ _ _ _ O R) as (wf & W & I & B & U & X & HX & OUT & Q).
    unfold print in H. destruct (dump m (mc_hex s2) f) as [[xt hex]|y|u|] eqn:D; try discriminate H.
    2:{ exfalso. exact (dump_no_throw _ _ _ _ _ _ W B D). }
    destruct (more_data_final _ _ _ _ B) as [TY M]. destruct (is_more_data (frame_fh f)) eqn:MD; [|discriminate H].
    rewrite I in O. apply octets_right in O.
    destruct (IH (Machine (mc_client s2) (mc_text s2 ++ xt) hex) _ _ _ O H) as (ws & taken & text & t & OKS & NF & I2 & S2 & RE & X2 & O2 & Q2). cbn [mc_client mc_text mc_hex] in *.
    exists (wf :: ws), taken, (xt ++ text), t. split; [constructor; assumption|]. split.
    { constructor; [|exact NF]. intros F. apply M in F. discriminate F. }
    split; [rewrite I, I2; cbn [map concat]; rewrite <- !app_assoc; reflexivity|]. split.
    { rewrite HX in D. econstructor; eassumption. }
    split; [exact RE|]. split; [rewrite X2, X, <- app_assoc; reflexivity|]. split; congruence.
  - assert (E : y = x /\ v = w /\ s2 = s1) by (repeat split; congruence). destruct E as (-> & -> & ->).
    destruct (recv_says _ _ _ _ _ _ _ O R) as (taken & I & RE & X & HX & OUT & Q).
    exists [], taken, [], (c_resp (mc_client s)). split; [constructor|]. split; [constructor|]. split; [exact I|]. split.
    { rewrite HX. constructor. }
    split; [exact RE|]. split; [rewrite app_nil_r; exact X|]. auto.
Qed.

(* The loop gives up, whatever the server sent and whatever the TLS layer did:
   it has shown the frames before, then one line with the message, which tells
   what was wrong with the octets that came next; nothing was sent. *)
Theorem C116_loop_reports_partial : forall result std m s x w s', is_octets (tls_in (c_tls (mc_client s))) ->
  receive_frames_report result std m s = (Says x w, s') ->
  exists ws taken text t line, Forall wframe_ok ws /\ Forall (fun v => ~ final_frame v) ws /\
    tls_in (c_tls (mc_client s)) = concat (map wire ws) ++ taken ++ tls_in (c_tls (mc_client s')) /\
    shown m (c_resp (mc_client s)) (mc_hex s) ws text t (mc_hex s') /\ reason result taken x w /\
    mc_text s' = mc_text s ++ text ++ line /\ report_line std w line /\
    tls_out (c_tls (mc_client s')) = tls_out (c_tls (mc_client s)).
Proof.
  intros result std m s x w s' O H. unfold receive_frames_report in H.
  destruct (try_loop result std m _ s) as [r s1] eqn:T. destruct r as [a|y v|u|]; try discriminate H.
  assert (E : y = x /\ v = w /\ s' = print_line std w s1) by (repeat split; congruence). destruct E as (-> & -> & ->).
  destruct (try_says _ _ _ _ _ _ _ _ O T) as (ws & taken & text & t & OKS & NF & I & S & RE & X & OUT & _).
  exists ws, taken, text, t, (said std w ++ nl). unfold print_line. cbn [mc_client mc_text mc_hex].
  split; [exact OKS|]. split; [exact NF|]. split; [exact I|]. split; [exact S|]. split; [exact RE|]. split.
  { rewrite X, <- app_assoc. reflexivity. }
  split; [apply line_of|exact OUT].
Qed.

(* ---- proofs: agreement with the program without these lines ---- *)

Lemma report_agrees : forall result std m s r s', receive_report result std m s = (r, s') ->
  exists p, receive_frame m (mc_client s) = (forget r, mc_client s') /\ mc_hex s' = mc_hex s /\ mc_text s' = mc_text s ++ p.
Proof.
  intros result std m s r s' H. unfold receive_report in H.
  pose proof (forget_receive result m (mc_client s)) as FR.
  destruct (receive_frame_told result m (mc_client s)) as [[r1 p] c]. cbn [fst snd] in FR.
  assert (r1 = r) by congruence. subst r1. destruct p as [w|].
  - assert (s' = print_line std w (Machine c (mc_text s) (mc_hex s))) by congruence. subst s'. exists (said std w ++ nl).
    unfold print_line. cbn [mc_client mc_text mc_hex]. auto.
  - assert (s' = Machine c (mc_text s) (mc_hex s)) by congruence. subst s'. exists []. rewrite app_nil_r. cbn [mc_client mc_text mc_hex]. auto.
Qed.

(* two machines that differ in the text only *)
Definition alike (a b : machine) : Prop := mc_client a = mc_client b /\ mc_hex a = mc_hex b.

Lemma print_alike : forall m f a b, alike a b -> fst (print m f a) = fst (print m f b) /\ alike (snd (print m f a)) (snd (print m f b)).
Proof.
  intros m f a b [C H]. unfold print. rewrite <- H. destruct (dump m (mc_hex a) f) as [[x hex]|x|u|]; cbn [fst snd]; repeat split; assumption.
Qed.

Lemma try_agrees : forall result std m fuel a b, alike a b ->
  forget (fst (try_loop result std m fuel a)) = fst (receive_loop m fuel b) /\
  alike (snd (try_loop result std m fuel a)) (snd (receive_loop m fuel b)).
Proof.
  intros result std m. induction fuel as [|fuel IH]; intros a b AL; [split; [reflexivity|exact AL]|].
  cbn [try_loop receive_loop]. unfold seqp at 1 3, on_client.
  destruct (receive_report result std m a) as [r a1] eqn:R. destruct (report_agrees _ _ _ _ _ _ R) as (p & RF & HX & _).
  destruct AL as [C H]. rewrite <- C, RF. assert (AL : alike a1 (Machine (mc_client a1) (mc_text b) (mc_hex b))) by (split; [reflexivity|cbn [mc_hex]; congruence]).
  destruct r as [f|x w|u|]; cbn [forget]; try (split; [reflexivity|exact AL]).
  unfold seqp. destruct (print_alike m f _ _ AL) as [P1 P2].
  destruct (print m f a1) as [q a2]. destruct (print m f (Machine (mc_client a1) (mc_text b) (mc_hex b))) as [q' b2]. cbn [fst snd] in P1, P2. subst q'.
  destruct q as [[]|x|u|]; try (split; [reflexivity|exact P2]).
  destruct (is_more_data (frame_fh f)); [apply IH; exact P2|split; [reflexivity|exact P2]].
Qed.

Definition same_end {A} (p q : prog A) : Prop := forall a b, alike a b -> fst (p a) = fst (q b) /\ alike (snd (p a)) (snd (q b)).

Lemma same_client : forall A (f : client -> res A * client), same_end (on_client f) (on_client f).
Proof.
  intros A f a b [C H]. unfold on_client. rewrite <- C. destruct (f (mc_client a)) as [r c]. split; [reflexivity|]. split; [reflexivity|exact H].
Qed.

Lemma same_seq : forall A B (p q : prog A) (k j : A -> prog B), same_end p q -> (forall a, same_end (k a) (j a)) -> same_end (seqp p k) (seqp q j).
Proof.
  intros A B p q k j P K a b AL. unfold seqp. destruct (P a b AL) as [E S]. destruct (p a) as [r a1]. destruct (q b) as [r' b1]. cbn [fst snd] in E, S. subst r'.
  destruct r as [x|x|u|]; try (split; [reflexivity|exact S]). apply K. exact S.
Qed.

Lemma same_main : forall result std host m, same_end (main_report result std host m) (sample_main host m).
Proof.
  intros result std host m. unfold main_report, sample_main.
  apply same_seq; [apply same_client|intros _]. apply same_seq; [apply same_client|intros _]. apply same_seq; [apply same_client|intros _].
  apply same_seq; [|intros f].
  { intros a b [C H]. unfold unheard, on_client. destruct (receive_report result std m a) as [r a1] eqn:R.
    destruct (report_agrees _ _ _ _ _ _ R) as (p & RF & HX & _). rewrite <- C, RF. split; [reflexivity|]. split; [reflexivity|]. cbn [snd mc_hex]. congruence. }
  apply same_seq; [intros a b AL; apply print_alike; exact AL|intros _]. apply same_seq; [apply same_client|intros _].
  apply same_seq; [intros a b AL; split; [reflexivity|exact AL]|intros bl].
  apply same_seq; [intros a b [C H]; rewrite <- C; split; [reflexivity|split; [exact C|exact H]]|intros hf].
  apply same_seq; [apply same_client|intros _]. apply same_seq; [apply same_client|intros _].
  apply same_seq; [|intros ty; destruct (negb (ty =? T_GOAWAY)); [apply same_client|intros a b AL; split; [reflexivity|exact AL]]].
  intros a b AL. unfold unheard, receive_frames_report, receive_frames. destruct AL as [C H]. rewrite <- C.
  destruct (try_agrees result std m (Datatypes.S (length (tls_in (c_tls (mc_client a))))) a b (conj C H)) as [E S].
  destruct (try_loop result std m _ a) as [r a1]. destruct (receive_loop m _ b) as [r' b1]. cbn [fst snd] in E, S. subst r'.
  destruct r as [x|x w|u|]; split; try reflexivity; exact S.
Qed.

(* Printing these lines changes nothing else: what is said of the program in C62
   and C63 holds with them. *)
Theorem C116_agrees : forall result std host m s r s', main_report result std host m s = (r, s') ->
  exists text, sample_main host m s = (r, Machine (mc_client s') text (mc_hex s')).
Proof.
  intros result std host m s r s' H. destruct (same_main result std host m s s (conj eq_refl eq_refl)) as [E [C X]]. rewrite H in E, C, X.
  destruct (sample_main host m s) as [r2 [c2 t2 h2]]. cbn [fst snd mc_client mc_hex] in *. exists t2. subst. reflexivity.
Qed.

(* ---- proofs: the whole program ---- *)

Lemma be_are_octets : forall k x, is_octets (be_octets k x).
Proof. induction k as [|k IH]; intros x b J; cbn in J; [contradiction|]. destruct J as [<-|J]; [apply N.mod_lt; discriminate|exact (IH _ _ J)]. Qed.

Lemma wire_octets : forall w, wframe_ok w -> is_octets (wire w).
Proof.
  intros w (T & F & _ & _ & O & _) b J. unfold wire, wire_frame, wire_header in J. rewrite !in_app_iff in J.
  destruct J as [[J|[[<-|[<-|[]]]|J]]|J]; try assumption; [exact (be_are_octets _ _ _ J)|exact (be_are_octets _ _ _ J)|exact (O _ J)].
Qed.


Lemma try_done : forall result std m fuel s ty s1, is_octets (tls_in (c_tls (mc_client s))) -> try_loop result std m fuel s = (Done ty, s1) ->
  exists ws v text, Forall wframe_ok (ws ++ [v]) /\ Forall (fun v => ~ final_frame v) ws /\ final_frame v /\ ty = w_type v /\
    tls_in (c_tls (mc_client s)) = concat (map wire (ws ++ [v])) ++ tls_in (c_tls (mc_client s1)) /\
    shown m (c_resp (mc_client s)) (mc_hex s) (ws ++ [v]) text (c_resp (mc_client s1)) (mc_hex s1) /\
    mc_text s1 = mc_text s ++ text /\ tls_out (c_tls (mc_client s1)) = tls_out (c_tls (mc_client s)).
Proof.
  intros result std m. induction fuel as [|fuel IH]; intros s ty s1 O H; [discriminate H|]. cbn [try_loop] in H.
  destruct (receive_report result std m s) as [r s2] eqn:R. destruct r as [f|y v|u|]; try discriminate H.
  destruct (recv_done _ _ _ _ _ _ O R) as (wf & W & I & B & U & X & HX & OUT & Q).
  unfold print in H. destruct (dump m (mc_hex s2) f) as [[xt hex]|y|u|] eqn:D; try discriminate H. rewrite HX in D.
  destruct (more_data_final _ _ _ _ B) as [TY M]. destruct (is_more_data (frame_fh f)) eqn:MD.
  - rewrite I in O. apply octets_right in O.
    destruct (IH (Machine (mc_client s2) (mc_text s2 ++ xt) hex) _ _ O H) as (ws & v & text & OKS & NF & FW & T & I2 & S2 & X2 & O2). cbn [mc_client mc_text mc_hex] in *.
    exists (wf :: ws), v, (xt ++ text). cbn [app]. split; [constructor; assumption|]. split.
    { constructor; [|exact NF]. intros F. apply M in F. discriminate F. }
    split; [exact FW|]. split; [exact T|]. split; [rewrite I, I2; cbn [map concat]; rewrite <- !app_assoc; reflexivity|]. split.
    { econstructor; eassumption. }
    split; [rewrite X2, X, <- app_assoc; reflexivity|congruence].
  - assert (E : fh_type (frame_fh f) = ty /\ s1 = Machine (mc_client s2) (mc_text s2 ++ xt) hex) by (split; congruence). destruct E as [<- ->].
    cbn [mc_client mc_text mc_hex]. exists [], wf, xt. cbn [app map concat]. split; [constructor; [exact W|constructor]|]. split; [constructor|].
    split; [apply M; reflexivity|]. split; [exact TY|]. split; [rewrite app_nil_r; exact I|]. split.
    { rewrite <- (app_nil_r xt). econstructor; try eassumption. constructor. }
    split; [rewrite X; reflexivity|exact OUT].
Qed.

Lemma client_step : forall A B (f : client -> res A * client) (q : A -> prog B) s x s',
  (do a <- on_client f; q a) s = (Throw x, s') ->
  (f (mc_client s) = (Throw x, mc_client s') /\ mc_text s' = mc_text s) \/
  (exists a c, f (mc_client s) = (Ok a, c) /\ q a (Machine c (mc_text s) (mc_hex s)) = (Throw x, s')).
Proof.
  intros A B f q s x s' H. unfold seqp, on_client in H. destruct (f (mc_client s)) as [[a|y|u|] c]; try discriminate H.
  - right. exists a, c. auto.
  - left. assert (E : y = x /\ s' = Machine c (mc_text s) (mc_hex s)) by (split; congruence). destruct E as [-> ->]. auto.
Qed.

Lemma sent_all : forall host f d c c1 a, serialize host f = Ok d -> send_frame host c f = (Ok a, c1) ->
  tls_out (c_tls c1) = tls_out (c_tls c) ++ d /\ tls_in (c_tls c1) = tls_in (c_tls c) /\ c_req c1 = c_req c /\ c_resp c1 = c_resp c.
Proof.
  intros host f d c c1 a E H. unfold send_frame in H. rewrite E in H. destruct (send_raw_exact c d) as (k & X). rewrite H in X.
  destruct X as (O & I & Q & P & [[_ F]|[F _]]); [|discriminate F]. rewrite F in O. auto.
Qed.

Lemma sent_some : forall host f d c c1 x, serialize host f = Ok d -> send_frame host c f = (Throw x, c1) ->
  exists k, (k < length d)%nat /\ tls_out (c_tls c1) = tls_out (c_tls c) ++ firstn k d.
Proof.
  intros host f d c c1 x E H. unfold send_frame in H. rewrite E in H. destruct (send_raw_exact c d) as (k & X). rewrite H in X.
  destruct X as (O & I & Q & P & [[F _]|[_ F]]); [discriminate F|]. exists k. auto.
Qed.

Lemma sent_early : forall (a d b : list N) k, (k < length d)%nat -> (length (a ++ firstn k d) < length (a ++ d ++ b))%nat.
Proof. intros a d b k L. rewrite !app_length, firstn_length. lia. Qed.

(* The program ends with an exception.  Either the loop gave up: the request has
   been sent, and the output is the frames received and the line that tells what
   was wrong with the octets after them.  Or an exception was thrown before or
   after the loop: the output is the frames received and nothing more. *)
Theorem C116_program_reports_partial : forall result std host m s hex x s', is_octets (tls_in s) ->
  main_report result std host m (Machine (new_client s) [] hex) = (Throw x, s') ->
  exists ws text t hex' sent, Forall wframe_ok ws /\ shown m default_table hex ws text t hex' /\
    tls_out (c_tls (mc_client s')) = tls_out s ++ sent /\
    ((exists taken w line, sent = opening ++ asking /\ ws <> [] /\
        tls_in s = concat (map wire ws) ++ taken ++ tls_in (c_tls (mc_client s')) /\
        reason result taken x w /\ report_line std w line /\ mc_text s' = text ++ line) \/
     (mc_text s' = text /\ (length sent < length (opening ++ asking))%nat /\ (length ws <= 1)%nat) \/
     (mc_text s' = text /\ exists k ws' v, sent = opening ++ asking ++ firstn k closing /\ (k < length closing)%nat /\
        ws = ws' ++ [v] /\ final_frame v)).
Proof.
  intros result std host m s hex x s' O H. unfold main_report in H.
  assert (SHORT : forall sent, (length sent < length (opening ++ asking))%nat -> tls_out (c_tls (mc_client s')) = tls_out s ++ sent -> mc_text s' = [] ->
    exists ws text t hex' sent, Forall wframe_ok ws /\ shown m default_table hex ws text t hex' /\
    tls_out (c_tls (mc_client s')) = tls_out s ++ sent /\
    ((exists taken w line, sent = opening ++ asking /\ ws <> [] /\
        tls_in s = concat (map wire ws) ++ taken ++ tls_in (c_tls (mc_client s')) /\
        reason result taken x w /\ report_line std w line /\ mc_text s' = text ++ line) \/
     (mc_text s' = text /\ (length sent < length (opening ++ asking))%nat /\ (length ws <= 1)%nat) \/
     (mc_text s' = text /\ exists k ws' v, sent = opening ++ asking ++ firstn k closing /\ (k < length closing)%nat /\
        ws = ws' ++ [v] /\ final_frame v))).
  { intros sent L OUT TX. exists [], [], default_table, hex, sent. split; [constructor|]. split; [constructor|]. split; [exact OUT|]. right. left. split; [exact TX|]. split; [exact L|cbn; lia]. }
  apply client_step in H. cbn [mc_client mc_text mc_hex new_client] in H. destruct H as [[F TX]|([] & c1 & F & H)].
  { unfold send_connection_preface in F. change connection_preface with preface_octets in F.
    destruct (send_raw_exact (new_client s) preface_octets) as (k & X). rewrite F in X. cbn [new_client c_tls] in X.
    destruct X as (OUT & _ & _ & _ & [[B _]|[_ L]]); [discriminate B|]. apply (SHORT (firstn k preface_octets)); [|exact OUT|exact TX].
    unfold opening. rewrite <- app_assoc. apply (sent_early [] preface_octets). exact L. }
  unfold send_connection_preface in F. change connection_preface with preface_octets in F.
  destruct (send_raw_exact (new_client s) preface_octets) as (k & X). rewrite F in X. cbn [new_client c_tls c_req c_resp] in X.
  destruct X as (O1 & I1 & Q1 & P1 & [[_ B]|[B _]]); [|discriminate B]. rewrite B in O1. clear B F k.
  apply client_step in H. cbn [mc_client mc_text mc_hex] in H. destruct H as [[F TX]|([] & c2 & F & H)].
  { destruct (sent_some _ _ _ _ _ _ (serialize_opening host) F) as (k & L & OUT).
    apply (SHORT (preface_octets ++ firstn k (wire_frame SETTINGS 0 0 0 (settings_octets [(1, 8192); (2, 0); (4, 65535)]))));
      [|rewrite OUT, O1, <- app_assoc; reflexivity|exact TX].
    unfold opening. rewrite <- app_assoc. apply sent_early. exact L. }
  destruct (sent_all _ _ _ _ _ _ (serialize_opening host) F) as (O2 & I2 & Q2 & P2). clear F.
  rewrite O1, <- app_assoc in O2. fold opening in O2.
  unfold seqp at 1, on_client at 1, update_request_table_size in H. cbn [mc_client mc_text mc_hex] in H. rewrite Q2, Q1 in H.
  change (dt_update_size default_table sample_table_size) with (Ok (DynTable [] 0 8192)) in H. cbv iota beta in H.
  set (sx := Machine (Client (c_tls c2) (DynTable [] 0 8192) (c_resp c2)) [] hex) in H.
  assert (OX : is_octets (tls_in (c_tls (mc_client sx)))) by (cbn [sx mc_client c_tls]; rewrite I2, I1; exact O).
  unfold seqp at 1, unheard at 1 in H. destruct (receive_report result std m sx) as [r3 s3] eqn:R3. destruct r3 as [f|y w|u|]; try discriminate H; cbn [forget] in H.
  2:{ assert (E : y = x /\ s3 = s') by (split; congruence). destruct E as [-> ->].
      destruct (recv_says _ _ _ _ _ _ _ OX R3) as (taken & _ & _ & TX & _ & OUT & _). cbn [sx mc_client mc_text c_tls] in OUT, TX.
      apply (SHORT opening); [|congruence|exact TX]. rewrite app_length. unfold asking. rewrite app_length. pose proof (wire_length (WFrame SETTINGS 1 0 0 []) ltac:(apply wframe_check; reflexivity)) as L.
      unfold wire in L. cbn [w_type w_flags w_reserved w_stream w_payload] in L. lia. }
  destruct (recv_done _ _ _ _ _ _ OX R3) as (w0 & W0 & I3 & B3 & U3 & X3 & HX3 & O3 & Q3). cbn [sx mc_client mc_text mc_hex c_tls c_req c_resp] in I3, B3, U3, X3, HX3, O3, Q3.
  rewrite P2, P1 in B3, U3.
  unfold seqp at 1, print in H. destruct (dump m (mc_hex s3) f) as [[xt hex1]|y|u|] eqn:D; try discriminate H.
  2:{ exfalso. exact (dump_no_throw _ _ _ _ _ _ W0 B3 D). }
  rewrite X3 in H. cbn [app] in H. rewrite HX3 in D.
  assert (S0 : forall ws text t h, shown m (c_resp (mc_client s3)) hex1 ws text t h -> shown m default_table hex (w0 :: ws) (xt ++ text) t h).
  { intros ws text t h S. econstructor; eassumption. }
  assert (S1 : shown m default_table hex [w0] xt (c_resp (mc_client s3)) hex1) by (rewrite <- (app_nil_r xt); apply S0; constructor).
  assert (SHORT1 : forall sent, (length sent < length (opening ++ asking))%nat -> tls_out (c_tls (mc_client s')) = tls_out s ++ sent -> mc_text s' = xt ->
    exists ws text t hex' sent, Forall wframe_ok ws /\ shown m default_table hex ws text t hex' /\
    tls_out (c_tls (mc_client s')) = tls_out s ++ sent /\
    ((exists taken w line, sent = opening ++ asking /\ ws <> [] /\
        tls_in s = concat (map wire ws) ++ taken ++ tls_in (c_tls (mc_client s')) /\
        reason result taken x w /\ report_line std w line /\ mc_text s' = text ++ line) \/
     (mc_text s' = text /\ (length sent < length (opening ++ asking))%nat /\ (length ws <= 1)%nat) \/
     (mc_text s' = text /\ exists k ws' v, sent = opening ++ asking ++ firstn k closing /\ (k < length closing)%nat /\
        ws = ws' ++ [v] /\ final_frame v))).
  { intros sent L OUT TX. exists [w0], xt, (c_resp (mc_client s3)), hex1, sent. split; [constructor; [exact W0|constructor]|]. split; [exact S1|]. split; [exact OUT|].
    right. left. split; [exact TX|]. split; [exact L|cbn; lia]. }
  apply client_step in H. cbn [mc_client mc_text mc_hex] in H. destruct H as [[F TX]|([] & c4 & F & H)].
  { destruct (sent_some _ _ _ _ _ _ (serialize_ack host) F) as (k & L & OUT).
    apply (SHORT1 (opening ++ firstn k (wire_frame SETTINGS 1 0 0 []))); [|rewrite OUT, O3, O2, <- app_assoc; reflexivity|exact TX].
    unfold asking. apply sent_early. exact L. }
  destruct (sent_all _ _ _ _ _ _ (serialize_ack host) F) as (O4 & I4 & Q4 & P4). clear F.
  rewrite sample_block_eq in H. unfold seqp at 1, lift in H.
  destruct sample_frame as (hf & MK & SER). unfold seqp at 1 in H. cbn [mc_client] in H.
  unfold get_request_dynamic_table in H. rewrite Q4, Q3, MK in H.
  apply client_step in H. cbn [mc_client mc_text mc_hex] in H. destruct H as [[F TX]|([] & c5 & F & H)].
  { destruct (sent_some _ _ _ _ _ _ (SER host) F) as (k & L & OUT).
    apply (SHORT1 ((opening ++ wire_frame SETTINGS 1 0 0 []) ++ firstn k (wire_frame HEADERS 5 0 1 get_block)));
      [|rewrite OUT, O4, O3, O2, <- !app_assoc; reflexivity|exact TX].
    unfold asking. pose proof (sent_early (opening ++ wire_frame SETTINGS 1 0 0 []) _ [] k L) as LT. rewrite app_nil_r, <- (app_assoc opening _ (wire_frame HEADERS 5 0 1 get_block)) in LT. exact LT. }
  destruct (sent_all _ _ _ _ _ _ (SER host) F) as (O5 & I5 & Q5 & P5). clear F.
  unfold seqp at 1, on_client at 1, update_request_dynamic_table in H. cbn [mc_client mc_text mc_hex] in H.
  rewrite Q5, Q4, Q3, sample_update in H.
  set (sy := Machine _ xt hex1) in H.
  assert (OUT5 : tls_out (c_tls (mc_client sy)) = tls_out s ++ opening ++ asking).
  { cbn [sy mc_client c_tls]. rewrite O5, O4, O3, O2. unfold asking. rewrite <- !app_assoc. reflexivity. }
  assert (IN5 : tls_in s = wire w0 ++ tls_in (c_tls (mc_client sy))).
  { cbn [sy mc_client c_tls]. rewrite I5, I4, <- I3, I2, I1. reflexivity. }
  assert (RS5 : c_resp (mc_client sy) = c_resp (mc_client s3)) by (cbn [sy mc_client c_resp]; congruence).
  assert (OY : is_octets (tls_in (c_tls (mc_client sy)))) by (rewrite IN5 in O; apply octets_right in O; exact O).
  assert (TY : mc_text sy = xt /\ mc_hex sy = hex1) by (split; reflexivity). destruct TY as [TY HY]. clearbody sy.
  unfold seqp at 1, unheard at 1 in H. unfold receive_frames_report in H. destruct (try_loop result std m _ sy) as [r6 s6] eqn:R6.
  destruct r6 as [ty|y w|u|]; cbn [forget] in H; try discriminate H.
  - destruct (try_done _ _ _ _ _ _ _ OY R6) as (ws & v & text & OKS & NF & FW & T & I6 & S6 & X6 & O6).
    rewrite RS5, HY in S6. apply S0 in S6.
    destruct (negb (ty =? T_GOAWAY)); [|discriminate H]. unfold on_client, send_frame in H. rewrite serialize_closing in H.
    destruct (send_raw_exact (mc_client s6) closing) as (j & X). destruct (send_raw_data (mc_client s6) closing) as [r7 c7].
    destruct X as (O7 & _ & _ & _ & [[X _]|[_ L]]); [subst r7; discriminate H|].
    assert (E : s' = Machine c7 (mc_text s6) (mc_hex s6)) by congruence. subst s'. cbn [mc_client mc_text].
    exists (w0 :: ws ++ [v]), (xt ++ text), (c_resp (mc_client s6)), (mc_hex s6), (opening ++ asking ++ firstn j closing).
    split; [constructor; assumption|]. split; [exact S6|]. split; [rewrite O7, O6, OUT5, <- !app_assoc; reflexivity|]. right. right. split; [rewrite X6, TY; reflexivity|].
    exists j, (w0 :: ws), v. split; [reflexivity|]. split; [exact L|]. split; [reflexivity|exact FW].
  - assert (E : y = x /\ s' = print_line std w s6) by (split; congruence). destruct E as [-> ->].
    destruct (try_says _ _ _ _ _ _ _ _ OY R6) as (ws & taken & text & t & OKS & NF & I6 & S6 & RE & X6 & O6 & _).
    rewrite RS5, HY in S6. apply S0 in S6. unfold print_line. cbn [mc_client mc_text].
    exists (w0 :: ws), (xt ++ text), t, (mc_hex s6), (opening ++ asking). split; [constructor; assumption|]. split; [exact S6|].
    split; [rewrite O6; exact OUT5|]. left. exists taken, w, (said std w ++ nl). split; [reflexivity|]. split; [discriminate|].
    split; [rewrite IN5, I6; cbn [map concat]; rewrite <- !app_assoc; reflexivity|]. split; [exact RE|]. split; [apply line_of|].
    rewrite X6, TY, <- app_assoc. reflexivity.
Qed.

(* The full property is false: the server closes the connection before or within
   its first frame, for every way the connection behaves otherwise: nothing is
   printed. *)
Theorem C116_first_frame_refuted : forall result std host m s hex v k, wframe_ok v -> (k < length (wire v))%nat ->
  tls_in s = firstn k (wire v) ->
  exists s', main_report result std host m (Machine (new_client s) [] hex) = (Throw RuntimeError, s') /\ mc_text s' = [].
Proof.
  intros result std host m s hex v k V K E.
  assert (THROWS : exists s', main_report result std host m (Machine (new_client s) [] hex) = (Throw RuntimeError, s')).
  { destruct (main_report result std host m (Machine (new_client s) [] hex)) as [r s'] eqn:H. exists s'. f_equal.
    destruct (C116_agrees _ _ _ _ _ _ _ H) as (text & S). clear H. unfold sample_main in S.
    apply preface_step in S. cbn [mc_client mc_text mc_hex new_client c_tls c_req c_resp] in S.
    destruct S as [(? & X & _)|(c1 & S & O1 & I1 & Q1 & P1)]; [exact X|].
    apply (send_step _ _ _ _ _ _ _ _ (serialize_opening host)) in S. cbn [mc_client mc_text mc_hex] in S.
    destruct S as [(? & X & _)|(c2 & S & O2 & I2 & Q2 & P2)]; [exact X|].
    unfold seqp at 1, on_client at 1, update_request_table_size in S. cbn [mc_client mc_text mc_hex] in S. rewrite Q2, Q1 in S.
    change (dt_update_size default_table sample_table_size) with (Ok (DynTable [] 0 8192)) in S. cbv iota beta in S.
    unfold seqp at 1, on_client at 1 in S. cbn [mc_client mc_text mc_hex] in S.
    destruct (C49_truncated m (Client (c_tls c2) (DynTable [] 0 8192) (c_resp c2)) v k V K) as (c' & R & _); [cbn [c_tls]; congruence|].
    rewrite R in S. congruence. }
  destruct THROWS as (s' & H). exists s'. split; [exact H|].
  unfold main_report in H.
  apply client_step in H. cbn [mc_client mc_text mc_hex] in H. destruct H as [[_ TX]|([] & c1 & F & H)]; [exact TX|].
  unfold send_connection_preface in F. destruct (send_raw_exact (new_client s) connection_preface) as (j & X). rewrite F in X. cbn [new_client c_tls] in X. destruct X as (_ & I1 & _).
  apply client_step in H. cbn [mc_client mc_text mc_hex] in H. destruct H as [[_ TX]|([] & c2 & F2 & H)]; [exact TX|].
  destruct (sent_all _ _ _ _ _ _ (serialize_opening host) F2) as (_ & I2 & _).
  apply client_step in H. cbn [mc_client mc_text mc_hex] in H. destruct H as [[_ TX]|([] & c3 & F3 & H)]; [exact TX|].
  assert (I3 : tls_in (c_tls c3) = firstn k (wire v)).
  { unfold update_request_table_size in F3. destruct (dt_update_size (c_req c2) sample_table_size); try discriminate F3.
    assert (c3 = Client (c_tls c2) a (c_resp c2)) by congruence. subst c3. cbn [c_tls]. congruence. }
  unfold seqp at 1, unheard at 1 in H. destruct (receive_report result std m _) as [r4 s4] eqn:R4.
  destruct (report_agrees _ _ _ _ _ _ R4) as (p & RF & _ & TX). cbn [mc_client mc_text] in RF, TX.
  destruct (C49_truncated m c3 v k V K I3) as (c' & R & _). rewrite R in RF.
  destruct r4 as [f|y w|u|]; cbn [forget] in RF; try discriminate RF. cbn [forget] in H.
  assert (s4 = s') by congruence. subst s4. unfold receive_report in R4. cbn [mc_client mc_text mc_hex] in R4.
  destruct (receive_frame_told result m c3) as [[r5 p5] c5] eqn:R5. assert (r5 = Says y w) by congruence. subst r5.
  assert (O : is_octets (tls_in (c_tls c3))).
  { rewrite I3. intros b IN. apply (wire_octets v V). rewrite <- (firstn_skipn k (wire v)). apply in_or_app. left. exact IN. }
  destruct (C108_receive_partial _ _ _ _ _ _ _ O R5) as (-> & _).
  assert (s' = Machine c5 [] hex) by congruence. subst s'. reflexivity.
Qed.

(* A HEADERS frame whose header block cannot be decoded does not get that far:
   the library prints the message itself and goes on with a frame of another
   class (C108), so the loop never catches the exception. *)
Theorem C116_headers_refuted : forall result std m s ws v rest text t hex x,
  Forall wframe_ok ws -> Forall (fun u => ~ final_frame u) ws -> shown m (c_resp (mc_client s)) (mc_hex s) ws text t hex ->
  wframe_ok v -> w_type v = HEADERS -> parse_headers m (header_of v) (w_payload v) t = Throw x ->
  tls_in (c_tls (mc_client s)) = concat (map wire ws) ++ wire v ++ rest -> is_octets rest ->
  delivers (size (concat (map wire ws) ++ wire v)) (c_tls (mc_client s)) ->
  exists s' w line, receive_frames_report result std m s = (Undefined NullDeref, s') /\ (exists y, block_message y w) /\
    report_line std w line /\ mc_text s' = mc_text s ++ text ++ line.
Proof.
  intros result std m s ws v rest text t hex x OKS NF SH V TY PH E OR D.
  assert (G : forall fuel, (length ws < fuel)%nat -> exists s' w line, try_loop result std m fuel s = (Undefined NullDeref, s') /\ (exists y, block_message y w) /\
    report_line std w line /\ mc_text s' = mc_text s ++ text ++ line).
  { revert s text SH E D. induction ws as [|u ws IH]; intros s text SH E D fuel L; (destruct fuel as [|fuel]; [lia|]); cbn [map concat app length] in *.
    - apply shown_end in SH. destruct SH as (-> & <- & <-).
      destruct (receive_complete m (mc_client s) v rest 0 V E) as (s1 & I & _ & _ & R); [rewrite N.add_0_r; exact D|].
      assert (B : build_frame m (header_of v) (w_payload v) (c_resp (mc_client s)) = Ok (RawFrame (header_of v) (w_payload v))).
      { unfold build_frame. cbn [header_of fh_type]. rewrite TY. change (HEADERS =? T_DATA) with false. change (HEADERS =? T_HEADERS) with true. cbn iota.
        unfold build_headers_frame. fold (header_of v). rewrite PH. reflexivity. }
      assert (U : update_frame (c_resp (mc_client s)) (RawFrame (header_of v) (w_payload v)) = (UB NullDeref, c_resp (mc_client s))).
      { unfold update_frame. cbn [frame_fh header_of fh_type]. rewrite TY. reflexivity. }
      assert (HD : handled m (c_resp (mc_client s)) v = (UB NullDeref, c_resp (mc_client s))) by (unfold handled; rewrite B, U; reflexivity).
      rewrite HD in R. cbn [fst snd] in R. cbn [try_loop]. unfold receive_report.
      pose proof (forget_receive result m (mc_client s)) as FR. destruct (receive_frame_told result m (mc_client s)) as [[r p] c] eqn:RT. cbn [fst snd] in FR.
      rewrite R in FR. assert (C : c = Client s1 (c_req (mc_client s)) (c_resp (mc_client s))) by congruence.
      assert (RU : r = Undefined NullDeref) by (destruct r as [a|y w|y|]; cbn [forget] in FR; congruence). subst r.
      assert (O : is_octets (tls_in (c_tls (mc_client s)))).
      { rewrite E. intros b IN. apply in_app_iff in IN. destruct IN as [IN|IN]; [exact (wire_octets v V b IN)|exact (OR b IN)]. }
      destruct (receive_told_cases _ _ _ _ _ _ O RT) as (taken & T & [(w & asked & X & _)|(wf & q & W & TW & BT & _)]); [discriminate X|].
      assert (WF : wf = v).
      { assert (EQ : wire wf = wire v). { rewrite <- TW. rewrite C in T. cbn [c_tls] in T. rewrite I, E in T. apply app_inv_tail in T. symmetry. exact T. }
        assert (K : [wf] = [v]). { apply wires_inj; [constructor; [exact W|constructor]|constructor; [exact V|constructor]|]. cbn [map concat]. rewrite EQ. reflexivity. }
        congruence. }
      subst wf. unfold build_frame_told in BT. cbn [header_of fh_type] in BT. rewrite TY in BT. change (HEADERS =? T_DATA) with false in BT. change (HEADERS =? T_HEADERS) with true in BT. cbn iota in BT.
      fold (header_of v) in BT. unfold build_headers_frame_told in BT. pose proof (forget_parse_headers m (header_of v) (w_payload v) (c_resp (mc_client s))) as FP. rewrite PH in FP.
      destruct (parse_headers_told m (header_of v) (w_payload v) (c_resp (mc_client s))) as [a|y w|y|] eqn:PT; cbn [forget] in FP; try discriminate FP.
      assert (y = x) by congruence. subst y. assert (P : p = Some w) by congruence. subst p.
      destruct (C108_printed _ _ _ _ _ _ O RT) as (_ & BM & _).
      eexists _, w, (said std w ++ nl). split; [reflexivity|]. split; [exact BM|]. split; [apply line_of|reflexivity].
    - apply shown_first in SH. destruct SH as (f & t1 & xt & hex1 & xs & B & U & DP & SH & ->).
      rewrite <- app_assoc in E, D. rewrite size_app in D.
      destruct (receive_complete m (mc_client s) u _ _ (Forall_inv OKS) E D) as (s1 & I & O & D' & R).
      rewrite (handled_join _ _ _ _ _ B U) in R. cbn [fst snd] in R.
      destruct (more_data_final _ _ _ _ B) as [_ M].
      assert (MT : is_more_data (frame_fh f) = true).
      { destruct (is_more_data (frame_fh f)); [reflexivity|]. destruct (Forall_inv NF). apply M. reflexivity. }
      cbn [try_loop]. destruct (receive_report result std m s) as [r s2] eqn:RR. destruct (report_agrees _ _ _ _ _ _ RR) as (p & RF & HX & TX).
      rewrite R in RF. assert (RD : r = Done f) by (destruct r as [a|y w|y|]; cbn [forget] in RF; congruence). subst r.
      assert (OO : is_octets (tls_in (c_tls (mc_client s)))).
      { rewrite E. intros b IN. rewrite !in_app_iff in IN. destruct IN as [IN|[IN|[IN|IN]]]; [exact (wire_octets u (Forall_inv OKS) b IN)| |exact (wire_octets v V b IN)|exact (OR b IN)].
        apply in_concat in IN. destruct IN as (l & IL & IB). apply in_map_iff in IL. destruct IL as (y & <- & IY). apply (wire_octets y); [|exact IB].
        rewrite Forall_forall in OKS. apply OKS. right. exact IY. }
      destruct (recv_done _ _ _ _ _ _ OO RR) as (_ & _ & _ & _ & _ & X2 & _). unfold print. rewrite HX, DP. rewrite MT.
      assert (C2 : mc_client s2 = Client s1 (c_req (mc_client s)) t1) by congruence.
      destruct (IH (Forall_inv_tail OKS) (Forall_inv_tail NF) (Machine (mc_client s2) (mc_text s2 ++ xt) hex1) xs) with (fuel := fuel) as (s' & w & line & TL & BM & RL & TT).
      + cbn [mc_client mc_hex]. rewrite C2. exact SH.
      + cbn [mc_client]. rewrite C2. exact I.
      + cbn [mc_client]. rewrite C2. exact D'.
      + lia.
      + exists s', w, line. split; [exact TL|]. split; [exact BM|]. split; [exact RL|]. rewrite TT. cbn [mc_text]. rewrite X2, <- !app_assoc. reflexivity. }
  assert (LEN : (length ws < Datatypes.S (length (tls_in (c_tls (mc_client s)))))%nat).
  { rewrite E, app_length. assert (Y : (length ws <= length (concat (map wire ws)))%nat).
    { clear -OKS. induction OKS as [|u l U F IH]; [cbn; lia|]. cbn [map concat length]. rewrite app_length. pose proof (wire_length u U). lia. }
    lia. }
  destruct (G _ LEN) as (s' & w & line & TL & BM & RL & TT). exists s', w, line. split; [|auto].
  unfold receive_frames_report. rewrite TL. reflexivity.
Qed.

(* A server that answers and then closes the connection within a frame: the
   output ends with the message, after the three frames.  A frame of a type the
   library does not know: the standard library's text.  A HEADERS frame with index
   0x7f: undefined behaviour, after the library's own line.  A server that closes
   at once: nothing. *)
Example C116_case :
  let settings := WFrame SETTINGS 0 0 0 [0; 3; 0; 0; 0; 100] in
  let quiet := [WFrame HEADERS 4 0 1 [0x88]; WFrame PING 0 0 0 [1; 2; 3; 4; 5; 6; 7; 8]] in
  let tls ends := Tls (concat (map wire (settings :: quiet)) ++ ends) [] (repeat (Chunk 100) 40) in
  let run ends := main_report 0 (octets "oops") LittleEndian Strict (Machine (new_client (tls ends)) [] false) in
  is_octets (tls_in (tls [0; 0; 4; 0; 1])) /\
  (exists text t hex, shown Strict default_table false (settings :: quiet) text t hex /\ (0 < length text)%nat /\
    (exists s', run [0; 0; 4; 0; 1] = (Throw RuntimeError, s') /\
       mc_text s' = text ++ octets "BIO_read failed: result=0, length=9" ++ [10] /\
       tls_out (c_tls (mc_client s')) = opening ++ asking) /\
    (exists s', run [0; 0; 4; 0; 1; 0; 0; 0; 1; 104] = (Throw RuntimeError, s') /\
       mc_text s' = text ++ octets "BIO_read failed: result=0, length=4" ++ [10]) /\
    (exists s', run [0; 0; 0; 12; 1; 0; 0; 0; 1] = (Throw OutOfRange, s') /\ mc_text s' = text ++ octets "oops" ++ [10]) /\
    (exists s', run [0; 0; 1; 8; 0; 0; 0; 0; 1; 0] = (Throw InvalidArgument, s') /\
       mc_text s' = text ++ octets "invalid payload size: 1" ++ [10]) /\
    (exists s', run [0; 0; 2; 1; 4; 0; 0; 0; 1; 255; 0] = (UB NullDeref, s') /\ mc_text s' = text ++ octets "oops" ++ [10])) /\
  (exists s', main_report 0 (octets "oops") LittleEndian Strict (Machine (new_client (Tls [] [] (repeat (Chunk 100) 40))) [] false) =
     (Throw RuntimeError, s') /\ mc_text s' = []).
Proof.
  cbv zeta. split; [apply octets_dec; reflexivity|]. split.
  - eexists _, _, _. split.
    { econstructor; [vm_compute; reflexivity|vm_compute; reflexivity|vm_compute; reflexivity|].
      econstructor; [vm_compute; reflexivity|vm_compute; reflexivity|vm_compute; reflexivity|].
      econstructor; [vm_compute; reflexivity|vm_compute; reflexivity|vm_compute; reflexivity|]. constructor. }
    split; [vm_compute; lia|].
    split; [eexists; split; [vm_compute; reflexivity|split; vm_compute; reflexivity]|].
    split; [eexists; split; vm_compute; reflexivity|]. split; [eexists; split; vm_compute; reflexivity|].
    split; eexists; split; vm_compute; reflexivity.
  - eexists. split; vm_compute; reflexivity.
Qed.

Print Assumptions C116_loop_reports_partial.
Print Assumptions C116_agrees.
Print Assumptions C116_program_reports_partial.
Print Assumptions C116_first_frame_refuted.
Print Assumptions C116_headers_refuted.
