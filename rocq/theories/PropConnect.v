(* Properties C55, C68 and C69: making, using and destroying a TLS connection. *)
From Coq Require Import ZArith NArith List Bool Lia ZifyBool ZifyNat ZifyN.
From Verif Require Import Base Arith Dump Connect DumpProofs.
Import ListNotations.
Local Open Scope N_scope.

(* Split over the results the calls return, in the order they are made. *)
Ltac reduce_calls :=
  lazy [ssl_connect connect_body guarded seqc require calls fst snd env_ctx_new env_bio_new env_get_ssl env_set_alpn
        env_verify_paths env_connect env_handshake env_verify_ok env_alpn env_cert_matches_host] in *; cbn [app] in *.
Ltac connect_cases env mode :=
  destruct env as [ctx bio get alpn paths conn hand verify proto match_host];
  destruct ctx; [destruct bio; [destruct get; [destruct alpn; [destruct paths; [destruct conn; [destruct hand;
    [destruct mode; [|destruct verify]; try (destruct (is_expected_alpn proto) eqn:?)|]|]|]|]|]|]|];
  reduce_calls; repeat match goal with E : is_expected_alpn _ = _ |- _ => rewrite E in * end.

Lemma expected_alpn : forall a, is_expected_alpn a = true <-> a = [104; 50].
Proof.
  intros a. unfold is_expected_alpn. change (tl alpn_protos) with [104; 50]. split.
  - intros E. apply andb_true_iff in E. destruct E as [_ E]. apply bytes_eqb_eq in E. exact E.
  - intros ->. reflexivity.
Qed.

(* ---------------------------------------------------------------- C55 *)

Theorem C55_gate_partial : forall env mode first host port, snd (ssl_connect env mode first host port) = Ok tt ->
  env_connect env = true /\ env_handshake env = true /\ env_alpn env = [104; 50] (* "h2" *) /\
  (mode = VERIFY_SERVER_CERT -> env_verify_ok env = true).
Proof.
  intros env mode first host port H. connect_cases env mode; try discriminate H;
    (split; [reflexivity|]; split; [reflexivity|]; split; [apply expected_alpn; assumption|]); [discriminate|reflexivity].
Qed.

(* In the other cases the constructor throws, so no client object exists. *)
Theorem C55_otherwise_throws : forall env mode first host port,
  snd (ssl_connect env mode first host port) = Ok tt \/ snd (ssl_connect env mode first host port) = Throw RuntimeError.
Proof. intros env mode first host port. connect_cases env mode; auto. Qed.

(* The certificate is not matched against the host name: verification accepts a
   valid certificate for another host, whatever host was asked for. *)
Theorem C55_hostname_refuted : forall first host port,
  ~ (forall env, snd (ssl_connect env VERIFY_SERVER_CERT first host port) = Ok tt -> env_cert_matches_host env = true).
Proof.
  intros first host port H. specialize (H (TlsEnv true true true true true true true true [104; 50] false) eq_refl). discriminate H.
Qed.

Example C55_case :
  (exists env, snd (ssl_connect env VERIFY_SERVER_CERT true [97] 443) = Ok tt) /\
  snd (ssl_connect (TlsEnv true true true true true true true false [104; 50] true) VERIFY_SERVER_CERT true [97] 443) = Throw RuntimeError.
Proof. split; [exists (TlsEnv true true true true true true true true [104; 50] true)|]; reflexivity. Qed.

(* ---------------------------------------------------------------- C68 *)

(* The names given as connection target, the protocol lists offered. *)
Definition targets (cs : list ssl_call) : list (list N) :=
  flat_map (fun c => match c with BIO_set_conn_hostname n => [n] | _ => [] end) cs.
Definition offers (cs : list ssl_call) : list (list N) :=
  flat_map (fun c => match c with SSL_set_alpn_protos p => [p] | _ => [] end) cs.

Lemma c_str_id : forall s, Forall (fun b => b <> 0) s -> c_str s = s.
Proof.
  intros s F. induction F as [|b s N F IH]; [reflexivity|]. cbn [c_str].
  destruct (N.eqb_spec b 0); [contradiction|]. rewrite IH. reflexivity.
Qed.

Lemma target_name : forall host port, Forall (fun b => b <> 0) host ->
  c_str (host ++ [58] ++ to_string port) = host ++ [58] ++ to_string port.
Proof.
  intros host port F. apply c_str_id. apply Forall_app. split; [exact F|]. constructor; [discriminate|].
  apply Forall_forall. intros c I. destruct (digits_chars 10 port c ltac:(lia) I) as [? _]. lia.
Qed.

Ltac peel H :=
  match type of H with
  | _ = ?b ++ _ :: _ =>
      destruct b as [|? b]; cbn [app] in H;
      [first [discriminate H | injection H as H] |
       match type of H with
       | _ :: _ = _ => injection H as <- H
       | _ => discriminate H
       end]
  end.

(* A connection is attempted only to the text "host:port" of the arguments, with
   the port in decimal. *)
Theorem C68_target : forall env mode first host port before after, Forall (fun b => b <> 0) host ->
  fst (ssl_connect env mode first host port) = before ++ BIO_do_connect :: after ->
  exists digits, targets before = [host ++ [58] ++ digits] /\ targets after = [] /\
    number_value 10 digits = port /\ Forall (digit_char 10) digits.
Proof.
  intros env mode first host port before after F H. exists (to_string port).
  destruct (digits_spec 10 port ltac:(lia)) as (V & D & _).
  assert (G : targets before = [c_str (host ++ [58] ++ to_string port)] /\ targets after = []).
  { clear -H. connect_cases env mode; destruct first; cbn [app] in H; repeat peel H; try discriminate H; subst; split; reflexivity. }
  rewrite (target_name host port F) in G. destruct G as [G1 G2]. auto.
Qed.

(* A zero octet cuts off the rest of the name and the port. *)
Theorem C68_zero_octet : forall env mode first name rest port before after, Forall (fun b => b <> 0) name ->
  fst (ssl_connect env mode first (name ++ 0 :: rest) port) = before ++ BIO_do_connect :: after -> targets before = [name].
Proof.
  intros env mode first name rest port before after F H.
  assert (G : targets before = [c_str ((name ++ 0 :: rest) ++ [58] ++ to_string port)]).
  { clear -H. connect_cases env mode; destruct first; cbn [app] in H; repeat peel H; try discriminate H; subst; reflexivity. }
  rewrite G. f_equal. clear -F. induction F as [|b s N F IH]; [reflexivity|]. cbn [app c_str]. destruct (N.eqb_spec b 0); [contradiction|].
  cbn [app] in IH. rewrite IH. reflexivity.
Qed.

(* That text tells host and port apart. *)
Theorem C68_target_unambiguous : forall env mode first host port env' mode' first' host' port',
  Forall (fun b => b <> 0) host -> Forall (fun b => b <> 0) host' ->
  targets (fst (ssl_connect env mode first host port)) <> [] ->
  targets (fst (ssl_connect env mode first host port)) = targets (fst (ssl_connect env' mode' first' host' port')) ->
  host = host' /\ port = port'.
Proof.
  intros env mode first host port env' mode' first' host' port' F F' NE E.
  assert (G : forall env mode first host port, targets (fst (ssl_connect env mode first host port)) = [] \/
    targets (fst (ssl_connect env mode first host port)) = [c_str (host ++ [58] ++ to_string port)]).
  { clear. intros env mode first host port. connect_cases env mode; destruct first; auto. }
  destruct (G env mode first host port) as [Z|Z]; [contradiction|]. rewrite Z in E. clear NE Z.
  destruct (G env' mode' first' host' port') as [Z|Z]; rewrite Z in E; [discriminate E|]. clear Z G.
  rewrite !target_name in E by assumption. injection E as E.
  assert (NC : forall n c, In c (to_string n) -> c <> 58).
  { intros n c I. destruct (digits_chars 10 n c ltac:(lia) I). assumption. }
  assert (S : forall a b a' b' : list N, (forall c, In c b -> c <> 58) -> (forall c, In c b' -> c <> 58) ->
    a ++ 58 :: b = a' ++ 58 :: b' -> a = a' /\ b = b').
  { clear. induction a as [|x a IH]; intros b a' b' N N' E.
    - destruct a' as [|y a']; cbn in E; [injection E as ->; auto|]. injection E as <- E. exfalso.
      apply (N 58); [|reflexivity]. rewrite E. apply in_or_app. right. left. reflexivity.
    - destruct a' as [|y a']; cbn in E.
      + injection E as -> E. exfalso. apply (N' 58); [|reflexivity]. rewrite <- E. apply in_or_app. right. left. reflexivity.
      + injection E as -> E. destruct (IH _ _ _ N N' E) as [-> ->]. auto. }
  destruct (S _ _ _ _ (NC port) (NC port') E) as [-> D]. split; [reflexivity|]. apply (digits_inj 10); [lia|exact D].
Qed.

(* The handshake comes after the connection was made, the trusted certificates
   were loaded and "h2" was offered as the only protocol; a constructor that
   returns has looked at the negotiated protocol after the handshake, and at the
   verification result if asked to verify. *)
Theorem C68_order : forall env mode first host port before after,
  fst (ssl_connect env mode first host port) = before ++ BIO_do_handshake :: after ->
  In BIO_do_connect before /\ env_connect env = true /\
  In SSL_CTX_set_default_verify_paths before /\ env_verify_paths env = true /\
  offers before = [[2; 104; 50]] /\ offers after = [] /\ ~ In BIO_do_handshake after /\
  (snd (ssl_connect env mode first host port) = Ok tt ->
     In SSL_get0_alpn_selected after /\ (mode = VERIFY_SERVER_CERT -> In SSL_get_verify_result after)).
Proof.
  intros env mode first host port before after H.
  connect_cases env mode; destruct first; cbn [app] in H; repeat peel H; try discriminate H; subst;
    (split; [cbn; tauto|]; split; [reflexivity|]; split; [cbn; tauto|]; split; [reflexivity|]; split; [reflexivity|];
     split; [reflexivity|]; split; [cbn; intuition discriminate|]; intros R;
     first [discriminate R|split; [cbn; tauto|]; intros M; first [discriminate M|cbn; tauto]]).
Qed.

(* The constructor returns when nothing fails. *)
Theorem C68_connects : forall env mode first host port,
  env_ctx_new env = true -> env_bio_new env = true -> env_get_ssl env = true -> env_set_alpn env = true ->
  env_verify_paths env = true -> env_connect env = true -> env_handshake env = true -> env_alpn env = [104; 50] ->
  (mode = VERIFY_SERVER_CERT -> env_verify_ok env = true) ->
  snd (ssl_connect env mode first host port) = Ok tt.
Proof.
  intros env mode first host port E1 E2 E3 E4 E5 E6 E7 E8 V. apply expected_alpn in E8.
  connect_cases env mode; try discriminate; try reflexivity. specialize (V eq_refl). discriminate V.
Qed.

Example C68_case :
  let env := TlsEnv true true true true true true true true [104; 50] true in
  fst (ssl_connect env VERIFY_SERVER_CERT true [97; 46; 98] 443) =
    [SSL_CTX_new true; BIO_new_ssl_connect true; SSL_library_init; SSL_load_error_strings;
     BIO_set_conn_hostname [97; 46; 98; 58; 52; 52; 51]; BIO_get_ssl; SSL_set_mode_auto_retry; SSL_set_alpn_protos [2; 104; 50];
     SSL_CTX_set_default_verify_paths] ++ BIO_do_connect ::
    [BIO_do_handshake; SSL_get_verify_result; SSL_get0_alpn_selected] /\
  Forall (fun b => b <> 0) [97; 46; 98].
Proof. split; [vm_compute; reflexivity|]. repeat constructor; discriminate. Qed.

(* ---------------------------------------------------------------- C69 *)

(* The rules for the two objects: an object is created while it does not exist,
   used and released while it does; the BIO needs the context to be created and
   is released before it.  State: context exists, BIO exists. *)
Definition use (s : bool * bool) (c : ssl_call) : option (bool * bool) :=
  match c, s with
  | SSL_CTX_new ok, (false, false) => Some (ok, false)
  | BIO_new_ssl_connect ok, (true, false) => Some (true, ok)
  | SSL_CTX_set_default_verify_paths, (true, b) => Some (true, b)
  | (BIO_set_conn_hostname _ | BIO_get_ssl | SSL_set_mode_auto_retry | SSL_set_alpn_protos _ | BIO_do_connect
     | BIO_do_handshake | SSL_get_verify_result | SSL_get0_alpn_selected | BIO_write | BIO_read), (true, true) => Some (true, true)
  | BIO_free_all, (true, true) => Some (true, false)
  | SSL_CTX_free, (true, false) => Some (false, false)
  | (SSL_library_init | SSL_load_error_strings), s => Some s
  | _, _ => None
  end.

Fixpoint uses (s : bool * bool) (cs : list ssl_call) : option (bool * bool) :=
  match cs with
  | [] => Some s
  | c :: cs' => match use s c with Some s' => uses s' cs' | None => None end
  end.

Lemma uses_app : forall a b s, uses s (a ++ b) = match uses s a with Some s' => uses s' b | None => None end.
Proof. induction a as [|c a IH]; intros b s; [reflexivity|]. cbn. destruct (use s c); [apply IH|reflexivity]. Qed.

(* Whatever fails, at the end of the connection's life nothing is left and
   nothing was used or released out of turn. *)
Theorem C69_released : forall env mode first host port io, Forall (fun c => c = BIO_read \/ c = BIO_write) io ->
  uses (false, false) (lifetime env mode first host port io) = Some (false, false).
Proof.
  intros env mode first host port io F. unfold lifetime.
  assert (IO : uses (true, true) (io ++ ssl_destroy) = Some (false, false)).
  { rewrite uses_app. replace (uses (true, true) io) with (Some (true, true)); [reflexivity|].
    induction F as [|c io [-> | ->] F IH]; [reflexivity|exact IH..]. }
  connect_cases env mode; destruct first; try reflexivity; cbn [uses use app]; exact IO.
Qed.

(* A constructor that throws leaves nothing behind; one that returns leaves both
   objects. *)
Theorem C69_after_constructor : forall env mode first host port,
  uses (false, false) (fst (ssl_connect env mode first host port)) =
  Some (match snd (ssl_connect env mode first host port) with Ok _ => (true, true) | _ => (false, false) end).
Proof. intros env mode first host port. connect_cases env mode; destruct first; reflexivity. Qed.

Example C69_case :
  let env := TlsEnv true true true true true true false true [104; 50] true in
  lifetime env VERIFY_SERVER_CERT false [97] 443 [BIO_write; BIO_read] =
    [SSL_CTX_new true; BIO_new_ssl_connect true; BIO_set_conn_hostname [97; 58; 52; 52; 51]; BIO_get_ssl; SSL_set_mode_auto_retry;
     SSL_set_alpn_protos [2; 104; 50]; SSL_CTX_set_default_verify_paths; BIO_do_connect; BIO_do_handshake; BIO_free_all; SSL_CTX_free] /\
  Forall (fun c => c = BIO_read \/ c = BIO_write) [BIO_write; BIO_read].
Proof. split; [vm_compute; reflexivity|]. constructor; [right; reflexivity|]. constructor; [left; reflexivity|constructor]. Qed.

Print Assumptions C55_gate_partial.
Print Assumptions C55_otherwise_throws.
Print Assumptions C55_hostname_refuted.
Print Assumptions C68_target.
Print Assumptions C68_zero_octet.
Print Assumptions C68_target_unambiguous.
Print Assumptions C68_order.
Print Assumptions C68_connects.
Print Assumptions C69_released.
Print Assumptions C69_after_constructor.
