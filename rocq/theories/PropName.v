(* Property C70: the printed names of error codes and settings parameters. *)
From Coq Require Import Ascii String.
From Coq Require Import ZArith NArith List Bool Lia ZifyBool ZifyNat ZifyN.
From Verif Require Import Base Arith Util HeaderType DynTable StaticTable HeaderEnc HeaderDec FrameHeader Frames FrameBuilder Dump
  SpecBits SpecHpack SpecFrame DumpProofs PropDump.
Import ListNotations.
Local Open Scope string_scope.
Local Open Scope list_scope.
Local Open Scope N_scope.
Ltac Zify.zify_post_hook ::= Z.div_mod_to_equations.

(* ---- specification ---- *)

(* RFC 7540 sections 7 and 11.4: the error codes, from 0x0. *)
Definition rfc_error_codes : list string :=
  ["NO_ERROR"; "PROTOCOL_ERROR"; "INTERNAL_ERROR"; "FLOW_CONTROL_ERROR"; "SETTINGS_TIMEOUT"; "STREAM_CLOSED";
   "FRAME_SIZE_ERROR"; "REFUSED_STREAM"; "CANCEL"; "COMPRESSION_ERROR"; "CONNECT_ERROR"; "ENHANCE_YOUR_CALM";
   "INADEQUATE_SECURITY"; "HTTP_1_1_REQUIRED"].
(* RFC 7540 sections 6.5.2 and 11.3: the settings, from 0x1. *)
Definition rfc_settings : list string :=
  ["SETTINGS_HEADER_TABLE_SIZE"; "SETTINGS_ENABLE_PUSH"; "SETTINGS_MAX_CONCURRENT_STREAMS";
   "SETTINGS_INITIAL_WINDOW_SIZE"; "SETTINGS_MAX_FRAME_SIZE"; "SETTINGS_MAX_HEADER_LIST_SIZE"].
Definition rfc_error (code : N) : option string := nth_error rfc_error_codes (N.to_nat code).
Definition rfc_setting (id : N) : option string := if id =? 0 then None else nth_error rfc_settings (N.to_nat (id - 1)).

(* ds is the decimal spelling of n, without leading zeros. *)
Definition decimal (n : N) (ds : list N) : Prop :=
  ds <> [] /\ (forall rest, ds = 48 :: rest -> rest = []) /\ Forall (fun c => 48 <= c < 58) ds /\ fold_left (fun v c => v * 10 + (c - 48)) ds 0 = n.

(* l is a whole line of the text. *)
Definition line_of (l text : list N) : Prop :=
  ~ In 10 l /\ exists before after, text = before ++ [10] ++ l ++ [10] ++ after.

(* The line for an error code; the line for a setting. *)
Definition error_line (code : N) (l : list N) : Prop :=
  match rfc_error code with
  | Some name => l = octets "  Error Code: " ++ octets name
  | None => exists ds, decimal code ds /\ l = octets "  Error Code: UNKNOWN_ERROR(" ++ ds ++ octets ")"
  end.
Definition setting_line (p : N * N) (l : list N) : Prop :=
  exists vs, decimal (snd p) vs /\
  match rfc_setting (fst p) with
  | Some name => l = octets "  " ++ octets name ++ octets ": " ++ vs
  | None => exists ds, decimal (fst p) ds /\ l = octets "  UNKNOWN(" ++ ds ++ octets "): " ++ vs
  end.

(* ---- proofs ---- *)

Lemma str_octets : forall s, str s = octets s.
Proof.
  unfold str, octets. induction s as [|a s IH]; [reflexivity|]. cbn. rewrite <- IH. reflexivity.
Qed.

Lemma decimal_digits : forall n, decimal n (digits 10 n).
Proof.
  intros n. destruct (digits_spec 10 n ltac:(lia)) as (V & F & L).
  assert (F' : Forall (fun c => 48 <= c < 58) (digits 10 n)).
  { eapply Forall_impl; [|exact F]. intros c [C D]. unfold digit_value in D. destruct (N.ltb_spec c 58); lia. }
  split; [intros E; rewrite E in L; exact L|].
  split; [intros rest E; rewrite E in L; destruct rest; [reflexivity|exfalso; apply L; reflexivity]|]. split; [exact F'|].
  transitivity (number_value 10 (digits 10 n)); [|exact V]. unfold number_value. clear - F'. generalize 0.
  induction F' as [|c l H F' IH]; intros v; [reflexivity|].
  cbn [fold_left]. rewrite IH. unfold digit_value. destruct (N.ltb_spec c 58); [reflexivity|lia].
Qed.

Lemma decimal_no_nl : forall n ds, decimal n ds -> ~ In 10 ds.
Proof. intros n ds (_ & _ & F & _) I. rewrite Forall_forall in F. apply F in I. lia. Qed.

Lemma no_nl_app : forall a b : list N, ~ In 10 a -> ~ In 10 b -> ~ In 10 (a ++ b).
Proof. intros a b A B I. apply in_app_or in I. tauto. Qed.

Ltac no_nl := repeat (apply no_nl_app); try (eapply decimal_no_nl; apply decimal_digits);
  try (vm_compute; intuition discriminate).

Lemma small_codes : forall code, code < 14 ->
  In code [0; 1; 2; 3; 4; 5; 6; 7; 8; 9; 10; 11; 12; 13].
Proof. intros code H. cbn [In]. lia. Qed.

Lemma error_text : forall code, code <> 2 -> exists l, dump_error_code code = Ok (l ++ nl) /\ error_line code l /\ ~ In 10 l.
Proof.
  intros code N2. destruct (N.ltb_spec code 14) as [L|L].
  - apply small_codes in L. cbn [In] in L.
    assert (Y : exists name, rfc_error code = Some name /\ name_at error_code_names code = Ok (octets name) /\ ~ In 10 (octets name) /\ (code <? UNKNOWN_ERROR) = true).
    { repeat (destruct L as [<-|L]; [first [congruence|eexists; split; [reflexivity|]; split; [reflexivity|]; split; [vm_compute; intuition discriminate|reflexivity]]|]).
      destruct L. }
    destruct Y as (name & R & A & NN & LT). unfold dump_error_code. rewrite LT, A. cbn [bind].
    exists (octets "  Error Code: " ++ octets name). rewrite str_octets, <- app_assoc. split; [reflexivity|].
    split; [unfold error_line; rewrite R; reflexivity|no_nl; exact NN].
  - unfold dump_error_code, UNKNOWN_ERROR. destruct (N.ltb_spec code 14) as [G|_]; [lia|]. cbn [name_at error_code_names].
    change (14 =? 14) with true. cbn [N.eqb Pos.eqb bind].
    exists (octets "  Error Code: UNKNOWN_ERROR(" ++ to_string code ++ octets ")"). split; [|split].
    + rewrite !str_octets. rewrite <- !app_assoc. reflexivity.
    + unfold error_line, rfc_error. destruct (nth_error rfc_error_codes (N.to_nat code)) eqn:E.
      * exfalso. assert (X : nth_error rfc_error_codes (N.to_nat code) <> None) by congruence.
        apply nth_error_Some in X. cbn [length rfc_error_codes] in X. lia.
      * exists (to_string code). split; [apply decimal_digits|reflexivity].
    + no_nl.
Qed.

(* The text of RST_STREAM and GOAWAY shows the error code by its RFC name, and
   any other code as a decimal number; for every code but INTERNAL_ERROR. *)
Theorem C70_rst_stream_partial : forall m hex h code, code <> 2 ->
  exists text hex' l, dump m hex (RstStreamFrame h code) = Ok (text, hex') /\ error_line code l /\ line_of l text.
Proof.
  intros m hex h code N2. destruct (error_text code N2) as (l & E & L & NL).
  cbn [dump]. rewrite E. cbn [bind]. do 3 eexists. split; [reflexivity|]. split; [exact L|]. split; [exact NL|].
  exists (str "=== RST_STREAM FRAME ===" ++ nl ++ dump_fh h ++ str "[PAYLOAD]"), [].
  rewrite <- !app_assoc. reflexivity.
Qed.

Theorem C70_goaway_partial : forall m hex h p text hex', g_error_code p <> 2 ->
  dump m hex (GoawayFrame h p) = Ok (text, hex') -> exists l, error_line (g_error_code p) l /\ line_of l text.
Proof.
  intros m hex h p text hex' N2 D. destruct (error_text _ N2) as (l & E & L & NL).
  cbn [dump] in D. rewrite E in D. cbn [bind] in D. apply bind_ok in D. destruct D as (d & _ & D).
  apply ok_pair in D. destruct D as [<- _]. exists l. split; [exact L|]. split; [exact NL|].
  exists (str "=== GOAWAY FRAME ===" ++ nl ++ dump_fh h ++ str "[PAYLOAD]" ++ nl ++
    str "  R: " ++ to_string (g_reserved p) ++ nl ++ str "  Last-Stream-ID: " ++ to_string (g_last_stream_id p)),
    (str "  Additional Debug Data: " ++ d ++ nl).
  rewrite <- !app_assoc. reflexivity.
Qed.

(* On a stream that writes numbers in decimal, the text of SETTINGS is a head
   followed by one line per parameter, in order, with the RFC name and the value;
   for every list of parameters without SETTINGS_MAX_CONCURRENT_STREAMS. *)
Theorem C70_settings_partial : forall m h ps, (forall v, ~ In (3, v) ps) ->
  exists head ls, dump m false (SettingsFrame h ps) = Ok (head ++ flat_map (fun l => l ++ [10]) ls, false) /\
    (exists before, head = before ++ [10]) /\ Forall2 setting_line ps ls /\ Forall (fun l => ~ In 10 l) ls.
Proof.
  intros m h ps N3.
  assert (X : exists ls, dump_settings false ps = Ok (flat_map (fun l => l ++ [10]) ls) /\ Forall2 setting_line ps ls /\ Forall (fun l => ~ In 10 l) ls).
  { induction ps as [|[k v] ps IH]; [exists []; split; [reflexivity|]; split; constructor|].
    destruct IH as (ls & E & F & G). { intros v' I. apply (N3 v'). right. exact I. }
    assert (K3 : k <> 3). { intros ->. apply (N3 v). left. reflexivity. }
    cbn [dump_settings]. rewrite E.
    destruct ((k <? 1) || (SETTINGS_UNKNOWN <=? k)) eqn:B.
    - cbn [name_at parameter_names bind SETTINGS_UNKNOWN N.eqb Pos.eqb].
      exists ((octets "  UNKNOWN(" ++ to_string k ++ octets "): " ++ digits 10 v) :: ls).
      split; [cbn [flat_map]; rewrite !str_octets; unfold put_unsigned, nl; rewrite <- ?app_assoc; reflexivity|].
      split; constructor; try assumption; [|no_nl].
      exists (digits 10 v). split; [apply decimal_digits|]. cbn [fst].
      assert (R : rfc_setting k = None).
      { unfold rfc_setting, SETTINGS_UNKNOWN in *. destruct (N.eqb_spec k 0); [reflexivity|]. apply nth_error_None. cbn [length rfc_settings]. lia. }
      rewrite R. exists (to_string k). split; [apply decimal_digits|reflexivity].
    - assert (Q : In k [1; 2; 4; 5; 6]) by (unfold SETTINGS_UNKNOWN in B; cbn [In]; lia).
      assert (Y : exists name, rfc_setting k = Some name /\ name_at parameter_names k = Ok (octets name) /\ ~ In 10 (octets name)).
      { cbn [In] in Q. repeat (destruct Q as [<-|Q]; [eexists; split; [reflexivity|]; split; [reflexivity|vm_compute; intuition discriminate]|]). destruct Q. }
      destruct Y as (name & R & A & NN). rewrite A. cbn [bind].
      exists ((octets "  " ++ octets name ++ octets ": " ++ digits 10 v) :: ls).
      split; [cbn [flat_map]; rewrite !str_octets; unfold put_unsigned, nl; rewrite <- ?app_assoc; reflexivity|].
      split; constructor; try assumption; [|no_nl; exact NN].
      exists (digits 10 v). split; [apply decimal_digits|]. cbn [fst]. rewrite R. reflexivity. }
  destruct X as (ls & E & F & G). cbn [dump]. rewrite E. cbn [bind].
  eexists _, ls. split; [reflexivity|]. split; [|split; [exact F|exact G]].
  exists (str "=== SETTINGS FRAME ===" ++ nl ++ dump_fh h ++ str "[PAYLOAD]"). rewrite <- !app_assoc. reflexivity.
Qed.

(* INTERNAL_ERROR is not shown by its name in any RST_STREAM text. *)
Theorem C70_internal_error_refuted : forall m hex h text hex',
  dump m hex (RstStreamFrame h 2) = Ok (text, hex') -> ~ (exists l, error_line 2 l /\ exists before, text = before ++ [10] ++ l ++ [10]).
Proof.
  intros m hex h text hex' D (l & L & before & E). cbn [dump] in D. unfold error_line in L.
  change (rfc_error 2) with (Some "INTERNAL_ERROR") in L. cbv beta iota in L. subst l.
  change (dump_error_code 2) with (Ok (str "  Error Code: INTERNAL_ERRPR" ++ nl)) in D. cbn [bind] in D.
  apply ok_pair in D. destruct D as [<- _]. apply (f_equal (@rev N)) in E. rewrite !rev_app_distr in E.
  change (rev nl) with [10] in E. change (rev [10]) with [10] in E. cbn in E. discriminate E.
Qed.

(* SETTINGS_MAX_CONCURRENT_STREAMS alone in a frame: no head and line of the
   form above give its text. *)
Theorem C70_max_streams_refuted : forall m h v,
  ~ (exists head l, dump m false (SettingsFrame h [(3, v)]) = Ok (head ++ l ++ [10], false) /\
      (exists before, head = before ++ [10]) /\ setting_line (3, v) l).
Proof.
  intros m h v (head & l & D & (before & ->) & (vs & DV & L)). cbn [fst snd] in *.
  change (rfc_setting 3) with (Some "SETTINGS_MAX_CONCURRENT_STREAMS") in L. cbv beta iota in L. subst l.
  cbn [dump dump_settings bind] in D. change ((3 <? 1) || (SETTINGS_UNKNOWN <=? 3)) with false in D. cbv iota in D.
  change (name_at parameter_names 3) with (Ok (octets "SETTINGS_MAX_CONCURRENT_STREAM")) in D. cbn [bind] in D.
  apply ok_pair in D. destruct D as [D _]. apply (f_equal (@rev N)) in D. unfold put_unsigned, nl in D.
  rewrite !rev_app_distr, <- !app_assoc in D.
  change (rev (str ": ")) with ([32] ++ [58]) in D. change (rev (octets ": ")) with ([32] ++ [58]) in D.
  change (rev [10]) with [10] in D. rewrite <- !app_assoc in D.
  change (rev [] ++ ?x) with x in D. apply app_inv_head in D.
  assert (NC : forall n ds, decimal n ds -> ~ In 32 (rev ds)).
  { intros n ds (_ & _ & F & _) I. apply in_rev in I. rewrite Forall_forall in F. apply F in I. lia. }
  apply (split_at 32 _ _ _ _ (NC _ _ (decimal_digits v)) (NC _ _ DV)) in D. destruct D as [_ D].
  apply (app_inv_head [58]) in D.
  change (rev (octets "SETTINGS_MAX_CONCURRENT_STREAM")) with (77 :: rev (octets "SETTINGS_MAX_CONCURRENT_STREA")) in D.
  change (rev (octets "SETTINGS_MAX_CONCURRENT_STREAMS")) with (83 :: rev (octets "SETTINGS_MAX_CONCURRENT_STREAM")) in D.
  apply (f_equal (hd 0)) in D. discriminate D.
Qed.

Example C70_case :
  (exists text, dump Strict false (RstStreamFrame (FH 4 3 0 0 1) 8) = Ok (text, false) /\
     error_line 8 (octets "  Error Code: CANCEL")) /\
  (exists text, dump Strict false (GoawayFrame (FH 8 7 0 0 0) (Goaway 0 1 1000 [])) = Ok (text, false) /\
     error_line 1000 (octets "  Error Code: UNKNOWN_ERROR(1000)")) /\
  (forall v, ~ In (3, v) [(1, 4096); (9, 5)]) /\
  setting_line (1, 4096) (octets "  SETTINGS_HEADER_TABLE_SIZE: 4096") /\
  setting_line (9, 5) (octets "  UNKNOWN(9): 5").
Proof.
  assert (D : forall n s, octets s = digits 10 n -> decimal n (octets s)) by (intros n s ->; apply decimal_digits).
  split; [|split; [|split; [|split]]].
  - eexists. split; reflexivity.
  - eexists. split; [reflexivity|]. exists (octets "1000"). split; [apply D; vm_compute; reflexivity|reflexivity].
  - intros v [E|[E|[]]]; discriminate E.
  - exists (octets "4096"). split; [apply D; vm_compute; reflexivity|reflexivity].
  - exists (octets "5"). split; [apply D; vm_compute; reflexivity|]. exists (octets "9"). split; [apply D; vm_compute; reflexivity|reflexivity].
Qed.

Print Assumptions C70_rst_stream_partial.
Print Assumptions C70_goaway_partial.
Print Assumptions C70_settings_partial.
Print Assumptions C70_internal_error_refuted.
Print Assumptions C70_max_streams_refuted.
