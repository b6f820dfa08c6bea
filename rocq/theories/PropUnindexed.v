(* Property C124: a server that does not use the table is understood. *)
From Coq Require Import String.
From Coq Require Import ZArith NArith List Bool Lia ZifyBool ZifyNat ZifyN.
From Verif Require Import Base Arith Util HeaderType DynTable HeaderDec FrameHeader Frames FrameBuilder Ssl Client
  SpecBits SpecInt SpecHpack SpecFrame SpecValid UtilProofs DynTableProofs FrameProofs HeaderProofs BlockProofs HistoryProofs
  PropHeader PropFrame PropBlock PropSsl PropClient PropHistory PropValid PropThrow PropDefined PropReceived.
Import ListNotations.
Local Open Scope string_scope.
Local Open Scope list_scope.
Local Open Scope N_scope.
Ltac Zify.zify_post_hook ::= Z.div_mod_to_equations.

(* ---- specification ---- *)

(* A representation that neither reads nor changes the dynamic table, and the field it
   stands for: an entry of the static table, or a literal without indexing or never
   indexed.  Integers are written in the shortest way.  Static entry 20 is left out, and
   for Strict empty strings. *)
Inductive plain_field (m : ub_mode) : list N -> field -> Prop :=
| plain_index : forall l i f, small_repr l (RIndexed i) -> 1 <= i -> i <> 20 ->
    nth_error rfc_static (N.to_nat (i - 1)) = Some f -> plain_field m l f
| plain_name : forall l k i f v, small_repr l (RLiteral k (NameIndex i) v) -> k <> Incremental -> 1 <= i -> i <> 20 ->
    nth_error rfc_static (N.to_nat (i - 1)) = Some f -> addressable m v -> plain_field m l (fst f, v)
| plain_new : forall l k n v, small_repr l (RLiteral k (NameLiteral n) v) -> k <> Incremental ->
    addressable m n -> addressable m v -> plain_field m l (n, v).

Inductive plain_block (m : ub_mode) : list N -> list field -> Prop :=
| plain_nil : plain_block m [] []
| plain_cons : forall l f ls fs, plain_field m l f -> plain_block m ls fs -> plain_block m (l ++ ls) (f :: fs).

(* The frames of such a server.  It may announce any settings, each once. *)
Inductive unindexed (m : ub_mode) : message -> Prop :=
| unindexed_fields : forall w c fragment fs, layout (w_flags w) (w_type w) (w_payload w) c ->
    fragment_of c = Some fragment -> plain_block m fragment fs -> unindexed m (Message w c fs)
| unindexed_other : forall w c, layout (w_flags w) (w_type w) (w_payload w) c -> fragment_of c = None ->
    ~ (w_type w = DATA /\ has_padded (w_flags w) = true) ->
    (forall params, c = CSettings params -> NoDup (map fst params)) -> unindexed m (Message w c []).

Definition sets_table_size (x : message) : Prop := exists params, msg_content x = CSettings params /\ In 1 (map fst params).

(* ---- proofs ---- *)

Lemma static_resolves : forall t i f, 1 <= i -> nth_error rfc_static (N.to_nat (i - 1)) = Some f -> resolve t i = Some f /\ i <= 61.
Proof.
  intros t i f L E. assert (B : i <= 61).
  { assert (X : (N.to_nat (i - 1) < length rfc_static)%nat) by (apply nth_error_Some; congruence). change (length rfc_static) with 61%nat in X. lia. }
  split; [|exact B]. unfold resolve, resolve_in. destruct (N.eqb_spec i 0); [lia|]. change (N.of_nat (length rfc_static)) with 61.
  destruct (N.leb_spec i 61); [exact E|lia].
Qed.

Lemma static_names : forallb (fun f => match fst f with [] => false | _ => true end) rfc_static = true.
Proof. vm_compute. reflexivity. Qed.

Lemma plain_step : forall m l f, plain_field m l f -> exists r, small_repr l r /\ supported m r (Some f) /\ table_ref r <= 61 /\ changes_table r = false /\
  forall limit t, step limit t r = Some (Some f, t).
Proof.
  intros m l f [l' i g S L N E|l' k i g v S K L N E A|l' k n v S K A1 A2].
  - exists (RIndexed i). destruct (static_resolves (Table 0 []) i g L E) as [_ B]. split; [exact S|]. split; [split; [exact N|exact I]|]. split; [exact B|].
    split; [reflexivity|]. intros limit t. unfold step. cbn [step_in]. fold resolve. rewrite (proj1 (static_resolves t i g L E)). reflexivity.
  - exists (RLiteral k (NameIndex i) v). destruct (static_resolves (Table 0 []) i g L E) as [_ B]. split; [exact S|]. split; [split; [exact N|]|split; [exact B|split]].
    + cbn [fst]. split; [|exact A]. pose proof (proj1 (forallb_forall _ _) static_names g (nth_error_In _ _ E)) as X. intros Q. cbn beta in X. rewrite Q in X. discriminate X.
    + destruct k; [contradiction (K eq_refl)|reflexivity|reflexivity].
    + intros limit t. unfold step. cbn [step_in name_of]. fold resolve. rewrite (proj1 (static_resolves t i g L E)). cbn [option_map].
      destruct k; [contradiction (K eq_refl)|reflexivity|reflexivity].
  - exists (RLiteral k (NameLiteral n) v). split; [exact S|]. split; [split; [cbn; discriminate|split; assumption]|]. split; [cbn; lia|]. split.
    + destruct k; [contradiction (K eq_refl)|reflexivity|reflexivity].
    + intros limit t. unfold step. cbn [step_in name_of]. destruct k; [contradiction (K eq_refl)|reflexivity|reflexivity].
Qed.

Lemma plain_run : forall m raw fs, plain_block m raw fs -> forall limit t, exists rs b, rfc_run m limit t raw rs b fs t /\ no_late_reference false rs /\
  forall max, inserts_fit max b.
Proof.
  intros m raw fs P limit t. induction P as [|l f ls fs F P IH].
  - exists [], []. split; [constructor|]. split; [exact I|]. intros; exact I.
  - destruct IH as (rs & b & R & NL & IF). destruct (plain_step m l f F) as (r & S & SU & B & C & ST).
    exists (r :: rs), (reported r (Some f) :: b). split; [|split].
    + change (f :: fs) with (opt_cons (Some f) fs). eapply rfc_run_cons; [exact S|apply ST|exact SU|exact R].
    + cbn [no_late_reference]. split; [intros _; exact B|]. rewrite C. exact NL.
    + intros max. destruct r as [i|k n v|n]; [exact (IF max)| |discriminate C]. destruct k; [discriminate C| |]; exact (IF max).
Qed.

Lemma table_determined : forall t t', dt_ok t -> dt_ok t' -> rfc_table t' = rfc_table t -> t' = t.
Proof. intros [e s x] [e' s' x'] [S _] [S' _] E. cbn in *. unfold rfc_table in E. cbn in E. congruence. Qed.

Lemma settings_handled : forall m T w params, layout (w_flags w) (w_type w) (w_payload w) (CSettings params) -> NoDup (map fst params) -> dt_ok T ->
  exists f, fst (handled m T w) = Ok f /\ tells f (Message w (CSettings params) []) /\ dt_ok (snd (handled m T w)).
Proof.
  intros m T w params L ND K.
  destruct (C88_well_formed_accepted m T (header_of w) (w_payload w) _ L I) as (f & B & _ & SH).
  assert (NM : ~ misread (fh_flags (header_of w)) (fh_type (header_of w)) (w_payload w)).
  { change (fh_flags (header_of w)) with (w_flags w). change (fh_type (header_of w)) with (w_type w).
    assert (W : w_type w = SETTINGS) by (inversion L; reflexivity). rewrite W.
    intros M. inversion M as [raw HP Q1 Q2|raw HL Q1 Q2|raw HL Q1 Q2|raw HL Q1 Q2|ps PO DU Q1 Q2].
    rewrite W in L. inversion L as [| | | | |qs A1 A2 A3 A4| | | | |]. subst qs. rewrite <- Q2 in A3.
    apply settings_octets_inj in A3; [|exact A1|exact PO]. subst ps. exact (DU ND). }
  specialize (SH NM). destruct (C46_dispatch _ _ _ _ _ B) as (_ & _ & TY & FL & SI & _).
  unfold handled. rewrite B. unfold update_frame. rewrite TY. change (fh_type (header_of w)) with (w_type w).
  exists f. unfold tells. cbn [msg_frame msg_content msg_fields]. rewrite TY, FL, SI. clear TY FL SI B NM.
  destruct w as [ty fl r sid payload]. cbn [header_of fh_type fh_flags fh_stream_id w_type w_flags w_stream w_payload] in *.
  assert (W : ty = SETTINGS) by (inversion L; reflexivity). subst ty.
  destruct f; cbn [shows] in SH; try contradiction. cbn [N.eqb Pos.eqb SETTINGS T_SETTINGS T_HEADERS T_PUSH_PROMISE T_CONTINUATION].
  destruct (sm_find _ 1) as [n|]; [|cbn; auto 10]. destruct (dt_update_size T n) as [T1| | |] eqn:U; try (rewrite (dt_update_spec T n K) in U; discriminate U).
  cbn. repeat split; auto; apply (dt_update_ok T n T1 K U).
Qed.

Lemma unindexed_handled : forall m x T, unindexed m x -> wframe_ok (msg_frame x) -> dt_ok T ->
  exists f, fst (handled m T (msg_frame x)) = Ok f /\ tells f x /\ dt_ok (snd (handled m T (msg_frame x))) /\
    (~ sets_table_size x -> snd (handled m T (msg_frame x)) = T).
Proof.
  intros m x T U W K.
  assert (G : server_sends m 0 (rfc_table T) x (rfc_table T) -> exists f, fst (handled m T (msg_frame x)) = Ok f /\ tells f x /\ dt_ok (snd (handled m T (msg_frame x))) /\
    (~ sets_table_size x -> snd (handled m T (msg_frame x)) = T)).
  { intros S. destruct (handled_message m 0 _ x _ T S W K eq_refl) as (f & E & TE & K' & R). exists f. split; [exact E|]. split; [exact TE|]. split; [exact K'|].
    intros _. exact (table_determined T _ K K' R). }
  destruct U as [w c fragment fs L F P|w c L F ND NS].
  - apply G. eapply sends_fields; [exact L|exact F|]. destruct (plain_run m fragment fs P 0 (rfc_table T)) as (rs & b & R & NL & IF). exists rs, b. auto.
  - assert (D : (exists params, c = CSettings params) \/ (forall params, c <> CSettings params)) by (destruct c; try (right; intros; discriminate); left; eexists; reflexivity).
    destruct D as [[params ->]|N].
    + destruct (in_dec N.eq_dec 1 (map fst params)) as [I1|I1].
      * destruct (settings_handled m T w params L (NS params eq_refl) K) as (f & E & TE & K'). exists f. split; [exact E|]. split; [exact TE|]. split; [exact K'|].
        intros X. contradiction X. exists params. split; [reflexivity|exact I1].
      * apply G. apply sends_plain; try assumption. intros ps Q. injection Q as <-. split; [apply NS; reflexivity|].
        intros p I E. apply I1. rewrite <- E. apply in_map. exact I.
    + apply G. apply sends_plain; try assumption. intros ps Q. contradiction (N ps Q).
Qed.

(* Every frame is returned as it was sent, whatever table the client has; unless a
   SETTINGS frame sets its size, the table stays as it is. *)
Theorem C124_understood_partial : forall m xs c rest, Forall (unindexed m) xs -> Forall wframe_ok (map msg_frame xs) -> dt_ok (c_resp c) ->
  tls_in (c_tls c) = concat (map wire (map msg_frame xs)) ++ rest -> delivers (size (concat (map wire (map msg_frame xs)))) (c_tls c) ->
  exists fs c', receive_n m (length xs) c = (map Ok fs, c') /\ Forall2 tells fs xs /\ tls_in (c_tls c') = rest /\
    tls_out (c_tls c') = tls_out (c_tls c) /\ c_req c' = c_req c /\ dt_ok (c_resp c') /\ (Forall (fun x => ~ sets_table_size x) xs -> c_resp c' = c_resp c).
Proof.
  intros m. induction xs as [|x xs IH]; intros c rest U F K E D.
  - exists [], c. cbn in *. auto 10.
  - cbn [map concat length receive_n] in *. apply Forall_cons_iff in U. destruct U as [Ux U]. apply Forall_cons_iff in F. destruct F as [W F].
    rewrite <- app_assoc in E. rewrite size_app in D.
    destruct (receive_complete m c (msg_frame x) _ _ W E D) as (s1 & I1 & O1 & D1 & R1). rewrite R1.
    destruct (unindexed_handled m x (c_resp c) Ux W K) as (f & B & P & K1 & T1).
    destruct (IH (Client s1 (c_req c) (snd (handled m (c_resp c) (msg_frame x)))) rest U F K1 I1 D1) as (fs & c' & R & FT & I & O & Q & K' & T').
    exists (f :: fs), c'. rewrite B, R. cbn [map]. split; [reflexivity|]. split; [constructor; assumption|]. split; [exact I|]. split; [cbn in O; congruence|].
    split; [exact Q|]. split; [exact K'|]. intros NS. apply Forall_cons_iff in NS. destruct NS as [N1 N2]. rewrite (T' N2). exact (T1 N1).
Qed.

(* The static entry whose name the library misspells, in every table. *)
Theorem C124_index_20_refuted : forall m c rest stream, 0 < stream < 2 ^ 31 ->
  let w := WFrame HEADERS 4 0 stream [0x94] in
  let x := Message w (CHeaders None [0x94] []) [(octets "access-control-allow-origin", [])] in
  tls_in (c_tls c) = wire w ++ rest -> delivers (size (wire w)) (c_tls c) ->
  (forall limit t, rfc_sends limit t x t) /\ exists f c', receive_frame m c = (Ok f, c') /\ ~ tells f x.
Proof.
  intros m c rest stream B w x E D. assert (NP : padding_fits 4 []) by (split; [cbn; lia|reflexivity]). split.
  - intros limit t. apply rfc_sends_fields with (fragment := [0x94]); [exact (layout_headers 4 [0x94] [] NP eq_refl)|split; [cbn; lia|discriminate]|reflexivity|].
    change [0x94] with ([0x94] ++ []). change [(octets "access-control-allow-origin", [])] with (opt_cons (Some (octets "access-control-allow-origin", @nil N)) (@nil field)).
    eapply rfc_block_cons with (r := RIndexed 20); [|reflexivity|constructor]. apply repr_indexed; [|do 2 eexists; split; [reflexivity|lia]].
    replace 20 with (0x94 mod 2 ^ 7) by reflexivity. apply rfc_int_short; [lia|reflexivity].
  - assert (W : wframe_ok w) by (apply wframe_check; cbn; lia).
    destruct (receive_complete m c w rest 0 W E) as (s' & _ & _ & _ & R); [rewrite N.add_0_r; exact D|].
    rewrite R. unfold handled.
    assert (X : exists h, build_frame m (header_of w) (w_payload w) (c_resp c) = Ok h /\ exists fh o pad p b, h = HeadersFrame o fh pad p b /\ fh_type fh = HEADERS /\ fields_of b = [(octets "accept-control-allow-origin", [])] /\ update_block (c_resp c) b = (Ok tt, c_resp c)).
    { eexists. split; [unfold build_frame; destruct m; vm_compute; reflexivity|]. do 5 eexists. split; [reflexivity|]. split; [reflexivity|]. split; reflexivity. }
    destruct X as (h & BF & fh & o & pad & p & b & -> & TY & FB & UB). rewrite BF. unfold update_frame. cbn [frame_fh]. rewrite TY. change (HEADERS =? T_HEADERS) with true.
    cbv iota. rewrite UB. eexists _, _. split; [reflexivity|]. intros (_ & _ & _ & _ & T & _). rewrite FB in T. discriminate T.
Qed.

(* SETTINGS with a table size, ":status: 200" by index, "server: b" by a name of the
   static table and "a: b" never indexed; the client's table is that of no server. *)
Definition three : list message :=
  [Message (WFrame SETTINGS 0 0 0 (settings_octets [(1, 0); (4, 65535)])) (CSettings [(1, 0); (4, 65535)]) [];
   Message (WFrame HEADERS 4 0 1 [0x88; 0x0f; 39; 1; 98]) (CHeaders None [0x88; 0x0f; 39; 1; 98] []) [(octets ":status", octets "200"); (octets "server", [98])];
   Message (WFrame HEADERS 5 0 1 [0x10; 1; 97; 1; 98]) (CHeaders None [0x10; 1; 97; 1; 98] []) [([97], [98])]].

Lemma small_short : forall n b v, b < 256 -> b mod 2 ^ n = v -> v < 2 ^ n - 1 -> n <= 8 -> small_int n [b] v.
Proof.
  intros n b v B E L N. subst v. split; [|pose proof (N.pow_le_mono_r 2 n 8 ltac:(lia) N) as X; change (2 ^ 8) with 256 in X; lia].
  split; [apply rfc_int_short; assumption|]. intros l' I. destruct I; cbn [length]; lia.
Qed.

Lemma short_string : forall s, is_octets s -> size s < 127 -> small_string (size s :: s) s.
Proof.
  intros s O L. change (size s :: s) with ([size s] ++ s). apply string_plain; [|do 2 eexists; split; [reflexivity|lia]|exact O].
  fold (size s). apply small_short; [lia| |change (2 ^ 7 - 1) with 127; lia|lia]. apply N.mod_small. change (2 ^ 7) with 128. lia.
Qed.

Example C124_case : forall m, Forall (unindexed m) three /\ Forall wframe_ok (map msg_frame three) /\
  dt_ok (DynTable [(octets "x", octets "y")] 34 100) /\
  delivers (size (concat (map wire (map msg_frame three)))) (Tls (concat (map wire (map msg_frame three))) [] (repeat (Chunk 5) 100)).
Proof.
  intros m. assert (NP : forall flags, padding_fits flags []) by (intros flags; split; [cbn; lia|reflexivity]).
  assert (SB : small_string [1; 98] [98]) by (apply (short_string [98]); [apply octets_dec; reflexivity|reflexivity]).
  assert (SA : small_string [1; 97] [97]) by (apply (short_string [97]); [apply octets_dec; reflexivity|reflexivity]).
  split; [|split; [|split]].
  - constructor; [|constructor; [|constructor; [|constructor]]].
    + apply unindexed_other; [apply layout_settings; repeat constructor|reflexivity|intros [X _]; discriminate X|].
      intros params P. injection P as <-. constructor; [intros [X|[]]; discriminate X|]. constructor; [intros []|constructor].
    + eapply unindexed_fields; [exact (layout_headers 4 [0x88; 0x0f; 39; 1; 98] [] (NP 4) eq_refl)|reflexivity|].
      change [0x88; 0x0f; 39; 1; 98] with ([0x88] ++ [0x0f; 39; 1; 98] ++ []). apply plain_cons; [|apply plain_cons; [|constructor]].
      * apply (plain_index m [0x88] 8); [|lia|lia|reflexivity]. apply repr_indexed; [apply small_short; solve [lia|reflexivity]|do 2 eexists; split; [reflexivity|lia]].
      * apply (plain_name m [0x0f; 39; 1; 98] Without 54 (octets "server", [])); [|discriminate|lia|lia|reflexivity|right; discriminate].
        change [0x0f; 39; 1; 98] with ([0x0f; 39] ++ [1; 98]). apply repr_literal_indexed_name; [|do 2 eexists; split; [reflexivity|lia]|discriminate|exact SB].
        split; [|reflexivity]. split; [change 54 with (2 ^ 4 - 1 + 39); apply rfc_int_long; [lia|reflexivity|apply rfc_cont_last; lia]|].
        intros l' I. inversion I as [b B L E1 E2|b l v B E1 C E2 E3]; [change (2 ^ 4 - 1) with 15 in L; lia|]. destruct C; cbn; lia.
    + eapply unindexed_fields; [exact (layout_headers 5 [0x10; 1; 97; 1; 98] [] (NP 5) eq_refl)|reflexivity|].
      rewrite <- (app_nil_r [0x10; 1; 97; 1; 98]). apply plain_cons; [|constructor]. eapply plain_new with (k := Never); [|discriminate|right; discriminate|right; discriminate].
      change [0x10; 1; 97; 1; 98] with ([0x10] ++ [1; 97] ++ [1; 98]). apply repr_literal_new_name; [|do 2 eexists; split; [reflexivity|lia]|exact SA|exact SB].
      apply small_short; solve [lia|reflexivity|discriminate].
  - repeat constructor; apply wframe_check; reflexivity.
  - split; [reflexivity|cbn; lia].
  - apply frame_delivers. discriminate.
Qed.

Print Assumptions C124_understood_partial.
Print Assumptions C124_index_20_refuted.
