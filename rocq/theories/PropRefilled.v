(* Property C125: how the table for responses comes to agree with the server's again. *)
From Coq Require Import String.
From Coq Require Import ZArith NArith List Bool Lia ZifyBool ZifyNat ZifyN.
From Verif Require Import Base Arith Util HeaderType DynTable HeaderDec FrameHeader Frames FrameBuilder Ssl Client
  SpecBits SpecInt SpecHpack SpecFrame SpecValid UtilProofs DynTableProofs FrameProofs HeaderProofs BlockProofs HistoryProofs
  PropHeader PropFrame PropBlock PropSsl PropClient PropHistory PropValid PropThrow PropDefined PropReceived PropUnindexed.
Import ListNotations.
Local Open Scope string_scope.
Local Open Scope list_scope.
Local Open Scope N_scope.
Ltac Zify.zify_post_hook ::= Z.div_mod_to_equations.

(* ---- specification ---- *)

(* What a representation does to a table (RFC 7541 4.3, 4.4, 6.2.1, 6.3). *)
Inductive action := Insert (f : field) | Limit (n : N).

Definition act (t : table) (a : action) : table := match a with Insert f => insert t f | Limit n => resize t n end.

(* A representation that does not refer to the dynamic table, the fields it stands for and
   what it does to the table; deviations are left out as in C124. *)
Inductive free_repr (m : ub_mode) (limit : N) : list N -> list field -> list action -> Prop :=
| free_plain : forall l f, plain_field m l f -> free_repr m limit l [f] []
| free_name : forall l i f v, small_repr l (RLiteral Incremental (NameIndex i) v) -> 1 <= i -> i <> 20 ->
    nth_error rfc_static (N.to_nat (i - 1)) = Some f -> addressable m v -> free_repr m limit l [(fst f, v)] [Insert (fst f, v)]
| free_new : forall l n v, small_repr l (RLiteral Incremental (NameLiteral n) v) -> addressable m n -> addressable m v ->
    free_repr m limit l [(n, v)] [Insert (n, v)]
| free_limit : forall l n, small_repr l (RResize n) -> n <= limit -> free_repr m limit l [] [Limit n].

Inductive free_block (m : ub_mode) (limit : N) : list N -> list field -> list action -> Prop :=
| free_nil : free_block m limit [] [] []
| free_cons : forall l f a ls fs acts, free_repr m limit l f a -> free_block m limit ls fs acts ->
    free_block m limit (l ++ ls) (f ++ fs) (a ++ acts).

(* No field is larger than the table it enters (otherwise C15). *)
Fixpoint fits (max : N) (acts : list action) : Prop :=
  match acts with
  | [] => True
  | Insert f :: acts' => field_size f <= max /\ fits max acts'
  | Limit n :: acts' => fits n acts'
  end.

(* A frame of a server that does not refer to the table. *)
Inductive refers_not (m : ub_mode) (limit : N) : message -> list action -> Prop :=
| refers_not_fields : forall w c fragment fs acts, layout (w_flags w) (w_type w) (w_payload w) c ->
    fragment_of c = Some fragment -> free_block m limit fragment fs acts -> refers_not m limit (Message w c fs) acts
| refers_not_other : forall w c, layout (w_flags w) (w_type w) (w_payload w) c -> fragment_of c = None ->
    ~ (w_type w = DATA /\ has_padded (w_flags w) = true) ->
    (forall params, c = CSettings params -> NoDup (map fst params) /\ no_table_size params) -> refers_not m limit (Message w c []) [].

(* ---- proofs ---- *)

Lemma static_name : forall f, In f rfc_static -> fst f <> [].
Proof. intros f I Q. pose proof (proj1 (forallb_forall _ _) static_names f I) as X. cbn beta in X. rewrite Q in X. discriminate X. Qed.

Lemma free_step : forall m limit l fs acts, free_repr m limit l fs acts -> exists r o, small_repr l r /\ supported m r o /\ table_ref r <= 61 /\ opt_cons o [] = fs /\
  (forall t, step limit t r = Some (o, fold_left act acts t)) /\
  (forall max b bs, fits max (acts ++ bs) -> (forall max', fits max' bs -> inserts_fit max' b) -> inserts_fit max (reported r o :: b)).
Proof.
  intros m limit l fs acts [l' f P|l' i g v S L N E A|l' n v S A1 A2|l' n S L].
  - destruct (plain_step m l' f P) as (r & S & SU & B & C & ST). exists r, (Some f). split; [exact S|]. split; [exact SU|]. split; [exact B|].
    split; [reflexivity|]. split; [intros t; apply ST|]. intros max b bs F K. cbn [app] in F. specialize (K max F).
    destruct r as [i|k n v|n]; [exact K| |discriminate C]. destruct k; [discriminate C| |]; exact K.
  - exists (RLiteral Incremental (NameIndex i) v), (Some (fst g, v)). destruct (static_resolves (Table 0 []) i g L E) as [_ B]. split; [exact S|].
    split; [split; [exact N|split; [exact (static_name g (nth_error_In _ _ E))|exact A]]|]. split; [exact B|]. split; [reflexivity|]. split.
    + intros t. unfold step. cbn [step_in name_of]. fold resolve. rewrite (proj1 (static_resolves t i g L E)). reflexivity.
    + intros max b bs [F1 F2] K. split; [exact F1|exact (K max F2)].
  - exists (RLiteral Incremental (NameLiteral n) v), (Some (n, v)). split; [exact S|]. split; [split; [cbn; discriminate|split; assumption]|].
    split; [cbn; lia|]. split; [reflexivity|]. split; [intros t; reflexivity|]. intros max b bs [F1 F2] K. split; [exact F1|exact (K max F2)].
  - exists (RResize n), None. split; [exact S|]. split; [split; [cbn; discriminate|exact I]|]. split; [cbn; lia|]. split; [reflexivity|]. split.
    + intros t. unfold step. cbn [step_in]. destruct (N.leb_spec n limit); [reflexivity|lia].
    + intros max b bs F K. exact (K n F).
Qed.

Lemma free_late : forall rs c, Forall (fun r => table_ref r <= 61) rs -> no_late_reference c rs.
Proof. induction rs as [|r rs IH]; intros c F; [exact I|]. apply Forall_cons_iff in F. split; [intros _; apply F|]. apply IH, F. Qed.

Lemma free_run : forall m limit raw fs acts, free_block m limit raw fs acts -> forall t, exists rs b, rfc_run m limit t raw rs b fs (fold_left act acts t) /\
  Forall (fun r => table_ref r <= 61) rs /\ forall max, fits max acts -> inserts_fit max b.
Proof.
  intros m limit raw fs acts P. induction P as [|l f a ls fs acts F P IH]; intros t.
  - exists [], []. split; [constructor|]. split; [constructor|]. intros; exact I.
  - destruct (free_step m limit l f a F) as (r & o & S & SU & B & O & ST & K). destruct (IH (fold_left act a t)) as (rs & b & R & NL & IF).
    exists (r :: rs), (reported r o :: b). split; [|split].
    + rewrite fold_left_app. replace (f ++ fs) with (opt_cons o fs) by (rewrite <- O; destruct o; reflexivity).
      eapply rfc_run_cons; [exact S|apply ST|exact SU|exact R].
    + constructor; assumption.
    + intros max X. exact (K max b acts X IF).
Qed.

Lemma fits_app : forall a max b t, t_max t = max -> fits max (a ++ b) -> fits max a /\ fits (t_max (fold_left act a t)) b.
Proof.
  induction a as [|[f|n] a IH]; intros max b t M F; cbn [app fits fold_left] in *.
  - subst max. auto.
  - destruct F as [F1 F2]. destruct (IH max b (act t (Insert f)) M F2) as [X Y]. auto.
  - exact (IH n b (act t (Limit n)) eq_refl F).
Qed.

Lemma refers_not_session : forall m limit xs actss, Forall2 (refers_not m limit) xs actss -> forall t, fits (t_max t) (concat actss) ->
  server_session m limit t xs (fold_left act (concat actss) t).
Proof.
  intros m limit xs actss H. induction H as [|x a xs actss R H IH]; intros t F; [constructor|]. cbn [concat] in *. rewrite fold_left_app.
  destruct (fits_app a (t_max t) (concat actss) t eq_refl F) as [F1 F2]. eapply session_cons; [|apply IH; exact F2].
  destruct R as [w c fragment fs acts L FR P|w c L FR ND NS].
  - eapply sends_fields; [exact L|exact FR|]. destruct (free_run m limit fragment fs acts P t) as (rs & b & R & NL & IF). exists rs, b.
    split; [exact R|]. split; [exact (free_late rs false NL)|exact (IF _ F1)].
  - apply sends_plain; assumption.
Qed.

Lemma emptied_agree : forall acts t t', In (Limit 0) acts -> fold_left act acts t = fold_left act acts t'.
Proof.
  induction acts as [|a acts IH]; intros t t' I; [contradiction I|]. cbn [fold_left]. destruct I as [->|I]; [|apply IH; exact I].
  cbn [act]. unfold resize. assert (Z : forall l, keep 0 l = []).
  { intros [|f l]; [reflexivity|]. cbn [keep]. unfold field_size. destruct (N.leb_spec (N.of_nat (length (fst f)) + N.of_nat (length (snd f)) + 32) 0); [lia|reflexivity]. }
  rewrite !Z. reflexivity.
Qed.

(* Two size updates, to nothing and to any size: the frames are returned as they were sent
   and the table is the server's, whatever both tables were before. *)
Theorem C125_emptied_partial : forall m limit xs actss t c rest, Forall2 (refers_not m limit) xs actss -> Forall wframe_ok (map msg_frame xs) ->
  dt_ok (c_resp c) -> fits (t_max t) (concat actss) -> fits (dt_max (c_resp c)) (concat actss) -> In (Limit 0) (concat actss) ->
  tls_in (c_tls c) = concat (map wire (map msg_frame xs)) ++ rest -> delivers (size (concat (map wire (map msg_frame xs)))) (c_tls c) ->
  exists t' fs c', server_session m limit t xs t' /\ receive_n m (length xs) c = (map Ok fs, c') /\ Forall2 tells fs xs /\
    Table (dt_max (c_resp c')) (dt_entries (c_resp c')) = t'.
Proof.
  intros m limit xs actss t c rest R W K F1 F2 I E D. pose proof (refers_not_session m limit xs actss R) as S.
  destruct (C93_received_as_sent_partial m limit xs _ _ c rest (S (rfc_table (c_resp c)) F2) W K eq_refl E D) as (fs & c' & RN & TE & _ & _ & _ & _ & T).
  exists (fold_left act (concat actss) t), fs, c'. split; [exact (S t F1)|]. split; [exact RN|]. split; [exact TE|]. rewrite T. apply emptied_agree. exact I.
Qed.

Lemma keep_keep : forall l a b, a <= b -> keep a (keep b l) = keep a l.
Proof.
  induction l as [|f l IH]; intros a b L; [reflexivity|]. cbn [keep]. destruct (N.leb_spec (field_size f) b) as [B|B].
  - cbn [keep]. destruct (N.leb_spec (field_size f) a) as [A|A]; [|reflexivity]. f_equal. apply IH. lia.
  - destruct (N.leb_spec (field_size f) a); [lia|reflexivity].
Qed.

Lemma inserts_keep : forall fs t, t_entries t = keep (t_max t) (t_entries t) ->
  fold_left act (map Insert fs) t = Table (t_max t) (keep (t_max t) (rev fs ++ t_entries t)).
Proof.
  induction fs as [|f fs IH]; intros t K.
  - cbn. rewrite <- K. destruct t. reflexivity.
  - cbn [map fold_left rev]. rewrite IH; unfold act, insert; cbn [t_max t_entries].
    + f_equal. rewrite <- app_assoc. cbn [app]. generalize (rev fs) (t_max t). clear. intros l. induction l as [|g l IH]; intros b.
      * cbn [app]. rewrite keep_keep by lia. reflexivity.
      * cbn [app keep]. destruct (field_size g <=? b) eqn:X; [|reflexivity]. f_equal.
        assert (G : forall a, a <= b -> keep a (l ++ keep b (f :: t_entries t)) = keep a (l ++ f :: t_entries t)).
        { clear IH X. induction l as [|h l IH]; intros a A; cbn [app]; [apply keep_keep; exact A|]. cbn [keep]. destruct (N.leb_spec (field_size h) a); [|reflexivity].
          f_equal. apply IH. lia. }
        apply G. lia.
    + symmetry. apply keep_keep. lia.
Qed.

Lemma keep_short : forall l r a, (length (keep a (l ++ r)) < length l)%nat -> keep a (l ++ r) = keep a l.
Proof.
  induction l as [|f l IH]; intros r a H; [cbn in H; lia|]. cbn [app keep] in *. destruct (field_size f <=? a); [|reflexivity].
  cbn [length] in H. f_equal. apply IH. lia.
Qed.

Lemma keep_short_back : forall l r a, (length (keep a l) < length l)%nat -> keep a (l ++ r) = keep a l.
Proof.
  induction l as [|f l IH]; intros r a H; [cbn in H; lia|]. cbn [app keep] in *. destruct (field_size f <=? a); [|reflexivity].
  cbn [length] in H. f_equal. apply IH. lia.
Qed.

Lemma ok_kept : forall t, dt_ok t -> t_entries (rfc_table t) = keep (t_max (rfc_table t)) (t_entries (rfc_table t)).
Proof.
  intros [e s x] [S L]. cbn in *. subst s. revert x L. induction e as [|f e IH]; intros x L; [reflexivity|]. cbn [keep total_size fold_right] in *.
  fold (total_size e) in *. destruct (N.leb_spec (field_size f) x); [|lia]. f_equal. apply IH. lia.
Qed.

(* Without size updates: as soon as one of the new fields has left the server's table, the
   tables agree, whatever they were before, if only they have the same size. *)
Theorem C125_filled_partial : forall m limit xs actss ins t c rest, let t' := fold_left act (concat actss) t in Forall2 (refers_not m limit) xs actss -> Forall wframe_ok (map msg_frame xs) ->
  concat actss = map Insert ins -> dt_ok (c_resp c) -> dt_max (c_resp c) = t_max t -> total_size (t_entries t) <= t_max t -> fits (t_max t) (concat actss) ->
  (length (t_entries t') < length ins)%nat ->
  tls_in (c_tls c) = concat (map wire (map msg_frame xs)) ++ rest -> delivers (size (concat (map wire (map msg_frame xs)))) (c_tls c) ->
  server_session m limit t xs t' /\
  exists fs c', receive_n m (length xs) c = (map Ok fs, c') /\ Forall2 tells fs xs /\ Table (dt_max (c_resp c')) (dt_entries (c_resp c')) = t'.
Proof.
  intros m limit xs actss ins t c rest t' R W A K M TS F L E D. split; [exact (refers_not_session m limit xs actss R t F)|]. pose proof (refers_not_session m limit xs actss R) as SE.
  assert (F2 : fits (t_max (rfc_table (c_resp c))) (concat actss)) by (cbn; rewrite M; exact F).
  destruct (C93_received_as_sent_partial m limit xs _ _ c rest (SE (rfc_table (c_resp c)) F2) W K eq_refl E D) as (fs & c' & RN & TE & _ & _ & _ & _ & T).
  exists fs, c'. split; [exact RN|]. split; [exact TE|]. rewrite T. unfold t' in *. clear t'. rewrite A in *.
  assert (KT : t_entries t = keep (t_max t) (t_entries t)).
  { pose proof (ok_kept (DynTable (t_entries t) (total_size (t_entries t)) (t_max t)) (conj eq_refl TS)) as X. exact X. }
  rewrite (inserts_keep ins _ (ok_kept _ K)). rewrite (inserts_keep ins t KT) in *. cbn [t_entries t_max rfc_table] in *. rewrite M. f_equal.
  rewrite <- (rev_length ins) in L. pose proof (keep_short _ _ _ L) as Q. rewrite Q in *. apply keep_short_back. exact L.
Qed.

(* When the sizes differ the tables never agree without a size update. *)
Theorem C125_size_refuted : forall m limit xs actss ins t c rest, let t' := fold_left act (concat actss) t in Forall2 (refers_not m limit) xs actss -> Forall wframe_ok (map msg_frame xs) ->
  concat actss = map Insert ins -> dt_ok (c_resp c) -> dt_max (c_resp c) <> t_max t -> fits (dt_max (c_resp c)) (concat actss) -> fits (t_max t) (concat actss) ->
  tls_in (c_tls c) = concat (map wire (map msg_frame xs)) ++ rest -> delivers (size (concat (map wire (map msg_frame xs)))) (c_tls c) ->
  server_session m limit t xs t' /\
  exists rs c', receive_n m (length xs) c = (rs, c') /\ Table (dt_max (c_resp c')) (dt_entries (c_resp c')) <> t'.
Proof.
  intros m limit xs actss ins t c rest t' R W A K M F F1 E D. split; [exact (refers_not_session m limit xs actss R t F1)|]. pose proof (refers_not_session m limit xs actss R) as SE.
  destruct (C93_received_as_sent_partial m limit xs _ _ c rest (SE (rfc_table (c_resp c)) F) W K eq_refl E D) as (fs & c' & RN & _ & _ & _ & _ & _ & T).
  exists (map Ok fs), c'. split; [exact RN|]. rewrite T. unfold t'. rewrite A. intros Q. apply M. apply (f_equal t_max) in Q.
  assert (X : forall l u, t_max (fold_left act (map Insert l) u) = t_max u) by (induction l as [|f l IH]; intros u; [reflexivity|]; cbn [map fold_left]; rewrite IH; reflexivity).
  rewrite !X in Q. exact Q.
Qed.

(* "a: b" three times, into tables of 70 octets: the third leaves no room for the first.
   And size updates to 0 and to 70, then "a: b". *)
Definition inserted (stream : N) (block : list N) (fs : list field) : message := Message (WFrame HEADERS 4 0 stream block) (CHeaders None block []) fs.

Definition thrice : list message :=
  [inserted 1 [0x40; 1; 97; 1; 98] [([97], [98])]; inserted 3 [0x40; 1; 97; 1; 99] [([97], [99])]; inserted 5 [0x40; 1; 97; 1; 100] [([97], [100])]].

Definition anew : message := inserted 1 ([0x20; 0x3f; 39] ++ [0x40; 1; 97; 1; 98]) [([97], [98])].

Lemma one_block : forall m limit stream b, b < 256 ->
  refers_not m limit (inserted stream [0x40; 1; 97; 1; b] [([97], [b])]) [Insert ([97], [b])].
Proof.
  intros m limit stream b B. assert (O : is_octets [b]) by (intros x [<-|[]]; exact B).
  assert (NP : padding_fits 4 []) by (split; [cbn; lia|reflexivity]).
  eapply refers_not_fields; [exact (layout_headers 4 [0x40; 1; 97; 1; b] [] NP eq_refl)|reflexivity|].
  rewrite <- (app_nil_r [0x40; 1; 97; 1; b]). apply (free_cons m limit _ [([97], [b])] [Insert ([97], [b])] [] [] []); [|constructor].
  apply free_new; [|right; discriminate|right; discriminate].
  change [0x40; 1; 97; 1; b] with ([0x40] ++ [1; 97] ++ [1; b]). apply repr_literal_new_name; [|do 2 eexists; split; [reflexivity|lia]| |].
  - apply small_short; solve [lia|reflexivity|discriminate].
  - apply (short_string [97]); [apply octets_dec; reflexivity|reflexivity].
  - apply (short_string [b]); [exact O|reflexivity].
Qed.

Example C125_case : forall m,
  let acts := [Insert ([97], [98]); Insert ([97], [99]); Insert ([97], [100])] in
  let t := Table 70 [(octets "x", octets "y")] in
  Forall2 (refers_not m 4096) thrice (map (fun a => [a]) acts) /\ Forall wframe_ok (map msg_frame thrice) /\ fits 70 acts /\
  total_size (t_entries t) <= t_max t /\ dt_ok (DynTable [(octets "p", octets "qr")] 35 70) /\
  (length (t_entries (fold_left act acts t)) < length acts)%nat /\
  refers_not m 4096 anew [Limit 0; Limit 70; Insert ([97], [98])] /\ fits 4096 [Limit 0; Limit 70; Insert ([97], [98])] /\ wframe_ok (msg_frame anew).
Proof.
  intros m acts t. split; [|split; [|split; [|split; [|split; [|split; [|split; [|split]]]]]]].
  - repeat constructor; apply one_block; lia.
  - repeat constructor; apply wframe_check; reflexivity.
  - repeat split; cbn; lia.
  - cbn. lia.
  - split; [reflexivity|cbn; lia].
  - vm_compute. lia.
  - pose proof (one_block m 4096 1 98 ltac:(lia)) as H. inversion H as [w c fragment fs acts' L F B E1 E2|]. cbn in F. injection F as <-.
    assert (NP : padding_fits 4 []) by (split; [cbn; lia|reflexivity]).
    eapply refers_not_fields; [exact (layout_headers 4 ([0x20; 0x3f; 39] ++ [0x40; 1; 97; 1; 98]) [] NP eq_refl)|reflexivity|].
    apply (free_cons m 4096 [0x20] [] [Limit 0] ([0x3f; 39] ++ [0x40; 1; 97; 1; 98]) [([97], [98])] [Limit 70; Insert ([97], [98])]).
    + apply free_limit; [|lia]. apply repr_resize; [apply small_short; solve [lia|reflexivity|discriminate]|do 2 eexists; split; [reflexivity|lia]].
    + apply (free_cons m 4096 [0x3f; 39] [] [Limit 70] [0x40; 1; 97; 1; 98] [([97], [98])] [Insert ([97], [98])]); [|exact B].
      apply free_limit; [|lia]. apply repr_resize; [|do 2 eexists; split; [reflexivity|lia]]. split; [|reflexivity].
      split; [change 70 with (2 ^ 5 - 1 + 39); apply rfc_int_long; [lia|reflexivity|apply rfc_cont_last; lia]|].
      intros l' I. inversion I as [b' B' L' E3 E4|b' l v B' E3 C E4 E5]; [change (2 ^ 5 - 1) with 31 in L'; lia|]. destruct C; cbn; lia.
  - repeat split; cbn; lia.
  - apply wframe_check; reflexivity.
Qed.

Print Assumptions C125_emptied_partial.
Print Assumptions C125_filled_partial.
Print Assumptions C125_size_refuted.
