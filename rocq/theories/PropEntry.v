(* Properties C65-C67: header block entries, blocks made from header lists, and
   tables updated with arbitrary blocks. *)
From Coq Require Import String.
From Coq Require Import ZArith NArith List Bool Lia ZifyBool ZifyNat ZifyN.
From Verif Require Import Base Arith StaticTable HeaderType DynTable HeaderEnc Frames Ssl Client
  SpecBits SpecHpack SpecUnique DynTableProofs StaticProofs HeaderProofs HeaderProofs2 BlockProofs HistoryProofs PropHeader PropClient PropHistory
  PropRequest.
Import ListNotations.
Local Open Scope string_scope.
Local Open Scope list_scope.
Local Open Scope N_scope.
Ltac Zify.zify_post_hook ::= Z.div_mod_to_equations.

(* ---------------------------------------------------------------- C65 *)

(* The fields of RFC 7541 Appendix A that have a value. *)
Definition rfc_static_field (h : field) : Prop := In h rfc_static /\ snd h <> [].

Lemma rev_find_in : forall rows h i, rev_find rows h = Some i -> In h (map fst rows).
Proof.
  induction rows as [|[h' j] rows IH]; intros h i H; [discriminate|]. cbn [rev_find] in H. cbn [map fst].
  destruct (header_eqb h h') eqn:E; [left; symmetry; apply header_eqb_eq, E|right; eapply IH, H].
Qed.

Lemma rev_find_some : forall rows h, In h (map fst rows) -> exists i, rev_find rows h = Some i.
Proof.
  induction rows as [|[h' j] rows IH]; intros h H; [destruct H|]. cbn [rev_find]. cbn [map fst] in H.
  destruct (header_eqb h h') eqn:E; [eauto|]. apply IH. destruct H as [->|H]; [|exact H].
  rewrite (proj2 (header_eqb_eq h h) eq_refl) in E. discriminate.
Qed.

Definition valued_in (l l' : list field) : bool :=
  forallb (fun h => (size (snd h) =? 0) || existsb (header_eqb h) l') l.

Lemma valued_in_spec : forall l l' h, valued_in l l' = true -> In h l -> snd h <> [] -> In h l'.
Proof.
  intros l l' h V I NE. unfold valued_in in V. rewrite forallb_forall in V. specialize (V h I).
  apply orb_true_iff in V. destruct V as [V|V].
  - apply N.eqb_eq in V. destruct (snd h); [contradiction|]. rewrite size_cons in V. lia.
  - apply existsb_exists in V. destruct V as (x & X & E). apply header_eqb_eq in E. subst. exact X.
Qed.

Lemma static_field_spec : forall h, rfc_static_field h <-> (exists i, reverse_static_find h = Some i) /\ snd h <> [].
Proof.
  assert (A : valued_in rfc_static (map fst reverse_static_table_entries) = true) by (vm_compute; reflexivity).
  assert (B : valued_in (map fst reverse_static_table_entries) rfc_static = true) by (vm_compute; reflexivity).
  intros h. unfold rfc_static_field, reverse_static_find. split.
  - intros [I NE]. split; [|exact NE]. apply rev_find_some. eapply valued_in_spec; eassumption.
  - intros [[i R] NE]. split; [|exact NE]. apply rev_find_in in R. eapply valued_in_spec; eassumption.
Qed.

(* The entry wanted for a header submitted with prefix p. *)
Inductive entry_for (p : hprefix) (h : field) : hentry -> Prop :=
| entry_asked : ~ rfc_static_field h -> entry_for p h (HEntry p (EHeader h))
| entry_static : rfc_static_field h -> entry_for p h (HEntry Indexed (EHeader h)).

Lemma correct_prefix_spec : forall p h, exists e, correct_prefix (HEntry p (EHeader h)) = Ok e /\ entry_for p h e.
Proof.
  intros p h. unfold correct_prefix. cbn [get_header e_content bind].
  pose proof (static_field_spec h) as S. destruct (reverse_static_find h) as [i|] eqn:R.
  - destruct (N.ltb_spec 0 (size (snd h))) as [L|L].
    + eexists. split; [reflexivity|]. apply entry_static, S. split; [eauto|]. intros E. rewrite E in L. discriminate L.
    + eexists. split; [reflexivity|]. apply entry_asked. intros F. apply S in F. destruct F as [_ F].
      destruct (snd h); [contradiction|]. rewrite size_cons in L. lia.
  - eexists. split; [reflexivity|]. apply entry_asked. intros F. apply S in F. destruct F as [[i F] _]. discriminate F.
Qed.

(* One entry per header, in order, with the header unchanged. *)
Theorem C65_one_entry_each : forall p hs, exists b, make_header_block p hs = Ok b /\ Forall2 (entry_for p) hs b.
Proof.
  intros p hs. induction hs as [|h hs IH].
  - exists []. split; [reflexivity|constructor].
  - destruct IH as (b & E & F). destruct (correct_prefix_spec p h) as (e & C & K).
    exists (e :: b). cbn [make_header_block]. rewrite C, E. split; [reflexivity|]. constructor; assumption.
Qed.

Lemma static_available : forall h t, rfc_static_field h -> available false t h.
Proof.
  intros h t S. apply static_field_spec in S. destruct S as [R NE]. left. split; [|exact NE]. apply in_static. exact R.
Qed.

(* What any RFC 7541 decoder with the same table makes of the encoded block, for
   the literal prefixes without indexing: the submitted headers, table
   unchanged. *)
Theorem C65_block_means_headers : forall p hs mode T limit, p = WithoutIndexing \/ p = NeverIndexed ->
  Forall (fun h => is_octets (fst h) /\ is_octets (snd h) /\ fst h <> octets "accept-control-allow-origin") hs ->
  let t := Table (dt_max T) (dt_entries T) in
  exists b raw, make_header_block p hs = Ok b /\ encode_block b mode T = Ok raw /\
    rfc_block limit t raw hs t /\ (forall fs t', rfc_block limit t raw fs t' -> fs = hs /\ t' = t).
Proof.
  intros p hs mode T limit P F t. destruct (C65_one_entry_each p hs) as (b & M & E). exists b.
  assert (G : plain_block limit T (t_max t) false b /\ fields_of b = hs /\ table_after t b = t).
  { clear M. induction E as [|h e hs b K E IH]; [cbn; auto|].
    destruct (IH (Forall_inv_tail F)) as (PB & FO & TA). pose proof (Forall_inv F) as (On & Ov & NM).
    destruct K as [NS|S].
    - assert (A : available false T h \/ fresh T h).
      { destruct (in_tables_dec T h) as [[I|I]|I].
        - left. left. exact I.
        - left. right. split; [reflexivity|exact I].
        - right. repeat split; assumption. }
      destruct P as [-> | ->]; cbn [plain_block fields_of table_after flat_map]; (split; [split; assumption|]);
        (split; [cbn; f_equal; exact FO|exact TA]).
    - cbn [plain_block table_after]. split; [split; [apply static_available, S|exact PB]|].
      split; [cbn; f_equal; exact FO|exact TA]. }
  destruct G as (PB & FO & TA).
  destruct (block_means limit T mode b t false PB ltac:(reflexivity)) as (raw & R & B).
  rewrite FO, TA in B. exists raw. split; [exact M|]. split; [exact R|]. split; [exact B|].
  intros fs t' B'. destruct (rfc_block_unique _ _ _ _ _ B _ _ B') as [<- <-]. auto.
Qed.

(* Prefixes that do not fit a header: SIZE_UPDATE entries cannot be encoded. *)
Theorem C65_size_update_rejected : forall h mode T, ~ rfc_static_field h ->
  exists b, make_header_block SizeUpdate [h] = Ok b /\ encode_block b mode T = Throw RuntimeError.
Proof.
  intros h mode T NS. destruct (C65_one_entry_each SizeUpdate [h]) as (b & M & E). exists b. split; [exact M|].
  inversion E as [|h' e hs' b' K E' Q1 Q2]; subst. inversion E'; subst. destruct K as [_|S]; [|contradiction]. reflexivity.
Qed.

Example C65_case :
  let hs := [(octets ":method", octets "GET"); (octets "cookie", octets "a=b"); (octets "cookie", [])] in
  make_header_block NeverIndexed hs =
    Ok [HEntry Indexed (EHeader (octets ":method", octets "GET")); HEntry NeverIndexed (EHeader (octets "cookie", octets "a=b"));
        HEntry NeverIndexed (EHeader (octets "cookie", []))] /\
  Forall (fun h => is_octets (fst h) /\ is_octets (snd h) /\ fst h <> octets "accept-control-allow-origin") hs /\
  ~ rfc_static_field (octets "cookie", octets "a=b").
Proof.
  cbv zeta. split; [vm_compute; reflexivity|]. split.
  - repeat (constructor; [split; [apply octets_dec; reflexivity|split; [apply octets_dec; reflexivity|discriminate]]|]). constructor.
  - intros S. apply static_field_spec in S. destruct S as [[i S] _]. vm_compute in S. discriminate S.
Qed.

(* ---------------------------------------------------------------- C66 *)

Theorem C66_equality : forall a b, hentry_eqb a b = true <-> a = b.
Proof.
  intros [p c] [p' c']. unfold hentry_eqb. cbn [e_prefix e_content]. rewrite andb_true_iff. split.
  - intros [P C]. assert (p = p') by (destruct p, p'; try reflexivity; discriminate P). subst.
    destruct c as [h|n], c' as [h'|n']; try discriminate C.
    + apply header_eqb_eq in C. subst. reflexivity.
    + apply N.eqb_eq in C. subst. reflexivity.
  - intros E. injection E as <- <-. split; [destruct p; reflexivity|].
    destruct c; [apply header_eqb_eq; reflexivity|apply N.eqb_refl].
Qed.

(* Exactly one of the two accessors returns, the other throws; which one depends
   on the constructor used and on set_header only. *)
Theorem C66_accessors : forall p h n,
  (get_header (HEntry p (EHeader h)) = Ok h /\ get_max_size (HEntry p (EHeader h)) = Throw RuntimeError) /\
  (get_max_size (HEntry p (ESize n)) = Ok n /\ get_header (HEntry p (ESize n)) = Throw RuntimeError) /\
  (forall e, get_header (set_header e h) = Ok h /\ get_max_size (set_header e h) = Throw RuntimeError /\
     e_prefix (set_header e h) = e_prefix e) /\
  e_prefix (entry_of_header h) = NeverIndexed /\ get_header (entry_of_header h) = Ok h.
Proof. intros p h n. repeat split. Qed.

Example C66_case :
  hentry_eqb (HEntry Indexed (EHeader ([97], [98]))) (HEntry NeverIndexed (EHeader ([97], [98]))) = false /\
  hentry_eqb (HEntry SizeUpdate (ESize 1)) (HEntry SizeUpdate (ESize 1)) = true.
Proof. split; reflexivity. Qed.

(* ---------------------------------------------------------------- C67 *)

(* What RFC 7541 says an entry does to the table. *)
Definition entry_effect (t : table) (e : hentry) : table :=
  match e with
  | HEntry IncrementalIndexing (EHeader h) => insert t h
  | HEntry SizeUpdate (ESize n) => resize t n
  | _ => t
  end.

(* Entries whose content does not fit the prefix. *)
Definition mismatched (e : hentry) : Prop :=
  match e with
  | HEntry IncrementalIndexing (ESize _) => True
  | HEntry SizeUpdate (EHeader _) => True
  | _ => False
  end.

Definition oversized (t : table) (e : hentry) : Prop :=
  match e with
  | HEntry IncrementalIndexing (EHeader h) => t_max t < field_size h
  | _ => False
  end.

Lemma update_entry_cases : forall T e, dt_ok T ->
  (exists T', update_entry T e = Ok T' /\ dt_ok T' /\ rfc_table T' = entry_effect (rfc_table T) e /\
     ~ mismatched e /\ ~ oversized (rfc_table T) e) \/
  (mismatched e /\ update_entry T e = Throw RuntimeError) \/
  (oversized (rfc_table T) e /\ update_entry T e = UB EmptyBack).
Proof.
  intros T [p c] K. destruct p, c as [h|n]; unfold update_entry, get_header, get_max_size; cbn [e_prefix e_content bind mismatched oversized entry_effect];
    try (left; exists T; split; [reflexivity|]; split; [exact K|]; split; [reflexivity|]; split; intros []; fail).
  - right. left. split; [exact I|reflexivity].
  - left. destruct (dt_update_size T n) as [T'| | |] eqn:U; try (rewrite dt_update_spec in U by exact K; discriminate U).
    destruct (dt_update_ok T n T' K U) as (K' & R & _). exists T'. split; [reflexivity|]. split; [exact K'|]. split; [exact R|]. split; intros [].
  - rewrite (dt_push_spec T h K). rewrite entry_size_eq. destruct (N.leb_spec (field_size h) (dt_max T)) as [L|L].
    + left. eexists. split; [reflexivity|]. assert (P : dt_push T h = Ok (DynTable (h :: keep (dt_max T - field_size h) (dt_entries T))
        (total_size (h :: keep (dt_max T - field_size h) (dt_entries T))) (dt_max T))).
      { rewrite (dt_push_spec T h K), entry_size_eq. destruct (N.leb_spec (field_size h) (dt_max T)); [reflexivity|lia]. }
      destruct (dt_push_ok _ _ _ K P) as (K' & R). split; [exact K'|]. split; [apply R|]. split; [auto|].
      unfold rfc_table; cbn [t_max]. lia.
    + right. right. split; [unfold rfc_table; cbn [t_max]; lia|reflexivity].
  - right. left. split; [exact I|reflexivity].
Qed.

(* For every block: the entries up to the first that cannot be applied take
   effect, nothing else does, and the outcome says which it was. *)
Theorem C67_prefix_applied_partial : forall b c, dt_ok (c_req c) ->
  exists r c', update_request_dynamic_table c b = (r, c') /\
    c_tls c' = c_tls c /\ c_resp c' = c_resp c /\ dt_ok (c_req c') /\
    let t := Table (dt_max (c_req c)) (dt_entries (c_req c)) in
    exists applied rest, b = applied ++ rest /\
      Table (dt_max (c_req c')) (dt_entries (c_req c')) = fold_left entry_effect applied t /\
      Forall (fun e => ~ mismatched e) applied /\
      ((rest = [] /\ r = Ok tt) \/
       exists e rest', rest = e :: rest' /\
         ((mismatched e /\ r = Throw RuntimeError) \/
          (oversized (fold_left entry_effect applied t) e /\ r = UB EmptyBack))).
Proof.
  intros b [s T resp] K. unfold update_request_dynamic_table. cbn [c_req c_tls c_resp] in *.
  assert (G : exists r T', update_block T b = (r, T') /\ dt_ok T' /\ exists applied rest, b = applied ++ rest /\
    rfc_table T' = fold_left entry_effect applied (rfc_table T) /\ Forall (fun e => ~ mismatched e) applied /\
    ((rest = [] /\ r = Ok tt) \/ exists e rest', rest = e :: rest' /\
         ((mismatched e /\ r = Throw RuntimeError) \/
          (oversized (fold_left entry_effect applied (rfc_table T)) e /\ r = UB EmptyBack)))).
  { revert T K. induction b as [|e b IH]; intros T K.
    - exists (Ok tt), T. split; [reflexivity|]. split; [exact K|]. exists [], [].
      split; [reflexivity|]. split; [reflexivity|]. split; [constructor|]. left. auto.
    - cbn [update_block]. destruct (update_entry_cases T e K) as [(T1 & U & K1 & R1 & NM & _)|[(M & U)|(O & U)]]; rewrite U.
      + destruct (IH T1 K1) as (r & T' & UB & K' & applied & rest & B & R & F & C).
        exists r, T'. split; [exact UB|]. split; [exact K'|]. exists (e :: applied), rest. rewrite R1 in R, C.
        split; [cbn; f_equal; exact B|]. split; [exact R|]. split; [constructor; assumption|exact C].
      + eexists _, T. split; [reflexivity|]. split; [exact K|]. exists [], (e :: b).
        split; [reflexivity|]. split; [reflexivity|]. split; [constructor|]. right. exists e, b. auto.
      + eexists _, T. split; [reflexivity|]. split; [exact K|]. exists [], (e :: b).
        split; [reflexivity|]. split; [reflexivity|]. split; [constructor|]. right. exists e, b. auto. }
  destruct G as (r & T' & U & K' & applied & rest & G). rewrite U. exists r, (Client s T' resp).
  split; [reflexivity|]. cbn [c_req c_tls c_resp]. repeat (split; [reflexivity|]). split; [exact K'|]. cbv zeta. exists applied, rest. exact G.
Qed.

(* The update is not atomic: for every table with room for h, a block whose
   second entry is mismatched throws and leaves h in the table. *)
Theorem C67_not_atomic_refuted : forall c h n, dt_ok (c_req c) -> field_size h <= dt_max (c_req c) ->
  let b := [HEntry IncrementalIndexing (EHeader h); HEntry IncrementalIndexing (ESize n)] in
  exists c', update_request_dynamic_table c b = (Throw RuntimeError, c') /\
    hd_error (dt_entries (c_req c')) = Some h /\
    (hd_error (dt_entries (c_req c)) <> Some h -> c_req c' <> c_req c).
Proof.
  intros c h n K L b. unfold update_request_dynamic_table. cbn [update_block b update_entry e_prefix get_header e_content bind].
  rewrite (dt_push_spec _ h K), entry_size_eq. destruct (N.leb_spec (field_size h) (dt_max (c_req c))); [|lia].
  eexists. split; [reflexivity|]. cbn [c_req dt_entries hd_error]. split; [reflexivity|].
  intros NE E. apply NE. rewrite <- E. reflexivity.
Qed.

Example C67_case :
  let c := new_client (Tls [] [] []) in
  dt_ok (c_req c) /\ field_size (octets "a", octets "b") <= dt_max (c_req c) /\
  hd_error (dt_entries (c_req c)) <> Some (octets "a", octets "b") /\
  fst (update_request_dynamic_table c [HEntry IncrementalIndexing (EHeader (octets "a", octets "b")); HEntry SizeUpdate (ESize 10)]) = Ok tt.
Proof. cbv zeta. split; [apply new_table_ok|]. split; [discriminate|]. split; [discriminate|reflexivity]. Qed.

Print Assumptions C65_one_entry_each.
Print Assumptions C65_block_means_headers.
Print Assumptions C65_size_update_rejected.
Print Assumptions C66_equality.
Print Assumptions C66_accessors.
Print Assumptions C67_prefix_applied_partial.
Print Assumptions C67_not_atomic_refuted.
