(* Auxiliary lemmas for PropHistory.v: the effect of header blocks on tables. *)
From Coq Require Import String.
From Coq Require Import ZArith NArith List Bool Lia ZifyBool ZifyNat ZifyN.
From Verif Require Import Base Arith Util IntRep StaticTable HeaderType DynTable HeaderEnc HeaderDec FrameHeader Frames
  FrameBuilder Ssl Client SpecBits SpecInt SpecHpack SpecFrame IntRepProofs DynTableProofs StaticProofs HeaderProofs
  HeaderProofs2 FrameProofs BlockProofs PropHeader PropBlock PropSsl PropClient.
Import ListNotations.
Local Open Scope string_scope.
Local Open Scope list_scope.
Local Open Scope N_scope.
Ltac Zify.zify_post_hook ::= Z.div_mod_to_equations.

(* The table after a header block, by RFC 7541: insertions and size updates in
   order. *)
Fixpoint table_after (t : table) (b : header_block) : table :=
  match b with
  | [] => t
  | HEntry IncrementalIndexing (EHeader h) :: b' => table_after (insert t h) b'
  | HEntry SizeUpdate (ESize n) :: b' => table_after (resize t n) b'
  | _ :: b' => table_after t b'
  end.

(* Every inserted field fits into the table at that point (the library's push is
   undefined otherwise, C15); entries whose prefix and content disagree are
   excluded. *)
Fixpoint inserts_fit (max : N) (b : header_block) : Prop :=
  match b with
  | [] => True
  | HEntry IncrementalIndexing (EHeader h) :: b' => field_size h <= max /\ inserts_fit max b'
  | HEntry SizeUpdate (ESize n) :: b' => inserts_fit n b'
  | HEntry IncrementalIndexing (ESize _) :: _ => False
  | HEntry SizeUpdate (EHeader _) :: _ => False
  | _ :: b' => inserts_fit max b'
  end.

Lemma update_block_spec : forall b t, dt_ok t -> inserts_fit (dt_max t) b ->
  exists t', update_block t b = (Ok tt, t') /\ dt_ok t' /\ rfc_table t' = table_after (rfc_table t) b.
Proof.
  induction b as [|[p c] b IH]; intros t K F.
  - exists t. split; [reflexivity|]. split; [exact K|reflexivity].
  - cbn [update_block]. unfold update_entry. cbn [e_prefix]. destruct p.
    + destruct (IH t K F) as (t' & U & K' & R). exists t'. auto.
    + destruct (IH t K F) as (t' & U & K' & R). exists t'. auto.
    + destruct c as [h|n]; [destruct F|]. cbn [get_max_size e_content bind].
      destruct (dt_update_size t n) as [t1|x|u|] eqn:U; pose proof (dt_update_spec t n K) as S; rewrite U in S; try discriminate S.
      destruct (dt_update_ok t n t1 K U) as (K1 & R1 & M1). cbn [inserts_fit] in F. rewrite <- M1 in F.
      destruct (IH t1 K1 F) as (t' & U' & K' & R). exists t'. split; [exact U'|]. split; [exact K'|].
      cbn [table_after]. rewrite <- R1. exact R.
    + destruct c as [h|n]; [|destruct F]. cbn [get_header e_content bind]. cbn [inserts_fit] in F. destruct F as [L F].
      pose proof (dt_push_spec t h K) as S. rewrite entry_size_eq in S.
      destruct (N.leb_spec (field_size h) (dt_max t)) as [_|L']; [|clear S; lia].
      destruct (dt_push t h) as [t1|x|u|] eqn:U; try discriminate S.
      destruct (dt_push_ok t h t1 K U) as (K1 & R1 & _ & M1). rewrite <- M1 in F.
      destruct (IH t1 K1 F) as (t' & U' & K' & R). exists t'. split; [exact U'|]. split; [exact K'|].
      cbn [table_after]. rewrite <- R1. exact R.
    + destruct (IH t K F) as (t' & U & K' & R). exists t'. auto.
Qed.

Lemma run_table_after : forall m limit t raw rs b fs t', rfc_run m limit t raw rs b fs t' -> table_after t b = t'.
Proof.
  intros m limit t raw rs b fs t' H. induction H; [reflexivity|].
  rewrite <- IHrfc_run. clear IHrfc_run H H1 H2. unfold step in H0. destruct r as [i|k n v|n]; cbn [step_in] in H0.
  - destruct (resolve_in rfc_static t i); [|discriminate]. injection H0 as <- <-. reflexivity.
  - destruct (name_of rfc_static t n); [|discriminate]. injection H0 as <- <-. destruct k; reflexivity.
  - destruct (n <=? limit); [|discriminate]. injection H0 as <- <-. reflexivity.
Qed.

(* ---- what an encoded entry means to an RFC decoder ---- *)

(* The static table's misspelt name (C11). *)
Definition misspelt : list N := octets "accept-control-allow-origin".

Definition in_static_valued (h : header) : Prop := In h (map snd static_table_entries) /\ snd h <> [].

Lemma resolve_at : forall t i h, 1 <= i <= 61 -> resolve_in lib_static (rfc_table t) i = Some h -> fst h <> misspelt ->
  forall t', resolve t' i = Some h.
Proof.
  intros t i h B R NE t'. assert (N20 : i <> 20).
  { intros ->. unfold resolve_in in R. rewrite lib_static_len in R. cbn in R. injection R as <-. apply NE. reflexivity. }
  rewrite (resolve_lib_rfc _ _ N20) in R. rewrite <- R. apply resolve_static_any. lia.
Qed.

Lemma valued_not_misspelt : forall h, in_static_valued h -> fst h <> misspelt.
Proof.
  intros h [I NE] E. apply in_static in I. destruct I as [i R].
  assert (S : reverse_static_find (misspelt, []) = Some 20) by (vm_compute; reflexivity).
  assert (X : forallb (fun r => negb (bytes_eqb (fst (fst r)) misspelt) || bytes_eqb (snd (fst r)) []) reverse_static_table_entries = true)
    by (vm_compute; reflexivity).
  clear S. unfold reverse_static_find in R. revert R X. generalize reverse_static_table_entries as rows.
  induction rows as [|[h' j] rows IH]; intros R X; [discriminate|]. cbn [rev_find] in R. cbn [forallb fst snd] in X.
  apply andb_true_iff in X. destruct X as [X1 X2]. destruct (header_eqb h h') eqn:HE.
  - unfold header_eqb in HE. apply andb_true_iff in HE. destruct HE as [A B]. apply bytes_eqb_eq in A, B.
    rewrite <- A, <- B, E in X1. change (bytes_eqb misspelt misspelt) with true in X1. cbn [negb orb] in X1.
    apply bytes_eqb_eq in X1. contradiction.
  - exact (IH R X2).
Qed.

(* A header found in a table is sent as an index that means it: to every decoder
   if it is in the static table, to a decoder with this table otherwise. *)
Lemma indexed_means : forall p h mode t, p <> SizeUpdate -> in_tables t h ->
  exists out i, encode_header (HEntry p (EHeader h)) mode t = Ok out /\ rfc_repr out (RIndexed i) /\
    resolve (rfc_table t) i = Some h /\ (in_static_valued h -> forall t', resolve t' i = Some h).
Proof.
  intros p h mode t NP I.
  destruct (chosen_cases Never h t) as [(_ & i & C & R & RL & NZ)|(NI & _)]; [|contradiction].
  destruct (encode_index_indexed i) as (l & E & S & F). exists l, i. split; [|split; [|split]].
  - unfold chosen in C. unfold encode_header. cbn [e_prefix get_header e_content bind].
    replace (hprefix_eqb p SizeUpdate) with false by (destruct p; try reflexivity; contradiction).
    rewrite static_size.
    destruct (match reverse_static_find h with
              | Some i => if 0 <? size (snd h) then Some i else None | None => None end) as [j|].
    + inversion C; subst. exact E.
    + destruct (find_index (dt_entries t) h) as [j|]; [inversion C; subst; exact E|].
      destruct (reverse_static_find (fst h, [])); discriminate.
  - apply minimal_rfc. apply repr_indexed; assumption.
  - exact R.
  - intros [J NE] t'. assert (B : 1 <= i <= 61).
    { apply in_static in J. destruct J as [j J]. unfold chosen in C. rewrite J in C.
      destruct (N.ltb_spec 0 (size (snd h))) as [_|Z].
      - injection C as <-. eapply chosen_index_pos. exact J.
      - exfalso. apply NE. destruct (snd h); [reflexivity|]. rewrite size_cons in Z. lia. }
    eapply resolve_at; [exact B|exact RL|]. apply valued_not_misspelt. split; assumption.
Qed.

(* A header in neither table is sent as a literal that means it to every
   decoder. *)
Lemma literal_means : forall k h mode t, is_octets (fst h) -> is_octets (snd h) -> ~ in_tables t h ->
  fst h <> misspelt ->
  exists out n, encode_header (HEntry (lib_prefix k) (EHeader h)) mode t = Ok out /\
    rfc_repr out (RLiteral k n (snd h)) /\ (forall t', name_of rfc_static t' n = Some (fst h)).
Proof.
  intros k h mode t On Ov NI NM.
  destruct (chosen_cases k h t) as [(I & _)|(_ & n & C & N & D)]; [contradiction|].
  destruct (encode_header_spec k h mode t (octets_wf _ On) (octets_wf _ Ov)) as (out & E & M).
  exists out, n. split; [exact E|]. rewrite C in M. split; [apply minimal_rfc; exact M|].
  intros t'. destruct D as [->|(i & -> & B & R)]; [reflexivity|]. cbn [name_of].
  change (resolve_in rfc_static t' i) with (resolve t' i). rewrite (resolve_at t i (fst h, []) B R NM t'). reflexivity.
Qed.

Lemma size_means : forall n mode t, exists out, encode_header (HEntry SizeUpdate (ESize n)) mode t = Ok out /\
  rfc_repr out (RResize n).
Proof.
  intros n mode t. unfold encode_header. cbn [e_prefix get_max_size e_content bind].
  change (hprefix_eqb SizeUpdate SizeUpdate) with true. cbv iota. unfold encode_max_size.
  destruct (or_prefix 5 n 1 ltac:(unfold prefix_ok; lia)) as (l & E & S & F & _); [vm_compute; discriminate|].
  change (1 * 2 ^ 5) with 32 in *. change ((1 + 1) * 2 ^ 5) with 64 in F. change (prefix_val SizeUpdate) with 32.
  exists l. split; [exact E|]. apply minimal_rfc. apply repr_resize; assumption.
Qed.

(* ---- blocks ---- *)

(* The header can be sent as an index: from the static table, or from the
   dynamic table as long as the block has not changed it. *)
Definition available (changed : bool) (t : dyn_table) (h : header) : Prop :=
  in_static_valued h \/ (changed = false /\ In h (dt_entries t)).

Definition fresh (t : dyn_table) (h : header) : Prop :=
  ~ in_tables t h /\ fst h <> misspelt /\ is_octets (fst h) /\ is_octets (snd h).

(* Blocks the library encodes as RFC 7541 requires; t is the request table,
   max its current limit within the block. *)
Fixpoint plain_block (limit : N) (t : dyn_table) (max : N) (changed : bool) (b : header_block) : Prop :=
  match b with
  | [] => True
  | HEntry SizeUpdate (ESize n) :: b' => n <= limit /\ plain_block limit t n true b'
  | HEntry IncrementalIndexing (EHeader h) :: b' =>
      fresh t h /\ field_size h <= max /\ plain_block limit t max true b'
  | HEntry Indexed (EHeader h) :: b' => available changed t h /\ plain_block limit t max changed b'
  | HEntry (WithoutIndexing | NeverIndexed) (EHeader h) :: b' =>
      (available changed t h \/ fresh t h) /\ plain_block limit t max changed b'
  | _ :: _ => False
  end.

Lemma plain_fits : forall limit t b max changed, plain_block limit t max changed b -> inserts_fit max b.
Proof.
  induction b as [|[p [h|n]] b IH]; intros max changed H; [exact I|..]; destruct p; cbn [plain_block inserts_fit] in *;
    try contradiction; try (eapply IH; apply H). destruct H as (_ & L & H). split; [exact L|]. eapply IH. exact H.
Qed.

Lemma available_in : forall c t h, available c t h -> in_tables t h.
Proof. intros c t h [A|[_ A]]; [left; exact A|right; exact A]. Qed.

Lemma available_means : forall c t ts h i, available c t h -> (c = false -> ts = rfc_table t) ->
  resolve (rfc_table t) i = Some h -> (in_static_valued h -> forall t', resolve t' i = Some h) -> resolve ts i = Some h.
Proof. intros c t ts h i [A|[C A]] T R S; [apply S, A|]. rewrite (T C). exact R. Qed.

Lemma block_means : forall limit t mode b ts changed, plain_block limit t (t_max ts) changed b ->
  (changed = false -> ts = rfc_table t) ->
  exists raw, encode_block b mode t = Ok raw /\ rfc_block limit ts raw (fields_of b) (table_after ts b).
Proof.
  intros limit t mode. induction b as [|[p c] b IH]; intros ts changed P T.
  - exists []. split; [reflexivity|constructor].
  - assert (IX : forall p h, p <> SizeUpdate -> available changed t h -> plain_block limit t (t_max ts) changed b ->
      table_after ts (HEntry p (EHeader h) :: b) = table_after ts b ->
      exists raw, encode_block (HEntry p (EHeader h) :: b) mode t = Ok raw /\
        rfc_block limit ts raw (fields_of (HEntry p (EHeader h) :: b)) (table_after ts (HEntry p (EHeader h) :: b))).
    { intros p' h NP A P' TA. destruct (IH ts changed P' T) as (raw & E & R).
      destruct (indexed_means p' h mode t NP (available_in _ _ _ A)) as (out & i & E1 & R1 & S1 & S2).
      exists (out ++ raw). cbn [encode_block]. rewrite E1, E. split; [reflexivity|]. rewrite TA.
      change (fields_of (HEntry p' (EHeader h) :: b)) with (opt_cons (Some h) (fields_of b)).
      eapply rfc_block_cons; [exact R1| |exact R]. cbn [step_in].
      change (resolve_in rfc_static ts i) with (resolve ts i).
      rewrite (available_means changed t ts h i A T S1 S2). reflexivity. }
    assert (LIT : forall k h, fresh t h ->
      plain_block limit t (t_max ts) (match k with Incremental => true | _ => changed end) b ->
      exists raw, encode_block (HEntry (lib_prefix k) (EHeader h) :: b) mode t = Ok raw /\
        rfc_block limit ts raw (fields_of (HEntry (lib_prefix k) (EHeader h) :: b))
          (table_after ts (HEntry (lib_prefix k) (EHeader h) :: b))).
    { intros k h (NI & NM & On & Ov) P'.
      destruct (literal_means k h mode t On Ov NI NM) as (out & n & E1 & R1 & S1).
      assert (Q : exists raw, encode_block b mode t = Ok raw /\
        rfc_block limit (match k with Incremental => insert ts h | _ => ts end) raw (fields_of b)
          (table_after (match k with Incremental => insert ts h | _ => ts end) b)).
      { destruct k.
        - apply (IH (insert ts h) true P'). discriminate.
        - apply (IH ts changed P' T).
        - apply (IH ts changed P' T). }
      destruct Q as (raw & E & R). exists (out ++ raw). cbn [encode_block]. rewrite E1, E. split; [reflexivity|].
      change (fields_of (HEntry (lib_prefix k) (EHeader h) :: b)) with (opt_cons (Some h) (fields_of b)).
      replace (table_after ts (HEntry (lib_prefix k) (EHeader h) :: b))
        with (table_after (match k with Incremental => insert ts h | _ => ts end) b) by (destruct k; reflexivity).
      eapply rfc_block_cons; [exact R1| |exact R]. cbn [step_in]. rewrite S1. destruct h as [nm v]. reflexivity. }
    destruct p; destruct c as [h|n]; cbn [plain_block] in P; try contradiction.
    + destruct P as [[A|F] P]; [apply IX; try assumption; [discriminate|reflexivity]|exact (LIT Without h F P)].
    + destruct P as [[A|F] P]; [apply IX; try assumption; [discriminate|reflexivity]|exact (LIT Never h F P)].
    + destruct P as [L P]. destruct (IH (resize ts n) true P ltac:(discriminate)) as (raw & E & R).
      destruct (size_means n mode t) as (out & E1 & R1). exists (out ++ raw). cbn [encode_block]. rewrite E1, E.
      split; [reflexivity|]. cbn [table_after].
      change (fields_of (HEntry SizeUpdate (ESize n) :: b)) with (opt_cons (@None field) (fields_of b)).
      eapply rfc_block_cons; [exact R1| |exact R]. cbn [step_in]. destruct (N.leb_spec n limit); [reflexivity|lia].
    + destruct P as (F & L & P). exact (LIT Incremental h F P).
    + destruct P as [A P]. apply IX; try assumption; [discriminate|reflexivity].
Qed.
