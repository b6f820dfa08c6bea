(* Property C52, requests with any number of entries: exactly which of them work. *)
From Coq Require Import String.
From Coq Require Import ZArith NArith List Bool Lia ZifyBool ZifyNat ZifyN.
From Verif Require Import Base Arith Util IntRep Huffman StaticTable HeaderType DynTable HeaderEnc HeaderDec FrameHeader Frames FrameBuilder Ssl Client
  SpecBits SpecInt SpecHpack SpecFrame SpecUnique UtilProofs IntRepProofs DynTableProofs StaticProofs HeaderProofs HeaderProofs2 FrameProofs BlockProofs
  HistoryProofs PropHeader PropFrame PropBlock PropSsl PropClient PropHistory PropRequest PropRelay PropSingle.
Import ListNotations.
Local Open Scope string_scope.
Local Open Scope list_scope.
Local Open Scope N_scope.
Ltac Zify.zify_post_hook ::= Z.div_mod_to_equations.

(* ---------------------------------------------------------------- the specification *)

(* The newest entry that is h is the k-th. *)
Definition newest_at (entries : list field) (h : field) (k : nat) : Prop :=
  nth_error entries k = Some h /\ forall j, (j < k)%nat -> nth_error entries j <> Some h.

(* What a server with table t makes of a block submitted to a client whose
   request table was T when the frame was built: it reads every field as
   submitted and ends with table t'.  The client looks every field up in T, the
   table before the block; the server's table changes from field to field. *)
Inductive follows (limit : N) (T : dyn_table) : table -> header_block -> table -> Prop :=
| follows_nil : forall t, follows limit T t [] t
| follows_size : forall t n b t', n <= limit ->
    follows limit T (resize t n) b t' -> follows limit T t (HEntry SizeUpdate (ESize n) :: b) t'
| follows_static : forall t p h b t', p <> SizeUpdate -> In h (map snd static_table_entries) -> snd h <> [] ->
    follows limit T t b t' -> follows limit T t (HEntry p (EHeader h) :: b) t'
| follows_dynamic : forall t p h k b t', p <> SizeUpdate -> ~ (In h (map snd static_table_entries) /\ snd h <> []) ->
    newest_at (dt_entries T) h k -> nth_error (t_entries t) k = Some h ->
    follows limit T t b t' -> follows limit T t (HEntry p (EHeader h) :: b) t'
| follows_literal : forall t p h b t', p = WithoutIndexing \/ p = NeverIndexed -> ~ in_tables T h ->
    fst h <> octets "accept-control-allow-origin" ->
    follows limit T t b t' -> follows limit T t (HEntry p (EHeader h) :: b) t'
| follows_insert : forall t h b t', ~ in_tables T h -> fst h <> octets "accept-control-allow-origin" ->
    follows limit T (insert t h) b t' -> follows limit T t (HEntry IncrementalIndexing (EHeader h) :: b) t'.

(* INDEXED is asked for only for fields that are in a table (otherwise C21). *)
Definition indexed_present (T : dyn_table) (e : hentry) : Prop :=
  forall h, e = HEntry Indexed (EHeader h) -> in_tables T h.

(* ---------------------------------------------------------------- one entry *)

Lemma find_newest : forall es h i, find_index es h = Some i -> newest_at es h (N.to_nat i).
Proof.
  induction es as [|e es IH]; intros h i H; cbn [find_index] in H; [discriminate H|].
  destruct (header_eqb e h) eqn:E.
  - apply header_eqb_eq in E. subst e. injection H as <-. split; [reflexivity|]. intros j J. change (N.to_nat 0) with 0%nat in J. inversion J.
  - destruct (find_index es h) as [k|] eqn:F; [|discriminate H]. injection H as <-. destruct (IH h k F) as [A B].
    replace (N.to_nat (k + 1)) with (S (N.to_nat k)) by lia. split; [exact A|]. intros [|j] J.
    + cbn. intros X. injection X as ->. assert (T : header_eqb h h = true) by (apply header_eqb_eq; reflexivity). congruence.
    + cbn. apply B. lia.
Qed.

Lemma newest_unique : forall es h k k', newest_at es h k -> newest_at es h k' -> k = k'.
Proof.
  intros es h k k' [A B] [A' B']. destruct (Nat.lt_trichotomy k k') as [L|[L|L]]; [|exact L|].
  - exfalso. exact (B' k L A).
  - exfalso. exact (B k' L A').
Qed.

Lemma static_dec : forall h : header, (In h (map snd static_table_entries) /\ snd h <> []) \/ ~ (In h (map snd static_table_entries) /\ snd h <> []).
Proof.
  intros h. destruct (in_tables_dec (DynTable [] 0 0) h) as [I|I].
  - left. destruct I as [I|[]]. exact I.
  - right. intros X. apply I. left. exact X.
Qed.

Lemma dynamic_means : forall p h mode T, p <> SizeUpdate -> ~ (In h (map snd static_table_entries) /\ snd h <> []) ->
  In h (dt_entries T) -> exists k out, newest_at (dt_entries T) h k /\
    encode_header (HEntry p (EHeader h)) mode T = Ok out /\ rfc_repr out (RIndexed (62 + N.of_nat k)).
Proof.
  intros p h mode T NP NS I.
  destruct (find_index (dt_entries T) h) as [i|] eqn:F; [|exfalso; exact (HeaderProofs.find_index_none _ _ F I)].
  exists (N.to_nat i). rewrite N2Nat.id. destruct (encode_index_indexed (62 + i)) as (l & E & S & X). exists l.
  split; [apply find_newest; exact F|]. split; [|apply minimal_rfc, repr_indexed; assumption].
  unfold encode_header. cbn [e_prefix get_header e_content bind].
  replace (hprefix_eqb p SizeUpdate) with false by (destruct p; try reflexivity; contradiction).
  replace (match reverse_static_find h with
     | Some i => if 0 <? size (snd h) then Some i else None | None => None end) with (@None N).
  - rewrite F, static_size. exact E.
  - destruct (reverse_static_find h) eqn:R; [|reflexivity]. destruct (N.ltb_spec 0 (size (snd h))) as [L|L]; [|reflexivity].
    exfalso. apply NS. split; [apply in_static; eauto|]. intros Z. rewrite Z in L. rewrite size_nil in L. lia.
Qed.

Lemma resolve_dynamic : forall t k, resolve t (62 + N.of_nat k) = nth_error (t_entries t) k.
Proof.
  intros t k. unfold resolve, resolve_in. change (N.of_nat (length rfc_static)) with 61.
  destruct (N.eqb_spec (62 + N.of_nat k) 0) as [Z|_]; [lia|]. destruct (N.leb_spec (62 + N.of_nat k) 61) as [Z|_]; [lia|].
  f_equal. lia.
Qed.

Lemma misspelt_means : forall k h mode T, is_octets (snd h) -> ~ in_tables T h -> fst h = octets "accept-control-allow-origin" ->
  exists out, encode_header (HEntry (lib_prefix k) (EHeader h)) mode T = Ok out /\ rfc_repr out (RLiteral k (NameIndex 20) (snd h)).
Proof.
  intros k [n v] mode T Ov NI EN. cbn [fst snd] in *. subst n. set (h := (octets "accept-control-allow-origin", v)) in *.
  assert (On : is_octets (fst h)) by (apply octets_dec; reflexivity).
  destruct (encode_header_spec k h mode T (octets_wf _ On) (octets_wf _ Ov)) as (out & E & M).
  destruct (chosen_cases k h T) as [(I & _)|(_ & n & C & _ & D)]; [contradiction|]. rewrite C in M.
  assert (N20 : n = NameIndex 20).
  { unfold chosen in C.
    assert (X : reverse_static_find (fst h, []) = Some 20) by (vm_compute; reflexivity).
    rewrite X in C.
    destruct (match reverse_static_find h with Some i => if 0 <? size (snd h) then Some i else None | None => None end); [discriminate|].
    destruct (find_index (dt_entries T) h); [discriminate|]. injection C as <-. reflexivity. }
  subst n. exists out. split; [exact E|]. apply minimal_rfc. exact M.
Qed.

(* The first representation of what a server reads. *)
Lemma block_first : forall limit t l r ls fs t', rfc_repr l r -> rfc_block limit t (l ++ ls) fs t' ->
  exists o t1 fs', step_in rfc_static limit t r = Some (o, t1) /\ fs = opt_cons o fs' /\ rfc_block limit t1 ls fs' t'.
Proof.
  intros limit t l r ls fs t' R H. remember (l ++ ls) as raw eqn:E. destruct H as [t|t l0 r0 o t1 ls0 fs t2 R0 S H].
  - symmetry in E. apply app_eq_nil in E. destruct E as [-> _]. exfalso. exact (repr_nonempty _ _ R eq_refl).
  - destruct (repr_unique _ _ _ _ _ _ R0 R E) as (-> & -> & ->). exists o, t1, fs. auto.
Qed.

(* ---------------------------------------------------------------- blocks *)

Lemma prefix_kind : forall p, p <> SizeUpdate -> p = Indexed \/ exists k, p = lib_prefix k.
Proof. intros [] NP; try contradiction; [right; exists Without|right; exists Never|right; exists Incremental|left]; reflexivity. Qed.

Lemma follows_read : forall limit T mode b t t', Forall octets_entry b -> follows limit T t b t' ->
  exists raw, encode_block b mode T = Ok raw /\ rfc_block limit t raw (fields_of b) t'.
Proof.
  intros limit T mode b t t' O F. induction F as [t|t n b t' L F IH|t p h b t' NP I V F IH|t p h k b t' NP NS NW AT F IH|t p h b t' PK NI NM F IH|t h b t' NI NM F IH].
  - exists []. split; [reflexivity|constructor].
  - inversion O; subst. destruct (IH H2) as (raw & E & R). destruct (size_means n mode T) as (out & E1 & R1).
    exists (out ++ raw). cbn [encode_block]. rewrite E1, E. split; [reflexivity|].
    change (fields_of (HEntry SizeUpdate (ESize n) :: b)) with (opt_cons (@None field) (fields_of b)).
    eapply rfc_block_cons; [exact R1| |exact R]. cbn [step_in]. destruct (N.leb_spec n limit); [reflexivity|lia].
  - inversion O; subst. destruct (IH H2) as (raw & E & R).
    destruct (indexed_means p h mode T NP (or_introl (conj I V))) as (out & i & E1 & R1 & _ & S).
    exists (out ++ raw). cbn [encode_block]. rewrite E1, E. split; [reflexivity|].
    change (fields_of (HEntry p (EHeader h) :: b)) with (opt_cons (Some h) (fields_of b)).
    eapply rfc_block_cons; [exact R1| |exact R]. cbn [step_in]. change (resolve_in rfc_static t i) with (resolve t i).
    rewrite (S (conj I V) t). reflexivity.
  - inversion O; subst. destruct (IH H2) as (raw & E & R).
    destruct (dynamic_means p h mode T NP NS (nth_error_In _ _ (proj1 NW))) as (k' & out & NW' & E1 & R1).
    rewrite (newest_unique _ _ _ _ NW' NW) in R1.
    exists (out ++ raw). cbn [encode_block]. rewrite E1, E. split; [reflexivity|].
    change (fields_of (HEntry p (EHeader h) :: b)) with (opt_cons (Some h) (fields_of b)).
    eapply rfc_block_cons; [exact R1| |exact R]. unfold step_in. change (resolve_in rfc_static t) with (resolve t).
    rewrite resolve_dynamic, AT. reflexivity.
  - inversion O as [|x y Oe Ob]; subst. destruct (IH Ob) as (raw & E & R). destruct Oe as [On Ov]. cbn [e_content] in On, Ov.
    assert (PX : exists k, p = lib_prefix k /\ k <> Incremental).
    { destruct PK as [-> | ->]; [exists Without|exists Never]; split; reflexivity || discriminate. }
    destruct PX as (k & -> & NK).
    destruct (literal_means k h mode T On Ov NI NM) as (out & n & E1 & R1 & S).
    exists (out ++ raw). cbn [encode_block]. rewrite E1, E. split; [reflexivity|].
    change (fields_of (HEntry (lib_prefix k) (EHeader h) :: b)) with (opt_cons (Some h) (fields_of b)).
    eapply rfc_block_cons; [exact R1| |exact R]. cbn [step_in]. rewrite S. destruct h as [nm v]. destruct k; [contradiction|reflexivity|reflexivity].
  - inversion O as [|x y Oe Ob]; subst. destruct (IH Ob) as (raw & E & R). destruct Oe as [On Ov]. cbn [e_content] in On, Ov.
    destruct (literal_means Incremental h mode T On Ov NI NM) as (out & n & E1 & R1 & S).
    exists (out ++ raw). change IncrementalIndexing with (lib_prefix Incremental). cbn [encode_block]. rewrite E1, E. split; [reflexivity|].
    change (fields_of (HEntry (lib_prefix Incremental) (EHeader h) :: b)) with (opt_cons (Some h) (fields_of b)).
    eapply rfc_block_cons; [exact R1| |exact R]. cbn [step_in]. rewrite S. destruct h as [nm v]. reflexivity.
Qed.

(* The octets of a block, and others after them. *)
Lemma read_follows_more : forall limit T mode more gs b t t' raw, Forall octets_entry b -> Forall (indexed_present T) b ->
  encode_block b mode T = Ok raw -> rfc_block limit t (raw ++ more) (fields_of b ++ gs) t' ->
  exists t1, follows limit T t b t1 /\ rfc_block limit t1 more gs t'.
Proof.
  intros limit T mode more gs. induction b as [|[p c] b IH]; intros t t' raw O P E R.
  - apply Ok_inj in E. subst raw. exists t. split; [constructor|exact R].
  - cbn [encode_block] in E. apply bind_ok in E. destruct E as (out & E1 & E). apply bind_ok in E. destruct E as (raw' & E2 & E).
    apply Ok_inj in E. subst raw. rewrite <- app_assoc in R. inversion O as [|x y Oe Ob]; subst. inversion P as [|x y Pe Pb]; subst.
    destruct c as [h|n].
    + change (fields_of (HEntry p (EHeader h) :: b) ++ gs) with (h :: fields_of b ++ gs) in R.
      assert (NP : p <> SizeUpdate).
      { intros ->. discriminate E1. }
      destruct Oe as [On Ov]. cbn [e_content] in On, Ov.
      destruct (in_tables_dec T h) as [I|NI].
      * destruct (static_dec h) as [[IS V]|NS].
        -- destruct (indexed_means p h mode T NP I) as (o1 & i & X & R1 & _ & S). rewrite E1 in X. apply Ok_inj in X. subst o1.
           destruct (block_first _ _ _ _ _ _ _ R1 R) as (o & t1 & fs' & ST & FS & R2). cbn [step_in] in ST.
           change (resolve_in rfc_static t i) with (resolve t i) in ST. rewrite (S (conj IS V) t) in ST. injection ST as <- <-.
           cbn [opt_cons] in FS. injection FS as <-. destruct (IH _ _ _ Ob Pb E2 R2) as (t2 & F & M). exists t2. split; [|exact M]. apply follows_static; assumption.
        -- destruct I as [I|I]; [exfalso; exact (NS I)|].
           destruct (dynamic_means p h mode T NP NS I) as (k & o1 & NW & X & R1). rewrite E1 in X. apply Ok_inj in X. subst o1.
           destruct (block_first _ _ _ _ _ _ _ R1 R) as (o & t1 & fs' & ST & FS & R2). unfold step_in in ST.
           change (resolve_in rfc_static t) with (resolve t) in ST. rewrite resolve_dynamic in ST.
           destruct (nth_error (t_entries t) k) as [f|] eqn:AT; [|discriminate ST]. injection ST as <- <-.
           cbn [opt_cons] in FS. injection FS as -> <-. destruct (IH _ _ _ Ob Pb E2 R2) as (t2 & F & M). exists t2. split; [|exact M]. eapply follows_dynamic; eassumption.
      * assert (PX : exists k, p = lib_prefix k).
        { destruct (prefix_kind p NP) as [->|K]; [exfalso; apply NI; apply Pe; reflexivity|exact K]. }
        destruct PX as (k & ->).
        destruct (list_eq_dec N.eq_dec (fst h) (octets "accept-control-allow-origin")) as [M|NM].
        -- exfalso. destruct (misspelt_means k h mode T Ov NI M) as (o1 & X & R1). rewrite E1 in X. apply Ok_inj in X. subst o1.
           destruct (block_first _ _ _ _ _ _ _ R1 R) as (o & t1 & fs' & ST & FS & R2). cbn [step_in] in ST.
           assert (N20 : name_of rfc_static t (NameIndex 20) = Some (octets "access-control-allow-origin")).
           { cbn [name_of]. change (resolve_in rfc_static t 20) with (resolve t 20).
             rewrite (resolve_static_any t (Table 0 []) 20) by lia. reflexivity. }
           rewrite N20 in ST. apply (f_equal (option_map fst)) in ST. cbn [option_map fst] in ST.
           assert (Q : o = Some (octets "access-control-allow-origin", snd h)) by congruence. subst o.
           cbn [opt_cons] in FS. apply (f_equal (fun l => match l with x :: _ => fst x | [] => [] end)) in FS. cbn [fst] in FS.
           rewrite M in FS. discriminate FS.
        -- destruct (literal_means k h mode T On Ov NI NM) as (o1 & n & X & R1 & S). rewrite E1 in X. apply Ok_inj in X. subst o1.
           destruct (block_first _ _ _ _ _ _ _ R1 R) as (o & t1 & fs' & ST & FS & R2). cbn [step_in] in ST. rewrite S in ST.
           injection ST as <- <-. cbn [opt_cons] in FS. destruct h as [nm v]. cbn [fst snd] in *.
           assert (Q : fs' = fields_of b ++ gs) by congruence. subst fs'. clear FS. destruct (IH _ _ _ Ob Pb E2 R2) as (t2 & F & M). exists t2. split; [|exact M].
           destruct k; cbn [lib_prefix].
           ++ apply follows_insert; assumption.
           ++ apply follows_literal; try assumption. left. reflexivity.
           ++ apply follows_literal; try assumption. right. reflexivity.
    + change (fields_of (HEntry p (ESize n) :: b) ++ gs) with (fields_of b ++ gs) in R.
      destruct p; try discriminate E1. destruct (size_means n mode T) as (o1 & X & R1). rewrite E1 in X. apply Ok_inj in X. subst o1.
      destruct (block_first _ _ _ _ _ _ _ R1 R) as (o & t1 & fs' & ST & FS & R2). cbn [step_in] in ST.
      destruct (N.leb_spec n limit) as [L|L]; [|discriminate ST]. injection ST as <- <-. cbn [opt_cons] in FS. subst fs'.
      destruct (IH _ _ _ Ob Pb E2 R2) as (t2 & F & M). exists t2. split; [|exact M]. apply follows_size; assumption.
Qed.

Lemma read_follows : forall limit T mode b t t' raw, Forall octets_entry b -> Forall (indexed_present T) b ->
  encode_block b mode T = Ok raw -> rfc_block limit t raw (fields_of b) t' -> follows limit T t b t'.
Proof.
  intros limit T mode b t t' raw O P E R. rewrite <- (app_nil_r raw), <- (app_nil_r (fields_of b)) in R.
  destruct (read_follows_more limit T mode [] [] b t t' raw O P E R) as (t1 & F & M).
  inversion M as [t0|t0 l r o t2 ls fs t3 R0 S H E1 E2 E3 E4]; subst; [exact F|].
  exfalso. apply app_eq_nil in E2. destruct E2 as [-> _]. exact (repr_nonempty _ _ R0 eq_refl).
Qed.

(* The table update succeeds only if every field fits. *)
Lemma update_fits : forall b T T', dt_ok T -> update_block T b = (Ok tt, T') -> inserts_fit (dt_max T) b.
Proof.
  induction b as [|[p c] b IH]; intros T T' K U; [exact I|]. cbn [update_block] in U. unfold update_entry in U. cbn [e_prefix] in U.
  destruct p; cbn [inserts_fit]; try (eapply IH; eassumption).
  - destruct c as [h|n]; [discriminate U|]. cbn [get_max_size e_content bind] in U.
    destruct (dt_update_size T n) as [t1|x|u|] eqn:D; try discriminate U.
    destruct (dt_update_ok T n t1 K D) as (K1 & _ & M1). rewrite <- M1. eapply IH; eassumption.
  - destruct c as [h|n]; [|discriminate U]. cbn [get_header e_content bind] in U.
    pose proof (dt_push_spec T h K) as S. rewrite entry_size_eq in S.
    destruct (dt_push T h) as [t1|x|u|] eqn:D; try discriminate U.
    destruct (dt_push_ok T h t1 K D) as (K1 & _ & _ & M1).
    destruct (N.leb_spec (field_size h) (dt_max T)) as [L|L]; [|discriminate S].
    split; [exact L|]. rewrite <- M1. eapply IH; eassumption.
Qed.

Lemma not_encoded : forall host limit T q, (forall raw, encode_block (q_block q) (q_mode q) T <> Ok raw) -> ~ C52_step host limit T q.
Proof.
  intros host limit T q NR (out & C). pose (n := N.to_nat (size out)).
  destruct (C (Client (Tls [] [] (repeat (Chunk 0) n)) T default_table) eq_refl) as (c' & P & _).
  { exists (repeat (Chunk 0) n), []. rewrite app_nil_r. split; [reflexivity|]. split.
    - apply Forall_forall. intros x I. apply repeat_spec in I. subst. discriminate.
    - unfold size at 2. rewrite repeat_length. lia. }
  assert (NP : forall x, mk_headers (q_flags q) (q_stream q) (q_block q) (q_mode q) T (q_padding q)
    (Prio (q_exclusive q) (q_dependency q) (q_weight q)) <> Ok x).
  { intros x M. unfold mk_headers, headers_construct_payload in M.
    destruct (if is_flag_set (q_flags q) F_PRIORITY then _ else _); try discriminate M.
    destruct (encode_block (q_block q) (q_mode q) T) as [raw| | |]; try discriminate M. exact (NR raw eq_refl). }
  unfold perform, get_request_dynamic_table in P. cbn [c_req] in P.
  destruct (mk_headers _ _ _ _ _ _ _) as [x| | |]; try discriminate P. exact (NP x eq_refl).
Qed.

(* A request is read as submitted, with equal tables afterwards, exactly when
   its insertions fit and a server that starts with the client's table follows
   the block to the table the client ends with. *)
Theorem C52_block_partial : forall host limit T q, dt_ok T -> request_ok (Table (dt_max T) (dt_entries T)) q ->
  Forall octets_entry (q_block q) -> Forall (indexed_present T) (q_block q) ->
  let t := Table (dt_max T) (dt_entries T) in
  (C52_step host limit T q <->
   inserts_fit (dt_max T) (q_block q) /\ follows limit T t (q_block q) (table_after t (q_block q))).
Proof.
  intros host limit T q K Q O P t. fold (rfc_table T) in Q. change t with (rfc_table T). clear t. split.
  - intros S. destruct (encode_block (q_block q) (q_mode q) T) as [raw|x|u|] eqn:E;
      try (exfalso; refine (not_encoded host limit T q _ S); intros r; rewrite E; discriminate).
    apply (step_exact host limit T q raw K Q E) in S. destruct S as (T' & U & R).
    pose proof (update_fits _ _ _ K U) as F. split; [exact F|].
    destruct (update_block_spec (q_block q) T K F) as (T2 & U2 & _ & R2). rewrite U in U2. injection U2 as <-. rewrite <- R2.
    eapply read_follows; eassumption.
  - intros [F W]. destruct (follows_read limit T (q_mode q) _ _ _ O W) as (raw & E & R).
    apply (step_exact host limit T q raw K Q E). destruct (update_block_spec (q_block q) T K F) as (T2 & U2 & _ & R2).
    exists T2. split; [exact U2|]. rewrite R2. exact R.
Qed.

(* ---------------------------------------------------------------- references after an insertion *)

Lemma keep_firstn : forall n l, exists m, keep n l = firstn m l.
Proof.
  intros n l. revert n. induction l as [|f l IH]; intros n; [exists 0%nat; reflexivity|]. cbn [keep].
  destruct (field_size f <=? n); [|exists 0%nat; reflexivity]. destruct (IH (n - field_size f)) as (m & ->). exists (S m). reflexivity.
Qed.

(* The server's table is what is left of the client's old entries behind new ones. *)
Definition behind (T : dyn_table) (new : list field) (t : table) : Prop :=
  exists m, t_entries t = firstn m (new ++ dt_entries T).

Lemma behind_resize : forall T new t n, behind T new t -> behind T new (resize t n).
Proof.
  intros T new t n (m & E). unfold resize, behind. cbn [t_entries]. rewrite E. destruct (keep_firstn n (firstn m (new ++ dt_entries T))) as (k & ->).
  exists (Nat.min k m). apply firstn_firstn.
Qed.

Lemma behind_insert : forall T new t h, behind T new t -> behind T (h :: new) (insert t h).
Proof.
  intros T new t h (m & E). unfold insert, behind. cbn [t_entries]. rewrite E.
  destruct (keep_firstn (t_max t) (h :: firstn m (new ++ dt_entries T))) as (k & ->).
  change (h :: firstn m (new ++ dt_entries T)) with (firstn (S m) ((h :: new) ++ dt_entries T)).
  exists (Nat.min k (S m)). apply firstn_firstn.
Qed.

Lemma behind_other : forall T new t e k, behind T new t -> new <> [] -> Forall (fun h => ~ in_tables T h) new ->
  newest_at (dt_entries T) e k -> nth_error (t_entries t) k <> Some e.
Proof.
  intros T new t e k (m & E) NN F [A B] X. rewrite E in X.
  assert (X2 : nth_error (new ++ dt_entries T) k = Some e).
  { rewrite <- (firstn_skipn m (new ++ dt_entries T)), nth_error_app1; [exact X|]. apply nth_error_Some. rewrite X. discriminate. }
  destruct (Nat.lt_ge_cases k (length new)) as [L|L].
  - rewrite nth_error_app1 in X2 by exact L. apply nth_error_In in X2. rewrite Forall_forall in F. apply (F e X2).
    right. exact (nth_error_In _ _ A).
  - rewrite nth_error_app2 in X2 by exact L. apply (B (k - length new)%nat); [|exact X2].
    destruct new as [|x new]; [contradiction|]. cbn [length] in *. lia.
Qed.

Lemma follows_stale : forall limit T b t t' new, follows limit T t b t' -> behind T new t -> Forall (fun h => ~ in_tables T h) new ->
  forall e p b1 b2, b = b1 ++ HEntry p (EHeader e) :: b2 -> p <> SizeUpdate -> In e (dt_entries T) ->
    ~ (In e (map snd static_table_entries) /\ snd e <> []) ->
    (new <> [] \/ exists h b3 b4, b1 = b3 ++ HEntry IncrementalIndexing (EHeader h) :: b4 /\ ~ in_tables T h) -> False.
Proof.
  intros limit T b t t' new F. revert new. induction F as [t|t n b t' L F IH|t p0 h b t' NP I V F IH|t p0 h k b t' NP NS NW AT F IH|t p0 h b t' PK NI NM F IH|t h b t' NI NM F IH];
    intros new BH FN e p b1 b2 E PS IE NSE D.
  - destruct b1; discriminate E.
  - destruct b1 as [|x b1]; [injection E as <- X _; discriminate X|]. injection E as <- ->.
    apply (IH new) with (e := e) (p := p) (b1 := b1) (b2 := b2); try assumption; try reflexivity; [apply behind_resize; exact BH|].
    destruct D as [D|(g & [|y b3] & b4 & Q & G)]; [left; exact D|discriminate Q|]. injection Q as <- ->. right. exists g, b3, b4. auto.
  - destruct b1 as [|x b1]; [injection E as -> -> _; apply NSE; auto|]. injection E as <- ->.
    apply (IH new) with (e := e) (p := p) (b1 := b1) (b2 := b2); try assumption; try reflexivity.
    destruct D as [D|(g & [|y b3] & b4 & Q & G)]; [left; exact D| |].
    + injection Q as _ -> _. exfalso. apply G. left. auto.
    + injection Q as <- ->. right. exists g, b3, b4. auto.
  - destruct b1 as [|x b1].
    + injection E as -> -> _. destruct D as [D|(g & [|y b3] & b4 & Q & G)]; try discriminate Q.
      exact (behind_other _ _ _ _ _ BH D FN NW AT).
    + injection E as <- ->. apply (IH new) with (e := e) (p := p) (b1 := b1) (b2 := b2); try assumption; try reflexivity.
      destruct D as [D|(g & [|y b3] & b4 & Q & G)]; [left; exact D| |].
      * injection Q as _ -> _. exfalso. apply G. right. exact (nth_error_In _ _ (proj1 NW)).
      * injection Q as <- ->. right. exists g, b3, b4. auto.
  - destruct b1 as [|x b1]; [injection E as -> -> _; apply NI; right; exact IE|]. injection E as <- ->.
    apply (IH new) with (e := e) (p := p) (b1 := b1) (b2 := b2); try assumption; try reflexivity.
    destruct D as [D|(g & [|y b3] & b4 & Q & G)]; [left; exact D| |].
    + injection Q as -> _ _. destruct PK as [X|X]; discriminate X.
    + injection Q as <- ->. right. exists g, b3, b4. auto.
  - destruct b1 as [|x b1]; [injection E as _ -> _; apply NI; right; exact IE|]. injection E as <- ->.
    apply (IH (h :: new)) with (e := e) (p := p) (b1 := b1) (b2 := b2); try assumption; try reflexivity.
    + apply behind_insert; exact BH.
    + constructor; assumption.
    + left. discriminate.
Qed.

(* Wherever in a request a new field is submitted with indexing, a field of the
   request table mentioned anywhere after it (and in no entry of the static
   table) is misread by the server, or the request is not read at all. *)
Theorem C52_stale_refuted : forall host limit T q h e p b1 b2 b3, dt_ok T -> request_ok (Table (dt_max T) (dt_entries T)) q ->
  Forall octets_entry (q_block q) -> Forall (indexed_present T) (q_block q) ->
  q_block q = b1 ++ HEntry IncrementalIndexing (EHeader h) :: b2 ++ HEntry p (EHeader e) :: b3 -> p <> SizeUpdate ->
  ~ in_tables T h -> In e (dt_entries T) -> ~ (In e (map snd static_table_entries) /\ snd e <> []) ->
  ~ C52_step host limit T q.
Proof.
  intros host limit T q h e p b1 b2 b3 K Q O P B PS NI IE NS S.
  apply (C52_block_partial host limit T q K Q O P) in S. destruct S as [_ W].
  refine (follows_stale limit T _ _ _ [] W _ (Forall_nil _) e p (b1 ++ HEntry IncrementalIndexing (EHeader h) :: b2) b3 _ PS IE NS _).
  - exists (length (dt_entries T)). cbn [t_entries app]. rewrite firstn_all. reflexivity.
  - rewrite B, <- app_assoc. reflexivity.
  - right. exists h, b1, b2. split; [reflexivity|exact NI].
Qed.


(* A block that works although it inserts: the reference is before the
   insertion, and the dropped entry is not mentioned.  The same block the other
   way round does not work. *)
Example C52_block_case : let T := DynTable [([97], [98]); ([99], [100])] 68 100 in
  let good := [HEntry Indexed (EHeader ([99], [100])); HEntry NeverIndexed (EHeader (octets ":method", octets "GET"));
               HEntry IncrementalIndexing (EHeader ([101], [102])); HEntry WithoutIndexing (EHeader ([103], []))] in
  let bad := [HEntry IncrementalIndexing (EHeader ([101], [102])); HEntry Indexed (EHeader ([99], [100]))] in
  dt_ok T /\ request_ok (Table (dt_max T) (dt_entries T)) (ask 1 good) /\ request_ok (Table (dt_max T) (dt_entries T)) (ask 1 bad) /\
  table_after (Table (dt_max T) (dt_entries T)) good = Table 100 [([101], [102]); ([97], [98])] /\
  (forall host, C52_step host 4096 T (ask 1 good)) /\ (forall host, ~ C52_step host 4096 T (ask 1 bad)).
Proof.
  cbv zeta. set (T := DynTable [([97], [98]); ([99], [100])] 68 100).
  assert (K : dt_ok T) by (split; [reflexivity|discriminate]).
  assert (NS : ~ (In ([99], [100]) (map snd static_table_entries) /\ [100] <> [])).
  { intros X. assert (Y : ~ in_tables (DynTable [] 0 0) ([99], [100])) by (apply in_tablesb_false; vm_compute; reflexivity).
    apply Y. left. exact X. }
  assert (NI : ~ in_tables T ([101], [102])) by (apply in_tablesb_false; vm_compute; reflexivity).
  split; [exact K|]. do 2 (split; [eapply request_okb; [vm_compute; reflexivity|vm_compute; reflexivity]|]).
  split; [vm_compute; reflexivity|]. split; intros host.
  - apply C52_block_partial; [exact K|eapply request_okb; [vm_compute; reflexivity|vm_compute; reflexivity]| | |].
    + repeat (apply Forall_cons; [split; apply octets_dec; reflexivity|]). apply Forall_nil.
    + repeat (apply Forall_cons; [intros h E; try discriminate E; injection E as <-; right; right; left; reflexivity|]). apply Forall_nil.
    + split; [vm_compute; repeat split; discriminate|].
      apply follows_dynamic with (k := 1%nat); [discriminate|exact NS| |reflexivity|].
      * split; [reflexivity|]. intros [|j] J; [discriminate|lia].
      * apply follows_static; [discriminate|vm_compute; right; left; reflexivity|discriminate|].
        apply follows_insert; [exact NI|discriminate|]. apply follows_literal; [left; reflexivity| |discriminate|].
        -- apply in_tablesb_false. vm_compute. reflexivity.
        -- constructor.
  - apply C52_stale_refuted with (h := ([101], [102])) (e := ([99], [100])) (p := Indexed) (b1 := []) (b2 := []) (b3 := []);
      try assumption; try reflexivity; try discriminate.
    + eapply request_okb; [vm_compute; reflexivity|vm_compute; reflexivity].
    + repeat (apply Forall_cons; [split; apply octets_dec; reflexivity|]). apply Forall_nil.
    + repeat (apply Forall_cons; [intros h E; try discriminate E; injection E as <-; right; right; left; reflexivity|]). apply Forall_nil.
    + right. left. reflexivity.
Qed.

Print Assumptions C52_block_partial.
Print Assumptions C52_stale_refuted.
