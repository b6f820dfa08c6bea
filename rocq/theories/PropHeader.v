(* Properties C18 - C28 (header fields and header blocks). *)
From Coq Require Import String.
From Coq Require Import ZArith NArith List Bool Lia ZifyBool ZifyNat ZifyN.
From Verif Require Import Base Arith Util IntRep Huffman StaticTable HeaderType DynTable HeaderEnc HeaderDec
  FrameHeader Frames SpecBits SpecHuffman SpecInt SpecHpack
  IntRepProofs IntSpecProofs UtilProofs HuffmanProofs HuffmanDecProofs DynTableProofs StaticProofs
  HeaderProofs HeaderProofs2.
Import ListNotations.
Local Open Scope string_scope.
Local Open Scope list_scope.
Local Open Scope N_scope.
Ltac Zify.zify_post_hook ::= Z.div_mod_to_equations.

(* The library's name for each literal representation is lib_prefix
   (HeaderProofs): Incremental is INCREMENTAL_INDEXING and so on. *)

(* h is in the static table (with a non-empty value) or in the dynamic table. *)
Definition in_tables (t : dyn_table) (h : header) : Prop :=
  (In h (map snd static_table_entries) /\ snd h <> []) \/ In h (dt_entries t).

Lemma in_static : forall h, In h (map snd static_table_entries) <-> exists i, reverse_static_find h = Some i.
Proof.
  intros h. split.
  - intros I. apply (In_nth_error lib_static) in I. destruct I as [k K].
    exists (N.of_nat k + 1). apply static_inverse. rewrite lib_static_nth.
    + replace (N.to_nat (N.of_nat k + 1 - 1)) with k by lia. exact K.
    + assert (k < length lib_static)%nat by (apply nth_error_Some; congruence).
      rewrite lib_static_len in H. lia.
  - intros [i H]. apply static_inverse, map_find_in in H. apply in_map_iff. exists (i, h). auto.
Qed.

(* The two cases of the encoder's choice. *)
Lemma chosen_cases : forall k h t,
  (in_tables t h /\ exists i, chosen k h t = RIndexed i /\ resolve (rfc_table t) i = Some h /\
     resolve_in lib_static (rfc_table t) i = Some h /\ i <> 0) \/
  (~ in_tables t h /\ exists n, chosen k h t = RLiteral k n (snd h) /\
     name_of lib_static (rfc_table t) n = Some (fst h) /\
     (n = NameLiteral (fst h) \/ exists i, n = NameIndex i /\ 1 <= i <= 61 /\
        resolve_in lib_static (rfc_table t) i = Some (fst h, []))).
Proof.
  intros k h t. unfold chosen.
  assert (ST : forall h' i, reverse_static_find h' = Some i -> 1 <= i <= 61 /\
    resolve_in lib_static (rfc_table t) i = Some h').
  { intros h' i R. pose proof (chosen_index_pos _ _ R) as B. split; [exact B|].
    apply static_inverse in R. unfold resolve_in. rewrite lib_static_len.
    destruct (N.eqb_spec i 0); [lia|]. change (N.of_nat 61) with 61. destruct (N.leb_spec i 61); [|lia].
    rewrite <- lib_static_nth by lia. exact R. }
  assert (N20 : forall i, reverse_static_find h = Some i -> snd h <> [] -> i <> 20).
  { intros i R NE ->. apply static_inverse in R. vm_compute in R. inversion R; subst. apply NE. reflexivity. }
  destruct (reverse_static_find h) as [i|] eqn:R.
  - destruct (N.ltb_spec 0 (size (snd h))) as [S|S].
    + left. assert (NE : snd h <> []) by (intros E; rewrite E in S; cbn in S; lia). split.
      * left. split; [apply in_static; eauto|exact NE].
      * exists i. destruct (ST h i R) as [B E]. repeat split; try assumption; try lia.
        rewrite <- resolve_lib_rfc; [exact E|]. apply N20; [reflexivity|exact NE].
    + assert (NE : snd h = []) by (destruct (snd h); [reflexivity|rewrite size_cons in S; lia]).
      destruct (find_index (dt_entries t) h) as [j|] eqn:F.
      * left. split; [right; apply find_index_some in F; eapply nth_error_In; eassumption|].
        exists (62 + j). apply find_index_some in F.
        assert (E : resolve_in lib_static (rfc_table t) (62 + j) = Some h).
        { unfold resolve_in. rewrite lib_static_len. change (N.of_nat 61) with 61.
          destruct (N.eqb_spec (62 + j) 0); [lia|]. destruct (N.leb_spec (62 + j) 61); [lia|].
          replace (62 + j - 1 - 61) with j by lia. exact F. }
        repeat split; try exact E; try lia. rewrite <- resolve_lib_rfc; [exact E|lia].
      * right. split.
        { intros [[_ X]|X]; [contradiction|]. apply find_index_none in F. contradiction. }
        assert (HH : h = (fst h, [])) by (rewrite <- NE; apply surjective_pairing).
        assert (R2 : reverse_static_find (fst h, []) = Some i) by (rewrite <- HH; exact R).
        rewrite R2. exists (NameIndex i). destruct (ST (fst h, []) i R2) as [B E].
        split; [reflexivity|]. split; [cbn [name_of]; rewrite E; reflexivity|]. right. eauto.
  - destruct (find_index (dt_entries t) h) as [j|] eqn:F.
    + left. split; [right; apply find_index_some in F; eapply nth_error_In; eassumption|].
      exists (62 + j). apply find_index_some in F.
      assert (E : resolve_in lib_static (rfc_table t) (62 + j) = Some h).
      { unfold resolve_in. rewrite lib_static_len. change (N.of_nat 61) with 61.
        destruct (N.eqb_spec (62 + j) 0); [lia|]. destruct (N.leb_spec (62 + j) 61); [lia|].
        replace (62 + j - 1 - 61) with j by lia. exact F. }
      repeat split; try exact E; try lia. rewrite <- resolve_lib_rfc; [exact E|lia].
    + right. split.
      { intros [[X _]|X]; [apply in_static in X; destruct X; congruence|].
        apply find_index_none in F. contradiction. }
      destruct (reverse_static_find (fst h, [])) as [i|] eqn:R2.
      * exists (NameIndex i). destruct (ST (fst h, []) i R2) as [B E].
        split; [reflexivity|]. split; [cbn [name_of]; rewrite E; reflexivity|]. right. eauto.
      * exists (NameLiteral (fst h)). split; [reflexivity|]. split; [reflexivity|]. left. reflexivity.
Qed.

Lemma small_index_ok : forall m l i rest t h, small_repr l (RIndexed i) -> i <> 0 -> wf_bytes rest ->
  resolve_in lib_static (rfc_table t) i = Some h ->
  decode_header m (l ++ rest) t = Ok (HEntry Indexed (EHeader h), size l).
Proof.
  intros m l i rest t h S NZ W R. inversion S; subst.
  rewrite (decode_indexed_small m l i rest t) by assumption. rewrite R.
  destruct (N.eqb_spec i 0); [contradiction|reflexivity].
Qed.

Lemma small_literal_ok : forall m l k n v rest t nm, small_repr l (RLiteral k n v) ->
  name_of lib_static (rfc_table t) n = Some nm ->
  (forall i, n = NameIndex i -> nm <> []) ->
  (n = NameLiteral nm -> addressable m nm) -> addressable m v -> wf_bytes rest ->
  decode_header m (l ++ rest) t = Ok (HEntry (lib_prefix k) (EHeader (nm, v)), size l).
Proof.
  intros m l k n v rest t nm S N NE A1 A2 W. inversion S; subst.
  - cbn [name_of] in N.
    assert (D := fun HI HP HZ HS => decode_literal_indexed_small m k l0 i vs v rest t HI HP HZ HS A2 W).
    do 4 (specialize (D ltac:(assumption))).
    destruct (resolve_in lib_static (rfc_table t) i) as [[a b]|]; [|discriminate]. cbn in N. inversion N; subst.
    apply D. exact (NE i eq_refl).
  - cbn [name_of] in N. inversion N; subst. apply decode_literal_new_small; try assumption. apply A1. reflexivity.
Qed.

(* C18.  m is the reading of &v[v.size()] (see DESIGN.md section 1); under the
   strict reading empty strings are excluded. *)
Theorem C18_header_roundtrip : forall m k name value mode t rest out,
  is_octets name -> is_octets value -> is_octets rest ->
  m = Lenient \/ (name <> [] /\ value <> []) ->
  encode_header (HEntry (lib_prefix k) (EHeader (name, value))) mode t = Ok out ->
  size out < 2 ^ 31 -> size (dt_entries t) < 2 ^ 30 ->
  exists p, decode_header m (out ++ rest) t = Ok (HEntry p (EHeader (name, value)), size out) /\
    (in_tables t (name, value) -> p = Indexed) /\
    (~ in_tables t (name, value) -> p = lib_prefix k).
Proof.
  intros m k name value mode t rest out On Ov Or M E L T.
  apply octets_wf in On, Ov, Or. set (h := (name, value)) in *.
  destruct (encode_header_spec k h mode t On Ov) as (out' & E' & R). rewrite E' in E. inversion E; subst out'.
  apply minimal_small in R; [|exact L|apply chosen_index_bound; exact T].
  destruct (chosen_cases k h t) as [(I & i & C & _ & Rs & NZ)|(NI & n & C & Nm & Cs)]; rewrite C in R.
  - exists Indexed. split; [|split; [reflexivity|contradiction]].
    eapply small_index_ok; eassumption.
  - exists (lib_prefix k). split; [|split; [contradiction|reflexivity]].
    change (EHeader h) with (EHeader (name, value)). eapply small_literal_ok; try eassumption.
    + intros i -> X. destruct Cs as [Cs|(j & Cs & B & Rj)]; [discriminate|]. inversion Cs; subst j.
      unfold h in Rj; cbn [fst] in Rj. unfold resolve_in in Rj. rewrite lib_static_len in Rj.
      change (N.of_nat 61) with 61 in Rj. destruct (N.eqb_spec i 0); [lia|]. destruct (N.leb_spec i 61); [|lia].
      rewrite <- lib_static_nth in Rj by lia. apply static_wf in Rj. rewrite X in Rj. cbn in Rj. lia.
    + intros _. destruct M as [->|[M _]]; [left; reflexivity|right; exact M].
    + destruct M as [->|[_ M]]; [left; reflexivity|right; exact M].
Qed.

(* The encoder succeeds on all octet strings, so C18 is not vacuous. *)
Theorem C18_encoder_total : forall k name value mode t, is_octets name -> is_octets value ->
  exists out, encode_header (HEntry (lib_prefix k) (EHeader (name, value))) mode t = Ok out.
Proof.
  intros. destruct (encode_header_spec k (name, value) mode t) as (out & E & _);
    try (apply octets_wf; assumption). eauto.
Qed.

Example C18_case : exists out,
  encode_header (HEntry NeverIndexed (EHeader (octets "x-token", octets "secret"))) ModeHuffman default_table = Ok out /\
  decode_header Strict (out ++ [1; 2]) default_table
    = Ok (HEntry NeverIndexed (EHeader (octets "x-token", octets "secret")), size out).
Proof. eexists. split; vm_compute; reflexivity. Qed.

(* C19 *)
Theorem C19_size_update_roundtrip_partial : forall m n mode t rest, is_octets rest ->
  n < 2 ^ 31 + 2 ^ 5 - 1 ->
  exists out, encode_header (HEntry SizeUpdate (ESize n)) mode t = Ok out /\
    decode_header m (out ++ rest) t = Ok (HEntry SizeUpdate (ESize n), size out).
Proof.
  intros m n mode t rest O B. apply octets_wf in O.
  unfold encode_header. cbn [e_prefix get_max_size e_content bind].
  change (hprefix_eqb SizeUpdate SizeUpdate) with true. cbv iota. unfold encode_max_size.
  assert (P5 : prefix_ok 5) by (unfold prefix_ok; lia).
  destruct (or_prefix 5 n 1 P5) as (l & E & S & F & _); [vm_compute; discriminate|].
  change (1 * 2 ^ 5) with 32 in *. change ((1 + 1) * 2 ^ 5) with 64 in F.
  exists l. split; [exact E|]. unfold decode_header.
  destruct (vget_first _ _ _ rest F) as (b & V & Hb). rewrite V. cbn [bind].
  rewrite check_prefix_spec by lia. cbn [bind].
  replace (class_of b) with SizeUpdate by
    (unfold class_of; repeat (match goal with |- context [?x <=? ?y] => destruct (N.leb_spec x y); try lia end); reflexivity).
  change (hprefix_eqb SizeUpdate SizeUpdate) with true. cbv iota. unfold decode_max_size.
  rewrite (decode_int_small 5 l n rest P5 S).
  - reflexivity.
  - change (2 ^ 5 - 1) with 31. change (2 ^ 5) with 32 in B. lia.
  - apply wf_bytes_app; split; [eapply rfc_int_octets; apply S|exact O].
Qed.

(* C19 is false for every larger size: decoding the library's own encoding is
   undefined behaviour. *)
Theorem C19_size_update_refuted : forall m n mode t rest, 2 ^ 31 + 2 ^ 5 - 1 <= n ->
  exists out u, encode_header (HEntry SizeUpdate (ESize n)) mode t = Ok out /\
    decode_header m (out ++ rest) t = UB u.
Proof.
  intros m n mode t rest B.
  unfold encode_header. cbn [e_prefix get_max_size e_content bind].
  change (hprefix_eqb SizeUpdate SizeUpdate) with true. cbv iota. unfold encode_max_size.
  assert (P5 : prefix_ok 5) by (unfold prefix_ok; lia).
  destruct (encode_integer_first 5 n P5) as (b & tl & E & L). rewrite E. cbn [or_first prefix_val].
  destruct (decode_encode_integer_ub 5 n 1 rest P5 ltac:(lia) b tl E) as [u D].
  change (1 * 2 ^ 5) with 32 in D.
  exists (N.lor b 32 :: tl), u. split; [reflexivity|]. unfold decode_header.
  assert (HB : N.lor b 32 = 32 + b).
  { change 32 with (1 * 2 ^ 5) at 1. rewrite lor_add' by exact L. reflexivity. }
  rewrite HB in *. change (2 ^ 5) with 32 in L.
  cbn [app]. unfold vget. rewrite size_cons. destruct (N.ltb_spec 0 (size (tl ++ rest) + 1)); [|lia].
  cbn [N.to_nat nth bind]. rewrite check_prefix_spec by lia. cbn [bind].
  replace (class_of (32 + b)) with SizeUpdate by
    (unfold class_of; repeat (match goal with |- context [?x <=? ?y] => destruct (N.leb_spec x y); try lia end); reflexivity).
  change (hprefix_eqb SizeUpdate SizeUpdate) with true. cbv iota. unfold decode_max_size, decode_int_and_length.
  rewrite D. reflexivity.
Qed.

Example C19_case : exists out, encode_header (HEntry SizeUpdate (ESize 4096)) ModeNone default_table = Ok out /\
  decode_header Strict out default_table = Ok (HEntry SizeUpdate (ESize 4096), size out) /\ size out = 3.
Proof. eexists. split; [|split]; vm_compute; reflexivity. Qed.

(* C20 *)
Theorem C20_indexed_denotes : forall k (h : header) mode t out,
  is_octets (fst h) -> is_octets (snd h) ->
  encode_header (HEntry (lib_prefix k) (EHeader h)) mode t = Ok out ->
  (first_in 128 256 out <-> in_tables t h) /\
  (first_in 128 256 out -> exists i, rfc_repr out (RIndexed i) /\ resolve (rfc_table t) i = Some h).
Proof.
  intros k h mode t out On Ov E. apply octets_wf in On, Ov.
  destruct (encode_header_spec k h mode t On Ov) as (out' & E' & R). rewrite E' in E. inversion E; subst out'.
  assert (RR : forall i, minimal_repr out (RIndexed i) -> rfc_repr out (RIndexed i)).
  { intros i X. apply minimal_rfc, X. }
  assert (LIT : forall n, minimal_repr out (RLiteral k n (snd h)) -> ~ first_in 128 256 out).
  { intros n X (b & tl & EQ & B).
    assert (Y : exists l y, out = l ++ y /\ literal_pattern k l) by (inversion X; subst; eauto).
    destruct Y as (l & y & -> & P). 
    assert (Z : exists b' tl', l = b' :: tl' /\ b' < 128).
    { destruct k; destruct P as (b' & tl' & -> & P); exists b', tl'; (split; [reflexivity|lia]). }
    destruct Z as (b' & tl' & -> & Z). cbn [app] in EQ. inversion EQ; subst. lia. }
  destruct (chosen_cases k h t) as [(I & i & C & Rs & _ & NZ)|(NI & n & C & _)]; rewrite C in R.
  - split; [|intros _; exists i; split; [apply RR; exact R|exact Rs]].
    split; [intros _; exact I|intros _]. inversion R; subst. assumption.
  - split; [split|]; intros X; [exfalso; exact (LIT _ R X)|contradiction|exfalso; exact (LIT _ R X)].
Qed.

Example C20_case : encode_header (HEntry NeverIndexed (EHeader (octets ":method", octets "GET"))) ModeNone default_table
  = Ok [0x82] /\ in_tables default_table (octets ":method", octets "GET").
Proof.
  split; [vm_compute; reflexivity|]. left. split; [|discriminate]. apply in_static. exists 2.
  vm_compute. reflexivity.
Qed.

(* C21 is false: for every header in neither table, requesting INDEXED gives
   octets of which the library itself, and any decoder using the RFC's rules,
   reads only the first, as an indexed field: the entry with index 0 (decoded as
   an empty header by the library, an error in the RFC), or the static entry
   with the same name and an empty value.  The octets behind it are left for the
   next field.  Only the empty header and the static entries with an empty value
   are read as themselves, with octets left over all the same. *)
Theorem C21_indexed_corrupts_refuted : forall m (h : header) mode t rest,
  is_octets (fst h) -> is_octets (snd h) -> is_octets rest -> ~ in_tables t h ->
  exists out h', encode_header (HEntry Indexed (EHeader h)) mode t = Ok out /\ 1 < size out /\
    decode_header m (out ++ rest) t = Ok (HEntry Indexed (EHeader h'), 1) /\
    (h' = h <-> h = ([], []) \/ In h (map snd static_table_entries)).
Proof.
  intros m h mode t rest On Ov Or NI. apply octets_wf in On, Ov, Or.
  unfold encode_header. cbn [e_prefix get_header e_content bind].
  change (hprefix_eqb Indexed SizeUpdate) with false. cbv iota.
  assert (R : (match reverse_static_find h with Some i => if 0 <? size (snd h) then Some i else None | None => None end) = None).
  { destruct (reverse_static_find h) as [i|] eqn:R; [|reflexivity]. destruct (N.ltb_spec 0 (size (snd h))) as [L|]; [|reflexivity].
    exfalso. apply NI. left. split; [apply in_static; eauto|]. intros Z. rewrite Z in L. cbn in L. lia. }
  rewrite R. clear R.
  destruct (find_index (dt_entries t) h) as [j|] eqn:F.
  { exfalso. apply NI. right. apply find_index_some in F. eapply nth_error_In; eassumption. }
  assert (NZ : forall s x, encode_string s mode = Ok x -> 1 <= size x).
  { intros s x X. unfold encode_string in X. apply bind_ok in X. destruct X as (e & _ & X). apply bind_ok in X.
    destruct X as (l & L & X). injection X as <-. unfold or_first in L. destruct (encode_integer_value 7 (size e)); [discriminate L|].
    injection L as <-. unfold size. cbn [app length]. lia. }
  destruct (encode_string_spec (snd h) mode Ov) as (vs & Ev & Sv & _).
  destruct (encode_string_spec (fst h) mode On) as (ns & En & Sn & _).
  unfold encode_header_name, encode_header_value.
  assert (SO : forall x s, string_with rfc_int_shortest x s -> wf_bytes x).
  { intros x s X. destruct X as [l s' [I _] _ O|l e s' [I _] _ O RH]; apply wf_bytes_app; split;
      try (eapply rfc_int_octets; exact I); apply octets_wf; [exact O|apply RH]. }
  assert (ONE : forall i l, i <= 61 -> rfc_int_shortest 7 l i -> size l = 1).
  { intros i l B S. rewrite (shortest_size 7 l i pok7 S). unfold encode_integer_value.
    change (2 ^ 7 - 1) with 127. destruct (N.ltb_spec i 127); [reflexivity|lia]. }
  pose proof (NZ _ _ Ev) as Zv. pose proof (NZ _ _ En) as Zn.
  destruct (reverse_static_find (fst h, [])) as [i|] eqn:R2.
  - destruct (encode_index_indexed i) as (l & E & S & P). rewrite E. cbn [bind]. rewrite Ev. cbn [bind].
    pose proof (chosen_index_pos _ _ R2) as B.
    exists (l ++ vs), (fst h, []). split; [reflexivity|]. split; [|split].
    + rewrite size_app, (ONE i l) by (try exact S; lia). lia.
    + rewrite <- app_assoc, (decode_indexed_small m l i (vs ++ rest) t).
      * rewrite (ONE i l) by (try exact S; lia). destruct (N.eqb_spec i 0); [lia|].
        apply static_inverse in R2. unfold resolve_in. rewrite lib_static_len. change (N.of_nat 61) with 61.
        destruct (N.eqb_spec i 0); [lia|]. destruct (N.leb_spec i 61); [|lia].
        rewrite <- lib_static_nth by lia. rewrite R2. reflexivity.
      * split; [exact S|]. apply N.le_lt_trans with 61; [lia|reflexivity].
      * exact P.
      * apply wf_bytes_app; split; [eapply SO; exact Sv|exact Or].
    + split.
      * intros X. right. rewrite <- X. apply in_static. eauto.
      * intros [X|X]; [subst h; reflexivity|]. destruct h as [n v]. cbn [fst snd] in *.
        destruct v as [|c v]; [reflexivity|]. exfalso. apply NI. left. split; [exact X|discriminate].
  - destruct (encode_index_indexed 0) as (l & E & S & P). rewrite E. cbn [bind]. rewrite En. cbn [bind].
    rewrite Ev. cbn [bind].
    exists (l ++ ns ++ vs), ([], []). split; [reflexivity|]. split; [|split].
    + rewrite !size_app. lia.
    + rewrite <- app_assoc, (decode_indexed_small m l 0 _ t).
      * rewrite (ONE 0 l) by (try exact S; lia). reflexivity.
      * split; [exact S|reflexivity].
      * exact P.
      * rewrite <- app_assoc. apply wf_bytes_app; split; [eapply SO; exact Sn|].
        apply wf_bytes_app; split; [eapply SO; exact Sv|exact Or].
    + split; [intros X; left; symmetry; exact X|]. intros [X|X]; [symmetry; exact X|].
      destruct h as [n v]. cbn [fst snd] in *. destruct v as [|c v].
      * exfalso. apply in_static in X. destruct X as (i & X). rewrite X in R2. discriminate R2.
      * exfalso. apply NI. left. split; [exact X|discriminate].
Qed.

(* C21: for headers that are in a table INDEXED is right. *)
Theorem C21_indexed_in_tables_partial : forall m (h : header) mode t rest,
  is_octets (fst h) -> is_octets (snd h) -> is_octets rest -> in_tables t h ->
  size (dt_entries t) < 2 ^ 30 ->
  exists out, encode_header (HEntry Indexed (EHeader h)) mode t = Ok out /\
    decode_header m (out ++ rest) t = Ok (HEntry Indexed (EHeader h), size out).
Proof.
  intros m h mode t rest On Ov Or I T. apply octets_wf in On, Ov, Or.
  assert (X : exists i, encode_header (HEntry Indexed (EHeader h)) mode t = encode_index i Indexed /\
    resolve_in lib_static (rfc_table t) i = Some h /\ i <> 0 /\ i < 2 ^ 31).
  { pose proof (chosen_index_bound Never h t T) as B.
    destruct (chosen_cases Never h t) as [(_ & i & C & _ & Rs & NZ)|(NI & _)]; [|contradiction].
    rewrite C in B. exists i. split; [|auto].
    unfold chosen in C. unfold encode_header. cbn [e_prefix get_header e_content bind].
    change (hprefix_eqb Indexed SizeUpdate) with false. cbv iota. rewrite static_size.
    destruct (match reverse_static_find h with
              | Some i => if 0 <? size (snd h) then Some i else None | None => None end) as [j|].
    - inversion C; subst. reflexivity.
    - destruct (find_index (dt_entries t) h) as [j|]; [inversion C; subst; reflexivity|].
      destruct (reverse_static_find (fst h, [])); discriminate. }
  destruct X as (i & E & Rs & NZ & B). destruct (encode_index_indexed i) as (l & E' & S & F).
  exists l. split; [congruence|]. apply small_index_ok with i; try assumption.
  apply repr_indexed; [split; assumption|exact F].
Qed.

Example C21_case : encode_header (HEntry Indexed (EHeader (octets ":authority", octets "a"))) ModeNone default_table
    = Ok [0x81; 1; 97] /\
  decode_header Strict [0x81; 1; 97] default_table = Ok (HEntry Indexed (EHeader (octets ":authority", [])), 1).
Proof. vm_compute. split; reflexivity. Qed.

(* C22: a header in neither table keeps the requested representation on the
   wire: the octets are an RFC literal of that kind whose name and value are the
   requested ones. *)
Theorem C22_representation_kept : forall k (h : header) mode t out,
  is_octets (fst h) -> is_octets (snd h) ->
  encode_header (HEntry (lib_prefix k) (EHeader h)) mode t = Ok out -> ~ in_tables t h ->
  literal_pattern k out /\
  exists n, rfc_repr out (RLiteral k n (snd h)) /\
    name_of (map snd static_table_entries) (rfc_table t) n = Some (fst h).
Proof.
  intros k h mode t out On Ov E NI. apply octets_wf in On, Ov.
  destruct (encode_header_spec k h mode t On Ov) as (out' & E' & R). rewrite E' in E. inversion E; subst out'.
  destruct (chosen_cases k h t) as [(I & _)|(_ & n & C & Nm & _)]; [contradiction|]. rewrite C in R.
  assert (PA : forall l y, literal_pattern k l -> literal_pattern k (l ++ y)).
  { intros l y P. destruct k; destruct P as (b & tl & -> & P); exists b, (tl ++ y); auto. }
  split.
  - inversion R; subst; apply PA; assumption.
  - exists n. split; [apply minimal_rfc; exact R|exact Nm].
Qed.

Example C22_case : exists out,
  encode_header (HEntry NeverIndexed (EHeader (octets "cookie", octets "id=1"))) ModeHuffman default_table = Ok out /\
  first_in 16 32 out.
Proof. eexists. split; [vm_compute; reflexivity|]. do 2 eexists. split; [reflexivity|]. lia. Qed.

(* C23 *)
Theorem C23_classification : forall b, b < 256 ->
  check_prefix b = Ok (if 128 <=? b then Indexed else if 64 <=? b then IncrementalIndexing
    else if 32 <=? b then SizeUpdate else if 16 <=? b then NeverIndexed else WithoutIndexing).
Proof. exact check_prefix_spec. Qed.

(* C23 seen from decode_header: the representation reported. *)
Theorem C23_reported_prefix : forall m b tl t e n, is_octets (b :: tl) ->
  decode_header m (b :: tl) t = Ok (e, n) ->
  (e_prefix e = Indexed <-> 128 <= b) /\
  (e_prefix e = IncrementalIndexing <-> 64 <= b < 128) /\
  (e_prefix e = SizeUpdate <-> 32 <= b < 64) /\
  (e_prefix e = NeverIndexed <-> 16 <= b < 32) /\
  (e_prefix e = WithoutIndexing <-> b < 16) /\
  ((exists s, e_content e = ESize s) <-> 32 <= b < 64).
Proof.
  intros m b tl t e n O H. apply octets_wf in O. pose proof (Forall_inv O) as B. unfold wf_byte in B.
  assert (P : e_prefix e = class_of b /\ ((exists s, e_content e = ESize s) <-> class_of b = SizeUpdate)).
  { unfold decode_header in H. unfold vget in H. rewrite size_cons in H.
    destruct (N.ltb_spec 0 (size tl + 1)); [|lia]. cbn [bind nth N.to_nat] in H.
    rewrite check_prefix_spec in H by exact B. cbn [bind] in H.
    destruct (hprefix_eqb (class_of b) SizeUpdate) eqn:Q.
    - apply hprefix_eqb_eq in Q. apply bind_ok in H. destruct H as ([x k] & _ & H). inversion H; subst.
      cbn. split; [reflexivity|]. split; [auto|eauto].
    - assert (NQ : class_of b <> SizeUpdate) by (intros X; rewrite X in Q; discriminate).
      apply bind_ok in H. destruct H as ([i il] & _ & H). apply bind_ok in H. destruct H as (h & _ & H).
      destruct (hprefix_eqb (class_of b) Indexed).
      + inversion H; subst. cbn. split; [reflexivity|]. split; [intros [s X]; discriminate|contradiction].
      + apply bind_ok in H. destruct H as (d & _ & H). apply bind_ok in H. destruct H as ([[nm d'] c] & _ & H).
        apply bind_ok in H. destruct H as ([vv k] & _ & H). apply bind_ok in H. destruct H as (dd & _ & H).
        inversion H; subst. cbn. split; [reflexivity|]. split; [intros [s X]; discriminate|contradiction]. }
  destruct P as [-> P]. rewrite P. unfold class_of.
  repeat (match goal with |- context [?x <=? ?y] => destruct (N.leb_spec x y) end);
    repeat split; intros; try discriminate; try reflexivity; try lia.
Qed.

Example C23_case : check_prefix 0x3f = Ok SizeUpdate /\ check_prefix 0x0f = Ok WithoutIndexing.
Proof. vm_compute. split; reflexivity. Qed.

(* C24 *)
Theorem C24_consumed_bounds : forall m input t e n, is_octets input ->
  decode_header m input t = Ok (e, n) -> 1 <= n <= size input.
Proof. intros m input t e n O H. apply octets_wf in O. eapply decode_header_bounds; eassumption. Qed.

(* The fuel of the model's block loop is never used up: the C++ while loop
   terminates on every input. *)
Theorem C24_block_terminates : forall m input t, is_octets input -> decode_block m input t <> NoFuel.
Proof. intros m input t O. apply octets_wf in O. apply decode_block_real. exact O. Qed.

(* A decoded block is a sequence of fields that exactly covers the input. *)
Inductive covers (m : ub_mode) (t : dyn_table) : list N -> header_block -> Prop :=
| covers_nil : covers m t [] []
| covers_cons : forall l rest e b, l <> [] -> decode_header m (l ++ rest) t = Ok (e, size l) ->
    covers m t rest b -> covers m t (l ++ rest) (e :: b).

Theorem C24_block_covers : forall m t input b, is_octets input ->
  decode_block m input t = Ok b -> covers m t input b.
Proof.
  intros m t input. remember (length input) as k eqn:K. revert input K.
  induction k as [k IH] using lt_wf_ind. intros input K b O H. apply octets_wf in O.
  destruct input as [|x tl]; [inversion H; constructor|].
  rewrite decode_block_step in H by (try exact O; discriminate). apply bind_ok in H.
  destruct H as ([e n] & D & H). apply bind_ok in H. destruct H as (b' & B & H). inversion H; subst b. clear H.
  pose proof (decode_header_bounds m _ t e n O D) as [L _].
  set (input := x :: tl) in *. rewrite <- (firstn_skipn (N.to_nat n) input). 
  assert (SF : size (firstn (N.to_nat n) input) = n) by (rewrite size_firstn; lia).
  constructor.
  - intros X. rewrite X in SF. cbn in SF. lia.
  - rewrite firstn_skipn, SF. exact D.
  - apply (IH (length (skipn (N.to_nat n) input))); [|reflexivity|apply wf_octets, wf_bytes_skipn, O|exact B].
    rewrite skipn_length. unfold size in L. lia.
Qed.

Example C24_case : decode_block Strict [0x82; 0x40; 1; 97; 1; 98] default_table =
  Ok [HEntry Indexed (EHeader (octets ":method", octets "GET"));
      HEntry IncrementalIndexing (EHeader (octets "a", octets "b"))].
Proof. vm_compute. reflexivity. Qed.

(* C25 is false.  Any literal whose declared length exceeds the octets present
   (plain or Huffman), any truncated integer and any integer of 2^31 + 127 or
   more is undefined behaviour. *)
Theorem C25_hostile_bytes_refuted : forall m k l len data t,
  rfc_int_shortest 7 l len -> len < 2 ^ 31 -> is_octets data -> size data < len ->
  (exists u, decode_header m ([prefix_val (lib_prefix k)] ++ l ++ data) t = UB u) /\
  (exists u, decode_header m [0xff] t = UB u) /\
  (exists u, decode_header m [] t = UB u).
Proof.
  intros m k l len data t S B O L. apply octets_wf in O. split; [|split].
  - assert (D : exists u, decode_string m (l ++ data) = UB u).
    { unfold decode_string. rewrite (decode_int_small 7 l len data pok7 S (small_bound _ _ B)) by
        (apply wf_bytes_app; split; [eapply rfc_int_octets; apply S|exact O]).
      cbn [bind]. destruct (vget (l ++ data) 0) as [b0| | |] eqn:V; cbn [bind];
        try (unfold vget in V; destruct (0 <? size (l ++ data)); discriminate); try eauto.
      assert (VR : vrange (l ++ data) (size l) len = UB BadRange).
      { unfold vrange. rewrite size_app. destruct (N.leb_spec (size l + len) (size l + size data)); [lia|reflexivity]. }
      rewrite VR. destruct (negb _); cbn [bind]; [eauto|].
      destruct (address_of m (l ++ data) (size l)) as [[]| | |] eqn:A; cbn [bind]; eauto;
        destruct m; unfold address_of in A; try discriminate;
        destruct (size l <? size (l ++ data)); discriminate. }
    destruct D as [u D]. exists u.
    assert (W : wf_bytes (l ++ data)) by (apply wf_bytes_app; split; [eapply rfc_int_octets; apply S|exact O]).
    unfold decode_header. cbn [app]. unfold vget. rewrite size_cons.
    destruct (N.ltb_spec 0 (size (l ++ data) + 1)); [|lia]. cbn [nth N.to_nat bind].
    assert (C : check_prefix (prefix_val (lib_prefix k)) = Ok (lib_prefix k)) by (destruct k; vm_compute; reflexivity).
    rewrite C. cbn [bind]. rewrite lib_prefix_not_update, decode_index_literal.
    assert (I : decode_int_and_length (literal_prefix k) (prefix_val (lib_prefix k) :: l ++ data) = Ok (0, 1)).
    { destruct k; reflexivity. }
    rewrite I. cbn [bind]. change (0 <? 0) with false. cbn [bind fst]. rewrite lib_prefix_not_indexed.
    unfold verase_front. rewrite size_cons. destruct (N.leb_spec 1 (size (l ++ data) + 1)); [|lia].
    cbn [bind]. change (size (@nil N) <=? 0) with true. cbv iota.
    change (skipn (N.to_nat 1) (prefix_val (lib_prefix k) :: l ++ data)) with (l ++ data).
    unfold decode_header_name. rewrite D. reflexivity.
  - exists OobRead. vm_compute. reflexivity.
  - exists OobRead. vm_compute. reflexivity.
Qed.

(* C25: what undefined behaviour is possible.  Never a use of an empty vector's
   back(), a null pointer or a non-terminating loop. *)
Definition string_ub (u : ub) : Prop := u = OobRead \/ u = BadRange \/ u = SignedOverflow \/ u = BadShift.

Lemma dec_loop_ub : forall rest acc m u, dec_loop rest acc m = UB u -> string_ub u.
Proof.
  induction rest as [|x rest IH]; intros acc m u H; cbn [dec_loop] in H.
  - inversion H. left. reflexivity.
  - destruct (32 <=? m); [inversion H; unfold string_ub; auto|].
    destruct (2 ^ 31 <=? N.land x 127 * 2 ^ m); [inversion H; unfold string_ub; auto|].
    destruct (N.land x 128 =? 128); [eapply IH; exact H|discriminate].
Qed.

Lemma int_ub : forall n v u, decode_int_and_length n v = UB u -> string_ub u.
Proof.
  intros n v u H. unfold decode_int_and_length in H.
  destruct (decode_integer_value n v) eqn:D; cbn [bind] in H; try discriminate. inversion H; subst.
  destruct v as [|b v]; cbn [decode_integer_value] in D; [inversion D; unfold string_ub; auto|].
  destruct (N.land b (2 ^ n - 1) <? 2 ^ n - 1); [discriminate|]. eapply dec_loop_ub; exact D.
Qed.

Lemma string_res_ub : forall m v u, wf_bytes v -> decode_string m v = UB u -> string_ub u.
Proof.
  intros m v u W H. unfold decode_string in H.
  destruct (decode_int_and_length 7 v) as [[len c]| |u'|] eqn:I; cbn [bind] in H; try discriminate;
    [|inversion H; subst; eapply int_ub; exact I].
  unfold vget in H. destruct (0 <? size v); cbn [bind] in H; [|inversion H; unfold string_ub; auto].
  destruct (negb _).
  - destruct (vrange v c len) as [e| | |] eqn:R; cbn [bind] in H; try discriminate.
    + destruct (huffman_decode_spec e (wf_range _ _ _ _ W R)) as [(x & y & _ & D)|(_ & D)];
        rewrite D in H; cbn [bind] in H; [|discriminate].
      unfold address_of in H. destruct m; [|discriminate].
      destruct (0 <? _); cbn [bind] in H; inversion H. unfold string_ub; auto.
    + unfold vrange in R. destruct (c + len <=? size v); inversion R. inversion H; subst. unfold string_ub; auto.
  - unfold address_of, vrange in H. destruct m.
    + destruct (c <? size v); cbn [bind] in H; [|inversion H; unfold string_ub; auto].
      destruct (c + len <=? size v); cbn [bind] in H; inversion H; unfold string_ub; auto.
    + cbn [bind] in H. destruct (c + len <=? size v); cbn [bind] in H; inversion H; unfold string_ub; auto.
Qed.

Theorem C25_ub_kinds_partial : forall m input t u, is_octets input ->
  decode_header m input t = UB u ->
  u = OobRead \/ u = BadRange \/ u = SignedOverflow \/ u = BadShift.
Proof.
  intros m v t u O H. apply octets_wf in O. change (string_ub u). unfold decode_header in H.
  destruct (vget v 0) as [b| | |] eqn:V; cbn [bind] in H;
    try (unfold vget in V; destruct (0 <? size v); inversion V; inversion H; subst; unfold string_ub; auto; fail).
  rewrite check_prefix_spec in H by (eapply vget_wf; eassumption). cbn [bind] in H.
  destruct (hprefix_eqb (class_of b) SizeUpdate).
  { unfold decode_max_size in H. destruct (decode_int_and_length 5 v) as [[x k]| | |] eqn:I; cbn [bind] in H;
      inversion H; subst. eapply int_ub; exact I. }
  destruct (decode_index v (class_of b)) as [[i il]| | |] eqn:I; cbn [bind] in H; try discriminate;
    [|inversion H; subst; destruct (class_of b); cbn [decode_index] in I; try discriminate; eapply int_ub; exact I].
  assert (HI : (exists h, (if 0 <? i then make_indexed_header i t else Ok ([], [])) = Ok h) \/
    (if 0 <? i then make_indexed_header i t else Ok ([], [])) = Throw OutOfRange).
  { destruct (N.ltb_spec 0 i); [|eauto]. rewrite indexed_header_spec by lia.
    destruct (resolve_in lib_static (rfc_table t) i); eauto. }
  destruct HI as [[h HI]|HI]; rewrite HI in H; cbn [bind] in H; [|discriminate].
  destruct (hprefix_eqb (class_of b) Indexed); [discriminate|].
  destruct (verase_front v il) as [data| | |] eqn:E; cbn [bind] in H;
    try (unfold verase_front in E; destruct (il <=? size v); inversion E; inversion H; subst; unfold string_ub; auto; fail).
  pose proof (erase_wf _ _ _ O E) as Wd. clear E.
  destruct (size (fst h) <=? 0).
  - unfold decode_header_name in H.
    destruct (decode_string m data) as [[nm n]| | |] eqn:S; cbn [bind] in H; try discriminate;
      [|inversion H; subst; eapply string_res_ub; eassumption].
    destruct (verase_front data n) as [d'| | |] eqn:E; cbn [bind] in H;
      try (unfold verase_front in E; destruct (n <=? size data); inversion E; inversion H; subst; unfold string_ub; auto; fail).
    pose proof (erase_wf _ _ _ Wd E) as Wd'. clear E S.
    unfold decode_header_value in H.
    destruct (decode_string m d') as [[vv k]| | |] eqn:S; cbn [bind] in H; try discriminate;
      [|inversion H; subst; eapply string_res_ub; eassumption].
    unfold verase_front in H. destruct (k <=? size d'); cbn [bind] in H; inversion H; unfold string_ub; auto.
  - cbn [bind] in H. unfold decode_header_value in H.
    destruct (decode_string m data) as [[vv k]| | |] eqn:S; cbn [bind] in H; try discriminate;
      [|inversion H; subst; eapply string_res_ub; eassumption].
    unfold verase_front in H. destruct (k <=? size data); cbn [bind] in H; inversion H; unfold string_ub; auto.
Qed.

(* C25: fields that are not truncated and whose integers are minimal and below
   2^31 are handled without undefined behaviour, whatever the string contents
   (invalid Huffman codes included) and whatever the index. *)
Inductive complete_string : list N -> Prop :=
| complete_string_intro : forall l d, small_int 7 l (size d) -> is_octets d -> complete_string (l ++ d).

Inductive complete_field : list N -> Prop :=
| complete_indexed : forall l i, small_int 7 l i -> first_in 128 256 l -> complete_field l
| complete_resize : forall l n, small_int 5 l n -> first_in 32 64 l -> complete_field l
| complete_named : forall k l i vs, small_int (literal_prefix k) l i -> literal_pattern k l -> i <> 0 ->
    complete_string vs -> complete_field (l ++ vs)
| complete_new : forall k l ns vs, small_int (literal_prefix k) l 0 -> literal_pattern k l ->
    complete_string ns -> complete_string vs -> complete_field (l ++ ns ++ vs).

Lemma complete_string_octets : forall vs, complete_string vs -> wf_bytes vs.
Proof.
  intros vs [l d S O]. apply wf_bytes_app. split; [eapply rfc_int_octets; apply S|apply octets_wf, O].
Qed.

Lemma complete_string_defined : forall vs rest, complete_string vs -> wf_bytes rest ->
  (exists s, decode_string Lenient (vs ++ rest) = Ok (s, size vs)) \/
  (exists e, decode_string Lenient (vs ++ rest) = Throw e).
Proof.
  intros vs rest C W. pose proof (complete_string_octets _ C) as Wv. destruct C as [l d [S B] O].
  apply octets_wf in O. rewrite <- app_assoc in *. unfold decode_string.
  rewrite (decode_int_small 7 l _ _ pok7 S (small_bound _ _ B)) by
    (apply wf_bytes_app in Wv; apply wf_bytes_app; split; [apply Wv|apply wf_bytes_app; split; assumption]).
  cbn [bind]. unfold vget.
  assert (NE : 0 < size l) by (destruct S as [S _]; destruct S; rewrite size_cons; lia).
  rewrite size_app. destruct (N.ltb_spec 0 (size l + size (d ++ rest))); [|lia]. cbn [bind].
  rewrite vrange_app by reflexivity. rewrite size_app. destruct (negb _); cbn [bind address_of].
  - destruct (huffman_decode_spec d O) as [(x & y & _ & D)|(_ & D)]; rewrite D; cbn [bind]; eauto.
  - eauto.
Qed.

Theorem C25_complete_field_partial : forall input rest t, complete_field input -> is_octets rest ->
  (forall h, In h (dt_entries t) -> fst h <> []) ->
  (exists e n, decode_header Lenient (input ++ rest) t = Ok (e, n)) \/
  (exists x, decode_header Lenient (input ++ rest) t = Throw x).
Proof.
  intros input rest t C O NE. apply octets_wf in O.
  destruct C as [l i S F|l n S F|k l i vs S P NZ CV|k l ns vs S P CN CV].
  - rewrite (decode_indexed_small Lenient l i rest t S F O). destruct (i =? 0); [eauto|].
    destruct (resolve_in _ _ _); eauto.
  - rewrite (decode_resize_small Lenient l n rest t S F O). eauto.
  - pose proof (complete_string_octets _ CV) as Wv. rewrite <- app_assoc. unfold decode_header.
    destruct (literal_class k l (vs ++ rest) P) as (b & V & K). rewrite V. cbn [bind]. rewrite K. cbn [bind].
    rewrite lib_prefix_not_update, decode_index_literal. destruct S as [S B].
    rewrite (decode_int_small _ l i _ (literal_prefix_ok k) S (small_bound _ _ B)) by
      (apply wf_bytes_app; split; [eapply rfc_int_octets; apply S|apply wf_bytes_app; split; assumption]).
    cbn [bind]. destruct (N.ltb_spec 0 i); [|lia]. rewrite indexed_header_spec by exact NZ.
    destruct (resolve_in lib_static (rfc_table t) i) as [h|] eqn:R; cbn [bind]; [|eauto].
    rewrite lib_prefix_not_indexed, verase_front_app by reflexivity. cbn [bind].
    assert (NN : 0 < size (fst h)).
    { unfold resolve_in in R. rewrite lib_static_len in R. change (N.of_nat 61) with 61 in R.
      destruct (N.eqb_spec i 0); [discriminate|]. destruct (N.leb_spec i 61).
      - rewrite <- lib_static_nth in R by lia. apply static_wf in R. apply R.
      - apply nth_error_In, NE in R. destruct (fst h); [contradiction|rewrite size_cons; lia]. }
    destruct (N.leb_spec (size (fst h)) 0); [lia|]. cbn [bind]. unfold decode_header_value.
    destruct (complete_string_defined vs rest CV O) as [[s D]|[e D]]; rewrite D; cbn [bind]; [|eauto].
    rewrite verase_front_app by reflexivity. cbn [bind]. eauto.
  - pose proof (complete_string_octets _ CV) as Wv. pose proof (complete_string_octets _ CN) as Wn.
    rewrite <- !app_assoc. unfold decode_header.
    destruct (literal_class k l (ns ++ vs ++ rest) P) as (b & V & K). rewrite V. cbn [bind]. rewrite K. cbn [bind].
    rewrite lib_prefix_not_update, decode_index_literal. destruct S as [S B].
    assert (W2 : wf_bytes (vs ++ rest)) by (apply wf_bytes_app; split; assumption).
    rewrite (decode_int_small _ l 0 _ (literal_prefix_ok k) S (small_bound _ _ B)) by
      (apply wf_bytes_app; split; [eapply rfc_int_octets; apply S|apply wf_bytes_app; split; assumption]).
    cbn [bind]. change (0 <? 0) with false. cbn [bind fst]. rewrite lib_prefix_not_indexed, verase_front_app by reflexivity.
    cbn [bind]. change (size (@nil N) <=? 0) with true. cbv iota. unfold decode_header_name.
    destruct (complete_string_defined ns (vs ++ rest) CN W2) as [[s D]|[e D]]; rewrite D; cbn [bind]; [|eauto].
    rewrite verase_front_app by reflexivity. cbn [bind]. unfold decode_header_value.
    destruct (complete_string_defined vs rest CV O) as [[s' D']|[e D']]; rewrite D'; cbn [bind]; [|eauto].
    rewrite verase_front_app by reflexivity. cbn [bind]. eauto.
Qed.

Example C25_case : decode_header Lenient [0x40; 5; 97] default_table = UB OobRead.
Proof. vm_compute. reflexivity. Qed.

(* ---- agreement with the RFC ---- *)

(* How the library reports a representation whose effect is the field o. *)
Definition reported (r : repr) (o : option field) : hentry :=
  match r, o with
  | RIndexed _, Some h => HEntry Indexed (EHeader h)
  | RLiteral k _ _, Some h => HEntry (lib_prefix k) (EHeader h)
  | RResize n, _ => HEntry SizeUpdate (ESize n)
  | _, None => HEntry Indexed (EHeader ([], []))     (* no such effect *)
  end.

(* The table index a representation uses, 0 if none. *)
Definition table_ref (r : repr) : N :=
  match r with RIndexed i => i | RLiteral _ (NameIndex i) _ => i | _ => 0 end.

(* Deviations of the library: index 20, a reference to a name of length 0, and
   under the strict reading empty strings. *)
Definition supported (m : ub_mode) (r : repr) (o : option field) : Prop :=
  table_ref r <> 20 /\
  match r, o with
  | RLiteral _ (NameIndex _) v, Some h => fst h <> [] /\ addressable m v
  | RLiteral _ (NameLiteral n) v, _ => addressable m n /\ addressable m v
  | _, _ => True
  end.

Lemma name_lib_rfc : forall t n, (forall i, n = NameIndex i -> i <> 20) ->
  name_of lib_static t n = name_of rfc_static t n.
Proof. intros t [i|s] H; [|reflexivity]. cbn [name_of]. rewrite resolve_lib_rfc; [reflexivity|apply H; reflexivity]. Qed.

(* C26: on every RFC-valid representation whose integers are minimal and below
   2^31, outside the named deviations. *)
Theorem C26_decoding_agrees_partial : forall m l r rest t limit o t',
  small_repr l r -> is_octets rest ->
  step limit (Table (dt_max t) (dt_entries t)) r = Some (o, t') -> supported m r o ->
  decode_header m (l ++ rest) t = Ok (reported r o, size l).
Proof.
  intros m l r rest t limit o t' S O ST [N20 SU]. apply octets_wf in O.
  change (Table (dt_max t) (dt_entries t)) with (rfc_table t) in ST.
  destruct r as [i|k n v|n]; cbn [step step_in table_ref] in *.
  - unfold step in ST. cbn [step_in] in ST. fold resolve in ST.
    destruct (resolve (rfc_table t) i) as [h|] eqn:R; [|discriminate]. inversion ST; subst.
    assert (NZ : i <> 0) by (intros ->; discriminate R).
    rewrite <- resolve_lib_rfc in R by exact N20. cbn [reported]. eapply small_index_ok; eassumption.
  - unfold step in ST. cbn [step_in] in ST.
    destruct (name_of rfc_static (rfc_table t) n) as [nm|] eqn:Nm; [|discriminate]. inversion ST; subst.
    cbn [reported]. rewrite <- name_lib_rfc in Nm by (intros j ->; exact N20).
    eapply small_literal_ok; try eassumption.
    + intros j ->. apply SU.
    + intros ->. apply SU.
    + destruct n; apply SU.
  - unfold step in ST. cbn [step_in] in ST. destruct (n <=? limit); [|discriminate]. inversion ST; subst.
    cbn [reported]. inversion S; subst. apply decode_resize_small; assumption.
Qed.

(* C26 is false in general: a valid representation with a non-minimal integer is
   misread, index 20 gives a misspelt name, a reference to a dynamic entry with
   an empty name is misread, and a table size update of 2^31 + 31 is undefined. *)
Theorem C26_decoding_refuted :
  (* 0x82 written with a redundant zero continuation octet is not misread, but
     index 127 written as ff 80 00 leaves the last octet to the next field *)
  (rfc_repr [0xff; 0x80; 0x00] (RIndexed 127) /\
   forall m t, size (dt_entries t) = 66 ->
     exists h, decode_header m [0xff; 0x80; 0x00] t = Ok (HEntry Indexed (EHeader h), 2)) /\
  (rfc_repr [0x94] (RIndexed 20) /\
   resolve (Table 4096 []) 20 = Some (octets "access-control-allow-origin", []) /\
   forall m t, exists h, decode_header m [0x94] t = Ok (HEntry Indexed (EHeader h), 1) /\
     fst h <> octets "access-control-allow-origin") /\
  (rfc_repr [0x7e; 1; 97] (RLiteral Incremental (NameIndex 62) [97]) /\
   step 4096 (Table 4096 [([], [98])]) (RLiteral Incremental (NameIndex 62) [97])
     = Some (Some ([], [97]), Table 4096 [([], [97]); ([], [98])]) /\
   forall m, exists u, decode_header m [0x7e; 1; 97] (DynTable [([], [98])] 33 4096) = UB u).
Proof.
  assert (S7 : forall b, 128 <= b < 255 -> rfc_int 7 [b] (b - 128)).
  { intros b B. replace (b - 128) with (b mod 2 ^ 7).
    - apply rfc_int_short; [lia|]. change (2 ^ 7) with 128. lia.
    - change (2 ^ 7) with 128. lia. }
  split; [|split].
  - split.
    + apply repr_indexed; [|do 2 eexists; split; [reflexivity|lia]].
      change 127 with (2 ^ 7 - 1 + ((128 - 128) + 128 * 0)). apply rfc_int_long; [lia|reflexivity|].
      apply rfc_cont_more; [lia|]. apply rfc_cont_last. lia.
    + intros m t T.
      assert (D : decode_header m [0xff; 0x80; 0x00] t =
        let* h := make_indexed_header 127 t in Ok (HEntry Indexed (EHeader h), 2)) by reflexivity.
      rewrite D, indexed_header_spec by discriminate. unfold resolve_in. rewrite lib_static_len.
      change (127 =? 0) with false. change (127 <=? N.of_nat 61) with false. cbv iota.
      change (N.to_nat (127 - 1 - N.of_nat 61)) with 65%nat. cbn [t_entries rfc_table].
      destruct (@nth_error field (dt_entries t) 65) as [h|] eqn:E; [exists h; reflexivity|].
      apply nth_error_None in E. unfold size in T. change field with header in E. lia.
  - split; [|split].
    + apply repr_indexed; [apply (S7 0x94); lia|]. do 2 eexists. split; [reflexivity|lia].
    + vm_compute. reflexivity.
    + intros m t. exists (octets "accept-control-allow-origin", []).
      split; [vm_compute; reflexivity|]. vm_compute. discriminate.
  - split; [|split].
    + change [0x7e; 1; 97] with ([0x7e] ++ [1; 97]). apply repr_literal_indexed_name.
      * cbn [literal_prefix]. replace 62 with (0x7e mod 2 ^ 6) by reflexivity.
        apply rfc_int_short; [lia|reflexivity].
      * cbn. do 2 eexists. split; [reflexivity|lia].
      * discriminate.
      * change [1; 97] with ([1] ++ [97]). apply string_plain.
        -- replace (N.of_nat (length [97])) with (1 mod 2 ^ 7) by reflexivity. apply rfc_int_short; [lia|reflexivity].
        -- do 2 eexists. split; [reflexivity|lia].
        -- intros b [<-|[]]. lia.
    + vm_compute. reflexivity.
    + intros []; eexists; vm_compute; reflexivity.
Qed.

Example C26_case : exists l r o t', small_repr l r /\
  step 4096 (Table 4096 []) r = Some (o, t') /\ supported Strict r o /\
  r = RLiteral Incremental (NameIndex 1) (octets "a").
Proof.
  destruct (encode_header_spec Incremental (octets ":authority", octets "a") ModeHuffman default_table)
    as (out & E & R); [apply forallb_wf; vm_compute; reflexivity|apply forallb_wf; vm_compute; reflexivity|].
  replace (chosen Incremental (octets ":authority", octets "a") default_table)
    with (RLiteral Incremental (NameIndex 1) (octets "a")) in R by (vm_compute; reflexivity).
  vm_compute in E. inversion E; subst out.
  do 4 eexists. split; [apply minimal_small; [exact R|reflexivity|reflexivity]|].
  split; [vm_compute; reflexivity|]. split; [|reflexivity].
  split; [discriminate|]. split; [discriminate|right; discriminate].
Qed.

(* C27: an index beyond both tables is rejected, in an indexed field and as a
   name index, whenever its representation is within the supported integer
   range (6 octets, below 2^31 + 2^n - 1). *)
Theorem C27_invalid_index_rejected_partial : forall m l i rest t,
  61 + size (dt_entries t) < i -> is_octets rest -> size l <= 6 ->
  (rfc_int 7 l i -> i < 2 ^ 31 + 127 -> first_in 128 256 l ->
     decode_header m (l ++ rest) t = Throw OutOfRange) /\
  (forall k, rfc_int (literal_prefix k) l i -> i < 2 ^ 31 + (2 ^ literal_prefix k - 1) -> literal_pattern k l ->
     decode_header m (l ++ rest) t = Throw OutOfRange).
Proof.
  intros m l i rest t L O S6. apply octets_wf in O.
  assert (NR : make_indexed_header i t = Throw OutOfRange).
  { rewrite indexed_header_spec by lia. unfold resolve_in. rewrite lib_static_len. change (N.of_nat 61) with 61.
    destruct (N.eqb_spec i 0); [lia|]. destruct (N.leb_spec i 61); [lia|]. cbn [t_entries rfc_table].
    destruct (nth_error (dt_entries t) (N.to_nat (i - 1 - 61))) eqn:E; [|reflexivity].
    assert (nth_error (dt_entries t) (N.to_nat (i - 1 - 61)) <> None) as X by congruence.
    apply nth_error_Some in X. unfold size in L. lia. }
  assert (DI : forall n, prefix_ok n -> rfc_int n l i -> i < 2 ^ 31 + (2 ^ n - 1) ->
    exists len, decode_int_and_length n (l ++ rest) = Ok (i, len)).
  { intros n Hn R B. unfold decode_int_and_length.
    assert (D : decode_integer_value n (l ++ rest) = Ok i).
    { apply decode_integer_char; [exact Hn|apply wf_bytes_app; split; [eapply rfc_int_octets; exact R|exact O]|].
      exists l, rest. auto. }
    rewrite D. cbn [bind]. eauto. }
  split.
  - intros R B F. destruct (DI 7 pok7 R) as [len D]; [change (2 ^ 7 - 1) with 127; exact B|].
    unfold decode_header. destruct (vget_first _ _ _ rest F) as (b & V & Hb). rewrite V. cbn [bind].
    rewrite check_prefix_spec by lia. cbn [bind].
    replace (class_of b) with Indexed by (unfold class_of; destruct (N.leb_spec 128 b); [reflexivity|lia]).
    change (hprefix_eqb Indexed SizeUpdate) with false. cbn [decode_index]. rewrite D. cbn [bind].
    destruct (N.ltb_spec 0 i); [|lia]. rewrite NR. reflexivity.
  - intros k R B P. destruct (DI _ (literal_prefix_ok k) R B) as [len D].
    unfold decode_header. destruct (literal_class k l rest P) as (b & V & C). rewrite V. cbn [bind]. rewrite C. cbn [bind].
    rewrite lib_prefix_not_update, decode_index_literal, D. cbn [bind].
    destruct (N.ltb_spec 0 i); [|lia]. rewrite NR. reflexivity.
Qed.

(* C27 is false for index 0: an empty header is returned. *)
Theorem C27_index_zero_refuted : forall m rest t, is_octets rest ->
  decode_header m (0x80 :: rest) t = Ok (HEntry Indexed (EHeader ([], [])), 1) /\
  rfc_repr [0x80] (RIndexed 0) /\ step 4096 (Table (dt_max t) (dt_entries t)) (RIndexed 0) = None.
Proof.
  intros m rest t O. split; [|split].
  - unfold decode_header, vget. rewrite size_cons. destruct (N.ltb_spec 0 (size rest + 1)); [reflexivity|lia].
  - apply repr_indexed; [|do 2 eexists; split; [reflexivity|lia]].
    replace 0 with (0x80 mod 2 ^ 7) by reflexivity. apply rfc_int_short; [lia|reflexivity].
  - reflexivity.
Qed.

Example C27_case : decode_header Strict [0xbe] default_table = Throw OutOfRange.
Proof. vm_compute. reflexivity. Qed.

(* C28: a block given as a list of representations. *)
Definition fields_of (b : header_block) : list header :=
  flat_map (fun e => match e_content e with EHeader h => [h] | ESize _ => [] end) b.

(* The representation changes the table. *)
Definition changes_table (r : repr) : bool :=
  match r with RLiteral Incremental _ _ => true | RResize _ => true | _ => false end.

(* No dynamic entry is referenced after the table has changed. *)
Fixpoint no_late_reference (changed : bool) (rs : list repr) : Prop :=
  match rs with
  | [] => True
  | r :: rs' => (changed = true -> table_ref r <= 61) /\ no_late_reference (changed || changes_table r) rs'
  end.

(* The RFC's sequential processing, with the library's deviations excluded. *)
Inductive rfc_run (m : ub_mode) (limit : N)
  : table -> list N -> list repr -> header_block -> list field -> table -> Prop :=
| rfc_run_nil : forall t, rfc_run m limit t [] [] [] [] t
| rfc_run_cons : forall t l r o t1 ls rs b fs t2,
    small_repr l r -> step limit t r = Some (o, t1) -> supported m r o ->
    rfc_run m limit t1 ls rs b fs t2 ->
    rfc_run m limit t (l ++ ls) (r :: rs) (reported r o :: b) (opt_cons o fs) t2.

Lemma small_repr_octets : forall l r, small_repr l r -> wf_bytes l /\ l <> [].
Proof.
  intros l r H.
  assert (NE : forall n l' v, rfc_int n l' v -> l' <> []) by (intros n l' v X; destruct X; discriminate).
  destruct H.
  - split; [eapply rfc_int_octets; apply H|eapply NE; apply H].
  - split; [apply wf_bytes_app; split; [eapply rfc_int_octets; apply H|apply (small_string_octets _ _ H2)]|].
    intros X. apply app_eq_nil in X. destruct X as [X _]. revert X. eapply NE; apply H.
  - split; [apply wf_bytes_app; split; [eapply rfc_int_octets; apply H|
      apply wf_bytes_app; split; [apply (small_string_octets _ _ H1)|apply (small_string_octets _ _ H2)]]|].
    intros X. apply app_eq_nil in X. destruct X as [X _]. revert X. eapply NE; apply H.
  - split; [eapply rfc_int_octets; apply H|eapply NE; apply H].
Qed.

Lemma rfc_run_octets : forall m limit t ls rs b fs t', rfc_run m limit t ls rs b fs t' -> wf_bytes ls.
Proof.
  intros m limit t ls rs b fs t' H. induction H; [constructor|].
  apply wf_bytes_app. split; [apply (small_repr_octets _ _ H)|exact IHrfc_run].
Qed.

(* rfc_run is a restriction of the specification's rfc_block. *)
Lemma rfc_run_block : forall m limit t ls rs b fs t', rfc_run m limit t ls rs b fs t' ->
  rfc_block limit t ls fs t' /\ fields_of b = fs.
Proof.
  intros m limit t ls rs b fs t' H. induction H.
  - split; [constructor|reflexivity].
  - destruct IHrfc_run as [IH IF]. split.
    + econstructor; [apply small_rfc; exact H|exact H0|exact IH].
    + cbn [fields_of flat_map]. fold (fields_of b). rewrite IF.
      destruct r as [i|k n v|n]; unfold step in H0; cbn [step_in] in H0.
      * destruct (resolve_in rfc_static t i); [|discriminate]. inversion H0; subst. reflexivity.
      * destruct (name_of rfc_static t n); [|discriminate]. inversion H0; subst. reflexivity.
      * destruct (n <=? limit); [|discriminate]. inversion H0; subst. reflexivity.
Qed.

Lemma resolve_static_any : forall t t' i, i <= 61 -> resolve t i = resolve t' i.
Proof.
  intros t t' i B. unfold resolve, resolve_in. destruct (i =? 0); [reflexivity|].
  change (N.of_nat (length rfc_static)) with 61. destruct (N.leb_spec i 61); [reflexivity|lia].
Qed.

Lemma step_field_any : forall limit t t0 r o t1, step limit t r = Some (o, t1) ->
  (table_ref r <= 61 \/ t = t0) -> exists t1', step limit t0 r = Some (o, t1').
Proof.
  intros limit t t0 r o t1 H [B|<-]; [|eauto]. unfold step in *. destruct r as [i|k n v|n]; cbn [step_in table_ref] in *.
  - fold resolve in *. rewrite (resolve_static_any t0 t i B). destruct (resolve t i); [|discriminate].
    inversion H; subst. eauto.
  - destruct n as [i|s]; cbn [name_of] in *.
    + fold resolve in *. rewrite (resolve_static_any t0 t i B).
      destruct (option_map fst (resolve t i)); [|discriminate]. inversion H; subst. eauto.
    + inversion H; subst. eauto.
  - destruct (n <=? limit); [|discriminate]. inversion H; subst. eauto.
Qed.

Lemma step_no_change : forall limit t r o t1, step limit t r = Some (o, t1) -> changes_table r = false -> t1 = t.
Proof.
  intros limit t r o t1 H C. unfold step in H. destruct r as [i|k n v|n]; cbn [step_in changes_table] in *.
  - destruct (resolve_in rfc_static t i); [|discriminate]. inversion H. reflexivity.
  - destruct (name_of rfc_static t n); [|discriminate]. destruct k; [discriminate| |]; inversion H; reflexivity.
  - discriminate.
Qed.

Lemma block_decodes : forall m limit t0 ls rs b fs t', rfc_run m limit t0 ls rs b fs t' ->
  forall t changed, no_late_reference changed rs -> (changed = false -> t0 = rfc_table t) ->
  decode_block m ls t = Ok b.
Proof.
  intros m limit t0 ls rs b fs t' H. induction H; intros T changed NL CH; [reflexivity|].
  cbn [no_late_reference] in NL. destruct NL as [NL1 NL2].
  pose proof (small_repr_octets _ _ H) as [W NE]. pose proof (rfc_run_octets _ _ _ _ _ _ _ _ H2) as W2.
  destruct (step_field_any limit t (rfc_table T) r o t1 H0) as [t1' ST].
  { destruct changed; [left; apply NL1; reflexivity|right; apply CH; reflexivity]. }
  assert (D : decode_header m (l ++ ls) T = Ok (reported r o, size l)).
  { eapply C26_decoding_agrees_partial; try eassumption. apply wf_octets; exact W2. }
  rewrite (decode_block_cons m l ls T (reported r o)); [|apply wf_bytes_app; split; assumption|exact NE|exact D].
  rewrite (IHrfc_run T (changed || changes_table r) NL2).
  - reflexivity.
  - intros C. apply orb_false_iff in C. destruct C as [-> C2].
    rewrite (step_no_change limit t r o t1 H0 C2). apply CH. reflexivity.
Qed.

(* C28: blocks that the RFC processes to fs and in which no dynamic entry is
   referenced after a change decode to fs. *)
Theorem C28_block_decoding_partial : forall m limit t raw rs b fs t',
  rfc_run m limit (Table (dt_max t) (dt_entries t)) raw rs b fs t' ->
  no_late_reference false rs ->
  decode_block m raw t = Ok b /\ fields_of b = fs /\
  rfc_block limit (Table (dt_max t) (dt_entries t)) raw fs t'.
Proof.
  intros m limit t raw rs b fs t' R NL. destruct (rfc_run_block _ _ _ _ _ _ _ _ R) as [RB F].
  split; [|split; assumption]. eapply block_decodes; [exact R|exact NL|reflexivity].
Qed.

(* C28 is false in general: two fields "a: b", the second sent by reference to
   the first, are valid but rejected; and when the table already holds another
   entry, the reference is silently resolved to that one. *)
Theorem C28_sequential_refuted :
  let raw := [0x40; 1; 97; 1; 98; 0xbe] in
  let old := (octets "x", octets "y") in
  let ab := (octets "a", octets "b") in
  rfc_block 4096 (Table 4096 [old]) raw [ab; ab] (Table 4096 [ab; old]) /\
  rfc_block 4096 (Table 4096 []) raw [ab; ab] (Table 4096 [ab]) /\
  (forall m, decode_block m raw (DynTable [old] 34 4096) =
     Ok [HEntry IncrementalIndexing (EHeader ab); HEntry Indexed (EHeader old)]) /\
  (forall m, decode_block m raw default_table = Throw OutOfRange).
Proof.
  assert (S1 : rfc_string [1; 97] [97]).
  { change [1; 97] with ([1] ++ [97]). apply string_plain.
    - replace (N.of_nat (length [97])) with (1 mod 2 ^ 7) by reflexivity. apply rfc_int_short; [lia|reflexivity].
    - do 2 eexists. split; [reflexivity|lia].
    - intros b [<-|[]]. lia. }
  assert (S2 : rfc_string [1; 98] [98]).
  { change [1; 98] with ([1] ++ [98]). apply string_plain.
    - replace (N.of_nat (length [98])) with (1 mod 2 ^ 7) by reflexivity. apply rfc_int_short; [lia|reflexivity].
    - do 2 eexists. split; [reflexivity|lia].
    - intros b [<-|[]]. lia. }
  assert (R1 : rfc_repr [0x40; 1; 97; 1; 98] (RLiteral Incremental (NameLiteral [97]) [98])).
  { change [0x40; 1; 97; 1; 98] with ([0x40] ++ [1; 97] ++ [1; 98]). apply repr_literal_new_name.
    - replace 0 with (0x40 mod 2 ^ 6) by reflexivity. apply rfc_int_short; [lia|reflexivity].
    - cbn. do 2 eexists. split; [reflexivity|lia].
    - exact S1.
    - exact S2. }
  assert (R2 : rfc_repr [0xbe] (RIndexed 62)).
  { apply repr_indexed; [|do 2 eexists; split; [reflexivity|lia]].
    replace 62 with (0xbe mod 2 ^ 7) by reflexivity. apply rfc_int_short; [lia|reflexivity]. }
  assert (BLK : forall es es', step 4096 (Table 4096 es) (RLiteral Incremental (NameLiteral [97]) [98])
                 = Some (Some ([97], [98]), Table 4096 (([97], [98]) :: es')) ->
     rfc_block 4096 (Table 4096 es) [0x40; 1; 97; 1; 98; 0xbe] [([97], [98]); ([97], [98])]
       (Table 4096 (([97], [98]) :: es'))).
  { intros es es' ST. change [0x40; 1; 97; 1; 98; 0xbe] with ([0x40; 1; 97; 1; 98] ++ [0xbe] ++ []).
    change [([97], [98]); ([97], [98])] with
      (opt_cons (Some (@pair (list N) (list N) [97] [98])) (opt_cons (Some (@pair (list N) (list N) [97] [98])) [])).
    econstructor; [exact R1|exact ST|]. econstructor; [exact R2|reflexivity|]. constructor. }
  cbv zeta. split; [|split; [|split]].
  - apply (BLK [(octets "x", octets "y")] [(octets "x", octets "y")]). vm_compute. reflexivity.
  - apply (BLK [] []). vm_compute. reflexivity.
  - intros []; vm_compute; reflexivity.
  - intros []; vm_compute; reflexivity.
Qed.

Example C28_case : decode_block Strict [0x82; 0xbe; 0x40; 1; 97; 1; 98] (DynTable [(octets "x", octets "y")] 34 4096)
  = Ok [HEntry Indexed (EHeader (octets ":method", octets "GET"));
        HEntry Indexed (EHeader (octets "x", octets "y"));
        HEntry IncrementalIndexing (EHeader (octets "a", octets "b"))].
Proof. vm_compute. reflexivity. Qed.

Print Assumptions C18_header_roundtrip.
Print Assumptions C18_encoder_total.
Print Assumptions C19_size_update_roundtrip_partial.
Print Assumptions C19_size_update_refuted.
Print Assumptions C20_indexed_denotes.
Print Assumptions C21_indexed_corrupts_refuted.
Print Assumptions C21_indexed_in_tables_partial.
Print Assumptions C22_representation_kept.
Print Assumptions C23_classification.
Print Assumptions C23_reported_prefix.
Print Assumptions C24_consumed_bounds.
Print Assumptions C24_block_terminates.
Print Assumptions C24_block_covers.
Print Assumptions C25_hostile_bytes_refuted.
Print Assumptions C25_ub_kinds_partial.
Print Assumptions C25_complete_field_partial.
Print Assumptions C26_decoding_agrees_partial.
Print Assumptions C26_decoding_refuted.
Print Assumptions C27_invalid_index_rejected_partial.
Print Assumptions C27_index_zero_refuted.
Print Assumptions C28_block_decoding_partial.
Print Assumptions C28_sequential_refuted.
