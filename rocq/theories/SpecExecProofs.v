(* The reference decoder (SpecExec.v) computes exactly the relations of
   SpecHpack.v. *)
From Coq Require Import ZArith NArith List Bool Lia ZifyBool ZifyNat ZifyN.
From Verif Require Import Base Arith SpecBits SpecHuffman SpecInt SpecHpack SpecExec Huffman HuffmanProofs HuffmanDecProofs HeaderProofs SpecUnique.
Import ListNotations.
Local Open Scope list_scope.
Local Open Scope N_scope.
Ltac Zify.zify_post_hook ::= Z.div_mod_to_equations.

Lemma octets_tail : forall b l, is_octets (b :: l) -> b < 256 /\ is_octets l.
Proof. intros b l O. split; [apply O; left; reflexivity|]. intros x I. apply O. right. exact I. Qed.

Lemma octets_split : forall a b, is_octets (a ++ b) -> is_octets a /\ is_octets b.
Proof. intros a b O. split; intros x I; apply O, in_or_app; auto. Qed.

(* ---- integers ---- *)

Lemma exec_cont_sound : forall l v rest, is_octets l -> exec_cont l = Some (v, rest) -> exists p, l = p ++ rest /\ rfc_cont p v.
Proof.
  induction l as [|b l IH]; intros v rest O E; [discriminate E|]. cbn [exec_cont] in E. apply octets_tail in O. destruct O as [B O].
  destruct (N.ltb_spec b 128).
  - injection E as <- <-. exists [b]. split; [reflexivity|]. constructor. assumption.
  - destruct (exec_cont l) as [[w r]|] eqn:X; [|discriminate E]. injection E as <- <-. destruct (IH w r O eq_refl) as (p & -> & C).
    exists (b :: p). split; [reflexivity|]. constructor; [lia|exact C].
Qed.

Lemma exec_cont_complete : forall p v, rfc_cont p v -> forall rest, exec_cont (p ++ rest) = Some (v, rest).
Proof.
  intros p v C. induction C as [b B|b l v B C IH]; intros rest; cbn [app exec_cont].
  - destruct (N.ltb_spec b 128); [reflexivity|lia].
  - destruct (N.ltb_spec b 128); [lia|]. rewrite IH. reflexivity.
Qed.

Lemma exec_int_sound : forall n l v rest, is_octets l -> exec_int n l = Some (v, rest) -> exists p, l = p ++ rest /\ rfc_int n p v.
Proof.
  intros n [|b l] v rest O E; [discriminate E|]. cbn [exec_int] in E. apply octets_tail in O. destruct O as [B O].
  destruct (N.ltb_spec (b mod 2 ^ n) (2 ^ n - 1)) as [L|L].
  - injection E as <- <-. exists [b]. split; [reflexivity|]. constructor; assumption.
  - destruct (exec_cont l) as [[w r]|] eqn:X; [|discriminate E]. injection E as <- <-.
    destruct (exec_cont_sound l w r O X) as (p & -> & C). exists (b :: p). split; [reflexivity|]. constructor; [exact B| |exact C].
    assert (b mod 2 ^ n < 2 ^ n) by (apply N.mod_lt, N.pow_nonzero; discriminate). lia.
Qed.

Lemma exec_int_complete : forall n p v, rfc_int n p v -> forall rest, exec_int n (p ++ rest) = Some (v, rest).
Proof.
  intros n p v C rest. destruct C as [b B S|b l v B S C]; cbn [app exec_int].
  - destruct (N.ltb_spec (b mod 2 ^ n) (2 ^ n - 1)); [reflexivity|lia].
  - destruct (N.ltb_spec (b mod 2 ^ n) (2 ^ n - 1)); [lia|]. rewrite (exec_cont_complete _ _ C). reflexivity.
Qed.

(* ---- Huffman strings ---- *)

Lemma strip_sound : forall c b r, strip c b = Some r -> b = c ++ r.
Proof.
  induction c as [|x c IH]; intros b r E; cbn in E; [injection E as ->; reflexivity|].
  destruct b as [|y b]; [discriminate E|]. destruct (eqb x y) eqn:Q; [|discriminate E]. apply eqb_prop in Q. subst y.
  rewrite (IH b r E). reflexivity.
Qed.

Lemma strip_complete : forall c r, strip c (c ++ r) = Some r.
Proof. induction c as [|x c IH]; intros r; cbn; [reflexivity|]. rewrite eqb_reflx. apply IH. Qed.

Lemma first_symbol_sound : forall ws bits s r, first_symbol ws bits = Some (s, r) -> exists c, In (s, c) ws /\ bits = c ++ r.
Proof.
  induction ws as [|[s' c] ws IH]; intros bits s r E; [discriminate E|]. cbn [first_symbol] in E. destruct (strip c bits) as [r'|] eqn:X.
  - injection E as <- <-. exists c. split; [left; reflexivity|]. apply strip_sound. exact X.
  - destruct (IH bits s r E) as (c' & I & Q). exists c'. split; [right; exact I|exact Q].
Qed.

Lemma first_symbol_none : forall ws bits s c, first_symbol ws bits = None -> In (s, c) ws -> ~ is_prefix c bits.
Proof.
  induction ws as [|[s' c'] ws IH]; intros bits s c E I; [destruct I|]. cbn [first_symbol] in E. destruct (strip c' bits) as [r'|] eqn:X; [discriminate E|].
  destruct I as [I|I]; [injection I as -> ->|apply (IH bits s c E I)]. intros (r & ->). rewrite strip_complete in X. discriminate X.
Qed.

Lemma code_words_in : forall s c, In (s, c) code_words <-> s < 256 /\ c = rfc_code s.
Proof.
  intros s c. unfold code_words. rewrite in_map_iff. split.
  - intros (i & E & I). injection E as <- <-. apply in_seq in I. split; [lia|reflexivity].
  - intros [L ->]. exists (N.to_nat s). rewrite N2Nat.id. split; [reflexivity|]. apply in_seq. lia.
Qed.

Lemma first_symbol_at : forall s r, s < 256 -> first_symbol code_words (rfc_code s ++ r) = Some (s, r).
Proof.
  intros s r L. destruct (first_symbol code_words (rfc_code s ++ r)) as [[s' r']|] eqn:E.
  - apply first_symbol_sound in E. destruct E as (c & I & Q). apply code_words_in in I. destruct I as [L' ->].
    assert (S : s = s').
    { assert (P : is_prefix (rfc_code s) (rfc_code s') \/ is_prefix (rfc_code s') (rfc_code s)).
      { clear -Q. revert Q. generalize (rfc_code s), (rfc_code s'). intros a b. revert b. induction a as [|x a IH]; intros b Q.
        - left. exists b. reflexivity.
        - destruct b as [|y b]; [right; exists (x :: a); reflexivity|]. cbn [app] in Q. injection Q as -> Q.
          destruct (IH b Q) as [[z ->]|[z ->]]; [left|right]; exists z; reflexivity. }
      destruct P as [P|P]; [|symmetry]; apply prefix_free; try exact P; lia. }
    subst s'. apply app_inv_head in Q. subst r'. reflexivity.
  - exfalso. apply (first_symbol_none _ _ s (rfc_code s) E); [apply code_words_in; auto|]. exists r. reflexivity.
Qed.

Lemma ones_no_symbol : forall k, (k < 8)%nat -> first_symbol code_words (repeat true k) = None.
Proof. intros k L. do 8 (destruct k as [|k]; [vm_compute; reflexivity|]). lia. Qed.

Lemma code_nonempty : forall s, s < 256 -> (1 <= length (rfc_code s))%nat.
Proof.
  intros s L. assert (F : forallb (fun p => Nat.leb 1 (length (snd p))) code_words = true) by (vm_compute; reflexivity).
  rewrite forallb_forall in F. apply Nat.leb_le. apply (F (s, rfc_code s)). apply code_words_in. auto.
Qed.

Lemma exec_huffman_complete : forall s fuel pad, is_octets s -> (pad < 8)%nat ->
  (length (flat_map rfc_code s ++ repeat true pad) <= fuel)%nat -> exec_huffman fuel (flat_map rfc_code s ++ repeat true pad) = Some s.
Proof.
  induction s as [|x s IH]; intros fuel pad O P F.
  - cbn [flat_map app] in *.
    assert (E : exec_huffman fuel (repeat true pad) =
       if (Nat.ltb (length (repeat true pad)) 8) && forallb (fun b => b) (repeat true pad) then Some [] else None).
    { destruct fuel; cbn [exec_huffman]; rewrite ones_no_symbol by exact P; reflexivity. }
    rewrite E, repeat_length. destruct (Nat.ltb_spec pad 8); [|lia]. cbn [andb].
    replace (forallb (fun b => b) (repeat true pad)) with true; [reflexivity|]. clear. induction pad; [reflexivity|exact IHpad].
  - cbn [flat_map] in *. rewrite <- app_assoc in *. apply octets_tail in O. destruct O as [B O].
    pose proof (code_nonempty x B) as NE. destruct fuel as [|fuel]; [rewrite app_length in F; lia|].
    cbn [exec_huffman]. rewrite first_symbol_at by exact B. rewrite IH; [reflexivity|exact O|exact P|]. rewrite app_length in F. lia.
Qed.

Lemma exec_huffman_sound : forall fuel bits s, exec_huffman fuel bits = Some s ->
  is_octets s /\ exists pad, bits = flat_map rfc_code s ++ repeat true pad /\ (pad < 8)%nat.
Proof.
  assert (END : forall bits s, (if (Nat.ltb (length bits) 8) && forallb (fun b => b) bits then Some [] else None) = Some s ->
     is_octets s /\ exists pad, bits = flat_map rfc_code s ++ repeat true pad /\ (pad < 8)%nat).
  { intros bits s E. destruct (Nat.ltb_spec (length bits) 8) as [L|L]; [|discriminate E]. cbn [andb] in E.
    destruct (forallb (fun b => b) bits) eqn:A; [|discriminate E]. injection E as <-. split; [intros x []|].
    exists (length bits). split; [|exact L]. cbn. clear -A. induction bits as [|b l IH]; [reflexivity|]. cbn in *. apply andb_true_iff in A.
    destruct A as [-> A]. f_equal. apply IH. exact A. }
  induction fuel as [|fuel IH]; intros bits s E; cbn [exec_huffman] in E; destruct (first_symbol code_words bits) as [[x r]|] eqn:X; try discriminate E;
    try (apply END; exact E).
  destruct (exec_huffman fuel r) as [l|] eqn:Y; [|discriminate E]. injection E as <-.
  apply first_symbol_sound in X. destruct X as (c & I & ->). apply code_words_in in I. destruct I as [B ->].
  destruct (IH r l Y) as (O & pad & -> & P). split.
  - intros y [<-|I]; [exact B|apply O; exact I].
  - exists pad. cbn [flat_map]. rewrite <- app_assoc. auto.
Qed.

(* ---- strings ---- *)

Lemma exec_string_sound : forall l s rest, is_octets l -> exec_string l = Some (s, rest) -> exists p, l = p ++ rest /\ rfc_string p s.
Proof.
  intros l s rest O E. unfold exec_string in E. destruct l as [|b l]; [discriminate E|].
  destruct (exec_int 7 (b :: l)) as [[len r]|] eqn:X; [|discriminate E].
  destruct (exec_int_sound _ _ _ _ O X) as (p & Q & I). destruct (N.leb_spec len (N.of_nat (length r))) as [L|L]; [|discriminate E].
  assert (F : exists tl, p = b :: tl). { destruct I; cbn [app] in Q; injection Q as <- _; eauto. }
  destruct F as (tl & F). pose proof O as O'. rewrite Q in O'. apply octets_split in O'. destruct O' as [_ OR].
  rewrite <- (firstn_skipn (N.to_nat len) r) in OR. apply octets_split in OR. destruct OR as [OD _].
  assert (LD : N.of_nat (length (firstn (N.to_nat len) r)) = len) by (rewrite firstn_length; lia).
  assert (B : b < 256) by (apply O; left; reflexivity).
  destruct (N.ltb_spec b 128) as [B1|B1].
  - injection E as <- <-. exists (p ++ firstn (N.to_nat len) r). rewrite <- app_assoc, firstn_skipn. split; [exact Q|].
    apply string_plain; [rewrite LD; exact I| |exact OD]. exists b, tl. split; [exact F|lia].
  - destruct (exec_huffman _ _) as [s'|] eqn:H in E; [|discriminate E]. injection E as <- <-.
    destruct (exec_huffman_sound _ _ _ H) as (OS & pad & HB & P).
    exists (p ++ firstn (N.to_nat len) r). rewrite <- app_assoc, firstn_skipn. split; [exact Q|].
    apply string_huffman; [rewrite LD; exact I| |exact OS|]; [exists b, tl; split; [exact F|lia]|].
    split; [exact OD|]. exists pad. auto.
Qed.

Lemma exec_string_complete : forall p s, rfc_string p s -> forall rest, exec_string (p ++ rest) = Some (s, rest).
Proof.
  assert (G : forall l (data rest : list N) len, rfc_int 7 l len -> N.of_nat (length data) = len ->
    exists b tl, l = b :: tl /\ exec_int 7 ((l ++ data) ++ rest) = Some (len, data ++ rest) /\ (len <=? N.of_nat (length (data ++ rest))) = true /\
      firstn (N.to_nat len) (data ++ rest) = data /\ skipn (N.to_nat len) (data ++ rest) = rest).
  { intros l data rest len I L.
    assert (X : exists b tl, l = b :: tl) by (destruct I; eauto). destruct X as (b & tl & E). exists b, tl. split; [exact E|].
    rewrite <- app_assoc, (exec_int_complete 7 l _ I). split; [reflexivity|]. split; [apply N.leb_le; rewrite app_length; lia|].
    subst len. rewrite Nat2N.id. rewrite firstn_app, skipn_app, firstn_all, skipn_all, Nat.sub_diag, app_nil_r. cbn. auto. }
  intros p s S rest. destruct S as [l s I F O|l e s I F O H].
  - destruct (G l s rest _ I eq_refl) as (b & tl & E & X & Y & Z & W). destruct F as (b' & tl' & E' & F). rewrite E in E'. injection E' as <- <-.
    subst l. cbn [app] in X |- *. unfold exec_string. rewrite X, Y, Z, W. destruct (N.ltb_spec b 128); [reflexivity|lia].
  - destruct (G l e rest _ I eq_refl) as (b & tl & E & X & Y & Z & W). destruct F as (b' & tl' & E' & F). rewrite E in E'. injection E' as <- <-.
    subst l. cbn [app] in X |- *. unfold exec_string. rewrite X, Y, Z, W. destruct (N.ltb_spec b 128); [lia|].
    destruct H as (OE & pad & HB & P). rewrite HB, exec_huffman_complete; [reflexivity|exact O|exact P|apply Nat.le_refl].
Qed.

(* ---- representations ---- *)

Lemma int_first : forall n p v, rfc_int n p v -> exists b tl, p = b :: tl.
Proof. intros n p v []; eauto. Qed.

Lemma exec_literal_sound : forall k l r rest, is_octets l -> exec_literal k l = Some (r, rest) -> literal_pattern k l ->
  exists p, l = p ++ rest /\ rfc_repr p r.
Proof.
  intros k l r rest O E PT. unfold exec_literal in E. destruct (exec_int (literal_prefix k) l) as [[i l1]|] eqn:X; [|discriminate E].
  destruct (exec_int_sound _ _ _ _ O X) as (p & -> & I). apply octets_split in O. destruct O as [_ O1].
  destruct (int_first _ _ _ I) as (b & tl & PB).
  assert (PP : literal_pattern k p).
  { subst p. destruct k; cbn [literal_pattern app] in *; destruct PT as (b' & tl' & Q & R); injection Q as -> _; exists b', tl; auto. }
  destruct (N.eqb_spec i 0) as [->|NZ].
  - destruct (exec_string l1) as [[nm l2]|] eqn:S1; [|discriminate E]. destruct (exec_string l2) as [[v l3]|] eqn:S2; [|discriminate E].
    injection E as <- <-. destruct (exec_string_sound _ _ _ O1 S1) as (p1 & -> & R1). apply octets_split in O1. destruct O1 as [_ O2].
    destruct (exec_string_sound _ _ _ O2 S2) as (p2 & -> & R2). exists (p ++ p1 ++ p2). rewrite <- !app_assoc. split; [reflexivity|].
    apply repr_literal_new_name; assumption.
  - destruct (exec_string l1) as [[v l2]|] eqn:S1; [|discriminate E]. injection E as <- <-.
    destruct (exec_string_sound _ _ _ O1 S1) as (p1 & -> & R1). exists (p ++ p1). rewrite <- app_assoc. split; [reflexivity|].
    apply repr_literal_indexed_name; assumption.
Qed.

Theorem exec_repr_sound : forall l r rest, is_octets l -> exec_repr l = Some (r, rest) -> exists p, l = p ++ rest /\ rfc_repr p r.
Proof.
  intros l r rest O E. unfold exec_repr in E. destruct l as [|b l]; [discriminate E|].
  assert (B : b < 256) by (apply O; left; reflexivity).
  destruct (N.leb_spec 128 b).
  { destruct (exec_int 7 (b :: l)) as [[i x]|] eqn:X; [|discriminate E]. injection E as <- <-.
    destruct (exec_int_sound _ _ _ _ O X) as (p & Q & I). exists p. split; [exact Q|]. apply repr_indexed; [exact I|].
    destruct (int_first _ _ _ I) as (b' & tl & ->). injection Q as <- _. exists b, tl. auto. }
  destruct (N.leb_spec 64 b). { apply (exec_literal_sound Incremental _ _ _ O E). exists b, l. split; [reflexivity|lia]. }
  destruct (N.leb_spec 32 b).
  { destruct (exec_int 5 (b :: l)) as [[i x]|] eqn:X; [|discriminate E]. injection E as <- <-.
    destruct (exec_int_sound _ _ _ _ O X) as (p & Q & I). exists p. split; [exact Q|]. apply repr_resize; [exact I|].
    destruct (int_first _ _ _ I) as (b' & tl & ->). injection Q as <- _. exists b, tl. split; [reflexivity|lia]. }
  destruct (N.leb_spec 16 b). { apply (exec_literal_sound Never _ _ _ O E). exists b, l. split; [reflexivity|lia]. }
  apply (exec_literal_sound Without _ _ _ O E). exists b, l. split; [reflexivity|lia].
Qed.

Theorem exec_repr_complete : forall p r, rfc_repr p r -> forall rest, exec_repr (p ++ rest) = Some (r, rest).
Proof.
  assert (LIT : forall k p l, (exists b tl, p = b :: tl) -> literal_pattern k p -> exec_repr (p ++ l) = exec_literal k (p ++ l)).
  { intros k p l (b & tl & ->) P. destruct k; cbn [literal_pattern] in P; destruct P as (b' & tl' & Q & R); injection Q as <- <-; cbn [app exec_repr].
    - destruct (N.leb_spec 128 b); [lia|]. destruct (N.leb_spec 64 b); [reflexivity|lia].
    - destruct (N.leb_spec 128 b); [lia|]. destruct (N.leb_spec 64 b); [lia|]. destruct (N.leb_spec 32 b); [lia|]. destruct (N.leb_spec 16 b); [lia|reflexivity].
    - destruct (N.leb_spec 128 b); [lia|]. destruct (N.leb_spec 64 b); [lia|]. destruct (N.leb_spec 32 b); [lia|]. destruct (N.leb_spec 16 b); [reflexivity|lia]. }
  intros p r R rest. destruct R as [l i I F|k l i vs v I F NZ S|k l ns n vs v I F S1 S2|l n I F].
  - destruct (int_first _ _ _ I) as (b & tl & E). destruct F as (b' & tl' & E' & F). rewrite E in E'. injection E' as <- <-.
    pose proof (exec_int_complete 7 l i I rest) as X. subst l. cbn [app exec_repr] in *. rewrite X. destruct (N.leb_spec 128 b); [reflexivity|lia].
  - rewrite <- app_assoc. rewrite (LIT k) by (try exact F; exact (int_first _ _ _ I)). unfold exec_literal. rewrite (exec_int_complete _ l i I).
    destruct (N.eqb_spec i 0); [contradiction|]. rewrite (exec_string_complete vs v S). reflexivity.
  - rewrite <- !app_assoc. rewrite (LIT k) by (try exact F; exact (int_first _ _ _ I)). unfold exec_literal. rewrite (exec_int_complete _ l 0 I).
    cbn [N.eqb]. rewrite (exec_string_complete ns n S1), (exec_string_complete vs v S2). reflexivity.
  - destruct (int_first _ _ _ I) as (b & tl & E). destruct F as (b' & tl' & E' & F). rewrite E in E'. injection E' as <- <-.
    pose proof (exec_int_complete 5 l n I rest) as X. subst l. cbn [app exec_repr] in *. rewrite X.
    destruct (N.leb_spec 128 b); [lia|]. destruct (N.leb_spec 64 b); [lia|]. destruct (N.leb_spec 32 b); [reflexivity|lia].
Qed.

Lemma repr_nonempty : forall p r, rfc_repr p r -> (1 <= length p)%nat.
Proof.
  intros p r R. destruct R as [l i I F|k l i vs v I F NZ S|k l ns n vs v I F S1 S2|l n I F];
    destruct (int_first _ _ _ I) as (b & tl & ->); cbn [app length]; lia.
Qed.

(* ---- blocks ---- *)

Lemma exec_block_sound : forall static limit fuel t l fs t', is_octets l -> exec_block static limit fuel t l = Some (fs, t') ->
  rfc_block_in static limit t l fs t'.
Proof.
  intros static limit fuel. induction fuel as [|fuel IH]; intros t l fs t' O E; destruct l as [|b l]; cbn [exec_block] in E; try discriminate E;
    try (injection E as <- <-; constructor).
  destruct (exec_repr (b :: l)) as [[r rest]|] eqn:X; [|discriminate E]. destruct (step_in static limit t r) as [[o t1]|] eqn:S; [|discriminate E].
  destruct (exec_block static limit fuel t1 rest) as [[fs' t2]|] eqn:Y; [|discriminate E]. injection E as <- <-.
  destruct (exec_repr_sound _ _ _ O X) as (p & Q & R). rewrite Q in O |- *. apply octets_split in O. destruct O as [_ O].
  econstructor; [exact R|exact S|]. apply IH; assumption.
Qed.

Lemma exec_block_complete : forall static limit t l fs t', rfc_block_in static limit t l fs t' -> forall fuel, (length l <= fuel)%nat ->
  exec_block static limit fuel t l = Some (fs, t').
Proof.
  intros static limit t l fs t' B. induction B as [t|t p r o t1 ls fs t2 R S B IH]; intros fuel F; [destruct fuel; reflexivity|].
  pose proof (repr_nonempty _ _ R) as NE. rewrite app_length in F. destruct fuel as [|fuel]; [lia|].
  pose proof (exec_repr_complete _ _ R ls) as X. destruct (p ++ ls) as [|b l] eqn:Q; [destruct p; [cbn in NE; lia|discriminate Q]|].
  cbn [exec_block]. rewrite X, S, IH by lia. reflexivity.
Qed.

(* An octet string is a valid header block exactly when the reference decoder
   accepts it, and then means what the reference decoder returns. *)
Theorem reference_decoder_correct : forall limit t l fs t', is_octets l ->
  (reference_decoder limit t l = Some (fs, t') <-> rfc_block limit t l fs t').
Proof.
  intros limit t l fs t' O. split; [apply exec_block_sound; exact O|]. intros B. apply (exec_block_complete _ _ _ _ _ _ B). apply Nat.le_refl.
Qed.
