(* The HPACK specification is unambiguous: an octet string is processed in at
   most one way. *)
From Coq Require Import ZArith NArith List Bool Lia ZifyBool ZifyNat ZifyN.
From Verif Require Import Base Arith SpecBits SpecHuffman SpecInt SpecHpack Huffman HuffmanDecProofs HeaderProofs.
Import ListNotations.
Open Scope N_scope.
Ltac Zify.zify_post_hook ::= Z.div_mod_to_equations.

Lemma cont_unique : forall l v, rfc_cont l v -> forall l' v' x x', rfc_cont l' v' -> l ++ x = l' ++ x' ->
  l = l' /\ v = v' /\ x = x'.
Proof.
  intros l v H. induction H as [b B|b l v B H IH]; intros l' v' x x' H' E; destruct H' as [b' B'|b' l' v' B' H'];
    cbn [app] in E; injection E as -> E.
  - auto.
  - lia.
  - lia.
  - destruct (IH _ _ _ _ H' E) as (-> & -> & ->). auto.
Qed.

Lemma int_unique : forall n l v l' v' x x', rfc_int n l v -> rfc_int n l' v' -> l ++ x = l' ++ x' ->
  l = l' /\ v = v' /\ x = x'.
Proof.
  intros n l v l' v' x x' H H' E. destruct H as [b B S|b l v B S C]; destruct H' as [b' B' S'|b' l' v' B' S' C'];
    cbn [app] in E; injection E as -> E.
  - auto.
  - lia.
  - lia.
  - destruct (cont_unique _ _ C _ _ _ _ C' E) as (-> & -> & ->). auto.
Qed.

Lemma first_disjoint : forall a b c d l l' x x', first_in a b l -> first_in c d l' -> l ++ x = l' ++ x' ->
  b <= c \/ d <= a -> False.
Proof.
  intros a b c d l l' x x' (p & tl & -> & P) (q & tl' & -> & Q) E D. cbn [app] in E. injection E as -> _. lia.
Qed.

Lemma app_len_inj : forall A (a b x y : list A), a ++ x = b ++ y -> length a = length b -> a = b /\ x = y.
Proof.
  induction a as [|h a IH]; intros [|k b] x y E L; cbn in *; try discriminate L.
  - auto.
  - injection E as -> E. injection L as L. destruct (IH b x y E L) as [-> ->]. auto.
Qed.

Lemma huffman_unique : forall s s' e, is_octets s -> is_octets s' -> rfc_huffman_encodes s e -> rfc_huffman_encodes s' e ->
  s = s'.
Proof.
  intros s s' e O O' H H'. apply huffman_decode_valid in H; [|apply octets_wf; exact O].
  apply huffman_decode_valid in H'; [|apply octets_wf; exact O']. rewrite H in H'. injection H' as ->. reflexivity.
Qed.

Lemma string_unique : forall l v l' v' x x', rfc_string l v -> rfc_string l' v' -> l ++ x = l' ++ x' ->
  l = l' /\ v = v' /\ x = x'.
Proof.
  intros l v l' v' x x' H H' E. destruct H as [l s I F O|l e s I F O HU]; destruct H' as [l' s' I' F' O'|l' e' s' I' F' O' HU'];
    rewrite <- !app_assoc in E.
  - destruct (int_unique _ _ _ _ _ _ _ I I' E) as (-> & L & E'). apply app_len_inj in E'; [|lia]. destruct E' as [-> ->]. auto.
  - destruct (first_disjoint _ _ _ _ _ _ _ _ F F' E). lia.
  - destruct (first_disjoint _ _ _ _ _ _ _ _ F F' E). lia.
  - destruct (int_unique _ _ _ _ _ _ _ I I' E) as (-> & L & E'). apply app_len_inj in E'; [|lia]. destruct E' as [-> ->].
    rewrite (huffman_unique s s' e' O O' HU HU'). auto.
Qed.

Lemma literal_first : forall k l, literal_pattern k l -> first_in 0 128 l.
Proof. intros k l H. destruct k; destruct H as (b & tl & E & B); exists b, tl; (split; [exact E|lia]). Qed.

Lemma literal_unique : forall k k' l l' x x', literal_pattern k l -> literal_pattern k' l' -> l ++ x = l' ++ x' -> k = k'.
Proof.
  intros k k' l l' x x' H H' E. destruct k, k'; try reflexivity; exfalso; destruct H as (b & tl & -> & B);
    destruct H' as (b' & tl' & -> & B'); cbn [app] in E; injection E as -> _; lia.
Qed.

Lemma literal_not_resize : forall k l l' x x', literal_pattern k l -> first_in 32 64 l' -> l ++ x = l' ++ x' -> False.
Proof.
  intros k l l' x x' H (b' & tl' & -> & B') E. destruct k; destruct H as (b & tl & -> & B); cbn [app] in E; injection E as -> _; lia.
Qed.

Lemma repr_unique : forall l r l' r' x x', rfc_repr l r -> rfc_repr l' r' -> l ++ x = l' ++ x' ->
  l = l' /\ r = r' /\ x = x'.
Proof.
  intros l r l' r' x x' H H' E.
  destruct H as [l i I F|k l i vs v I P NZ S|k l ns n vs v I P S1 S2|l n I F];
  destruct H' as [l' i' I' F'|k' l' i' vs' v' I' P' NZ' S'|k' l' ns' n' vs' v' I' P' S1' S2'|l' n' I' F'];
    rewrite <- ?app_assoc in E.
  - destruct (int_unique _ _ _ _ _ _ _ I I' E) as (-> & -> & ->). auto.
  - destruct (first_disjoint _ _ _ _ _ _ _ _ F (literal_first _ _ P') E). lia.
  - destruct (first_disjoint _ _ _ _ _ _ _ _ F (literal_first _ _ P') E). lia.
  - destruct (first_disjoint _ _ _ _ _ _ _ _ F F' E). lia.
  - destruct (first_disjoint _ _ _ _ _ _ _ _ (literal_first _ _ P) F' E). lia.
  - pose proof (literal_unique _ _ _ _ _ _ P P' E) as <-.
    destruct (int_unique _ _ _ _ _ _ _ I I' E) as (-> & -> & E').
    destruct (string_unique _ _ _ _ _ _ S S' E') as (-> & -> & ->). auto.
  - pose proof (literal_unique _ _ _ _ _ _ P P' E) as <-.
    destruct (int_unique _ _ _ _ _ _ _ I I' E) as (_ & X & _). contradiction.
  - destruct (literal_not_resize _ _ _ _ _ P F' E).
  - destruct (first_disjoint _ _ _ _ _ _ _ _ (literal_first _ _ P) F' E). lia.
  - pose proof (literal_unique _ _ _ _ _ _ P P' E) as <-.
    destruct (int_unique _ _ _ _ _ _ _ I I' E) as (_ & X & _). symmetry in X. contradiction.
  - pose proof (literal_unique _ _ _ _ _ _ P P' E) as <-.
    destruct (int_unique _ _ _ _ _ _ _ I I' E) as (-> & _ & E').
    destruct (string_unique _ _ _ _ _ _ S1 S1' E') as (-> & -> & E2).
    destruct (string_unique _ _ _ _ _ _ S2 S2' E2) as (-> & -> & ->). auto.
  - destruct (literal_not_resize _ _ _ _ _ P F' E).
  - destruct (first_disjoint _ _ _ _ _ _ _ _ F F' E). lia.
  - symmetry in E. destruct (literal_not_resize _ _ _ _ _ P' F E).
  - symmetry in E. destruct (literal_not_resize _ _ _ _ _ P' F E).
  - destruct (int_unique _ _ _ _ _ _ _ I I' E) as (-> & -> & ->). auto.
Qed.

Lemma repr_nonempty : forall l r, rfc_repr l r -> l <> [].
Proof.
  intros l r H E.
  assert (NE : forall n l' v, rfc_int n l' v -> l' <> []) by (intros n l' v X; destruct X; discriminate).
  destruct H as [l i I F|k l i vs v I P NZ S|k l ns n vs v I P S1 S2|l n I F];
    try (apply app_eq_nil in E; destruct E as [E _]); exact (NE _ _ _ I E).
Qed.

Lemma rfc_block_unique : forall limit t raw fs t1, rfc_block limit t raw fs t1 ->
  forall fs' t1', rfc_block limit t raw fs' t1' -> fs = fs' /\ t1 = t1'.
Proof.
  intros limit t raw fs t1 H. induction H as [t|t l r o t1 ls fs t2 R S H IH]; intros fs' t1' H'.
  - inversion H' as [t0 E1 E2 E3|t0 l r o t1 ls fs t2 R S B E1 E2 E3 E4]; subst; [auto|].
    exfalso. apply app_eq_nil in E2. destruct E2 as [-> _]. exact (repr_nonempty _ _ R eq_refl).
  - inversion H' as [t0 E1 E2 E3|t0 l' r' o' t1'' ls' fs'' t2' R' S' B E1 E2 E3 E4]; subst.
    + exfalso. symmetry in E2. apply app_eq_nil in E2. destruct E2 as [-> _]. exact (repr_nonempty _ _ R eq_refl).
    + symmetry in E2. destruct (repr_unique _ _ _ _ _ _ R R' E2) as (-> & -> & ->).
      rewrite S in S'. injection S' as <- <-. destruct (IH _ _ B) as [-> ->]. auto.
Qed.
