(* Properties C80 and C81: encoded blocks that are encoded differently, and
   blocks that are cut short. *)
From Coq Require Import Ascii String.
From Coq Require Import ZArith NArith List Bool Lia ZifyBool ZifyNat ZifyN.
From Verif Require Import Base Arith Util IntRep Huffman StaticTable HeaderType DynTable HeaderEnc HeaderDec FrameHeader Frames
  SpecBits SpecHpack UtilProofs DynTableProofs StaticProofs HeaderProofs HeaderProofs2 PropHeader FrameProofs BlockProofs PropFrame.
Import ListNotations.
Local Open Scope string_scope.
Local Open Scope list_scope.
Local Open Scope N_scope.
Ltac Zify.zify_post_hook ::= Z.div_mod_to_equations.

(* ---------------------------------------------------------------- C80 *)

Lemma received_fun : forall t b b1 b2, Forall2 (received t) b b1 -> Forall2 (received t) b b2 -> b1 = b2.
Proof.
  intros t b b1 b2 F. revert b2. induction F as [|e e1 b b1 R F IH]; intros b2 G; inversion G as [|x e2 y b3 R2 G2]; subst; [reflexivity|].
  f_equal; [|apply IH; exact G2].
  inversion R as [? NI|p h I]; subst; inversion R2 as [? NI2|p2 h2 I2]; subst; try reflexivity.
  - exfalso. exact (NI h2 eq_refl I2).
  - exfalso. exact (NI2 h eq_refl I).
Qed.

Lemma received_fields : forall t b b', Forall2 (received t) b b' -> fields_of b' = fields_of b.
Proof.
  intros t b b' F. induction F as [|e e' b b' R F IH]; [reflexivity|]. unfold fields_of in *. cbn [flat_map]. rewrite IH.
  inversion R; reflexivity.
Qed.

(* The receiver's result does not depend on the string coding. *)
Theorem C80_mode_irrelevant : forall m t b mode1 mode2 raw1 raw2, Forall (sendable m t) b -> size (dt_entries t) < 2 ^ 30 ->
  encode_block b mode1 t = Ok raw1 -> encode_block b mode2 t = Ok raw2 -> size raw1 < 2 ^ 31 -> size raw2 < 2 ^ 31 ->
  exists b', decode_block m raw1 t = Ok b' /\ decode_block m raw2 t = Ok b' /\ fields_of b' = fields_of b.
Proof.
  intros m t b mode1 mode2 raw1 raw2 S T E1 E2 L1 L2.
  destruct (block_roundtrip m t mode1 b S T raw1 E1 L1) as (_ & b1 & D1 & R1).
  destruct (block_roundtrip m t mode2 b S T raw2 E2 L2) as (_ & b2 & D2 & R2).
  exists b1. rewrite (received_fun t b b1 b2 R1 R2) in *. split; [exact D1|]. split; [exact D2|]. exact (received_fields t b b2 R2).
Qed.

(* Blocks with the same octets are the same header list, whatever the codings. *)
Theorem C80_no_confusion : forall m t b1 b2 mode1 mode2 raw, Forall (sendable m t) b1 -> Forall (sendable m t) b2 ->
  size (dt_entries t) < 2 ^ 30 -> size raw < 2 ^ 31 -> encode_block b1 mode1 t = Ok raw -> encode_block b2 mode2 t = Ok raw ->
  fields_of b1 = fields_of b2 /\
  ((forall e h, In e (b1 ++ b2) -> e_content e = EHeader h -> ~ in_tables t h) -> b1 = b2).
Proof.
  intros m t b1 b2 mode1 mode2 raw S1 S2 T L E1 E2.
  destruct (block_roundtrip m t mode1 b1 S1 T raw E1 L) as (_ & c1 & D1 & R1).
  destruct (block_roundtrip m t mode2 b2 S2 T raw E2 L) as (_ & c2 & D2 & R2).
  rewrite D1 in D2. apply Ok_inj in D2. subst c2. split.
  - rewrite <- (received_fields t b1 c1 R1), <- (received_fields t b2 c1 R2). reflexivity.
  - intros NI.
    assert (G : forall b c, Forall2 (received t) b c -> (forall e h, In e b -> e_content e = EHeader h -> ~ in_tables t h) -> b = c).
    { intros b c F. induction F as [|e e' b c R F IH]; intros N; [reflexivity|]. f_equal.
      - inversion R as [? ?|p h I]; subst; [reflexivity|]. exfalso. exact (N _ h (or_introl eq_refl) eq_refl I).
      - apply IH. intros x h I. apply N. right. exact I. }
    rewrite (G b1 c1 R1), (G b2 c1 R2); [reflexivity| |]; intros e h I; apply NI; apply in_or_app; auto.
Qed.

Example C80_case :
  let b := [HEntry NeverIndexed (EHeader (octets "cookie", octets "abc")); HEntry IncrementalIndexing (EHeader (octets "x", octets "12345"))] in
  Forall (sendable Strict default_table) b /\
  exists x y, encode_block b ModeNone default_table = Ok x /\ encode_block b ModeHuffman default_table = Ok y /\ x <> y /\
    decode_block Strict x default_table = Ok b /\ decode_block Strict y default_table = Ok b.
Proof.
  cbv zeta. assert (O : forall p : string, is_octets (octets p)) by (intros p b I; apply in_map_iff in I; destruct I as (a & <- & _); apply N_ascii_bounded).
  split.
  - constructor; [apply (send_literal Strict _ Never); [apply O|apply O|right; split; discriminate]|].
    constructor; [apply (send_literal Strict _ Incremental); [apply O|apply O|right; split; discriminate]|constructor].
  - eexists _, _. split; [vm_compute; reflexivity|]. split; [vm_compute; reflexivity|]. split; [discriminate|]. split; vm_compute; reflexivity.
Qed.

(* ---------------------------------------------------------------- C81 *)

(* Whoever encoded the block, and however: what its first k octets decode to,
   if they decode at all, is what the whole block begins with. *)
Theorem C81_truncated : forall m t raw b k b', is_octets raw -> decode_block m raw t = Ok b ->
  decode_block m (firstn k raw) t = Ok b' -> exists more, b = b' ++ more /\ decode_block m (skipn k raw) t = Ok more.
Proof.
  intros m t raw b k b' O D F. apply octets_wf in O.
  pose proof (decode_block_app m t b' (firstn k raw) (skipn k raw) (wf_bytes_firstn _ _ O) (wf_bytes_skipn _ _ O) F) as A.
  rewrite firstn_skipn, D in A. destruct (decode_block m (skipn k raw) t) as [more|x|u|]; try discriminate A.
  apply Ok_inj in A. exists more. auto.
Qed.

(* For the library's own blocks the cut is between two entries. *)
Theorem C81_own_block : forall m t mode b raw k b', Forall (sendable m t) b -> size (dt_entries t) < 2 ^ 30 ->
  encode_block b mode t = Ok raw -> size raw < 2 ^ 31 -> decode_block m (firstn k raw) t = Ok b' ->
  exists j, encode_block (firstn j b) mode t = Ok (firstn k raw) /\ fields_of b' = fields_of (firstn j b) /\ length b' = length (firstn j b).
Proof.
  intros m t mode b raw k b' F T. revert raw k b'. induction F as [|e b S F IH]; intros raw k b' E L D.
  - cbn in E. apply Ok_inj in E. subst raw. rewrite firstn_nil in *. exists 0%nat. cbn in D. apply Ok_inj in D. subst b'. auto.
  - cbn [encode_block] in E. apply bind_ok in E. destruct E as (x & X & E). apply bind_ok in E. destruct E as (y & Y & E).
    apply Ok_inj in E. subst raw. rewrite size_app in L.
    destruct (block_roundtrip m t mode b F T y Y ltac:(lia)) as (Wy & _).
    destruct (entry_roundtrip m t e mode S T) as (x' & X' & R). rewrite X in X'. apply Ok_inj in X'. subst x'.
    destruct R as (Wx & NX & R). { lia. } destruct (R y Wy) as (e' & DE & RC).
    destruct (firstn k (x ++ y)) as [|z zs] eqn:FK.
    { exists 0%nat. cbn in D. apply Ok_inj in D. subst b'. auto. }
    assert (WF : wf_bytes (z :: zs)). { rewrite <- FK. apply wf_bytes_firstn, wf_bytes_app. auto. }
    rewrite decode_block_step in D by (try exact WF; discriminate).
    apply bind_ok in D. destruct D as ([e2 n] & DH & D). apply bind_ok in D. destruct D as (b2 & DB & D). apply Ok_inj in D. subst b'.
    pose proof (decode_header_bounds _ _ _ _ _ WF DH) as [[_ BN] _].
    apply (decode_header_app _ _ _ _ (skipn k (x ++ y))) in DH. rewrite <- FK, firstn_skipn, DE in DH. apply Ok_inj in DH. injection DH as <- <-.
    assert (KL : (length x <= k)%nat).
    { rewrite <- FK in BN. unfold size in BN. rewrite firstn_length in BN. lia. }
    assert (FE : firstn k (x ++ y) = x ++ firstn (k - length x) y) by (rewrite firstn_app, firstn_all2 by lia; reflexivity).
    assert (SK : skipn (N.to_nat (size x)) (z :: zs) = firstn (k - length x) y).
    { rewrite <- FK, FE. unfold size. rewrite Nat2N.id, skipn_app, skipn_all, Nat.sub_diag. reflexivity. }
    rewrite SK in DB. destruct (IH y (k - length x)%nat b2 Y ltac:(lia) DB) as (j & EJ & FJ & LJ).
    exists (Datatypes.S j). cbn [firstn encode_block]. rewrite X. cbn [bind]. rewrite EJ. cbn [bind]. rewrite <- FK, FE. split; [reflexivity|].
    split; [|cbn [length]; lia].
    change (fields_of (e' :: b2)) with ((match e_content e' with EHeader h => [h] | ESize _ => [] end) ++ fields_of b2).
    change (fields_of (e :: firstn j b)) with ((match e_content e with EHeader h => [h] | ESize _ => [] end) ++ fields_of (firstn j b)).
    rewrite FJ. f_equal. inversion RC; reflexivity.
Qed.

Example C81_case :
  let b := [HEntry NeverIndexed (EHeader (octets "cookie", octets "abc")); HEntry IncrementalIndexing (EHeader (octets "x", octets "12345"))] in
  exists raw, encode_block b ModeHuffman default_table = Ok raw /\ size raw = 13 /\
    decode_block Strict (firstn 5 raw) default_table = Ok (firstn 1 b) /\
    (forall k, (0 < k < 5 \/ 5 < k < 13)%nat -> forall b', decode_block Strict (firstn k raw) default_table <> Ok b').
Proof.
  cbv zeta. eexists. split; [vm_compute; reflexivity|]. split; [reflexivity|]. split; [vm_compute; reflexivity|].
  intros k K b'. do 13 (destruct k as [|k]; [try (exfalso; clear -K; lia); vm_compute; discriminate|]). exfalso. clear -K. lia.
Qed.

Print Assumptions C80_mode_irrelevant.
Print Assumptions C80_no_confusion.
Print Assumptions C81_truncated.
Print Assumptions C81_own_block.
