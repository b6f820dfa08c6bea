(* Behaviour of header decoding on arbitrary octets, and of whole blocks. *)
From Coq Require Import ZArith NArith List Bool Lia ZifyBool ZifyNat ZifyN.
From Verif Require Import Base Arith Util IntRep Huffman StaticTable HeaderType DynTable HeaderEnc HeaderDec
  FrameHeader Frames SpecBits SpecHuffman SpecInt SpecHpack
  IntRepProofs IntSpecProofs UtilProofs HuffmanProofs HuffmanDecProofs DynTableProofs StaticProofs HeaderProofs.
Import ListNotations.
Open Scope N_scope.
Ltac Zify.zify_post_hook ::= Z.div_mod_to_equations.

Lemma int_len_bounds : forall n v x len, prefix_ok n -> wf_bytes v ->
  decode_int_and_length n v = Ok (x, len) -> 1 <= len <= size v.
Proof.
  intros n v x len Hn W H. unfold decode_int_and_length in H. apply bind_ok in H.
  destruct H as (y & D & E). inversion E; subst.
  apply decode_integer_char in D; [|exact Hn|exact W]. destruct D as (l & rest & -> & R & _ & _).
  pose proof (encode_integer_shortest n x l Hn R) as S. rewrite size_app.
  pose proof (encode_integer_nonempty n x) as NE. unfold size in *.
  destruct (encode_integer_value n x); [contradiction|]. cbn [length] in *. lia.
Qed.

Lemma int_outcome : forall n v,
  (exists p, decode_int_and_length n v = Ok p) \/ (exists u, decode_int_and_length n v = UB u).
Proof.
  intros n v. unfold decode_int_and_length.
  destruct (decode_integer_outcome n v) as [[x ->]|[u ->]]; cbn [bind]; eauto.
Qed.

Lemma vrange_ok : forall v b n r, vrange v b n = Ok r ->
  b + n <= size v /\ r = firstn (N.to_nat n) (skipn (N.to_nat b) v).
Proof.
  intros v b n r H. unfold vrange in H. destruct (N.leb_spec (b + n) (size v)); [|discriminate].
  inversion H. auto.
Qed.

Lemma wf_range : forall v b n r, wf_bytes v -> vrange v b n = Ok r -> wf_bytes r.
Proof.
  intros v b n r W H. apply vrange_ok in H. destruct H as [_ ->].
  apply wf_bytes_firstn, wf_bytes_skipn, W.
Qed.

Lemma string_bounds : forall m v s n, wf_bytes v -> decode_string m v = Ok (s, n) ->
  1 <= n <= size v /\ wf_bytes s.
Proof.
  intros m v s n W H. unfold decode_string in H. apply bind_ok in H. destruct H as ((len, c) & I & H).
  pose proof (int_len_bounds 7 v len c pok7 W I) as B.
  apply bind_ok in H. destruct H as (b0 & V & H). apply bind_ok in H. destruct H as (s' & S & H).
  inversion H; subst. clear H.
  destruct (negb (extract_high_bit 1 8 b0 =? 0)).
  - apply bind_ok in S. destruct S as (enc & R & S). apply bind_ok in S. destruct S as (dec & D & S).
    apply bind_ok in S. destruct S as (u & _ & S). inversion S; subst.
    pose proof (vrange_ok _ _ _ _ R) as [L _]. split; [lia|].
    eapply huffman_decode_wf; [|exact D]. eapply wf_range; eassumption.
  - apply bind_ok in S. destruct S as (u & _ & S). destruct (vrange v c len) eqn:R; try discriminate.
    inversion S; subst. pose proof (vrange_ok _ _ _ _ R) as [L _]. split; [lia|].
    eapply wf_range; eassumption.
Qed.

(* No outcome of the decoder is NoFuel. *)
Definition real {A} (r : res A) : Prop := r <> NoFuel.

Lemma real_bind : forall A B (r : res A) (k : A -> res B), real r -> (forall a, r = Ok a -> real (k a)) ->
  real (bind r k).
Proof. intros A B r k R K. destruct r; cbn [bind]; try (intros X; discriminate X); [auto|contradiction]. Qed.

Lemma vget_real : forall v i, real (vget v i).
Proof. intros. unfold vget. destruct (i <? size v); intros X; discriminate X. Qed.
Lemma verase_real : forall v i, real (verase_front v i).
Proof. intros. unfold verase_front. destruct (i <=? size v); intros X; discriminate X. Qed.
Lemma vrange_real : forall v b n, real (vrange v b n).
Proof. intros. unfold vrange. destruct (b + n <=? size v); intros X; discriminate X. Qed.
Lemma int_real : forall n v, real (decode_int_and_length n v).
Proof. intros n v. destruct (int_outcome n v) as [[p ->]|[u ->]]; intros X; discriminate X. Qed.
Lemma address_real : forall m v i, real (address_of m v i).
Proof. intros [] v i; unfold address_of; [destruct (i <? size v)|]; intros X; discriminate X. Qed.
Lemma huffman_real : forall e, wf_bytes e -> real (huffman_decode e).
Proof.
  intros e W. destruct (huffman_decode_spec e W) as [(a & b & _ & ->)|(_ & ->)]; intros X; discriminate X.
Qed.
Lemma ok_real : forall A (a : A), real (Ok a).
Proof. intros A a X. discriminate X. Qed.

Lemma string_real : forall m v, wf_bytes v -> real (decode_string m v).
Proof.
  intros m v W. unfold decode_string. apply real_bind; [apply int_real|]. intros [len c] I.
  apply real_bind; [apply vget_real|]. intros b0 _. apply real_bind; [|intros; apply ok_real].
  destruct (negb _).
  - apply real_bind; [apply vrange_real|]. intros e E. apply real_bind.
    + apply huffman_real. eapply wf_range; eassumption.
    + intros d _. apply real_bind; [apply address_real|]. intros; apply ok_real.
  - apply real_bind; [apply address_real|]. intros _ _.
    pose proof (vrange_real v c len). destruct (vrange v c len); intros X; try discriminate X. congruence.
Qed.

Lemma indexed_real : forall i t, real (make_indexed_header i t).
Proof.
  intros i t. unfold make_indexed_header. destruct (static_table_size <? i).
  - rewrite dt_at_spec. destruct (nth_error _ _); intros X; discriminate X.
  - unfold static_table_at. destruct (map_find _ _); intros X; discriminate X.
Qed.

Lemma vget_wf : forall v i b, wf_bytes v -> vget v i = Ok b -> b < 256.
Proof.
  intros v i b W H. unfold vget in H. destruct (N.ltb_spec i (size v)) as [L|]; [|discriminate].
  inversion H; subst. eapply (proj1 (Forall_forall _ _) W). apply nth_In. unfold size in L. lia.
Qed.

Lemma index_real : forall v p, real (decode_index v p).
Proof. intros v []; cbn [decode_index]; try apply int_real. intros X; discriminate X. Qed.

Lemma erase_wf : forall v n v', wf_bytes v -> verase_front v n = Ok v' -> wf_bytes v'.
Proof. intros v n v' W H. apply verase_front_ok in H. destruct H as [_ ->]. apply wf_bytes_skipn, W. Qed.

Lemma decode_header_real : forall m v t, wf_bytes v -> real (decode_header m v t).
Proof.
  intros m v t W. unfold decode_header. apply real_bind; [apply vget_real|]. intros b V.
  rewrite check_prefix_spec by (eapply vget_wf; eassumption). cbn [bind].
  destruct (hprefix_eqb (class_of b) SizeUpdate).
  - apply real_bind; [apply int_real|]. intros [x n] _. apply ok_real.
  - apply real_bind; [apply index_real|]. intros [i il] _. apply real_bind.
    { destruct (0 <? i); [apply indexed_real|apply ok_real]. }
    intros h _. destruct (hprefix_eqb (class_of b) Indexed); [apply ok_real|].
    apply real_bind; [apply verase_real|]. intros data E. pose proof (erase_wf _ _ _ W E) as Wd.
    apply real_bind.
    { destruct (size (fst h) <=? 0); [|apply ok_real]. apply real_bind; [apply string_real, Wd|].
      intros [nm k] _. apply real_bind; [apply verase_real|]. intros; apply ok_real. }
    intros [[nm d'] c] N. assert (Wd' : wf_bytes d').
    { destruct (size (fst h) <=? 0); [|inversion N; subst; exact Wd].
      apply bind_ok in N. destruct N as ([nm' k] & _ & N). apply bind_ok in N. destruct N as (d'' & E' & N).
      inversion N; subst. eapply erase_wf; eassumption. }
    apply real_bind; [apply string_real, Wd'|]. intros [vv k] _.
    apply real_bind; [apply verase_real|]. intros; apply ok_real.
Qed.

Lemma index_bounds : forall v p i n, wf_bytes v -> decode_index v p = Ok (i, n) -> 1 <= n <= size v.
Proof.
  intros v p i n W H. destruct p; cbn [decode_index] in H; try discriminate;
    (eapply int_len_bounds; [|exact W|exact H]; unfold prefix_ok; lia).
Qed.

Lemma resolve_wf_static : forall i h, static_table_at i = Ok h -> wf_bytes (fst h) /\ wf_bytes (snd h).
Proof.
  intros i h H. unfold static_table_at in H. destruct (map_find static_table_entries i) eqn:E; [|discriminate].
  inversion H; subst. apply static_wf in E. tauto.
Qed.

Definition entry_octets (e : hentry) : Prop :=
  match e_content e with EHeader h => wf_bytes (fst h) /\ wf_bytes (snd h) | ESize _ => True end.
Definition table_octets (t : dyn_table) : Prop :=
  Forall (fun h => wf_bytes (fst h) /\ wf_bytes (snd h)) (dt_entries t).

Lemma indexed_wf : forall i t h, table_octets t -> make_indexed_header i t = Ok h ->
  wf_bytes (fst h) /\ wf_bytes (snd h).
Proof.
  intros i t h T H. unfold make_indexed_header in H. destruct (static_table_size <? i).
  - rewrite dt_at_spec in H. destruct (nth_error (dt_entries t) _) eqn:E; [|discriminate].
    inversion H; subst. apply nth_error_In in E. exact (proj1 (Forall_forall _ _) T _ E).
  - eapply resolve_wf_static; eassumption.
Qed.

Lemma decode_header_bounds : forall m v t e n, wf_bytes v ->
  decode_header m v t = Ok (e, n) -> 1 <= n <= size v /\ (table_octets t -> entry_octets e).
Proof.
  intros m v t e n W H. unfold decode_header in H. apply bind_ok in H. destruct H as (b & V & H).
  rewrite check_prefix_spec in H by (eapply vget_wf; eassumption). cbn [bind] in H.
  destruct (hprefix_eqb (class_of b) SizeUpdate).
  { apply bind_ok in H. destruct H as ([x k] & I & H). inversion H; subst. split; [|intros _; exact I0 || exact I || constructor].
    eapply int_len_bounds; [|exact W|exact I]. unfold prefix_ok; lia. }
  apply bind_ok in H. destruct H as ([i il] & I & H). pose proof (index_bounds _ _ _ _ W I) as B.
  apply bind_ok in H. destruct H as (h & Hh & H).
  assert (Wh : table_octets t -> wf_bytes (fst h) /\ wf_bytes (snd h)).
  { intros T. destruct (0 <? i); [eapply indexed_wf; eassumption|]. inversion Hh; subst. split; constructor. }
  destruct (hprefix_eqb (class_of b) Indexed); [inversion H; subst; split; [exact B|exact Wh]|].
  apply bind_ok in H. destruct H as (data & E & H). pose proof (erase_wf _ _ _ W E) as Wd.
  apply verase_front_ok in E. destruct E as [_ ED].
  assert (SD : size data = size v - il) by (subst data; apply size_skipn).
  apply bind_ok in H. destruct H as ([[nm d'] c] & N & H).
  assert (X : wf_bytes d' /\ c + size d' = size v /\ 1 <= c /\ (table_octets t -> wf_bytes nm)).
  { destruct (size (fst h) <=? 0).
    - apply bind_ok in N. destruct N as ([nm' k] & S & N). apply bind_ok in N. destruct N as (d'' & E' & N).
      apply string_bounds in S; [|exact Wd]. inversion N; subst.
      split; [eapply erase_wf; eassumption|]. apply verase_front_ok in E'. destruct E' as [_ ->].
      rewrite size_skipn. repeat split; try lia. intros _; apply S.
    - inversion N; subst. repeat split; try lia; try exact Wd. intros T. apply Wh, T. }
  destruct X as (Wd' & C & C1 & Wn). apply bind_ok in H. destruct H as ([vv k] & S & H).
  apply string_bounds in S; [|exact Wd']. apply bind_ok in H. destruct H as (dd & _ & H).
  inversion H; subst. split; [lia|]. intros T. split; [apply Wn, T|apply S].
Qed.

(* ---- blocks ---- *)

Lemma block_loop_real : forall m fuel raw t, wf_bytes raw -> (length raw <= fuel)%nat ->
  real (decode_block_loop m fuel raw t).
Proof.
  intros m. induction fuel as [|f IH]; intros raw t W L; cbn [decode_block_loop].
  - destruct raw; [apply ok_real|cbn in L; lia].
  - destruct (0 <? size raw); [|apply ok_real]. apply real_bind; [apply decode_header_real, W|].
    intros [e n] D. apply decode_header_bounds in D; [|exact W]. destruct D as [D _].
    apply real_bind; [apply verase_real|]. intros raw' E. pose proof (erase_wf _ _ _ W E) as W'.
    apply verase_front_ok in E. destruct E as [_ E]. apply real_bind; [|intros; apply ok_real].
    apply IH; [exact W'|]. subst raw'. rewrite skipn_length. unfold size in D. lia.
Qed.

Lemma decode_block_real : forall m raw t, wf_bytes raw -> real (decode_block m raw t).
Proof. intros. apply block_loop_real; [assumption|lia]. Qed.

Lemma block_loop_fuel : forall m f1 f2 raw t, wf_bytes raw ->
  (length raw <= f1)%nat -> (length raw <= f2)%nat ->
  decode_block_loop m f1 raw t = decode_block_loop m f2 raw t.
Proof.
  intros m. induction f1 as [|f1 IH]; intros f2 raw t W L1 L2.
  - destruct raw; [|cbn in L1; lia]. destruct f2; reflexivity.
  - destruct f2 as [|f2]; [destruct raw; [reflexivity|cbn in L2; lia]|]. cbn [decode_block_loop].
    destruct (0 <? size raw); [|reflexivity].
    destruct (decode_header m raw t) as [[e n]| | |] eqn:D; cbn [bind]; try reflexivity.
    apply decode_header_bounds in D; [|exact W]. destruct D as [D _].
    destruct (verase_front raw n) as [raw'| | |] eqn:E; cbn [bind]; try reflexivity.
    pose proof (erase_wf _ _ _ W E) as W'. apply verase_front_ok in E. destruct E as [_ E].
    assert (LR : (length raw' < length raw)%nat) by (subst raw'; rewrite skipn_length; unfold size in D; lia).
    rewrite (IH f2 raw' t W') by lia. reflexivity.
Qed.

(* Unfolding of block decoding. *)
Lemma decode_block_nil : forall m t, decode_block m [] t = Ok [].
Proof. reflexivity. Qed.

Lemma decode_block_step : forall m raw t, wf_bytes raw -> raw <> [] ->
  decode_block m raw t =
  let* (e, n) := decode_header m raw t in
  let* b := decode_block m (skipn (N.to_nat n) raw) t in
  Ok (e :: b).
Proof.
  intros m raw t W NE. unfold decode_block at 1. destruct raw as [|x raw0]; [contradiction|].
  cbn [length]. cbn [decode_block_loop]. set (raw := x :: raw0) in *.
  replace (0 <? size raw) with true by (unfold raw; rewrite size_cons; symmetry; apply N.ltb_lt; lia).
  destruct (decode_header m raw t) as [[e n]| | |] eqn:D; cbn [bind]; try reflexivity.
  apply decode_header_bounds in D; [|exact W]. destruct D as [D _].
  unfold verase_front. destruct (N.leb_spec n (size raw)); [|lia]. cbn [bind].
  unfold decode_block. rewrite (block_loop_fuel m (length raw0) (length (skipn (N.to_nat n) raw))).
  - reflexivity.
  - apply wf_bytes_skipn, W.
  - rewrite skipn_length. unfold raw, size in *. cbn [length] in *. lia.
  - lia.
Qed.

Lemma decode_block_cons : forall m l rest t e, wf_bytes (l ++ rest) -> l <> [] ->
  decode_header m (l ++ rest) t = Ok (e, size l) ->
  decode_block m (l ++ rest) t = let* b := decode_block m rest t in Ok (e :: b).
Proof.
  intros m l rest t e W NE D. rewrite decode_block_step; [|exact W|destruct l; [contradiction|discriminate]].
  rewrite D. cbn [bind]. rewrite skipn_size_app. reflexivity.
Qed.
