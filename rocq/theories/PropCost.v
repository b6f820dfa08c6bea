(* Property C105: the work of reading a header block. *)
From Coq Require Import String.
From Coq Require Import ZArith NArith List Bool Lia ZifyBool ZifyNat ZifyN.
From Verif Require Import Base Arith Util IntRep HuffmanTable Huffman StaticTable HeaderType DynTable HeaderEnc HeaderDec FrameHeader Frames FrameBuilder
  Ssl Client SpecBits SpecHpack SpecFrame SpecHuffman IntRepProofs UtilProofs BitsProofs HuffmanProofs HuffmanDecProofs DynTableProofs StaticProofs
  HeaderProofs HeaderProofs2 PropHeader FrameProofs PropFrame PropSsl PropClient PropHistory PropBound PropAmplify Cost.
Import ListNotations.
Local Open Scope string_scope.
Local Open Scope list_scope.
Local Open Scope N_scope.
Ltac Zify.zify_post_hook ::= Z.div_mod_to_equations.

(* ---------------------------------------------------------------- without the counter *)

Lemma cbind_fst : forall A B (r : counted A) (r' : res A) (k : A -> counted B) (k' : A -> res B),
  fst r = r' -> (forall a, fst (k a) = k' a) -> fst (cbind r k) = bind r' k'.
Proof. intros A B [[a|e|u|] w] r' k k' R K; cbn [fst] in R; subst r'; cbn; auto. Qed.

Lemma work_fst : forall A n (k : unit -> counted A), fst (cbind (work n) k) = fst (k tt).
Proof. reflexivity. Qed.

Lemma erase_same : forall v n, fst (verase_front_c v n) = verase_front v n.
Proof. intros v n. unfold verase_front_c. destruct (verase_front v n); reflexivity. Qed.

Lemma dec_loop_same : forall rest acc m, fst (dec_loop_c rest acc m) = dec_loop rest acc m.
Proof.
  induction rest as [|b rest IH]; intros acc m; [reflexivity|]. cbn [dec_loop_c dec_loop]. rewrite work_fst.
  destruct (32 <=? m); [reflexivity|]. cbn zeta. destruct (2 ^ 31 <=? _); [reflexivity|]. destruct (_ =? 128); [apply IH|reflexivity].
Qed.

Lemma integer_same : forall n v, fst (decode_integer_value_c n v) = decode_integer_value n v.
Proof.
  intros n [|b v]; [reflexivity|]. cbn [decode_integer_value_c decode_integer_value]. rewrite work_fst. cbn zeta.
  destruct (_ <? _); [reflexivity|apply dec_loop_same].
Qed.

Lemma construct_same : forall v n, fst (construct_integer_c v n) = construct_integer v n.
Proof. intros v n. unfold construct_integer_c. destruct (construct_integer v n); reflexivity. Qed.

Lemma pass_same : forall table temp carry, fst (decode_pass_c table temp carry) = decode_pass table temp carry.
Proof.
  induction table as [|[bl dm] table IH]; intros temp carry; [reflexivity|]. cbn [decode_pass_c decode_pass]. rewrite work_fst.
  destruct (_ && _); [reflexivity|]. apply cbind_fst.
  - destruct (_ <? _); [|reflexivity]. apply cbind_fst; [apply construct_same|]. reflexivity.
  - intros [[key tc] el]. destruct (map_find dm key); [|apply IH]. rewrite work_fst. apply cbind_fst; [apply erase_same|reflexivity].
Qed.

Lemma while_same : forall f d total temp carry, fst (decode_while_c f d total temp carry) = decode_while f d total temp carry.
Proof.
  induction f as [|f IH]; intros d total temp carry; cbn [decode_while_c decode_while]; (destruct (d <? total); [|reflexivity]); [reflexivity|].
  apply cbind_fst; [apply pass_same|]. intros [|sym bl temp' carry'|]; [apply IH| |].
  - apply cbind_fst; [apply IH|reflexivity].
  - destruct (_ <? _); reflexivity.
Qed.

Lemma huffman_same : forall v, fst (huffman_decode_c v) = huffman_decode v.
Proof. intros v. unfold huffman_decode_c. rewrite work_fst. apply while_same. Qed.

Lemma int_same : forall n v, fst (decode_int_and_length_c n v) = decode_int_and_length n v.
Proof. intros n v. apply cbind_fst; [apply integer_same|reflexivity]. Qed.

Lemma index_same : forall v p, fst (decode_index_c v p) = decode_index v p.
Proof. intros v []; try apply int_same. reflexivity. Qed.

Lemma string_same : forall m v, fst (decode_string_c m v) = decode_string m v.
Proof.
  intros m v. apply cbind_fst; [apply int_same|]. intros [len c]. apply cbind_fst; [reflexivity|]. intros b0. rewrite work_fst.
  apply cbind_fst; [|reflexivity]. destruct (negb _).
  - apply cbind_fst; [reflexivity|]. intros enc. rewrite work_fst. apply cbind_fst; [apply huffman_same|]. intros dec.
    apply cbind_fst; reflexivity.
  - apply cbind_fst; [reflexivity|]. intros _. destruct (vrange v c len); reflexivity.
Qed.

Lemma indexed_same : forall i t, fst (make_indexed_header_c i t) = make_indexed_header i t.
Proof. intros i t. unfold make_indexed_header_c. destruct (make_indexed_header i t); reflexivity. Qed.

Lemma header_same : forall m v t, fst (decode_header_c m v t) = decode_header m v t.
Proof.
  intros m v t. unfold decode_header_c. rewrite work_fst. apply cbind_fst; [reflexivity|]. intros b0. rewrite work_fst.
  apply cbind_fst; [reflexivity|]. intros p. destruct (hprefix_eqb p SizeUpdate).
  { apply cbind_fst; [apply int_same|]. intros [x n]. reflexivity. }
  apply cbind_fst; [apply index_same|]. intros [i il]. apply cbind_fst.
  { destruct (0 <? i); [apply indexed_same|reflexivity]. }
  intros h. destruct (hprefix_eqb p Indexed); [reflexivity|]. apply cbind_fst; [apply erase_same|]. intros data.
  apply cbind_fst.
  { destruct (_ <=? 0); [|reflexivity]. apply cbind_fst; [apply string_same|]. intros [nm k]. apply cbind_fst; [apply erase_same|reflexivity]. }
  intros [[nm d'] c]. apply cbind_fst; [apply string_same|]. intros [vv k]. apply cbind_fst; [apply erase_same|reflexivity].
Qed.

Lemma block_loop_same : forall m f raw t, fst (decode_block_loop_c m f raw t) = decode_block_loop m f raw t.
Proof.
  intros m. induction f as [|f IH]; intros raw t; cbn [decode_block_loop_c decode_block_loop]; (destruct (0 <? size raw); [|reflexivity]); [reflexivity|].
  apply cbind_fst; [apply header_same|]. intros [e n]. rewrite work_fst. apply cbind_fst; [apply erase_same|]. intros raw'.
  apply cbind_fst; [apply IH|reflexivity].
Qed.

Theorem C105_same_reader : forall m raw t, fst (decode_block_c m raw t) = decode_block m raw t.
Proof. intros. apply block_loop_same. Qed.

(* ---------------------------------------------------------------- at most *)

Lemma cbind_snd : forall A B (r : counted A) (k : A -> counted B) a b,
  snd r <= a -> (forall x, fst r = Ok x -> snd (k x) <= b) -> snd (cbind r k) <= a + b.
Proof. intros A B [[x|e|u|] w] k a b R K; cbn [cbind fst snd] in *; try lia. specialize (K x eq_refl). lia. Qed.

Lemma work_snd : forall A n (k : unit -> counted A), snd (cbind (work n) k) = n + snd (k tt).
Proof. reflexivity. Qed.

Lemma free_snd : forall A B (r : res A) (k : A -> counted B) b,
  (forall x, r = Ok x -> snd (k x) <= b) -> snd (cbind (free r) k) <= b.
Proof. intros A B [x|e|u|] k b K; cbn [cbind free fst snd]; try lia. specialize (K x eq_refl). lia. Qed.

Lemma erase_most : forall v n, snd (verase_front_c v n) <= size v.
Proof.
  intros v n. unfold verase_front_c. apply free_snd. intros v' _. rewrite work_snd. unfold erase_work. cbn [free snd].
  destruct (n =? 0); lia.
Qed.

Lemma dec_loop_most : forall rest acc m, snd (dec_loop_c rest acc m) <= size rest.
Proof.
  induction rest as [|b rest IH]; intros acc m; [cbn; lia|]. cbn [dec_loop_c]. rewrite work_snd, size_cons.
  destruct (32 <=? m); [cbn; lia|]. cbn zeta. destruct (2 ^ 31 <=? _); [cbn [free snd]; lia|].
  destruct (_ =? 128); [|cbn [free snd]; lia]. specialize (IH (u32 (acc + N.land b 127 * 2 ^ m)) (m + 7)). lia.
Qed.

Lemma integer_most : forall n v, snd (decode_integer_value_c n v) <= size v.
Proof.
  intros n [|b v]; [cbn; lia|]. cbn [decode_integer_value_c]. rewrite work_snd, size_cons. cbn zeta.
  destruct (_ <? _); [cbn [free snd]; lia|]. pose proof (dec_loop_most v (N.land b (2 ^ n - 1)) 0). lia.
Qed.

Lemma int_most : forall n v, prefix_ok n -> wf_bytes v -> snd (decode_int_and_length_c n v) <= 2 * size v.
Proof.
  intros n v P W. replace (2 * size v) with (size v + size v) by lia. apply cbind_snd; [apply integer_most|]. intros x X.
  rewrite work_snd. cbn [free snd]. rewrite integer_same in X.
  assert (I : decode_int_and_length n v = Ok (x, size (encode_integer_value n x))) by (unfold decode_int_and_length; rewrite X; reflexivity).
  apply int_len_bounds in I; [lia|assumption..].
Qed.

Lemma index_most : forall v p, wf_bytes v -> snd (decode_index_c v p) <= 2 * size v.
Proof. intros v p W. destruct p; cbn [decode_index_c]; try (apply int_most; [unfold prefix_ok; lia|exact W]). cbn. lia. Qed.

Lemma construct_most : forall v n, snd (construct_integer_c v n) <= n.
Proof. intros v n. apply free_snd. intros x _. rewrite work_snd. cbn [free snd]. lia. Qed.

Lemma pass_most : forall table temp carry, Forall (fun r : N * list (N * N) => fst r <= 30) table ->
  snd (decode_pass_c table temp carry) <= 5 * size table + 1 + size temp.
Proof.
  induction table as [|[bl dm] table IH]; intros temp carry F; [cbn; lia|]. cbn [decode_pass_c]. rewrite work_snd, size_cons.
  pose proof (Forall_inv F) as B. cbn [fst] in B. specialize (IH temp carry (Forall_inv_tail F)).
  destruct (_ && _); [cbn [free snd]; lia|].
  match goal with |- 1 + snd (cbind ?r ?k) <= _ => assert (L : snd (cbind r k) <= 4 + (5 * size table + 1 + size temp)) end; [|lia].
  apply cbind_snd.
  - destruct (_ <? _); [|cbn [free snd]; lia]. rewrite <- (N.add_0_r 4). apply cbind_snd.
    + etransitivity; [apply construct_most|]. destruct (_ =? 0); lia.
    + intros x _. cbn [free snd]. lia.
  - intros [[key tc] el] _. destruct (map_find dm key); [|exact IH]. rewrite work_snd.
    match goal with |- 1 + snd (cbind ?r ?k) <= _ => assert (L : snd (cbind r k) <= size temp + 0) end; [|lia].
    apply cbind_snd; [apply erase_most|]. intros x _. cbn [free snd]. lia.
Qed.

(* What a pass leaves is no longer. *)
Lemma pass_shrinks : forall table temp carry sym bl temp' carry',
  decode_pass table temp carry = Ok (Symbol sym bl temp' carry') -> size temp' <= size temp.
Proof.
  induction table as [|[b dm] table IH]; intros temp carry sym bl temp' carry' H; [discriminate H|]. cbn [decode_pass] in H.
  destruct (_ && _); [discriminate H|]. apply bind_ok in H. destruct H as ([[key tc] el] & _ & H).
  destruct (map_find dm key); [|exact (IH _ _ _ _ _ _ H)]. apply bind_ok in H. destruct H as (t' & E & H).
  apply Ok_inj in H. injection H as _ _ <- _. apply verase_front_ok in E. destruct E as [_ ->]. rewrite size_skipn. lia.
Qed.

Lemma table_rows : Forall (fun r : N * list (N * N) => fst r <= 30) decode_table /\ size decode_table <= 21.
Proof.
  split; [|vm_compute; discriminate]. assert (H : forallb (fun r : N * list (N * N) => fst r <=? 30) decode_table = true) by (vm_compute; reflexivity).
  apply Forall_forall. intros r I. apply N.leb_le. exact (proj1 (forallb_forall _ _) H r I).
Qed.

Lemma while_most : forall f d total temp carry,
  snd (decode_while_c f d total temp carry) <= N.of_nat f * (110 + size temp).
Proof.
  induction f as [|f IH]; intros d total temp carry; cbn [decode_while_c]; (destruct (d <? total); [|cbn [free snd]; lia]); [cbn; lia|].
  replace (N.of_nat (S f) * (110 + size temp)) with ((106 + size temp) + (4 + N.of_nat f * (110 + size temp))) by lia.
  apply cbind_snd.
  - pose proof (pass_most decode_table temp carry (proj1 table_rows)). pose proof (proj2 table_rows). lia.
  - intros p P. rewrite pass_same in P. destruct p as [|sym bl temp' carry'|].
    + specialize (IH (d + snd carry) total temp carry). lia.
    + apply pass_shrinks in P. etransitivity; [apply cbind_snd with (a := N.of_nat f * (110 + size temp')) (b := 0)|].
      * apply IH.
      * intros x _. cbn [free snd]. lia.
      * nia.
    + destruct (_ <? _); [cbn [free snd]; lia|]. rewrite work_snd. cbn [free snd]. lia.
Qed.

Lemma huffman_most : forall v, snd (huffman_decode_c v) <= size v + (8 * size v + 1) * (110 + size v).
Proof.
  intros v. unfold huffman_decode_c. rewrite work_snd. apply N.add_le_mono_l. etransitivity; [apply while_most|].
  apply N.mul_le_mono_r. lia.
Qed.

(* The octets an outcome accounts for: those consumed, or all of them when there is none. *)
Definition used {A} (r : res (A * N)) (v : bytes) : N := match r with Ok (_, n) => n | _ => size v end.

Lemma string_most : forall m v, wf_bytes v ->
  snd (decode_string_c m v) <= 15 * used (decode_string m v) v * (size v + 110).
Proof.
  intros m v W. destruct v as [|x v0] eqn:EV.
  { destruct m; vm_compute; discriminate. }
  rewrite <- EV in *. assert (S1 : 1 <= size v) by (subst v; rewrite size_cons; lia). clear EV x v0.
  unfold decode_string_c, decode_string. pose proof (int_most 7 v pok7 W) as IM. pose proof (int_same 7 v) as IS.
  destruct (decode_int_and_length_c 7 v) as [r w]. cbn [fst snd] in *. subst r.
  destruct (decode_int_and_length 7 v) as [[len c]|e|u|] eqn:I; cbn [cbind fst snd bind used]; try nia.
  pose proof (int_len_bounds 7 v len c pok7 W I) as B.
  destruct (vget v 0) as [b0|e|u|] eqn:V; cbn [free work cbind fst snd bind used]; try nia.
  destruct (negb (extract_high_bit 1 8 b0 =? 0)).
  - destruct (vrange v c len) as [enc|e|u|] eqn:R; cbn [free work cbind fst snd bind used]; try nia.
    pose proof (wf_range _ _ _ _ W R) as WE. apply vrange_ok in R. destruct R as [R ->].
    set (enc := firstn _ _) in *. assert (SE : size enc <= len) by (subst enc; rewrite size_firstn; lia).
    pose proof (huffman_most enc) as HM. pose proof (huffman_same enc) as HS. pose proof (huffman_expansion enc) as HE. specialize (HE) with (1 := WE).
    destruct (huffman_decode_c enc) as [r w']. cbn [fst snd] in *. subst r.
    assert (HM' : w' <= len + (8 * len + 1) * (110 + len)) by nia. clear HM.
    destruct (huffman_decode enc) as [dec|e|u|]; cbn [free work cbind fst snd bind used]; try nia.
    specialize (HE dec eq_refl). assert (SD : size dec <= 2 * len) by lia. clear HE SE.
    destruct (address_of m dec 0); cbn [free work cbind fst snd bind used]; nia.
  - destruct (address_of m v c); cbn [free work cbind fst snd bind used]; try nia.
    destruct (vrange v c len) as [enc|e|u|] eqn:R; cbn [free work cbind fst snd bind used]; try nia.
    all: try (apply vrange_ok in R; destruct R as [R _]; nia).
    all: exfalso; unfold vrange in R; destruct (_ <=? _); discriminate R.
Qed.

Lemma string_used : forall m v, wf_bytes v -> used (decode_string m v) v <= size v.
Proof.
  intros m v W. pose proof (string_bounds m v) as B. destruct (decode_string m v) as [[s n]|e|u|]; cbn [used]; try lia.
  specialize (B s n W eq_refl). lia.
Qed.

Lemma indexed_most : forall i t, dt_ok t -> snd (make_indexed_header_c i t) <= N.max 60 (dt_max t).
Proof.
  intros i t K. unfold make_indexed_header_c. apply free_snd. intros h H. rewrite work_snd. cbn [free snd].
  apply indexed_size in H; [|exact K]. unfold field_size in H. unfold header_octets, size. lia.
Qed.

Lemma header_most : forall m v t, wf_bytes v -> v <> [] -> dt_ok t ->
  snd (decode_header_c m v t) <= 15 * used (decode_header m v t) v * (size v + N.max 60 (dt_max t) + 110).
Proof.
  intros m v t W NE K. assert (S1 : 1 <= size v) by (destruct v; [contradiction|rewrite size_cons; lia]).
  pose proof (fun i => indexed_most i t K) as HX. revert HX. generalize (N.max 60 (dt_max t)). intros M HX.
  assert (SU : forall c, 1 <= c -> 15 * (size v + M + 110) <= 15 * c * (size v + M + 110)) by (intros; apply N.mul_le_mono_r; lia).
  pose proof (SU (size v) S1) as SU1.
  unfold decode_header_c, decode_header, decode_header_name, decode_header_value. rewrite work_snd.
  destruct (vget v 0) as [b|e|u|] eqn:V; cbn [free work cbind fst snd bind used]; try lia.
  rewrite check_prefix_spec by (eapply vget_wf; eassumption). cbn [bind cbind free fst snd].
  destruct (hprefix_eqb (class_of b) SizeUpdate).
  { assert (pok5 : prefix_ok 5) by (unfold prefix_ok; lia). pose proof (int_most 5 v pok5 W) as IM. pose proof (int_same 5 v) as IS. unfold decode_max_size.
    destruct (decode_int_and_length_c 5 v) as [r w]. cbn [fst snd] in *. subst r.
    destruct (decode_int_and_length 5 v) as [[len c]|e|u|] eqn:I; cbn [free cbind fst snd bind used]; try lia.
    pose proof (int_len_bounds 5 v len c pok5 W I) as B. specialize (SU c (proj1 B)). lia. }
  pose proof (index_most v (class_of b) W) as IM. pose proof (index_same v (class_of b)) as IS.
  destruct (decode_index_c v (class_of b)) as [r w]. cbn [fst snd] in *. subst r.
  destruct (decode_index v (class_of b)) as [[i il]|e|u|] eqn:I; cbn [free cbind fst snd bind used]; try lia.
  pose proof (index_bounds _ _ _ _ W I) as B. clear I.
  match goal with |- context [cbind ?r (fun h : header => @?k h)] =>
    match type of r with counted header => set (hr := r) end end.
  match goal with |- context [bind ?r (fun h : header => @?k h)] =>
    match type of r with res header => assert (HS : fst hr = r) end end.
  { subst hr. destruct (0 <? i); [apply indexed_same|reflexivity]. }
  assert (HM : snd hr <= M). { subst hr. destruct (0 <? i); [apply HX|cbn; lia]. }
  rewrite <- HS. clearbody hr. clear HS. destruct hr as [[h|e|u|] w1]; cbn [free cbind fst snd bind used] in *; try lia.
  destruct (hprefix_eqb (class_of b) Indexed); [cbn [free fst snd used]; specialize (SU il (proj1 B)); lia|].
  pose proof (erase_most v il) as EM. pose proof (erase_same v il) as ES. destruct (verase_front_c v il) as [r w2]. cbn [fst snd] in *. subst r.
  destruct (verase_front v il) as [data|e|u|] eqn:E; cbn [free cbind fst snd bind used] in *; try lia.
  pose proof (erase_wf _ _ _ W E) as Wd. apply verase_front_ok in E. destruct E as [_ E].
  assert (SD : size data + il = size v) by (subst data; rewrite size_skipn; lia). clear E.
  match goal with |- context [cbind (if ?c then ?r1 else ?r2) _] => set (nr := if c then r1 else r2) end.
  match goal with |- context [bind (if ?c then ?r1 else ?r2) _] => assert (NS : fst nr = if c then r1 else r2) end.
  { subst nr. destruct (_ <=? 0); [|reflexivity]. apply cbind_fst; [apply string_same|]. intros [nm k]. apply cbind_fst; [apply erase_same|reflexivity]. }
  assert (NM : match fst nr with
               | Ok (_, d', c) => wf_bytes d' /\ il <= c /\ c + size d' = size v /\ snd nr <= size v + 15 * (c - il) * (size v + 110)
               | _ => snd nr <= size v + 15 * size data * (size v + 110)
               end).
  { subst nr. destruct (size (fst h) <=? 0).
    - pose proof (string_most m data Wd) as SM. pose proof (string_same m data) as SS. pose proof (string_bounds m data) as SB.
      assert (SG : forall k, 15 * k * (size data + 110) <= 15 * k * (size v + 110)) by (intros; apply N.mul_le_mono_l; lia).
      pose proof (SG (size data)) as SG1.
      destruct (decode_string_c m data) as [r w3]. cbn [fst snd] in *. subst r.
      destruct (decode_string m data) as [[nm k]|e|u|] eqn:S; cbn [free cbind fst snd bind used] in *; try lia.
      specialize (SB nm k Wd eq_refl). destruct SB as [SB _]. specialize (SG k).
      assert (SG2 : 15 * k * (size v + 110) <= 15 * size data * (size v + 110)) by (apply N.mul_le_mono_r; lia).
      pose proof (erase_most data k) as EM2. pose proof (erase_same data k) as ES2. destruct (verase_front_c data k) as [r w4]. cbn [fst snd] in *. subst r.
      destruct (verase_front data k) as [d'|e|u|] eqn:E; cbn [free cbind fst snd bind used] in *; try lia.
      pose proof (erase_wf _ _ _ Wd E) as Wd'. apply verase_front_ok in E. destruct E as [_ E].
      assert (SD' : size d' + k = size data) by (subst d'; rewrite size_skipn; lia). split; [exact Wd'|]. split; [lia|]. split; [lia|].
      replace (il + k - il) with k by lia. lia.
    - cbn [free fst snd]. split; [exact Wd|]. split; [lia|]. split; [lia|]. lia. }
  assert (ST : forall c, c <= size v -> 15 * c * (size v + 110) <= 15 * c * (size v + M + 110)) by (intros; apply N.mul_le_mono_l; lia).
  assert (SC : forall a b, a <= b -> 15 * a * (size v + 110) <= 15 * b * (size v + 110)) by (intros; apply N.mul_le_mono_r; lia).
  assert (FULL : forall k, il <= k -> k <= size v -> forall a, a <= 8 * size v + M + 15 * (k - il) * (size v + 110) -> a <= 15 * k * (size v + M + 110)).
  { intros k K1 K2 a A. transitivity (15 * il * (size v + M + 110) + 15 * (k - il) * (size v + M + 110)).
    - specialize (ST (k - il)). specialize (SU il (proj1 B)). lia.
    - rewrite <- N.mul_add_distr_r. apply N.mul_le_mono_r. lia. }
  rewrite <- NS. clearbody nr. clear NS. destruct nr as [[[[nm d'] c]|e|u|] w3]; cbn [free cbind fst snd bind used] in *;
    try (apply FULL; [lia|lia|]; replace (size v - il) with (size data) by lia; lia).
  destruct NM as (Wd' & C1 & C2 & NM).
  pose proof (string_most m d' Wd') as SM. pose proof (string_same m d') as SS. pose proof (string_bounds m d') as SB.
  assert (SG : forall k, 15 * k * (size d' + 110) <= 15 * k * (size v + 110)) by (intros; apply N.mul_le_mono_l; lia).
  assert (TWO : forall k, 15 * (c - il) * (size v + 110) + 15 * k * (size v + 110) = 15 * (c + k - il) * (size v + 110)).
  { intros k. rewrite <- N.mul_add_distr_r, <- N.mul_add_distr_l. f_equal. f_equal. lia. }
  destruct (decode_string_c m d') as [r w4]. cbn [fst snd] in *. subst r.
  destruct (decode_string m d') as [[vv k]|e|u|] eqn:S; cbn [free cbind fst snd bind used] in *;
    try (apply FULL; [lia|lia|]; specialize (SG (size d')); specialize (TWO (size d')); replace (size v - il) with (c + size d' - il) by lia; lia).
  specialize (SB vv k Wd' eq_refl). destruct SB as [SB _]. specialize (SG k). specialize (TWO k).
  assert (SC2 : 15 * (c + k - il) * (size v + 110) <= 15 * (size v - il) * (size v + 110)) by (apply SC; lia). rewrite <- TWO in SC2.
  clear SC ST SU. pose proof (erase_most d' k) as EM2. pose proof (erase_same d' k) as ES2. destruct (verase_front_c d' k) as [r w5]. cbn [fst snd] in *. subst r.
  destruct (verase_front d' k) as [d''|e|u|] eqn:E; cbn [free cbind fst snd bind used] in *; (apply FULL; [lia|lia|]); rewrite <- ?TWO;
    clear - S1 IM HM EM NM SM SG SC2 EM2 C2 B SD; lia.
Qed.

Lemma block_loop_most : forall m t, dt_ok t -> forall f raw, wf_bytes raw ->
  snd (decode_block_loop_c m f raw t) <= 18 * size raw * (size raw + N.max 60 (dt_max t) + 110).
Proof.
  intros m t K. pose proof (fun raw W NE => header_most m raw t W NE K) as HMX.
  pose proof (fun raw e n W => entry_expansion m raw t e n W K) as HEX.
  revert HMX HEX. generalize (N.max 60 (dt_max t)). intros M HMX HEX.
  induction f as [|f IH]; intros raw W; cbn [decode_block_loop_c];
    (destruct (0 <? size raw) eqn:Z; [|cbn [free snd]; lia]); [cbn [free snd]; lia|].
  assert (NE : raw <> []) by (intros ->; discriminate Z). apply N.ltb_lt in Z.
  pose proof (HMX raw W NE) as HM. pose proof (header_same m raw t) as HS.
  pose proof (decode_header_bounds m raw t) as HB. pose proof (HEX raw) as HE. clear HMX HEX.
  destruct (decode_header_c m raw t) as [r w]. cbn [fst snd] in *. subst r.
  assert (UP : forall k, 15 * k * (size raw + M + 110) <= 18 * k * (size raw + M + 110)) by (intros; apply N.mul_le_mono_r; lia).
  pose proof (UP (size raw)) as UP1.
  destruct (decode_header m raw t) as [[e n]|x|u|] eqn:D; cbn [free work cbind fst snd bind used] in *; try lia.
  destruct (HB e n W eq_refl) as [B _]. destruct (HE e n W eq_refl) as [_ X]. clear HB HE.
  assert (EW : 5 * entry_work e <= 5 * M + 8 * n).
  { unfold entry_work. unfold entry_fields in X. destruct (e_content e) as [h|z]; [|lia]. rewrite total_cons, total_nil in X.
    unfold field_size in X. unfold header_octets, size. lia. }
  assert (STEP : w + entry_work e + size raw <= 18 * n * (size raw + M + 110)).
  { assert (3 * (size raw + M + 110) <= 3 * n * (size raw + M + 110)) by (apply N.mul_le_mono_r; lia). specialize (UP n). lia. }
  assert (ALL : 18 * n * (size raw + M + 110) + 18 * (size raw - n) * (size raw + M + 110) = 18 * size raw * (size raw + M + 110)).
  { rewrite <- N.mul_add_distr_r. f_equal. lia. }
  pose proof (erase_most raw n) as EM. pose proof (erase_same raw n) as ES. destruct (verase_front_c raw n) as [r w2]. cbn [fst snd] in *. subst r.
  destruct (verase_front raw n) as [raw'|x|u|] eqn:E; cbn [free cbind fst snd bind used] in *; try (clear - STEP ALL EM; lia).
  pose proof (erase_wf _ _ _ W E) as W'. apply verase_front_ok in E. destruct E as [_ E].
  assert (SD : size raw' = size raw - n) by (subst raw'; apply size_skipn). specialize (IH raw' W').
  assert (LE : 18 * size raw' * (size raw' + M + 110) <= 18 * (size raw - n) * (size raw + M + 110)) by (rewrite <- SD; apply N.mul_le_mono_l; lia).
  destruct (decode_block_loop_c m f raw' t) as [[b|x|u|] w3]; cbn [free cbind fst snd] in *; clear - STEP ALL EM IH LE; lia.
Qed.

(* Whatever the octets and however reading them ends, the work is at most
   quadratic in their number. *)
Theorem C105_quadratic_partial : forall m raw t, is_octets raw ->
  dt_size t = total_size (dt_entries t) -> dt_size t <= dt_max t ->
  snd (decode_block_c m raw t) <= 18 * size raw * (size raw + N.max 60 (dt_max t) + 110).
Proof. intros m raw t O K L. apply block_loop_most; [exact (conj K L)|apply octets_wf, O]. Qed.

(* ---------------------------------------------------------------- exactly *)

Lemma size_repeat : forall A (x : A) n, size (repeat x n) = N.of_nat n.
Proof. intros. unfold size. rewrite repeat_length. reflexivity. Qed.

Definition get : hentry := HEntry Indexed (EHeader (octets ":method", octets "GET")).

(* One octet: index 2. *)
Lemma get_work : forall m l t, decode_header_c m (130 :: l) t = (Ok (get, 1), size l + 14).
Proof.
  intros m l t. unfold decode_header_c. cbn [vget]. rewrite size_cons.
  assert (V : vget (130 :: l) 0 = Ok 130) by (unfold vget; rewrite size_cons; destruct (N.ltb_spec 0 (size l + 1)); [reflexivity|lia]).
  rewrite V. cbn [free work cbind fst snd]. replace (check_prefix 130) with (Ok Indexed) by (vm_compute; reflexivity).
  cbn [free work cbind fst snd hprefix_eqb decode_index_c].
  replace (decode_int_and_length_c 7 (130 :: l)) with (Ok (2, 1), 2) by (vm_compute; reflexivity).
  cbn [free work cbind fst snd hprefix_eqb]. change (0 <? 2) with true. cbn [andb].
  replace (make_indexed_header_c 2 t) with (@pair (res header) N (Ok (octets ":method", octets "GET")) 10) by (vm_compute; reflexivity).
  change (hprefix_eqb Indexed SizeUpdate) with false. change (hprefix_eqb Indexed Indexed) with true.
  cbn [free work cbind fst snd]. unfold get. f_equal. lia.
Qed.

Theorem C105_exact : forall m n t,
  decode_block_c m (repeat 130 n) t = (Ok (repeat get n), N.of_nat n * (N.of_nat n + 23)).
Proof.
  intros m n t. unfold decode_block_c. rewrite repeat_length. induction n as [|n IH]; [reflexivity|].
  cbn [repeat decode_block_loop_c]. rewrite size_cons. destruct (N.ltb_spec 0 (size (repeat 130 n) + 1)) as [_|L]; [|lia].
  rewrite get_work. cbn [cbind fst snd work]. change (entry_work get) with 10.
  assert (E : verase_front_c (130 :: repeat 130 n) 1 = (Ok (repeat 130 n), size (repeat 130 n))).
  { unfold verase_front_c, verase_front, erase_work. rewrite size_cons. destruct (N.leb_spec 1 (size (repeat 130 n) + 1)); [|lia].
    cbn [free cbind work fst snd]. change (skipn (N.to_nat 1) (130 :: repeat 130 n)) with (repeat 130 n). f_equal. change (1 =? 0) with false. cbn iota. lia. }
  rewrite E. cbn [cbind fst snd]. rewrite IH. cbn [free cbind fst snd]. rewrite size_repeat. f_equal. lia.
Qed.

(* No factor will do: the work of a block is not in proportion to its length. *)
Theorem C105_linear_refuted : forall m factor, exists raw b, is_octets raw /\
  decode_block m raw default_table = Ok b /\ factor * size raw < snd (decode_block_c m raw default_table).
Proof.
  intros m factor. exists (repeat 130 (S (N.to_nat factor))), (repeat get (S (N.to_nat factor))).
  split; [intros x I; apply repeat_spec in I; subst x; reflexivity|].
  pose proof (C105_exact m (S (N.to_nat factor)) default_table) as E.
  split; [rewrite <- C105_same_reader, E; reflexivity|]. rewrite E. cbn [snd]. rewrite size_repeat. nia.
Qed.

(* The largest frame there is: for its 16777215 octets some 281 million million
   octets are read, copied or moved. *)
Theorem C105_largest_frame : forall m t n, size (repeat 130 n) = 2 ^ 24 - 1 ->
  snd (decode_block_c m (repeat 130 n) t) = 281475329032170.
Proof. intros m t n H. rewrite size_repeat in H. rewrite C105_exact. cbn [snd]. rewrite H. reflexivity. Qed.

(* ---- one string ---- *)

Lemma first_row : exists row rest, decode_table = (5, row) :: rest /\ map_find row 0 = Some 48.
Proof. eexists _, _. split; [unfold decode_table; reflexivity|reflexivity]. Qed.

(* A symbol that needs the next octet. *)
Lemma zero_next : forall row rest l c, map_find row 0 = Some 48 -> c < 5 ->
  decode_pass_c ((5, row) :: rest) (0 :: l) (0, c) = (Ok (Symbol 48 5 l (0, c + 3)), size l + 3).
Proof.
  intros row rest l c R C.
  assert (SL : size (0 :: l) = size l + 1) by apply size_cons.
  assert (E : verase_front_c (0 :: l) 1 = (Ok l, size l)).
  { unfold verase_front_c, verase_front, erase_work. rewrite SL. destruct (N.leb_spec 1 (size l + 1)); [|lia].
    cbn [free cbind work fst snd]. change (skipn (N.to_nat 1) (0 :: l)) with l. f_equal. change (1 =? 0) with false. cbn iota. lia. }
  assert (K : construct_integer_c (0 :: l) 1 = (Ok 0, 1)).
  { unfold construct_integer_c, construct_integer. rewrite SL. destruct (N.ltb_spec (size l + 1) 1); [lia|]. reflexivity. }
  cbn [decode_pass_c fst snd]. rewrite SL. destruct (N.eqb_spec (size l + 1) 0); [lia|].
  destruct (N.ltb_spec c 5); [|lia]. cbn [andb]. cbn zeta.
  assert (B : (if (5 - c) mod 8 =? 0 then (5 - c) / 8 else (5 - c) / 8 + 1) = 1).
  { destruct (N.eqb_spec ((5 - c) mod 8) 0); lia. }
  rewrite B, K. cbn [free cbind work fst snd]. rewrite N.shiftl_0_l, N.shiftr_0_l, N.shiftl_0_l. change (u32 0) with 0.
  change (N.lor 0 0) with 0. change (N.lxor 0 0) with 0. rewrite R, E. cbn [free cbind work fst snd]. replace (1 * 8 + c - 5) with (c + 3) by lia. f_equal. lia.
Qed.

(* A symbol made of the bits left over. *)
Lemma zero_left : forall row rest temp c, map_find row 0 = Some 48 -> 5 <= c ->
  decode_pass_c ((5, row) :: rest) temp (0, c) = (Ok (Symbol 48 5 temp (0, c - 5)), 2).
Proof.
  intros row rest temp c R C. cbn [decode_pass_c fst snd]. destruct (N.ltb_spec c 5); [lia|]. rewrite andb_false_r.
  cbn zeta. cbn [free cbind work fst snd]. rewrite N.shiftr_0_l, N.shiftl_0_l. change (u32 0) with 0. change (N.lxor 0 0) with 0. rewrite R.
  assert (E : verase_front_c temp 0 = (Ok temp, 0)).
  { unfold verase_front_c, verase_front, erase_work. destruct (N.leb_spec 0 (size temp)); [|lia]. reflexivity. }
  rewrite E. reflexivity.
Qed.

Lemma while_step : forall f d total temp carry bl temp' carry' w out w', d < total ->
  decode_pass_c decode_table temp carry = (Ok (Symbol 48 bl temp' carry'), w) ->
  decode_while_c f (d + bl) total temp' carry' = (Ok out, w') ->
  decode_while_c (S f) d total temp carry = (Ok (48 :: out), w + w').
Proof.
  intros f d total temp carry bl temp' carry' w out w' L P D. cbn [decode_while_c]. destruct (N.ltb_spec d total); [|lia].
  rewrite P. cbn [cbind fst snd]. rewrite D. cbn [free cbind fst snd]. apply f_equal2; [reflexivity|lia].
Qed.

Lemma zeros_while : forall k f d, (8 * k <= f)%nat ->
  exists w, decode_while_c f d (d + 40 * N.of_nat k) (repeat 0 (5 * k)) (0, 0) = (Ok (repeat 48 (8 * k)), w) /\
    2 * w = 25 * N.of_nat k * N.of_nat k + 37 * N.of_nat k.
Proof.
  destruct first_row as (row & rest & T & R).
  assert (NX : forall l c, c < 5 -> decode_pass_c decode_table (0 :: l) (0, c) = (Ok (Symbol 48 5 l (0, c + 3)), size l + 3)).
  { intros l c C. rewrite T. apply zero_next; assumption. }
  assert (LF : forall l c, 5 <= c -> decode_pass_c decode_table l (0, c) = (Ok (Symbol 48 5 l (0, c - 5)), 2)).
  { intros l c C. rewrite T. apply zero_left; assumption. }
  induction k as [|k IH]; intros f d F.
  { exists 0. split; [|reflexivity]. replace (d + 40 * N.of_nat 0) with d by lia. cbn [repeat Nat.mul].
    destruct f; cbn [decode_while_c]; rewrite N.ltb_irrefl; reflexivity. }
  destruct (IH (f - 8)%nat (d + 5 + 5 + 5 + 5 + 5 + 5 + 5 + 5) ltac:(lia)) as (w & D & W).
  replace (d + 5 + 5 + 5 + 5 + 5 + 5 + 5 + 5 + 40 * N.of_nat k) with (d + 40 * N.of_nat (S k)) in D by lia.
  replace f with (S (S (S (S (S (S (S (S (f - 8)))))))))%nat by lia.
  replace (5 * S k)%nat with (S (S (S (S (S (5 * k))))))%nat by lia.
  replace (8 * S k)%nat with (S (S (S (S (S (S (S (S (8 * k)))))))))%nat by lia. cbn [repeat].
  set (total := d + 40 * N.of_nat (S k)) in *. assert (LT : d + 40 <= total) by (subst total; lia).
  set (l := repeat 0 (5 * k)) in *. assert (SL : size l = 5 * N.of_nat k) by (subst l; rewrite size_repeat; lia).
  eexists. split.
  - eapply while_step; [lia|apply (NX _ 0); lia|]. change (0 + 3) with 3.
    eapply while_step; [lia|apply (NX _ 3); lia|]. change (3 + 3) with 6.
    eapply while_step; [lia|apply (LF _ 6); lia|]. change (6 - 5) with 1.
    eapply while_step; [lia|apply (NX _ 1); lia|]. change (1 + 3) with 4.
    eapply while_step; [lia|apply (NX _ 4); lia|]. change (4 + 3) with 7.
    eapply while_step; [lia|apply (LF _ 7); lia|]. change (7 - 5) with 2.
    eapply while_step; [lia|apply (NX _ 2); lia|]. change (2 + 3) with 5.
    eapply while_step; [lia|apply (LF _ 5); lia|]. change (5 - 5) with 0. exact D.
  - rewrite !size_cons, SL. lia.
Qed.

(* 5 k zero octets are the code of 8 k digits 0. *)
Theorem C105_huffman_exact : forall k, exists w,
  huffman_decode_c (repeat 0 (5 * k)) = (Ok (repeat 48 (8 * k)), w) /\ 2 * w = 25 * N.of_nat k * N.of_nat k + 47 * N.of_nat k.
Proof.
  intros k. unfold huffman_decode_c. destruct (zeros_while k (S (N.to_nat (size (repeat 0 (5 * k)) * 8))) 0) as (w & D & W).
  { rewrite size_repeat. lia. }
  replace (0 + 40 * N.of_nat k) with (size (repeat 0 (5 * k)) * 8) in D by (rewrite size_repeat; lia).
  rewrite D. cbn [work cbind fst snd]. exists (size (repeat 0 (5 * k)) + w). split; [reflexivity|]. rewrite size_repeat. lia.
Qed.

(* The string of one header is no better. *)
Theorem C105_huffman_refuted : forall factor, exists raw d, is_octets raw /\
  huffman_decode raw = Ok d /\ factor * size raw < snd (huffman_decode_c raw).
Proof.
  intros factor. set (k := S (N.to_nat factor)). exists (repeat 0 (5 * k)), (repeat 48 (8 * k)).
  split; [intros x I; apply repeat_spec in I; subst x; reflexivity|].
  destruct (C105_huffman_exact k) as (w & D & W). split; [rewrite <- huffman_same, D; reflexivity|].
  rewrite D. cbn [snd]. rewrite size_repeat. assert (N.of_nat k = factor + 1) by (subst k; lia). nia.
Qed.

(* GET, and the authority www.example.com in Huffman code. *)
Example C105_case :
  is_octets [130; 65; 140; 241; 227; 194; 229; 242; 58; 107; 160; 171; 144; 244; 255] /\ dt_size default_table <= dt_max default_table /\
  decode_block_c Strict [130; 65; 140; 241; 227; 194; 229; 242; 58; 107; 160; 171; 144; 244; 255] default_table =
    (Ok [get; HEntry IncrementalIndexing (EHeader (octets ":authority", octets "www.example.com"))], 296).
Proof. split; [|split]; [|vm_compute; discriminate|vm_compute; reflexivity]. intros x I. cbn in I. repeat (destruct I as [<-|I]; [reflexivity|]). destruct I. Qed.

Print Assumptions C105_same_reader.
Print Assumptions C105_quadratic_partial.
Print Assumptions C105_exact.
Print Assumptions C105_linear_refuted.
Print Assumptions C105_largest_frame.
Print Assumptions C105_huffman_exact.
Print Assumptions C105_huffman_refuted.
