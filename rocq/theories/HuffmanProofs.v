From Coq Require Import ZArith NArith List Bool Lia ZifyBool ZifyNat ZifyN.
From Verif Require Import Base Arith SpecBits SpecHuffman HuffmanTable Huffman UtilProofs BitsProofs.
Import ListNotations.
Open Scope N_scope.
Ltac Zify.zify_post_hook ::= Z.div_mod_to_equations.

Definition symbols : list N := Eval vm_compute in map N.of_nat (seq 0 257).

Lemma in_symbols : forall s, s <= 256 -> In s symbols.
Proof.
  intros s H. replace symbols with (map N.of_nat (seq 0 257)) by (vm_compute; reflexivity).
  apply in_map_iff. exists (N.to_nat s). split; [lia|]. apply in_seq. lia.
Qed.

Lemma symbols_in : forall s, In s symbols -> s <= 256.
Proof.
  intros s H. replace symbols with (map N.of_nat (seq 0 257)) in H by (vm_compute; reflexivity).
  apply in_map_iff in H. destruct H as (k & <- & I). apply in_seq in I. lia.
Qed.

(* ---- facts established by sweeping the tables ---- *)

Definition row_ok (s : N) : bool :=
  match map_find encode_table_rows s with
  | Some (c, l) => (c =? rfc_code_value s) && (l =? rfc_code_length s) &&
                   (c <? 2 ^ l) && (5 <=? l) && (l <=? 30)
  | None => false
  end.

Lemma rows_ok : forallb row_ok symbols = true.
Proof. vm_compute. reflexivity. Qed.

Lemma encode_table_at_ok : forall s, s <= 256 ->
  encode_table_at s = Ok (rfc_code_value s, rfc_code_length s) /\
  rfc_code_value s < 2 ^ rfc_code_length s /\ 5 <= rfc_code_length s <= 30.
Proof.
  intros s H. pose proof (proj1 (forallb_forall _ _) rows_ok s (in_symbols s H)) as R.
  unfold row_ok, encode_table_at in *.
  destruct (map_find encode_table_rows s) as [[c l]|]; [|discriminate].
  rewrite !andb_true_iff, !N.eqb_eq, N.ltb_lt, !N.leb_le in R.
  destruct R as ((((-> & ->) & ?) & ?) & ?). auto.
Qed.

Definition codes : list (N * list bool) :=
  Eval vm_compute in map (fun s => (s, rfc_code s)) symbols.

Lemma codes_eq : codes = map (fun s => (s, rfc_code s)) symbols.
Proof. vm_compute. reflexivity. Qed.

Lemma in_codes : forall s, s <= 256 -> In (s, rfc_code s) codes.
Proof.
  intros. rewrite codes_eq. apply (in_map (fun s => (s, rfc_code s))), in_symbols. assumption.
Qed.

Lemma codes_in : forall s c, In (s, c) codes -> s <= 256 /\ c = rfc_code s.
Proof.
  intros s c H. rewrite codes_eq in H. apply in_map_iff in H.
  destruct H as (s' & E & I). inversion E; subst. split; [apply symbols_in|]; auto.
Qed.

Lemma prefix_free_sweep :
  forallb (fun x => forallb (fun y =>
     (fst x =? fst y) || negb (is_prefixb (snd x) (snd y))) codes) codes = true.
Proof. vm_compute. reflexivity. Qed.

Lemma prefix_free : forall s s', s <= 256 -> s' <= 256 ->
  is_prefix (rfc_code s) (rfc_code s') -> s = s'.
Proof.
  intros s s' H H' P.
  pose proof (proj1 (forallb_forall _ _) prefix_free_sweep _ (in_codes s H)) as R.
  cbv beta in R. pose proof (proj1 (forallb_forall _ _) R _ (in_codes s' H')) as R'.
  cbn [fst snd] in R'. apply orb_true_iff in R'. destruct R' as [E|E].
  - apply N.eqb_eq in E. assumption.
  - apply is_prefixb_spec in P. rewrite P in E. discriminate.
Qed.

Definition is_codeb (p : list bool) : bool :=
  existsb (fun x => is_prefixb p (snd x) && is_prefixb (snd x) p) codes.

Fixpoint completeb (fuel : nat) (p : list bool) : bool :=
  if is_codeb p then true
  else
    match fuel with
    | O => false
    | S f => completeb f (p ++ [false]) && completeb f (p ++ [true])
    end.

Lemma complete_sweep : completeb 30 [] = true.
Proof. vm_compute. reflexivity. Qed.

Lemma is_codeb_ok : forall p, is_codeb p = true -> exists s, s <= 256 /\ rfc_code s = p.
Proof.
  intros p H. apply existsb_exists in H. destruct H as ([s c] & I & E).
  apply codes_in in I. destruct I as [I ->]. cbn [snd] in E.
  apply andb_true_iff in E. destruct E as [A B].
  apply is_prefixb_spec in A, B. destruct A as [r A], B as [r' B].
  exists s. split; [assumption|].
  assert (L : r = []).
  { apply (f_equal (@length bool)) in A. apply (f_equal (@length bool)) in B.
    rewrite app_length in A, B. destruct r; [reflexivity|cbn in A; lia]. }
  subst r. rewrite app_nil_r in A. assumption.
Qed.

Lemma complete_ok : forall fuel p q, completeb fuel p = true -> (fuel <= length q)%nat ->
  exists s, s <= 256 /\ is_prefix (rfc_code s) (p ++ q).
Proof.
  induction fuel as [|f IH]; intros p q C L; cbn [completeb] in C;
    destruct (is_codeb p) eqn:K; try discriminate; [clear C; rename K into C|clear C; rename K into C|].
  - apply is_codeb_ok in C. destruct C as (s & H & <-). exists s. split; [auto|]. exists q. reflexivity.
  - apply is_codeb_ok in C. destruct C as (s & H & <-). exists s. split; [auto|]. exists q. reflexivity.
  - apply andb_true_iff in C. destruct C as [C0 C1].
    destruct q as [|b q]; [cbn in L; lia|]. cbn in L.
    replace (p ++ b :: q) with ((p ++ [b]) ++ q) by (rewrite <- app_assoc; reflexivity).
    destruct b; apply IH; auto; lia.
Qed.

Lemma complete : forall q, (30 <= length q)%nat ->
  exists s, s <= 256 /\ is_prefix (rfc_code s) q.
Proof. intros q H. apply (complete_ok 30 [] q complete_sweep H). Qed.

Lemma code_len : forall s, length (rfc_code s) = N.to_nat (rfc_code_length s).
Proof. intros. unfold rfc_code. apply bits_len. Qed.

(* decoding table: rows are (length, (value, symbol) map) *)
Definition dec_rows_sound : bool :=
  forallb (fun row => (5 <=? fst row) && (fst row <=? 30) &&
    forallb (fun kv => (snd kv <=? 256) && (rfc_code_length (snd kv) =? fst row) &&
                       (rfc_code_value (snd kv) =? fst kv)) (snd row)) decode_table.
Lemma dec_rows_sound_ok : dec_rows_sound = true.
Proof. vm_compute. reflexivity. Qed.

Definition table_has (s : N) : bool :=
  existsb (fun row => (fst row =? rfc_code_length s) &&
             match map_find (snd row) (rfc_code_value s) with
             | Some s' => s' =? s | None => false end) decode_table.
Lemma dec_table_total : forallb table_has symbols = true.
Proof. vm_compute. reflexivity. Qed.

Fixpoint ascending (l : list N) : bool :=
  match l with
  | [] => true
  | x :: l' => forallb (fun y => x <? y) l' && ascending l'
  end.
Lemma dec_table_ascending : ascending (map fst decode_table) = true.
Proof. vm_compute. reflexivity. Qed.

Lemma map_find_in : forall V (m : list (N * V)) k v, map_find m k = Some v -> In (k, v) m.
Proof.
  induction m as [|[k' v'] m IH]; intros k v H; cbn in H; [discriminate|].
  destruct (N.eqb_spec k k') as [->|]; [inversion H; left; reflexivity|right; auto].
Qed.

Definition row_sound (row : N * list (N * N)) : Prop :=
  5 <= fst row <= 30 /\
  forall k s, map_find (snd row) k = Some s ->
    s <= 256 /\ rfc_code_length s = fst row /\ rfc_code_value s = k.

Lemma decode_table_sound : Forall row_sound decode_table.
Proof.
  apply Forall_forall. intros row I.
  pose proof (proj1 (forallb_forall _ _) dec_rows_sound_ok row I) as R.
  rewrite !andb_true_iff, !N.leb_le in R. destruct R as [R M].
  split; [assumption|]. intros k s F. apply map_find_in in F.
  pose proof (proj1 (forallb_forall _ _) M _ F) as Q. cbn [fst snd] in Q.
  rewrite !andb_true_iff, !N.eqb_eq, N.leb_le in Q. tauto.
Qed.

Lemma ascending_app : forall a b, ascending (a ++ b) = true ->
  forall x y, In x a -> In y b -> x < y.
Proof.
  induction a as [|z a IH]; intros b H x y Ix Iy; [destruct Ix|].
  cbn in H. apply andb_true_iff in H. destruct H as [F A]. destruct Ix as [->|Ix].
  - apply N.ltb_lt. apply (proj1 (forallb_forall _ _) F). apply in_or_app. auto.
  - eapply IH; eauto.
Qed.

Lemma decode_table_split : forall s, s <= 256 -> exists pre m post,
  decode_table = pre ++ (rfc_code_length s, m) :: post /\
  map_find m (rfc_code_value s) = Some s /\
  (forall row, In row pre -> fst row < rfc_code_length s).
Proof.
  intros s H. pose proof (proj1 (forallb_forall _ _) dec_table_total s (in_symbols s H)) as R.
  unfold table_has in R. apply existsb_exists in R. destruct R as ([L m] & I & E).
  cbn [fst snd] in E. apply andb_true_iff in E. destruct E as [E1 E2].
  apply N.eqb_eq in E1. subst L.
  destruct (in_split _ _ I) as (pre & post & E). exists pre, m, post. split; [assumption|]. split.
  - destruct (map_find m (rfc_code_value s)) as [s'|]; [|discriminate].
    apply N.eqb_eq in E2. congruence.
  - intros row Ir. pose proof dec_table_ascending as A. rewrite E, map_app in A.
    apply (ascending_app _ _ A); [apply in_map; assumption|left; reflexivity].
Qed.

(* ---- encoder ---- *)

Definition rbits (r : N * N) : list bool := bits_of (N.to_nat (snd r)) (fst r).
Definition rec_ok (r : N * N) : Prop := fst r < 2 ^ snd r.

Lemma fill_record_spec : forall v n c L, n <= 8 -> v < 2 ^ n -> c < 2 ^ L -> L <= 30 ->
  let f := N.min (8 - n) L in
  let r := L - f in
  fill_record (v, n) (c, L) = ((v * 2 ^ f + c / 2 ^ r, n + f), (c mod 2 ^ r, r)) /\
  v * 2 ^ f + c / 2 ^ r < 2 ^ (n + f) /\
  c mod 2 ^ r < 2 ^ r /\
  bits_of (N.to_nat (n + f)) (v * 2 ^ f + c / 2 ^ r) ++ bits_of (N.to_nat r) (c mod 2 ^ r)
  = bits_of (N.to_nat n) v ++ bits_of (N.to_nat L) c.
Proof.
  intros v n c L Hn Hv Hc HL f r. unfold fill_record. cbn [fst snd].
  fold f. fold r. rewrite N.shiftr_div_pow2, !N.shiftl_mul_pow2.
  assert (Pr : 2 ^ r <> 0) by (apply N.pow_nonzero; lia).
  assert (Pf : 2 ^ f <> 0) by (apply N.pow_nonzero; lia).
  assert (Lf : L = f + r) by lia.
  assert (Cd : c / 2 ^ r < 2 ^ f).
  { apply N.div_lt_upper_bound; [assumption|]. rewrite <- N.pow_add_r.
    replace (r + f) with L by lia. assumption. }
  assert (B : v * 2 ^ f + c / 2 ^ r < 2 ^ (n + f)).
  { rewrite N.pow_add_r. nia. }
  assert (B8 : 2 ^ (n + f) <= 2 ^ 8) by (apply N.pow_le_mono_r; lia).
  rewrite (u32_small (v * 2 ^ f)).
  2:{ apply N.le_lt_trans with (v * 2 ^ f + c / 2 ^ r); [apply N.le_add_r|].
      eapply N.lt_le_trans; [exact B|]. eapply N.le_trans; [exact B8|].
      apply N.pow_le_mono_r; discriminate. }
  rewrite lor_add by assumption.
  rewrite (u32_small (c / 2 ^ r * 2 ^ r)).
  2:{ assert (2 ^ L <= 2 ^ 30) by (apply N.pow_le_mono_r; lia).
      assert (c / 2 ^ r * 2 ^ r <= c) by (rewrite N.mul_comm; apply N.mul_div_le; assumption).
      eapply N.le_lt_trans; [eassumption|]. eapply N.lt_le_trans; [exact Hc|].
      eapply N.le_trans; [eassumption|]. apply N.pow_le_mono_r; discriminate. }
  rewrite lxor_shift'.
  split; [reflexivity|]. split; [assumption|]. split; [apply N.mod_lt; assumption|].
  rewrite Nnat.N2Nat.inj_add.
  replace (2 ^ f) with (2 ^ N.of_nat (N.to_nat f)) by (f_equal; lia).
  rewrite bits_join by (replace (N.of_nat (N.to_nat f)) with f by lia; assumption).
  rewrite <- app_assoc. f_equal.
  replace (N.to_nat L) with (N.to_nat f + N.to_nat r)%nat by lia.
  rewrite (bits_split (N.to_nat f)).
  replace (N.of_nat (N.to_nat r)) with r by lia. f_equal.
  replace (2 ^ r) with (2 ^ N.of_nat (N.to_nat r)) by (f_equal; lia).
  apply bits_mod. lia.
Qed.

Lemma bits8_cons : forall x l, octets_bits (x :: l) = bits_of 8 x ++ octets_bits l.
Proof. reflexivity. Qed.

Lemma encode_inner_spec : forall fuel v n c L, n < 8 -> v < 2 ^ n -> c < 2 ^ L -> L <= 30 ->
  (n = 0 \/ 8 <= n + L) -> (N.to_nat (n + L) <= fuel)%nat ->
  exists carry out, encode_inner fuel (n + L) (v, n) (c, L) = Ok (carry, out) /\
    wf_bytes out /\ snd carry < 8 /\ rec_ok carry /\
    octets_bits out ++ rbits carry = bits_of (N.to_nat n) v ++ bits_of (N.to_nat L) c.
Proof.
  induction fuel as [|fuel IH]; intros v n c L Hn Hv Hc HL HnL HF.
  - assert (n = 0) by lia. assert (L = 0) by lia. subst. cbn.
    exists (c, 0), []. repeat split; auto. constructor.
  - cbn [encode_inner]. destruct (N.ltb_spec (n + L) 8) as [S|S].
    + assert (n = 0) by lia. subst n. exists (c, L), []. repeat split; auto.
      constructor.
    + destruct (fill_record_spec v n c L) as (E & B1 & B2 & EB); try lia; auto.
      set (f := N.min (8 - n) L) in *. set (r := L - f) in *. rewrite E. cbn [snd fst].
      assert (F : f = 8 - n) by lia. assert (N8 : n + f = 8) by lia.
      destruct (IH 0 0 (c mod 2 ^ r) r) as (carry & out & EI & W & C8 & CO & CB); try lia; auto.
      replace (0 + r) with r in EI by lia. rewrite EI. cbn [bind].
      rewrite N8 in B1, EB. change (2 ^ 8) with 256 in B1.
      rewrite u8_small by assumption.
      exists carry, (v * 2 ^ f + c / 2 ^ r :: out). repeat split; auto.
      * constructor; assumption.
      * rewrite bits8_cons, <- app_assoc, CB. cbn [N.to_nat bits_of app].
        change (N.to_nat 8) with 8%nat in EB. exact EB.
Qed.

Lemma encode_func_spec : forall v n s, n < 8 -> v < 2 ^ n -> s <= 256 ->
  exists carry out, encode_func (v, n) s = Ok (carry, out) /\
    wf_bytes out /\ snd carry < 8 /\ rec_ok carry /\
    octets_bits out ++ rbits carry = rbits (v, n) ++ rfc_code s.
Proof.
  intros v n s Hn Hv Hs. destruct (encode_table_at_ok s Hs) as (E & C & L).
  unfold encode_func. rewrite E. cbn [bind snd].
  set (c := rfc_code_value s) in *. set (l := rfc_code_length s) in *.
  destruct (N.ltb_spec (n + l) 8) as [T|T].
  - destruct (fill_record_spec v n c l) as (EF & B1 & B2 & EB); try lia; auto.
    set (f := N.min (8 - n) l) in *. set (r := l - f) in *.
    assert (F : f = l) by lia. assert (R : r = 0) by lia.
    rewrite EF. cbn [fst]. exists (v * 2 ^ f + c / 2 ^ r, n + f), [].
    split; [reflexivity|]. split; [constructor|]. split; [cbn; lia|]. split; [assumption|].
    unfold rbits, rfc_code. cbn [fst snd octets_bits flat_map app]. fold c. fold l.
    rewrite <- EB, R. cbn [N.to_nat bits_of]. rewrite app_nil_r. reflexivity.
  - apply encode_inner_spec; auto; lia.
Qed.

Lemma encode_each_spec : forall raw v n, n < 8 -> v < 2 ^ n -> Forall (fun s => s <= 256) raw ->
  exists carry out, encode_each (v, n) raw = Ok (carry, out) /\
    wf_bytes out /\ snd carry < 8 /\ rec_ok carry /\
    octets_bits out ++ rbits carry = rbits (v, n) ++ flat_map rfc_code raw.
Proof.
  induction raw as [|s raw IH]; intros v n Hn Hv W; cbn [encode_each].
  - exists (v, n), []. repeat split; auto; [constructor|].
    cbn [flat_map octets_bits app]. rewrite app_nil_r. reflexivity.
  - inversion W as [|? ? Ws W']; subst.
    destruct (encode_func_spec v n s Hn Hv Ws) as ([v1 n1] & o1 & E1 & W1 & C1 & R1 & B1).
    rewrite E1. cbn [bind].
    destruct (IH v1 n1 C1 R1 W') as (c2 & o2 & E2 & W2 & C2 & R2 & B2).
    rewrite E2. cbn [bind]. exists c2, (o1 ++ o2). repeat split; auto.
    + apply wf_bytes_app. auto.
    + rewrite octets_bits_app, <- app_assoc, B2, app_assoc, B1. cbn [flat_map].
      rewrite <- app_assoc. reflexivity.
Qed.

Lemma eos_row : encode_table_at (map_size encode_table_rows - 1) = Ok (0x3fffffff, 30).
Proof. vm_compute. reflexivity. Qed.

Lemma huffman_encode_spec : forall raw, wf_bytes raw ->
  exists e pad, huffman_encode raw = Ok e /\ wf_bytes e /\ (pad < 8)%nat /\
    octets_bits e = flat_map rfc_code raw ++ repeat true pad.
Proof.
  intros raw W. unfold huffman_encode.
  assert (W' : Forall (fun s => s <= 256) raw).
  { eapply Forall_impl; [|exact W]. unfold wf_byte. intros. lia. }
  destruct (encode_each_spec raw 0 0 eq_refl eq_refl W') as ([v n] & out & E & Wo & C & R & B).
  rewrite E. cbn [bind snd fst] in *. unfold rec_ok, rbits in *. cbn [fst snd N.to_nat bits_of app] in *.
  destruct (N.ltb_spec 0 n) as [P|P].
  - rewrite eos_row. cbn [bind fst snd].
    assert (EP : N.shiftr 0x3fffffff (30 - (8 - n)) = 2 ^ (8 - n) - 1).
    { assert (K : n = 1 \/ n = 2 \/ n = 3 \/ n = 4 \/ n = 5 \/ n = 6 \/ n = 7) by lia.
      destruct K as [->|[->|[->|[->|[->|[->| ->]]]]]]; reflexivity. }
    rewrite EP, N.shiftl_mul_pow2.
    assert (Q : 2 ^ (8 - n) <> 0) by (apply N.pow_nonzero; lia).
    assert (PP : 2 ^ n * 2 ^ (8 - n) = 256).
    { rewrite <- N.pow_add_r. replace (n + (8 - n)) with 8 by lia. reflexivity. }
    assert (V : v * 2 ^ (8 - n) + (2 ^ (8 - n) - 1) < 256) by nia.
    rewrite u32_small by (change (2 ^ 32) with 4294967296; lia).
    rewrite lor_add by lia. rewrite u8_small by assumption.
    exists (out ++ [v * 2 ^ (8 - n) + (2 ^ (8 - n) - 1)]), (N.to_nat (8 - n)).
    repeat split; [|lia|].
    + apply wf_bytes_app. split; [assumption|]. constructor; [assumption|constructor].
    + rewrite octets_bits_app, <- B, <- app_assoc. f_equal.
      cbn [octets_bits flat_map]. rewrite app_nil_r.
      replace 8%nat with (N.to_nat n + N.to_nat (8 - n))%nat by lia.
      replace (2 ^ (8 - n)) with (2 ^ N.of_nat (N.to_nat (8 - n))) by (f_equal; lia).
      rewrite bits_join.
      * rewrite bits_ones. reflexivity.
      * assert (2 ^ N.of_nat (N.to_nat (8 - n)) <> 0) by (apply N.pow_nonzero; lia). lia.
  - assert (n = 0) by lia. subst n. exists out, 0%nat. repeat split; [assumption|lia|].
    cbn [repeat]. rewrite app_nil_r, <- B. cbn [N.to_nat bits_of]. rewrite app_nil_r. reflexivity.
Qed.
