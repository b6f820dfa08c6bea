From Coq Require Import ZArith NArith List Bool Lia ZifyBool ZifyNat ZifyN.
From Verif Require Import Base Arith Util IntRep Huffman StaticTable HeaderType DynTable HeaderEnc HeaderDec
  SpecBits SpecHuffman SpecInt SpecHpack
  IntRepProofs IntSpecProofs UtilProofs HuffmanProofs HuffmanDecProofs DynTableProofs StaticProofs.
Import ListNotations.
Open Scope N_scope.
Ltac Zify.zify_post_hook ::= Z.div_mod_to_equations.

(* ---- lookup ---- *)

Lemma indexed_header_spec : forall i t, i <> 0 ->
  make_indexed_header i t =
  match resolve_in lib_static (rfc_table t) i with
  | Some h => Ok h | None => Throw OutOfRange end.
Proof.
  intros i t NZ. unfold make_indexed_header, resolve_in. rewrite static_size, lib_static_len.
  destruct (N.eqb_spec i 0) as [|_]; [contradiction|]. change (N.of_nat 61) with 61.
  destruct (N.ltb_spec 61 i), (N.leb_spec i 61); try lia.
  - rewrite dt_at_spec. cbn [t_entries rfc_table]. replace (i - 1 - 61) with (i - 61 - 1) by lia. reflexivity.
  - unfold static_table_at. rewrite lib_static_nth by lia. reflexivity.
Qed.

Lemma resolve_lib_rfc : forall t i, i <> 20 -> resolve_in lib_static t i = resolve t i.
Proof.
  intros t i NE. unfold resolve, resolve_in. rewrite lib_static_len.
  change (N.of_nat (length rfc_static)) with 61. change (N.of_nat 61) with 61.
  destruct (N.eqb_spec i 0); [reflexivity|]. destruct (N.leb_spec i 61); [|reflexivity].
  rewrite <- lib_static_nth by lia. apply static_is_rfc; lia.
Qed.

(* ---- first octet ---- *)

Definition class_of (b : N) : hprefix :=
  if 128 <=? b then Indexed else if 64 <=? b then IncrementalIndexing
  else if 32 <=? b then SizeUpdate else if 16 <=? b then NeverIndexed else WithoutIndexing.

Definition all_octets : list N := map N.of_nat (seq 0 256).

Lemma in_all_octets : forall b, b < 256 -> In b all_octets.
Proof.
  intros b H. unfold all_octets. apply in_map_iff. exists (N.to_nat b). split; [lia|].
  apply in_seq. lia.
Qed.

Lemma check_prefix_sweep :
  forallb (fun b => match check_prefix b with Ok p => hprefix_eqb p (class_of b) | _ => false end)
    all_octets = true.
Proof. vm_compute. reflexivity. Qed.

Lemma hprefix_eqb_eq : forall a b, hprefix_eqb a b = true <-> a = b.
Proof. intros [] []; split; intros H; try reflexivity; try discriminate H. Qed.

Lemma check_prefix_spec : forall b, b < 256 -> check_prefix b = Ok (class_of b).
Proof.
  intros b H. pose proof (proj1 (forallb_forall _ _) check_prefix_sweep b (in_all_octets b H)) as Q.
  cbv beta in Q. destruct (check_prefix b); try discriminate. apply hprefix_eqb_eq in Q. congruence.
Qed.

(* ---- integers ---- *)

Lemma small_length : forall n x, prefix_ok n -> x < 2 ^ 31 + (2 ^ n - 1) ->
  size (encode_integer_value n x) <= 6.
Proof.
  intros n x Hn H. unfold encode_integer_value.
  destruct (N.ltb_spec x (2 ^ n - 1)); [rewrite size_cons, size_nil; lia|].
  rewrite size_cons. pose proof (enc_cont_length 5 (x - (2 ^ n - 1))) as L.
  assert (x - (2 ^ n - 1) < 128 ^ N.of_nat 5).
  { change (128 ^ N.of_nat 5) with (2 ^ 35). apply N.lt_trans with (2 ^ 31); [lia|reflexivity]. }
  specialize (L H1 ltac:(lia)). unfold size. lia.
Qed.

Lemma shortest_size : forall n l x, prefix_ok n -> rfc_int_shortest n l x ->
  size l = size (encode_integer_value n x).
Proof. intros n l x Hn S. symmetry. apply reencoded_length; [exact Hn|apply S|exact S]. Qed.

Lemma decode_int_small : forall n l x rest, prefix_ok n -> rfc_int_shortest n l x ->
  x < 2 ^ 31 + (2 ^ n - 1) -> wf_bytes (l ++ rest) ->
  decode_int_and_length n (l ++ rest) = Ok (x, size l).
Proof.
  intros n l x rest Hn S B W. unfold decode_int_and_length.
  assert (D : decode_integer_value n (l ++ rest) = Ok x).
  { apply decode_integer_char; [exact Hn|exact W|]. exists l, rest.
    repeat split; [apply S| |exact B]. rewrite (shortest_size n l x Hn S). apply small_length; assumption. }
  rewrite D. cbn [bind]. rewrite (shortest_size n l x Hn S). reflexivity.
Qed.

Lemma rfc_int_octets : forall n l x, rfc_int n l x -> wf_bytes l.
Proof.
  intros n l x H. destruct H.
  - constructor; [assumption|constructor].
  - constructor; [assumption|]. eapply rfc_cont_octets; eassumption.
Qed.

Lemma rfc_int_change_first : forall n b b' tl v, rfc_int n (b :: tl) v -> b' < 256 ->
  b' mod 2 ^ n = b mod 2 ^ n -> rfc_int n (b' :: tl) v.
Proof.
  intros n b b' tl v H L E. inversion H; subst.
  - rewrite <- E. apply rfc_int_short; [assumption|]. rewrite E. assumption.
  - apply rfc_int_long; [assumption| |assumption]. rewrite E. assumption.
Qed.

Lemma or_prefix : forall n x hi, prefix_ok n -> (hi + 1) * 2 ^ n <= 256 ->
  exists l, or_first (encode_integer_value n x) (hi * 2 ^ n) = Ok l /\
    rfc_int_shortest n l x /\ first_in (hi * 2 ^ n) ((hi + 1) * 2 ^ n) l /\
    size l = size (encode_integer_value n x).
Proof.
  intros n x hi Hn Hh. destruct (encode_integer_first n x Hn) as (b & tl & E & L).
  rewrite E. cbn [or_first]. rewrite lor_add' by exact L. eexists. split; [reflexivity|].
  assert (P : 0 < 2 ^ n) by (pose proof (max_value_pos n Hn); lia).
  assert (R : rfc_int n (hi * 2 ^ n + b :: tl) x).
  { apply (rfc_int_change_first n b).
    - rewrite <- E. apply encode_integer_rfc. exact Hn.
    - nia.
    - rewrite N.add_comm, N.mod_add by lia. reflexivity. }
  split; [split; [exact R|]|split].
  - intros l' R'. pose proof (encode_integer_shortest n x l' Hn R') as S. rewrite E in S. exact S.
  - exists (hi * 2 ^ n + b), tl. split; [reflexivity|]. nia.
  - rewrite !size_cons. reflexivity.
Qed.

(* ---- strings ---- *)

Lemma wf_octets : forall l, wf_bytes l -> is_octets l.
Proof. intros. apply is_octets_wf. assumption. Qed.
Lemma octets_wf : forall l, is_octets l -> wf_bytes l.
Proof. intros. apply is_octets_wf. assumption. Qed.

Lemma vget_first : forall lo hi l rest, first_in lo hi l ->
  exists b, vget (l ++ rest) 0 = Ok b /\ lo <= b < hi.
Proof.
  intros lo hi l rest (b & tl & -> & H). exists b. split; [|exact H].
  unfold vget. cbn [app]. rewrite size_cons. destruct (N.ltb_spec 0 (size (tl ++ rest) + 1)); [reflexivity|lia].
Qed.

Lemma high_bit1 : forall b, b < 256 -> (extract_high_bit 1 8 b =? 0) = (b <? 128).
Proof.
  intros b H. unfold extract_high_bit. rewrite N.shiftr_div_pow2. change (2 ^ (8 - 1)) with 128.
  destruct (N.ltb_spec b 128) as [L|L].
  - rewrite N.div_small by exact L. reflexivity.
  - apply N.eqb_neq. assert (1 <= b / 128) by (apply N.div_le_lower_bound; lia). lia.
Qed.

(* When the library's address-of expressions are defined. *)
Definition addressable (m : ub_mode) (s : bytes) : Prop := m = Lenient \/ s <> [].

Lemma address_ok : forall m v, addressable m v -> address_of m v 0 = Ok tt.
Proof.
  intros [] v [H|H]; try discriminate; try reflexivity.
  unfold address_of. destruct v; [contradiction|]. rewrite size_cons.
  destruct (N.ltb_spec 0 (size v + 1)); [reflexivity|lia].
Qed.

Lemma address_at_ok : forall m a s r, addressable m s -> address_of m (a ++ s ++ r) (size a) = Ok tt.
Proof.
  intros [] a s r [H|H]; try discriminate; try reflexivity.
  unfold address_of. rewrite !size_app. destruct s as [|x s]; [contradiction|]. rewrite size_cons.
  destruct (N.ltb_spec (size a) (size a + (size s + 1 + size r))); [reflexivity|lia].
Qed.

Lemma pok7 : prefix_ok 7. Proof. unfold prefix_ok. lia. Qed.

Lemma small_string_octets : forall vs v, small_string vs v -> wf_bytes vs /\ wf_bytes v.
Proof.
  intros vs v H. destruct H as [l s [[I _] _] _ O|l e s [[I _] _] _ O R].
  - split; [apply wf_bytes_app; split|]; [eapply rfc_int_octets; eassumption| |]; apply octets_wf; assumption.
  - split; [apply wf_bytes_app; split|]; [eapply rfc_int_octets; eassumption| |];
      apply octets_wf; try assumption. apply R.
Qed.

Lemma decode_string_small : forall m vs v rest, small_string vs v -> addressable m v ->
  wf_bytes rest -> decode_string m (vs ++ rest) = Ok (v, size vs).
Proof.
  intros m vs v rest H A W. pose proof (small_string_octets _ _ H) as [Wv _].
  destruct H as [l s [I B] F O|l e s [I B] F O R]; apply wf_bytes_app in Wv; destruct Wv as [Wl Ws];
    rewrite <- app_assoc; unfold decode_string;
    rewrite (decode_int_small 7 l _ _ pok7 I) by
      (try (apply wf_bytes_app; split; [|apply wf_bytes_app; split]; assumption);
       change (2 ^ 7 - 1) with 127; lia); cbn [bind].
  - destruct (vget_first _ _ _ (s ++ rest) F) as (b & V & Hb).
    rewrite V; cbn [bind]; rewrite high_bit1 by lia;
    destruct (N.ltb_spec b 128); try lia; cbn [negb].
    rewrite address_at_ok by exact A. cbn [bind].
    change (N.of_nat (length s)) with (size s). rewrite vrange_app by reflexivity.
    cbn [bind]. rewrite size_app. reflexivity.
  - destruct (vget_first _ _ _ (e ++ rest) F) as (b & V & Hb).
    rewrite V; cbn [bind]; rewrite high_bit1 by lia;
    destruct (N.ltb_spec b 128); try lia; cbn [negb].
    change (N.of_nat (length e)) with (size e). rewrite vrange_app by reflexivity. cbn [bind].
    rewrite (huffman_decode_valid s e) by (try exact R; apply octets_wf; exact O). cbn [bind].
    rewrite address_ok by exact A. cbn [bind]. rewrite size_app. reflexivity.
Qed.

(* ---- decode_header on small representations ---- *)

Definition lib_prefix (k : indexing) : hprefix :=
  match k with Incremental => IncrementalIndexing | Without => WithoutIndexing | Never => NeverIndexed end.

Lemma literal_class : forall k l rest, literal_pattern k l ->
  exists b, vget (l ++ rest) 0 = Ok b /\ check_prefix b = Ok (lib_prefix k).
Proof.
  intros k l rest P. destruct k; cbn [literal_pattern] in P;
    destruct (vget_first _ _ _ rest P) as (b & V & H); exists b; (split; [exact V|]);
    rewrite check_prefix_spec by lia; unfold class_of; cbn [lib_prefix];
    repeat (match goal with |- context [?x <=? ?y] => destruct (N.leb_spec x y); try lia end); reflexivity.
Qed.

Lemma decode_index_literal : forall k v,
  decode_index v (lib_prefix k) = decode_int_and_length (literal_prefix k) v.
Proof. intros [] v; reflexivity. Qed.

Lemma literal_prefix_ok : forall k, prefix_ok (literal_prefix k).
Proof. intros []; unfold prefix_ok; cbn; lia. Qed.

Lemma small_bound : forall n x, x < 2 ^ 31 -> x < 2 ^ 31 + (2 ^ n - 1).
Proof. intros. lia. Qed.

Lemma decode_indexed_small : forall m l i rest t, small_int 7 l i -> first_in 128 256 l ->
  wf_bytes rest ->
  decode_header m (l ++ rest) t =
  if i =? 0 then Ok (HEntry Indexed (EHeader ([], [])), size l)
  else match resolve_in lib_static (rfc_table t) i with
       | Some h => Ok (HEntry Indexed (EHeader h), size l) | None => Throw OutOfRange end.
Proof.
  intros m l i rest t [I B] F W. unfold decode_header.
  destruct (vget_first _ _ _ rest F) as (b & V & Hb). rewrite V. cbn [bind].
  rewrite check_prefix_spec by lia. cbn [bind].
  replace (class_of b) with Indexed by (unfold class_of; destruct (N.leb_spec 128 b); [reflexivity|lia]).
  change (hprefix_eqb Indexed SizeUpdate) with false. cbn [decode_index].
  rewrite (decode_int_small 7 l i rest pok7 I (small_bound _ _ B)) by
    (apply wf_bytes_app; split; [eapply rfc_int_octets; apply I|exact W]).
  cbn [bind]. change (hprefix_eqb Indexed Indexed) with true. cbv iota.
  destruct (N.eqb_spec i 0) as [->|NZ]; [reflexivity|].
  destruct (N.ltb_spec 0 i); [|lia]. rewrite indexed_header_spec by exact NZ.
  destruct (resolve_in lib_static (rfc_table t) i); reflexivity.
Qed.

Lemma decode_resize_small : forall m l n rest t, small_int 5 l n -> first_in 32 64 l ->
  wf_bytes rest ->
  decode_header m (l ++ rest) t = Ok (HEntry SizeUpdate (ESize n), size l).
Proof.
  intros m l n rest t [I B] F W. unfold decode_header.
  destruct (vget_first _ _ _ rest F) as (b & V & Hb). rewrite V. cbn [bind].
  rewrite check_prefix_spec by lia. cbn [bind].
  replace (class_of b) with SizeUpdate by
    (unfold class_of; repeat (match goal with |- context [?x <=? ?y] => destruct (N.leb_spec x y); try lia end); reflexivity).
  change (hprefix_eqb SizeUpdate SizeUpdate) with true. cbv iota. unfold decode_max_size.
  assert (P5 : prefix_ok 5) by (unfold prefix_ok; lia).
  rewrite (decode_int_small 5 l n rest P5 I (small_bound _ _ B)) by
    (apply wf_bytes_app; split; [eapply rfc_int_octets; apply I|exact W]).
  reflexivity.
Qed.

Lemma lib_prefix_not_update : forall k, hprefix_eqb (lib_prefix k) SizeUpdate = false.
Proof. intros []; reflexivity. Qed.
Lemma lib_prefix_not_indexed : forall k, hprefix_eqb (lib_prefix k) Indexed = false.
Proof. intros []; reflexivity. Qed.

Lemma decode_literal_indexed_small : forall m k l i vs v rest t,
  small_int (literal_prefix k) l i -> literal_pattern k l -> i <> 0 -> small_string vs v ->
  addressable m v -> wf_bytes rest ->
  match resolve_in lib_static (rfc_table t) i with
  | Some h => fst h <> [] ->
      decode_header m ((l ++ vs) ++ rest) t = Ok (HEntry (lib_prefix k) (EHeader (fst h, v)), size (l ++ vs))
  | None => decode_header m ((l ++ vs) ++ rest) t = Throw OutOfRange
  end.
Proof.
  intros m k l i vs v rest t [I B] P NZ S A W. pose proof (small_string_octets _ _ S) as [Ws _].
  assert (D : decode_header m ((l ++ vs) ++ rest) t =
    match resolve_in lib_static (rfc_table t) i with
    | Some h =>
      let* data := verase_front (l ++ vs ++ rest) (size l) in
      let* (name, data, consumed) :=
        if size (fst h) <=? 0 then
          let* (name, n) := decode_header_name m data in
          let* data' := verase_front data n in
          Ok (name, data', size l + n)
        else Ok (fst h, data, size l)
      in
      let* (value, n) := decode_header_value m data in
      let* _ := verase_front data n in
      Ok (HEntry (lib_prefix k) (EHeader (name, value)), consumed + n)
    | None => Throw OutOfRange end).
  { rewrite <- app_assoc. unfold decode_header.
    destruct (literal_class k l (vs ++ rest) P) as (b & V & C). rewrite V. cbn [bind]. rewrite C. cbn [bind].
    rewrite lib_prefix_not_update, decode_index_literal.
    rewrite (decode_int_small _ l i _ (literal_prefix_ok k) I (small_bound _ _ B)) by
      (apply wf_bytes_app; split; [eapply rfc_int_octets; apply I|apply wf_bytes_app; split; assumption]).
    cbn [bind]. destruct (N.ltb_spec 0 i); [|lia]. rewrite indexed_header_spec by exact NZ.
    destruct (resolve_in lib_static (rfc_table t) i); [|reflexivity].
    cbn [bind]. rewrite lib_prefix_not_indexed. reflexivity. }
  destruct (resolve_in lib_static (rfc_table t) i) as [[nm vv]|]; [|exact D].
  intros NE. rewrite D. cbn [fst] in NE |- *. rewrite verase_front_app by reflexivity. cbn [bind].
  destruct nm as [|x nm]; [contradiction|]. rewrite size_cons.
  destruct (N.leb_spec (size nm + 1) 0); [lia|]. cbn [bind]. unfold decode_header_value.
  rewrite (decode_string_small m vs v rest S A W). cbn [bind].
  rewrite verase_front_app by reflexivity. cbn [bind]. rewrite size_app. reflexivity.
Qed.

Lemma decode_literal_new_small : forall m k l ns n vs v rest t,
  small_int (literal_prefix k) l 0 -> literal_pattern k l -> small_string ns n -> small_string vs v ->
  addressable m n -> addressable m v -> wf_bytes rest ->
  decode_header m ((l ++ ns ++ vs) ++ rest) t
    = Ok (HEntry (lib_prefix k) (EHeader (n, v)), size (l ++ ns ++ vs)).
Proof.
  intros m k l ns n vs v rest t [I B] P S1 S2 A1 A2 W.
  pose proof (small_string_octets _ _ S1) as [W1 _]. pose proof (small_string_octets _ _ S2) as [W2 _].
  rewrite <- !app_assoc. unfold decode_header.
  destruct (literal_class k l (ns ++ vs ++ rest) P) as (b & V & C). rewrite V. cbn [bind]. rewrite C. cbn [bind].
  rewrite lib_prefix_not_update, decode_index_literal.
  rewrite (decode_int_small _ l 0 _ (literal_prefix_ok k) I (small_bound _ _ B)) by
    (apply wf_bytes_app; split; [eapply rfc_int_octets; apply I|
       apply wf_bytes_app; split; [assumption|apply wf_bytes_app; split; assumption]]).
  cbn [bind]. change (0 <? 0) with false. cbn [bind]. rewrite lib_prefix_not_indexed.
  rewrite verase_front_app by reflexivity. cbn [bind fst]. change (size (@nil N) <=? 0) with true. cbv iota.
  unfold decode_header_name, decode_header_value.
  rewrite (decode_string_small m ns n (vs ++ rest) S1 A1) by (apply wf_bytes_app; split; assumption).
  cbn [bind]. rewrite verase_front_app by reflexivity. cbn [bind].
  rewrite (decode_string_small m vs v rest S2 A2 W). cbn [bind].
  rewrite verase_front_app by reflexivity. cbn [bind]. rewrite !size_app. rewrite N.add_assoc. reflexivity.
Qed.

(* ---- encoder ---- *)

Lemma encode_string_spec : forall s mode, wf_bytes s ->
  exists out, encode_string s mode = Ok out /\ string_with rfc_int_shortest out s /\ size s * 0 <= size out.
Proof.
  intros s mode W. unfold encode_string. destruct mode; cbn [mode_val].
  - cbn [bind]. destruct (or_prefix 7 (size s) 0 pok7) as (l & E & S & F & _); [vm_compute; discriminate|].
    change (0 * 2 ^ 7) with 0 in *. change ((0 + 1) * 2 ^ 7) with 128 in F.
    rewrite E. cbn [bind]. eexists. split; [reflexivity|]. split; [|lia].
    apply string_plain; [exact S|exact F|apply wf_octets; exact W].
  - destruct (huffman_roundtrip s W) as (e & E & We & R & _). rewrite E. cbn [bind].
    destruct (or_prefix 7 (size e) 1 pok7) as (l & E' & S & F & _); [vm_compute; discriminate|].
    change (1 * 2 ^ 7) with 128 in *. change ((1 + 1) * 2 ^ 7) with 256 in F.
    rewrite E'. cbn [bind]. eexists. split; [reflexivity|]. split; [|lia].
    apply string_huffman; [exact S|exact F|apply wf_octets; exact W|exact R].
Qed.

Lemma find_index_some : forall es h i, find_index es h = Some i ->
  nth_error es (N.to_nat i) = Some h.
Proof.
  induction es as [|e es IH]; intros h i H; cbn [find_index] in H; [discriminate|].
  destruct (header_eqb e h) eqn:E.
  - apply header_eqb_eq in E. inversion H; subst. reflexivity.
  - destruct (find_index es h) as [j|] eqn:F; [|discriminate]. inversion H; subst.
    replace (N.to_nat (j + 1)) with (S (N.to_nat j)) by lia. cbn [nth_error]. apply IH. exact F.
Qed.

Lemma find_index_none : forall es h, find_index es h = None -> ~ In h es.
Proof.
  induction es as [|e es IH]; intros h H; cbn [find_index] in H; [intros []|].
  destruct (header_eqb e h) eqn:E; [discriminate|].
  destruct (find_index es h) as [j|] eqn:F; [discriminate|]. intros [->|I].
  - rewrite header_eqb_refl in E. discriminate.
  - exact (IH h F I).
Qed.

(* What the encoder chooses for a header. *)
Definition chosen (k : indexing) (h : header) (t : dyn_table) : repr :=
  match
    (match reverse_static_find h with
     | Some i => if 0 <? size (snd h) then Some i else None
     | None => None
     end)
  with
  | Some i => RIndexed i
  | None =>
      match find_index (dt_entries t) h with
      | Some i => RIndexed (62 + i)
      | None =>
          match reverse_static_find (fst h, []) with
          | Some i => RLiteral k (NameIndex i) (snd h)
          | None => RLiteral k (NameLiteral (fst h)) (snd h)
          end
      end
  end.

Lemma encode_index_indexed : forall i, exists l,
  encode_index i Indexed = Ok l /\ rfc_int_shortest 7 l i /\ first_in 128 256 l.
Proof.
  intros i. destruct (or_prefix 7 i 1 pok7) as (l & E & S & F & _); [vm_compute; discriminate|].
  exists l. change (1 * 2 ^ 7) with 128 in *. change ((1 + 1) * 2 ^ 7) with 256 in F. auto.
Qed.

Lemma encode_index_literal : forall k i, exists l,
  encode_index i (lib_prefix k) = Ok l /\ rfc_int_shortest (literal_prefix k) l i /\ literal_pattern k l.
Proof.
  intros k i.
  assert (X : exists hi, prefix_val (lib_prefix k) = hi * 2 ^ literal_prefix k /\
     (hi + 1) * 2 ^ literal_prefix k <= 256 /\
     forall l, first_in (hi * 2 ^ literal_prefix k) ((hi + 1) * 2 ^ literal_prefix k) l -> literal_pattern k l).
  { destruct k; [exists 1|exists 0|exists 1]; (split; [reflexivity|split; [vm_compute; discriminate|]]); intros l H; exact H. }
  destruct X as (hi & V & L & P).
  destruct (or_prefix (literal_prefix k) i hi (literal_prefix_ok k) L) as (l & E & S & F & _).
  exists l. split; [|split; [exact S|apply P; exact F]].
  rewrite <- E, <- V. destruct k; reflexivity.
Qed.

Lemma chosen_index_pos : forall h i, reverse_static_find h = Some i -> 1 <= i <= 61.
Proof. intros h i H. apply static_inverse in H. apply static_indices. eauto. Qed.

Lemma encode_header_spec : forall k h mode t, wf_bytes (fst h) -> wf_bytes (snd h) ->
  exists out, encode_header (HEntry (lib_prefix k) (EHeader h)) mode t = Ok out /\
    minimal_repr out (chosen k h t).
Proof.
  intros k h mode t Wn Wv. unfold encode_header. cbn [e_prefix get_header e_content bind].
  rewrite lib_prefix_not_update. unfold chosen. rewrite static_size. cbn [bind].
  destruct (match reverse_static_find h with
     | Some i => if 0 <? size (snd h) then Some i else None | None => None end) as [i|].
  - destruct (encode_index_indexed i) as (l & E & S & F). exists l. split; [exact E|].
    apply repr_indexed; assumption.
  - destruct (find_index (dt_entries t) h) as [i|].
    + destruct (encode_index_indexed (62 + i)) as (l & E & S & F). exists l. split; [exact E|].
      apply repr_indexed; assumption.
    + destruct (encode_string_spec (snd h) mode Wv) as (vs & Ev & Sv & _).
      destruct (encode_string_spec (fst h) mode Wn) as (ns & En & Sn & _).
      unfold encode_header_name, encode_header_value.
      destruct (reverse_static_find (fst h, [])) as [i|] eqn:R.
      * destruct (encode_index_literal k i) as (l & E & S & P). rewrite E. cbn [bind]. rewrite Ev. cbn [bind].
        eexists. split; [reflexivity|]. apply repr_literal_indexed_name; try assumption.
        apply chosen_index_pos in R. lia.
      * destruct (encode_index_literal k 0) as (l & E & S & P). rewrite E. cbn [bind]. rewrite En. cbn [bind].
        rewrite Ev. cbn [bind]. eexists. split; [reflexivity|]. apply repr_literal_new_name; assumption.
Qed.

(* Bounds on the integers of a representation from its total length. *)
Definition index_of (r : repr) : N :=
  match r with RIndexed i => i | RLiteral _ (NameIndex i) _ => i | RLiteral _ (NameLiteral _) _ => 0 | RResize n => n end.

Lemma string_small : forall vs v, string_with rfc_int_shortest vs v -> size vs < 2 ^ 31 -> small_string vs v.
Proof.
  intros vs v H L. destruct H as [l s S F O|l e s S F O R]; rewrite size_app in L.
  - apply string_plain; try assumption. split; [exact S|]. unfold size in L. lia.
  - apply string_huffman; try assumption. split; [exact S|]. unfold size in L. lia.
Qed.

Lemma minimal_small : forall out r, minimal_repr out r -> size out < 2 ^ 31 -> index_of r < 2 ^ 31 ->
  small_repr out r.
Proof.
  intros out r H L I. destruct H; cbn [index_of] in I; rewrite ?size_app in L.
  - apply repr_indexed; [split|]; assumption.
  - apply repr_literal_indexed_name; [split; assumption|assumption|assumption|].
    apply string_small; [assumption|lia].
  - apply repr_literal_new_name; [split; assumption|assumption|apply string_small; [assumption|lia]|
      apply string_small; [assumption|lia]].
  - apply repr_resize; [split|]; assumption.
Qed.

Lemma chosen_index_bound : forall k h t, size (dt_entries t) < 2 ^ 30 -> index_of (chosen k h t) < 2 ^ 31.
Proof.
  intros k h t L. unfold chosen.
  assert (SB : forall h' i, reverse_static_find h' = Some i -> i < 2 ^ 31).
  { intros h' i R. apply chosen_index_pos in R. apply N.le_lt_trans with 61; [lia|reflexivity]. }
  destruct (reverse_static_find h) as [i|] eqn:R; [destruct (0 <? size (snd h)); [cbn [index_of]; eauto|]|].
  all: destruct (find_index (dt_entries t) h) as [j|] eqn:F;
    [ apply find_index_some in F;
      assert (N.to_nat j < length (dt_entries t))%nat as B by (apply nth_error_Some; congruence);
      unfold size in L; cbn [index_of]; change (2 ^ 31) with (2 ^ 30 + 2 ^ 30);
      assert (62 < 2 ^ 30) by reflexivity; lia | ].
  all: destruct (reverse_static_find (fst h, [])) as [j|] eqn:R2; cbn [index_of]; [eauto|reflexivity].
Qed.

Lemma string_mono : forall (P Q : N -> list N -> N -> Prop), (forall n l v, P n l v -> Q n l v) ->
  forall l s, string_with P l s -> string_with Q l s.
Proof. intros P Q I l s H. destruct H; [apply string_plain|apply string_huffman]; auto. Qed.

Lemma repr_mono : forall (P Q : N -> list N -> N -> Prop), (forall n l v, P n l v -> Q n l v) ->
  forall l r, repr_with P l r -> repr_with Q l r.
Proof.
  intros P Q I l r H. pose proof (string_mono P Q I).
  destruct H; [apply repr_indexed|apply repr_literal_indexed_name|apply repr_literal_new_name|apply repr_resize]; auto.
Qed.

Lemma minimal_rfc : forall l r, minimal_repr l r -> rfc_repr l r.
Proof. apply repr_mono. intros n l v H. apply H. Qed.
Lemma small_rfc : forall l r, small_repr l r -> rfc_repr l r.
Proof. apply repr_mono. intros n l v H. apply H. Qed.
