(* Property C87: which octets are accepted as a header field, and how they are
   read. *)
From Coq Require Import String.
From Coq Require Import ZArith NArith List Bool Lia ZifyBool ZifyNat ZifyN.
From Verif Require Import Base Arith Util IntRep Huffman StaticTable HeaderType DynTable HeaderEnc HeaderDec
  FrameHeader Frames SpecBits SpecHuffman SpecInt SpecHpack SpecExec
  IntRepProofs IntSpecProofs UtilProofs HuffmanProofs HuffmanDecProofs DynTableProofs StaticProofs
  HeaderProofs HeaderProofs2 PropHuffman PropHeader PropFrame SpecUnique SpecExecProofs.
Import ListNotations.
Local Open Scope string_scope.
Local Open Scope list_scope.
Local Open Scope N_scope.
Ltac Zify.zify_post_hook ::= Z.div_mod_to_equations.

(* ---- how the library reads, in terms of the specification ---- *)

(* The static table it uses is the RFC's with one name misspelt. *)
Definition used_static : list field :=
  firstn 19 rfc_static ++ [(octets "accept-control-allow-origin", [])] ++ skipn 20 rfc_static.

(* An integer with a w-bit prefix at the start of raw: any representation of at
   most 6 octets; c, the number of octets skipped, is that of the shortest
   representation of the same value. *)
Definition int_read (w : N) (raw : list N) (v c : N) : Prop :=
  exists l rest s, raw = l ++ rest /\ rfc_int w l v /\ (length l <= 6)%nat /\ v < 2 ^ 31 + (2 ^ w - 1) /\
    rfc_int_shortest w s v /\ c = N.of_nat (length s).

(* The octets from position k on, len of them. *)
Definition part (k len : N) (raw : list N) : list N := firstn (N.to_nat len) (skipn (N.to_nat k) raw).

(* A string at the start of raw, and the octets it takes.  The last premise of
   each rule is the check made by a build with checked accesses. *)
Inductive text_read (m : ub_mode) (raw : list N) : list N -> N -> Prop :=
| text_plain : forall len k, int_read 7 raw len k -> first_in 0 128 raw -> k + len <= N.of_nat (length raw) ->
    (m = Strict -> k < N.of_nat (length raw)) ->
    text_read m raw (part k len raw) (k + len)
| text_huffman : forall len k syms pad, int_read 7 raw len k -> first_in 128 256 raw -> k + len <= N.of_nat (length raw) ->
    huffman_splits (part k len raw) syms pad -> (m = Strict -> syms <> []) ->
    text_read m raw (map (fun s => s mod 256) syms) (k + len).

Inductive field_read (m : ub_mode) (t : table) (raw : list N) : hentry -> N -> Prop :=
| read_indexed : forall i h c, int_read 7 raw i c -> first_in 128 256 raw -> resolve_in used_static t i = Some h ->
    field_read m t raw (HEntry Indexed (EHeader h)) c
| read_zero : forall c, int_read 7 raw 0 c -> first_in 128 256 raw ->
    field_read m t raw (HEntry Indexed (EHeader ([], []))) c
| read_size : forall n c, int_read 5 raw n c -> first_in 32 64 raw ->
    field_read m t raw (HEntry SizeUpdate (ESize n)) c
| read_named : forall k i h c v d, int_read (literal_prefix k) raw i c -> literal_pattern k raw ->
    resolve_in used_static t i = Some h -> fst h <> [] -> text_read m (skipn (N.to_nat c) raw) v d ->
    field_read m t raw (HEntry (lib_prefix k) (EHeader (fst h, v))) (c + d)
| read_new : forall k i c n d v e, int_read (literal_prefix k) raw i c -> literal_pattern k raw ->
    (i = 0 \/ exists h, resolve_in used_static t i = Some h /\ fst h = []) ->
    text_read m (skipn (N.to_nat c) raw) n d -> text_read m (skipn (N.to_nat (c + d)) raw) v e ->
    field_read m t raw (HEntry (lib_prefix k) (EHeader (n, v))) (c + d + e).

(* ---- proofs ---- *)

Lemma used_is_lib : used_static = lib_static.
Proof. vm_compute. reflexivity. Qed.

Lemma shortest_encoding : forall w v, prefix_ok w -> rfc_int_shortest w (encode_integer_value w v) v.
Proof.
  intros w v P. split; [apply encode_integer_rfc; exact P|]. intros l' H. apply encode_integer_shortest; assumption.
Qed.

Lemma int_read_iff : forall w raw v c, prefix_ok w -> wf_bytes raw ->
  (decode_int_and_length w raw = Ok (v, c) <-> int_read w raw v c).
Proof.
  intros w raw v c P W. unfold decode_int_and_length. split.
  - intros E. apply bind_ok in E. destruct E as (x & D & E). apply (f_equal (fun r => match r with Ok p => p | _ => (0, 0) end)) in E.
    cbn in E. injection E as -> <-. apply decode_integer_char in D; [|exact P|exact W]. destruct D as (l & rest & -> & I & L & B).
    exists l, rest, (encode_integer_value w v). split; [reflexivity|]. split; [exact I|]. split; [unfold size in L; lia|].
    split; [exact B|]. split; [apply shortest_encoding; exact P|reflexivity].
  - intros (l & rest & s & -> & I & L & B & S & ->).
    assert (D : decode_integer_value w (l ++ rest) = Ok v).
    { apply decode_integer_char; [exact P|exact W|]. exists l, rest. split; [reflexivity|]. split; [exact I|]. split; [unfold size; lia|exact B]. }
    rewrite D. cbn [bind]. rewrite <- (shortest_size w s v P S). reflexivity.
Qed.

Lemma int_read_bounds : forall w raw v c, prefix_ok w -> wf_bytes raw -> int_read w raw v c -> 1 <= c <= size raw.
Proof. intros w raw v c P W I. apply int_read_iff in I; [|exact P|exact W]. exact (int_len_bounds w raw v c P W I). Qed.

Lemma vget_head : forall b raw, vget (b :: raw) 0 = Ok b.
Proof. intros. unfold vget. rewrite size_cons. destruct (N.ltb_spec 0 (size raw + 1)); [reflexivity|lia]. Qed.

Lemma address_iff : forall m v i, address_of m v i = Ok tt <-> (m = Strict -> i < size v).
Proof.
  intros [] v i; cbn [address_of]; [|split; [discriminate|reflexivity]]. destruct (N.ltb_spec i (size v)); split; intros X; try reflexivity; try discriminate.
  - intros _. assumption.
  - specialize (X eq_refl). lia.
Qed.

Lemma address_unit : forall m v i u, address_of m v i = Ok u -> u = tt.
Proof. intros m v i [] _. reflexivity. Qed.

Lemma part_wf : forall k len raw, wf_bytes raw -> wf_bytes (part k len raw).
Proof. intros. apply wf_bytes_firstn, wf_bytes_skipn. assumption. Qed.

Lemma vrange_part : forall raw k len, k + len <= size raw -> vrange raw k len = Ok (part k len raw).
Proof. intros raw k len L. unfold vrange. destruct (N.leb_spec (k + len) (size raw)); [reflexivity|lia]. Qed.

Lemma Ok_pair : forall A B (a a' : A) (b b' : B), Ok (a, b) = Ok (a', b') -> a = a' /\ b = b'.
Proof. intros A B a a' b b' E. injection E as -> ->. auto. Qed.

Lemma text_read_iff : forall m raw s c, wf_bytes raw -> (decode_string m raw = Ok (s, c) <-> text_read m raw s c).
Proof.
  intros m raw s c W. unfold decode_string. split.
  - intros E. apply bind_ok in E. destruct E as ([len k] & I & E). apply int_read_iff in I; [|exact pok7|exact W].
    destruct raw as [|b raw]; [apply int_read_bounds in I; [cbn in I; lia|exact pok7|exact W]|].
    rewrite vget_head in E. cbn [bind] in E. assert (B : b < 256) by (inversion W; assumption). rewrite high_bit1 in E by exact B.
    apply bind_ok in E. destruct E as (x & X & E). apply Ok_pair in E. destruct E as [-> <-].
    destruct (N.ltb_spec b 128) as [B1|B1]; cbn [negb] in X.
    + apply bind_ok in X. destruct X as (u & A & X). pose proof (address_unit _ _ _ _ A). subst u. rewrite address_iff in A.
      destruct (vrange (b :: raw) k len) as [y| | |] eqn:R; try discriminate X. apply Ok_inj in X. subst y.
      apply vrange_ok in R. destruct R as [L ->]. apply text_plain; [exact I|exists b, raw; split; [reflexivity|lia]|exact L|exact A].
    + apply bind_ok in X. destruct X as (enc & R & X). apply vrange_ok in R. destruct R as [L ->].
      change (firstn (N.to_nat len) (skipn (N.to_nat k) (b :: raw))) with (part k len (b :: raw)) in X.
      apply bind_ok in X. destruct X as (dec & H & X). apply bind_ok in X. destruct X as (u & A & X). apply Ok_inj in X. subst dec.
      pose proof (address_unit _ _ _ _ A). subst u. rewrite address_iff in A.
      destruct (huffman_decode_spec _ (part_wf k len _ W)) as [(syms & pad & PS & D)|(_ & D)]; rewrite D in H; [|discriminate H].
      apply Ok_inj in H. subst s. apply splits_parses in PS.
      change (map u8 syms) with (map (fun s => s mod 256) syms) in *.
      apply text_huffman with (pad := pad); [exact I|exists b, raw; split; [reflexivity|lia]|exact L|exact PS|].
      intros M N. subst syms. specialize (A M). cbn in A. lia.
  - intros T. destruct T as [len k I (b & tl & -> & B) L A|len k syms pad I (b & tl & -> & B) L PS A].
    + apply int_read_iff in I; [|exact pok7|exact W]. rewrite I. cbn [bind]. rewrite vget_head. cbn [bind].
      rewrite high_bit1 by lia. destruct (N.ltb_spec b 128); [|lia]. cbn [negb].
      rewrite (proj2 (address_iff m (b :: tl) k) A). cbn [bind]. rewrite vrange_part by exact L. reflexivity.
    + apply int_read_iff in I; [|exact pok7|exact W]. rewrite I. cbn [bind]. rewrite vget_head. cbn [bind].
      rewrite high_bit1 by lia. destruct (N.ltb_spec b 128); [lia|]. cbn [negb]. rewrite vrange_part by exact L. cbn [bind].
      destruct (C08_huffman_decoder_outcome (part k len (b :: tl)) (wf_octets _ (part_wf k len _ W))) as (D & _).
      rewrite (D syms pad PS). cbn [bind].
      assert (A' : m = Strict -> 0 < size (map (fun s => s mod 256) syms)).
      { intros M. specialize (A M). destruct syms; [contradiction|]. cbn [map]. rewrite size_cons. lia. }
      rewrite (proj2 (address_iff m _ 0) A'). reflexivity.
Qed.

Lemma text_read_bounds : forall m raw s c, wf_bytes raw -> text_read m raw s c -> 1 <= c <= size raw.
Proof. intros m raw s c W T. apply text_read_iff in T; [|exact W]. apply (string_bounds m raw s c W T). Qed.

Lemma skipn_wf : forall k raw, wf_bytes raw -> wf_bytes (skipn k raw).
Proof. intros. apply wf_bytes_skipn. assumption. Qed.

Lemma erase_is_skipn : forall v n v', verase_front v n = Ok v' -> v' = skipn (N.to_nat n) v /\ n <= size v.
Proof. intros v n v' E. unfold verase_front in E. destruct (N.leb_spec n (size v)); [|discriminate E]. apply Ok_inj in E. auto. Qed.

Lemma erase_le : forall v n, n <= size v -> verase_front v n = Ok (skipn (N.to_nat n) v).
Proof. intros v n L. unfold verase_front. destruct (N.leb_spec n (size v)); [reflexivity|lia]. Qed.

Lemma skipn_sum : forall (l : list N) a b, skipn (N.to_nat b) (skipn (N.to_nat a) l) = skipn (N.to_nat (a + b)) l.
Proof.
  intros l a b. rewrite N2Nat.inj_add. generalize (N.to_nat a), (N.to_nat b). clear. intros i. revert l.
  induction i as [|i IH]; intros l j; [reflexivity|]. destruct l as [|x l]; [cbn; apply skipn_nil|]. cbn [skipn Nat.add]. apply IH.
Qed.

(* The first octet decides. *)
Lemma class_cases : forall b tl, b < 256 ->
  (class_of b = Indexed /\ first_in 128 256 (b :: tl)) \/ (class_of b = SizeUpdate /\ first_in 32 64 (b :: tl)) \/
  (exists k, class_of b = lib_prefix k /\ literal_pattern k (b :: tl)).
Proof.
  intros b tl B. unfold class_of.
  destruct (N.leb_spec 128 b). { left. split; [reflexivity|]. exists b, tl. split; [reflexivity|lia]. }
  destruct (N.leb_spec 64 b). { right; right. exists Incremental. split; [reflexivity|]. exists b, tl. split; [reflexivity|lia]. }
  destruct (N.leb_spec 32 b). { right; left. split; [reflexivity|]. exists b, tl. split; [reflexivity|lia]. }
  destruct (N.leb_spec 16 b); right; right; [exists Never|exists Without]; (split; [reflexivity|]); exists b, tl; (split; [reflexivity|lia]).
Qed.

Lemma resolve_used : forall i t h, i <> 0 -> (make_indexed_header i t = Ok h <-> resolve_in used_static (rfc_table t) i = Some h).
Proof.
  intros i t h NZ. rewrite indexed_header_spec by exact NZ. rewrite used_is_lib. destruct (resolve_in lib_static (rfc_table t) i); split; intros E;
    try discriminate E; [apply Ok_inj in E; subst; reflexivity|injection E as ->; reflexivity].
Qed.

Lemma resolve_zero : forall st t, resolve_in st t 0 = None.
Proof. reflexivity. Qed.

(* ---------------------------------------------------------------- C87 *)

(* Exactly these octets are accepted, and this is what they are read as. *)
Theorem C87_accepted_exactly : forall m raw t e n, is_octets raw ->
  (decode_header m raw t = Ok (e, n) <-> field_read m (Table (dt_max t) (dt_entries t)) raw e n).
Proof.
  intros m raw t e n O. apply octets_wf in O. change (Table (dt_max t) (dt_entries t)) with (rfc_table t).
  unfold decode_header. split.
  - intros E. destruct raw as [|b raw]; [discriminate E|]. rewrite vget_head in E. cbn [bind] in E.
    assert (B : b < 256) by (inversion O; assumption). rewrite check_prefix_spec in E by exact B. cbn [bind] in E.
    destruct (class_cases b raw B) as [(C & F)|[(C & F)|(k & C & F)]]; rewrite C in E.
    + change (hprefix_eqb Indexed SizeUpdate) with false in E. change (hprefix_eqb Indexed Indexed) with true in E. cbv iota in E. cbn [decode_index] in E.
      apply bind_ok in E. destruct E as ([i c] & I & E). apply int_read_iff in I; [|exact pok7|exact O].
      apply bind_ok in E. destruct E as (h & H & E). apply Ok_pair in E. destruct E as [<- <-].
      destruct (N.ltb_spec 0 i) as [P|P].
      * apply read_indexed with (i := i); [exact I|exact F|]. apply resolve_used; [lia|exact H].
      * apply Ok_inj in H. subst h. replace i with 0 in I by lia. apply read_zero; assumption.
    + change (hprefix_eqb SizeUpdate SizeUpdate) with true in E. cbv iota in E. unfold decode_max_size in E.
      apply bind_ok in E. destruct E as ([i c] & I & E). apply int_read_iff in I; [|unfold prefix_ok; lia|exact O].
      apply Ok_pair in E. destruct E as [<- <-]. apply read_size; assumption.
    + rewrite lib_prefix_not_update, lib_prefix_not_indexed, decode_index_literal in E.
      apply bind_ok in E. destruct E as ([i c] & I & E). apply int_read_iff in I; [|apply literal_prefix_ok|exact O].
      apply bind_ok in E. destruct E as (h & H & E). apply bind_ok in E. destruct E as (data & D & E).
      apply erase_is_skipn in D. destruct D as [-> LC].
      apply bind_ok in E. destruct E as ([[nm data2] used] & X & E). apply bind_ok in E. destruct E as ([v d] & V & E).
      apply bind_ok in E. destruct E as (u & _ & E). apply Ok_pair in E. destruct E as [<- <-].
      destruct (N.leb_spec (size (fst h)) 0) as [Z|Z].
      * apply bind_ok in X. destruct X as ([nm' d'] & N & X). apply text_read_iff in N; [|apply skipn_wf; exact O].
        apply bind_ok in X. destruct X as (data' & D & X). apply erase_is_skipn in D. destruct D as [-> LD].
        apply Ok_pair in X. destruct X as [X <-]. injection X as <- <-. rewrite skipn_sum in V.
        apply text_read_iff in V; [|apply skipn_wf; exact O].
        apply read_new with (i := i); [exact I|exact F| |exact N|exact V].
        destruct (N.ltb_spec 0 i) as [P|P]; [right; exists h; split; [apply resolve_used; [lia|exact H]|apply size0; apply N.eqb_eq; lia]|left; lia].
      * apply Ok_pair in X. destruct X as [X <-]. injection X as <- <-. apply text_read_iff in V; [|apply skipn_wf; exact O].
        destruct (N.ltb_spec 0 i) as [P|P]; [|apply Ok_inj in H; subst h; cbn in Z; lia].
        apply read_named with (i := i); [exact I|exact F|apply resolve_used; [lia|exact H]| |exact V].
        intros Q. rewrite Q in Z. cbn in Z. lia.
  - intros R.
    assert (H0 : exists b tl, raw = b :: tl /\ b < 256).
    { destruct R as [i h c I F H|c I F|n c I F|k i h c v d I F H NE V|k i c nm d v e I F H N V].
      4, 5: destruct k; cbn [literal_pattern] in F. all: destruct F as (b & tl & -> & BB); exists b, tl; split; [reflexivity|lia]. }
    destruct H0 as (b & tl & -> & B). rewrite vget_head. cbn [bind]. rewrite check_prefix_spec by exact B. cbn [bind].
    destruct R as [i h c I F H|c I F|n c I F|k i h c v d I F H NE V|k i c nm d v e I F H N V].
    + destruct F as (b' & tl' & Q & BB). injection Q as <- <-.
      replace (class_of b) with Indexed by (unfold class_of; destruct (N.leb_spec 128 b); [reflexivity|lia]).
      change (hprefix_eqb Indexed SizeUpdate) with false. change (hprefix_eqb Indexed Indexed) with true. cbv iota. cbn [decode_index].
      apply int_read_iff in I; [|exact pok7|exact O]. rewrite I. cbn [bind].
      assert (NZ : i <> 0) by (intros ->; discriminate H). destruct (N.ltb_spec 0 i); [|lia].
      apply resolve_used in H; [|exact NZ]. rewrite H. reflexivity.
    + destruct F as (b' & tl' & Q & BB). injection Q as <- <-.
      replace (class_of b) with Indexed by (unfold class_of; destruct (N.leb_spec 128 b); [reflexivity|lia]).
      change (hprefix_eqb Indexed SizeUpdate) with false. change (hprefix_eqb Indexed Indexed) with true. cbv iota. cbn [decode_index].
      apply int_read_iff in I; [|exact pok7|exact O]. rewrite I. reflexivity.
    + destruct F as (b' & tl' & Q & BB). injection Q as <- <-.
      replace (class_of b) with SizeUpdate by
        (unfold class_of; repeat (match goal with |- context [?x <=? ?y] => destruct (N.leb_spec x y); try lia end); reflexivity).
      change (hprefix_eqb SizeUpdate SizeUpdate) with true. cbv iota. unfold decode_max_size.
      apply int_read_iff in I; [|unfold prefix_ok; lia|exact O]. rewrite I. reflexivity.
    + destruct (literal_class k (b :: tl) [] F) as (b' & V0 & CP). rewrite app_nil_r, vget_head in V0. apply Ok_inj in V0. subst b'.
      rewrite check_prefix_spec in CP by exact B. apply Ok_inj in CP. rewrite CP.
      rewrite lib_prefix_not_update, lib_prefix_not_indexed, decode_index_literal.
      pose proof (int_read_bounds _ _ _ _ (literal_prefix_ok k) O I) as BC.
      apply int_read_iff in I; [|apply literal_prefix_ok|exact O]. rewrite I. cbn [bind].
      assert (NZ : i <> 0) by (intros ->; discriminate H). destruct (N.ltb_spec 0 i); [|lia].
      apply resolve_used in H; [|exact NZ]. rewrite H. cbn [bind]. rewrite erase_le by lia. cbn [bind].
      destruct (N.leb_spec (size (fst h)) 0) as [Z|Z].
      { exfalso. apply NE. apply size0. apply N.eqb_eq. lia. }
      cbn [bind]. pose proof (text_read_bounds _ _ _ _ (skipn_wf _ _ O) V) as BD.
      apply text_read_iff in V; [|apply skipn_wf; exact O]. unfold decode_header_value. rewrite V. cbn [bind]. rewrite erase_le by lia. reflexivity.
    + destruct (literal_class k (b :: tl) [] F) as (b' & V0 & CP). rewrite app_nil_r, vget_head in V0. apply Ok_inj in V0. subst b'.
      rewrite check_prefix_spec in CP by exact B. apply Ok_inj in CP. rewrite CP.
      rewrite lib_prefix_not_update, lib_prefix_not_indexed, decode_index_literal.
      pose proof (int_read_bounds _ _ _ _ (literal_prefix_ok k) O I) as BC.
      apply int_read_iff in I; [|apply literal_prefix_ok|exact O]. rewrite I. cbn [bind].
      assert (X : exists h, (if 0 <? i then make_indexed_header i t else Ok ([], [])) = Ok h /\ fst h = []).
      { destruct H as [->|(h & H & E)]; [exists ([], []); auto|]. exists h. assert (NZ : i <> 0) by (intros ->; discriminate H).
        destruct (N.ltb_spec 0 i); [|lia]. split; [apply resolve_used; assumption|exact E]. }
      destruct X as (h & X & E). rewrite X. cbn [bind]. rewrite erase_le by lia. cbn [bind]. rewrite E. cbn [size length N.of_nat N.leb N.compare].
      pose proof (text_read_bounds _ _ _ _ (skipn_wf _ _ O) N) as BD. pose proof (text_read_bounds _ _ _ _ (skipn_wf _ _ O) V) as BE.
      apply text_read_iff in N; [|apply skipn_wf; exact O]. apply text_read_iff in V; [|apply skipn_wf; exact O].
      unfold decode_header_name, decode_header_value. rewrite N. cbn [bind]. rewrite erase_le by lia. cbn [bind]. rewrite skipn_sum, V. cbn [bind].
      rewrite erase_le by lia. reflexivity.
Qed.

(* ---- departures from the RFC ---- *)

(* The integer at the start of raw is not in its shortest form. *)
Definition overlong (w : N) (raw : list N) : Prop :=
  exists l rest v, raw = l ++ rest /\ rfc_int w l v /\ ~ rfc_int_shortest w l v.

(* The string at the start of raw has such a length, or is the Huffman coding of
   nothing. *)
Definition bad_text (raw : list N) : Prop :=
  overlong 7 raw \/
  (first_in 128 256 raw /\ exists len k, int_read 7 raw len k /\ forall s, is_octets s -> ~ rfc_huffman_encodes s (part k len raw)).

(* A field whose first octet says that its first integer has a w-bit prefix. *)
Definition first_width (raw : list N) (w : N) : Prop :=
  (first_in 128 256 raw /\ w = 7) \/ (first_in 32 64 raw /\ w = 5) \/ (exists k, literal_pattern k raw /\ w = literal_prefix k).

Inductive departs (m : ub_mode) (t : table) (raw : list N) : Prop :=
| departs_integer : forall w, first_width raw w -> overlong w raw -> departs m t raw
| departs_zero : forall c, first_in 128 256 raw -> int_read 7 raw 0 c -> departs m t raw
| departs_misspelt : forall w c, first_width raw w -> w <> 5 -> int_read w raw 20 c -> departs m t raw
| departs_nameless : forall k i c h, literal_pattern k raw -> int_read (literal_prefix k) raw i c ->
    resolve t i = Some h -> fst h = [] -> departs m t raw
| departs_text : forall k i c, literal_pattern k raw -> int_read (literal_prefix k) raw i c ->
    bad_text (skipn (N.to_nat c) raw) -> departs m t raw
| departs_value : forall k c n d, literal_pattern k raw -> int_read (literal_prefix k) raw 0 c ->
    text_read m (skipn (N.to_nat c) raw) n d -> bad_text (skipn (N.to_nat (c + d)) raw) -> departs m t raw.

(* What RFC 7541 says about a field at the start of raw. *)
Definition rfc_says (t : table) (raw : list N) (e : hentry) (n : N) : Prop :=
  exists p rest r limit o t', raw = p ++ rest /\ n = N.of_nat (length p) /\ rfc_repr p r /\
    step limit t r = Some (o, t') /\ e = reported r o.

Lemma int_read_shortest : forall w raw v c, prefix_ok w -> ~ overlong w raw -> int_read w raw v c ->
  exists l rest, raw = l ++ rest /\ rfc_int w l v /\ c = size l.
Proof.
  intros w raw v c P NO (l & rest & s & E & I & L & B & S & ->). exists l, rest. split; [exact E|]. split; [exact I|].
  destruct (N.eq_dec (size (encode_integer_value w v)) (size l)) as [Q|Q].
  - rewrite <- Q. rewrite <- (shortest_size w s v P S). reflexivity.
  - exfalso. apply NO. exists l, rest, v. split; [exact E|]. split; [exact I|]. intros SH. apply Q. symmetry. apply shortest_size; assumption.
Qed.

Lemma splits_lengths : forall l rest : list N, skipn (N.to_nat (size l)) (l ++ rest) = rest.
Proof. intros l rest. unfold size. rewrite Nat2N.id, skipn_app, skipn_all, Nat.sub_diag. reflexivity. Qed.

Lemma first_of : forall lo hi l rest w v, first_in lo hi (l ++ rest) -> rfc_int w l v -> first_in lo hi l.
Proof.
  intros lo hi l rest w v (b & tl & E & B) I. destruct I; cbn [app] in E; injection E as <- _; eexists _, _; split; try reflexivity; exact B.
Qed.

Lemma pattern_of : forall k l rest w v, literal_pattern k (l ++ rest) -> rfc_int w l v -> literal_pattern k l.
Proof. intros k l rest w v P I. destruct k; cbn [literal_pattern] in *; eapply first_of; eassumption. Qed.

Lemma text_valid : forall m raw s c, wf_bytes raw -> text_read m raw s c -> ~ bad_text raw ->
  exists p rest, raw = p ++ rest /\ rfc_string p s /\ c = size p.
Proof.
  intros m raw s c W T NB.
  assert (NO : ~ overlong 7 raw) by (intros X; apply NB; left; exact X).
  destruct T as [len k I F L A|len k syms pad I F L PS A]; pose proof I as I0;
    destruct (int_read_shortest 7 raw len k pok7 NO I) as (l & rest & E & R & ->).
  - subst raw. unfold part in *. rewrite splits_lengths in *. change (N.of_nat (length (l ++ rest))) with (size (l ++ rest)) in L. rewrite size_app in L.
    exists (l ++ firstn (N.to_nat len) rest), (skipn (N.to_nat len) rest). rewrite <- app_assoc, firstn_skipn. split; [reflexivity|].
    assert (LD : N.of_nat (length (firstn (N.to_nat len) rest)) = len) by (rewrite firstn_length; unfold size in *; lia).
    split; [|rewrite size_app; unfold size at 3; rewrite LD; reflexivity].
    apply string_plain; [rewrite LD; exact R|eapply first_of; eassumption|].
    apply wf_octets, wf_bytes_firstn. apply wf_bytes_app in W. tauto.
  - assert (D : exists x, is_octets x /\ rfc_huffman_encodes x (part (size l) len raw)).
    { destruct (exec_huffman (length (octets_bits (part (size l) len raw))) (octets_bits (part (size l) len raw))) as [x|] eqn:X.
      - apply exec_huffman_sound in X. destruct X as (O & p & B & Q). exists x. split; [exact O|]. split; [apply wf_octets, part_wf; exact W|]. exists p. auto.
      - exfalso. apply NB. right. split; [exact F|]. exists len, (size l). split; [exact I0|]. intros y O (_ & p & B & Q). rewrite B in X.
        rewrite exec_huffman_complete in X; [discriminate X|exact O|exact Q|apply Nat.le_refl]. }
    destruct D as (x & OX & HX). pose proof (huffman_decode_valid x _ (octets_wf _ OX) HX) as DX.
    destruct (C08_huffman_decoder_outcome (part (size l) len raw) (wf_octets _ (part_wf _ _ _ W))) as (D & _). rewrite (D syms pad PS) in DX.
    apply Ok_inj in DX. rewrite DX. clear D.
    subst raw. unfold part in *. rewrite splits_lengths in *. change (N.of_nat (length (l ++ rest))) with (size (l ++ rest)) in L. rewrite size_app in L.
    exists (l ++ firstn (N.to_nat len) rest), (skipn (N.to_nat len) rest). rewrite <- app_assoc, firstn_skipn. split; [reflexivity|].
    assert (LD : N.of_nat (length (firstn (N.to_nat len) rest)) = len) by (rewrite firstn_length; unfold size in *; lia).
    split; [|rewrite size_app; unfold size at 3; rewrite LD; reflexivity].
    apply string_huffman; [rewrite LD; exact R|eapply first_of; eassumption|exact OX|exact HX].
Qed.

Lemma used_resolve : forall t i, i <> 20 -> resolve_in used_static t i = resolve t i.
Proof. intros t i N. rewrite used_is_lib. apply resolve_lib_rfc. exact N. Qed.

(* Unless it departs, an accepted field is valid, of the length reported, and
   means what is returned. *)
Theorem C87_accepted_partial : forall m raw t e n, is_octets raw -> decode_header m raw t = Ok (e, n) ->
  ~ departs m (Table (dt_max t) (dt_entries t)) raw ->
  rfc_says (Table (dt_max t) (dt_entries t)) raw e n.
Proof.
  intros m raw t e n O D ND. apply C87_accepted_exactly in D; [|exact O]. set (T := Table (dt_max t) (dt_entries t)) in *. clearbody T. clear t.
  apply octets_wf in O.
  assert (NI : forall w, first_width raw w -> ~ overlong w raw) by (intros w F X; apply ND; exact (departs_integer m T raw w F X)).
  destruct D as [i h c I F H|c I F|n c I F|k i h c v d I F H NE V|k i c nm d v e I F H N V].
  - destruct (int_read_shortest 7 raw i c pok7 (NI 7 (or_introl (conj F eq_refl))) I) as (l & rest & E & R & ->).
    assert (N20 : i <> 20) by (intros ->; apply ND; apply (departs_misspelt m T raw 7 _ (or_introl (conj F eq_refl)) ltac:(discriminate) I)).
    rewrite used_resolve in H by exact N20. exists l, rest, (RIndexed i), 0, (Some h), T. split; [exact E|]. split; [reflexivity|].
    subst raw. split; [apply repr_indexed; [exact R|eapply first_of; eassumption]|]. unfold step. cbn [step_in]. fold resolve. rewrite H. auto.
  - exfalso. apply ND. exact (departs_zero m T raw c F I).
  - destruct (int_read_shortest 5 raw n c ltac:(unfold prefix_ok; lia) (NI 5 (or_intror (or_introl (conj F eq_refl)))) I) as (l & rest & E & R & ->).
    exists l, rest, (RResize n), n, None, (resize T n). split; [exact E|]. split; [reflexivity|].
    subst raw. split; [apply repr_resize; [exact R|eapply first_of; eassumption]|]. unfold step. cbn [step_in]. rewrite N.leb_refl. auto.
  - assert (FW : first_width raw (literal_prefix k)) by (right; right; exists k; auto).
    destruct (int_read_shortest _ raw i c (literal_prefix_ok k) (NI _ FW) I) as (l & rest & E & R & ->).
    assert (N20 : i <> 20).
    { intros ->. apply ND. eapply (departs_misspelt m T raw (literal_prefix k) _ FW); [destruct k; discriminate|exact I]. }
    rewrite used_resolve in H by exact N20.
    destruct (text_valid m _ _ _ (skipn_wf _ _ O) V) as (p & rest' & E' & S & ->).
    { intros X. apply ND. exact (departs_text m T raw k i _ F I X). }
    subst raw. rewrite splits_lengths in E'. subst rest.
    exists (l ++ p), rest', (RLiteral k (NameIndex i) v), 0, (Some (fst h, v)), (match k with Incremental => insert T (fst h, v) | _ => T end).
    rewrite <- app_assoc. split; [reflexivity|]. split; [symmetry; apply size_app|]. split.
    + apply repr_literal_indexed_name; [exact R|eapply pattern_of; eassumption| |exact S]. intros ->. discriminate H.
    + unfold step. cbn [step_in name_of]. fold resolve. rewrite H. cbn [option_map]. auto.
  - assert (FW : first_width raw (literal_prefix k)) by (right; right; exists k; auto).
    assert (Z : i = 0).
    { destruct H as [Z|(h & H & E)]; [exact Z|exfalso]. destruct (N.eq_dec i 20) as [->|N20].
      - apply ND. eapply (departs_misspelt m T raw (literal_prefix k) _ FW); [destruct k; discriminate|exact I].
      - rewrite used_resolve in H by exact N20. apply ND. exact (departs_nameless m T raw k i c h F I H E). }
    subst i. clear H. destruct (int_read_shortest _ raw 0 c (literal_prefix_ok k) (NI _ FW) I) as (l & rest & E & R & ->).
    pose proof N as N0.
    destruct (text_valid m _ _ _ (skipn_wf _ _ O) N) as (p & rest' & E' & S & ->).
    { intros X. apply ND. exact (departs_text m T raw k 0 _ F I X). }
    destruct (text_valid m _ _ _ (skipn_wf _ _ O) V) as (p2 & rest2 & E2 & S2 & ->).
    { intros X. apply ND. exact (departs_value m T raw k _ nm _ F I N0 X). }
    rewrite <- skipn_sum, E', splits_lengths in E2. subst rest'.
    subst raw. rewrite splits_lengths in E'. subst rest.
    exists (l ++ p ++ p2), rest2, (RLiteral k (NameLiteral nm) v), 0, (Some (nm, v)), (match k with Incremental => insert T (nm, v) | _ => T end).
    rewrite <- !app_assoc. split; [reflexivity|]. split; [change (size l + size p + size p2 = size (l ++ p ++ p2)); rewrite !size_app; lia|]. split.
    + apply repr_literal_new_name; [exact R|eapply pattern_of; eassumption|exact S|exact S2].
    + unfold step. cbn [step_in name_of]. auto.
Qed.

(* ---- blocks ---- *)

(* No field of the block departs.  The fields are where the decoder finds
   them, one after the other. *)
Inductive clean (m : ub_mode) (t : dyn_table) : list N -> Prop :=
| clean_nil : clean m t []
| clean_cons : forall raw e n, decode_header m raw t = Ok (e, n) ->
    ~ departs m (Table (dt_max t) (dt_entries t)) raw ->
    clean m t (skipn (N.to_nat n) raw) -> clean m t raw.

(* raw is a sequence of valid representations, and each entry of b is what one
   of them means in the table t. *)
Inductive reads_as (t : table) : list N -> list repr -> header_block -> Prop :=
| reads_nil : reads_as t [] [] []
| reads_cons : forall p r limit o t' rest rs b, rfc_repr p r -> step limit t r = Some (o, t') ->
    reads_as t rest rs b -> reads_as t (p ++ rest) (r :: rs) (reported r o :: b).

(* A block that is accepted, and none of whose fields departs, is a sequence of
   valid representations, each read in the table there was at the start. *)
Theorem C87_block_partial : forall m raw t b, is_octets raw -> decode_block m raw t = Ok b -> clean m t raw ->
  exists rs, reads_as (Table (dt_max t) (dt_entries t)) raw rs b.
Proof.
  intros m raw t b O D C. revert b O D. induction C as [|raw e n DH ND C IH]; intros b O D.
  { apply Ok_inj in D. subst b. exists []. constructor. }
  pose proof (C87_accepted_partial m raw t e n O DH ND) as (p & rest & r & limit & o & t' & E & N & R & S & ->).
  assert (NE : raw <> []) by (intros ->; discriminate DH).
  rewrite decode_block_step in D by (try apply octets_wf; assumption). rewrite DH in D. cbn [bind] in D.
  apply bind_ok in D. destruct D as (b' & D & B). apply Ok_inj in B. subst b.
  change (N.of_nat (length p)) with (size p) in N. rewrite E, N, splits_lengths in D, IH.
  destruct (IH b') as (rs & RS); [|exact D|].
  { rewrite E in O. apply octets_wf, wf_bytes_app in O. apply wf_octets. tauto. }
  exists (r :: rs). rewrite E. econstructor; eassumption.
Qed.

Lemma step_limit : forall l1 l2 t r o t1, step l1 t r = Some (o, t1) -> (forall n, r = RResize n -> n <= l2) ->
  step l2 t r = Some (o, t1).
Proof.
  intros l1 l2 t r o t1 S L. destruct r as [i|k nm v|n]; [exact S|exact S|]. unfold step in *. cbn [step_in] in *.
  rewrite (proj2 (N.leb_le _ _) (L n eq_refl)). destruct (n <=? l1); [exact S|discriminate S].
Qed.

Lemma reported_fields : forall limit t r o t1 b, step limit t r = Some (o, t1) ->
  fields_of (reported r o :: b) = opt_cons o (fields_of b).
Proof.
  intros limit t r o t1 b S. unfold step in S. destruct r as [i|k nm v|n]; cbn [step_in] in S.
  - destruct (resolve_in rfc_static t i); [|discriminate S]. inversion S. reflexivity.
  - destruct (name_of rfc_static t nm); [|discriminate S]. inversion S. reflexivity.
  - destruct (n <=? limit); [|discriminate S]. inversion S. reflexivity.
Qed.

Lemma reads_block : forall limit t0 raw rs b, reads_as t0 raw rs b -> (forall n, In (RResize n) rs -> n <= limit) ->
  forall changed t, no_late_reference changed rs -> (changed = false -> t = t0) ->
  exists t', rfc_block limit t raw (fields_of b) t'.
Proof.
  intros limit t0 raw rs b R. induction R as [|p r l o t1 rest rs b RP S R IH]; intros LIM changed t NL CH.
  { exists t. constructor. }
  cbn [no_late_reference] in NL. destruct NL as [N1 N2].
  assert (S2 : step limit t0 r = Some (o, t1)) by (eapply step_limit; [exact S|intros n ->; apply LIM; left; reflexivity]).
  destruct (step_field_any limit t0 t r o t1 S2) as [t2 S3].
  { destruct changed; [left; apply N1; reflexivity|right; symmetry; apply CH; reflexivity]. }
  destruct (IH (fun n I => LIM n (or_intror I)) (changed || changes_table r)%bool t2 N2) as [t' B].
  { intros X. apply orb_false_iff in X. destruct X as [-> X]. rewrite (step_no_change _ _ _ _ _ S3 X). apply CH. reflexivity. }
  exists t'. rewrite (reported_fields _ _ _ _ _ _ S). econstructor; eassumption.
Qed.

(* If in addition no dynamic entry is referenced after the table changed, and
   no size above the limit is requested, RFC 7541 gives the block the same list
   of fields. *)
Theorem C87_block_fields_partial : forall m raw t b limit, is_octets raw -> decode_block m raw t = Ok b -> clean m t raw ->
  exists rs, reads_as (Table (dt_max t) (dt_entries t)) raw rs b /\
    (no_late_reference false rs -> (forall n, In (RResize n) rs -> n <= limit) ->
     exists t', rfc_block limit (Table (dt_max t) (dt_entries t)) raw (fields_of b) t').
Proof.
  intros m raw t b limit O D C. destruct (C87_block_partial m raw t b O D C) as [rs R]. exists rs. split; [exact R|].
  intros NL L. exact (reads_block limit _ raw rs b R L false _ NL (fun _ => eq_refl)).
Qed.

(* ---- the departures are real ---- *)

Lemma says_exec : forall t raw e n, rfc_says t raw e n ->
  exists r rest limit o t', exec_repr raw = Some (r, rest) /\ step limit t r = Some (o, t') /\
    N.of_nat (length raw) = n + N.of_nat (length rest) /\ e = reported r o.
Proof.
  intros t raw e n (p & rest & r & limit & o & t' & -> & -> & R & S & ->). exists r, rest, limit, o, t'.
  split; [apply exec_repr_complete; exact R|]. split; [exact S|]. split; [rewrite app_length; lia|reflexivity].
Qed.

(* Index zero is accepted, as an empty field. *)
Theorem C87_index_zero_refuted : forall m rest t, is_octets rest ->
  decode_header m (128 :: rest) t = Ok (HEntry Indexed (EHeader ([], [])), 1) /\
  forall e n, ~ rfc_says (Table (dt_max t) (dt_entries t)) (128 :: rest) e n.
Proof.
  intros m rest t O. split; [exact (proj1 (C27_index_zero_refuted m rest t O))|]. intros e n S.
  destruct (says_exec _ _ _ _ S) as (r & rest' & limit & o & t' & E & ST & _). cbn in E. injection E as <- <-.
  discriminate ST.
Qed.

(* Index 20 is read as another field than the RFC's. *)
Theorem C87_misspelt_refuted : forall m rest t, is_octets rest ->
  decode_header m (148 :: rest) t = Ok (HEntry Indexed (EHeader (octets "accept-control-allow-origin", [])), 1) /\
  forall e n, rfc_says (Table (dt_max t) (dt_entries t)) (148 :: rest) e n ->
    e = HEntry Indexed (EHeader (octets "access-control-allow-origin", [])).
Proof.
  intros m rest t O. split.
  - unfold decode_header, vget. rewrite size_cons. destruct (N.ltb_spec 0 (size rest + 1)); [reflexivity|lia].
  - intros e n S. destruct (says_exec _ _ _ _ S) as (r & rest' & limit & o & t' & E & ST & _ & ->). cbn in E. injection E as <- <-.
    cbn in ST. injection ST as <- <-. reflexivity.
Qed.

(* An integer that is not in its shortest form is read, but too few octets are
   taken for it: here, the index of an indexed field. *)
Theorem C87_overlong_refuted : forall m l i h rest t, is_octets rest -> rfc_int 7 l i -> ~ rfc_int_shortest 7 l i ->
  (length l <= 6)%nat -> i < 2 ^ 31 + 127 -> first_in 128 256 l -> i <> 20 ->
  resolve (Table (dt_max t) (dt_entries t)) i = Some h ->
  exists c, decode_header m (l ++ rest) t = Ok (HEntry Indexed (EHeader h), c) /\ c < N.of_nat (length l) /\
    rfc_says (Table (dt_max t) (dt_entries t)) (l ++ rest) (HEntry Indexed (EHeader h)) (N.of_nat (length l)) /\
    ~ rfc_says (Table (dt_max t) (dt_entries t)) (l ++ rest) (HEntry Indexed (EHeader h)) c.
Proof.
  intros m l i h rest t O I NS L B F N20 H. pose (c := size (encode_integer_value 7 i)).
  assert (W : wf_bytes (l ++ rest)) by (apply wf_bytes_app; split; [eapply rfc_int_octets; exact I|apply octets_wf; exact O]).
  destruct (shortest_encoding 7 i pok7) as [EI ES]. pose proof (ES l I) as LE.
  assert (CL : c < N.of_nat (length l)).
  { assert (c <> N.of_nat (length l)); [|unfold c, size in *; lia]. intros X. apply NS. split; [exact I|].
    intros l' I'. specialize (ES l' I'). unfold c, size in X. lia. }
  assert (FI : first_in 128 256 (l ++ rest)).
  { destruct F as (b & tl & -> & F). exists b, (tl ++ rest). split; [reflexivity|exact F]. }
  exists c. split; [|split; [exact CL|]].
  - apply C87_accepted_exactly; [apply wf_octets; exact W|]. apply (read_indexed _ _ _ i); [|exact FI|rewrite used_resolve; assumption].
    exists l, rest, (encode_integer_value 7 i). split; [reflexivity|]. split; [exact I|]. split; [exact L|]. split; [exact B|].
    split; [split; assumption|reflexivity].
  - assert (ST : step 0 (Table (dt_max t) (dt_entries t)) (RIndexed i) = Some (Some h, Table (dt_max t) (dt_entries t))).
    { unfold step. cbn [step_in]. fold resolve. rewrite H. reflexivity. }
    split.
    + exists l, rest, (RIndexed i), 0, (Some h), (Table (dt_max t) (dt_entries t)). split; [reflexivity|]. split; [reflexivity|].
      split; [apply repr_indexed; assumption|]. split; [exact ST|reflexivity].
    + intros (p & rest' & r & limit & o & t' & E & N & R & _).
      destruct (repr_unique l (RIndexed i) p r rest rest') as (-> & _); [apply repr_indexed; assumption|exact R|exact E|]. lia.
Qed.

(* A string whose octets are not the Huffman encoding of anything (the EOS
   symbol, or padding that is not a prefix of it) is accepted, whatever the
   kind of field; here the name is that of index 1, ":authority". *)
Theorem C87_bad_huffman_refuted : forall m k data syms pad rest t, is_octets (data ++ rest) ->
  huffman_splits data syms pad -> syms <> [] -> N.of_nat (length data) < 127 ->
  (forall s, is_octets s -> ~ rfc_huffman_encodes s data) ->
  let first := match k with Incremental => 65 | Without => 1 | Never => 17 end in
  let raw := [first; 128 + N.of_nat (length data)] ++ data ++ rest in
  decode_header m raw t = Ok (HEntry (lib_prefix k) (EHeader (octets ":authority", map (fun s => s mod 256) syms)), 2 + N.of_nat (length data)) /\
  forall e n, ~ rfc_says (Table (dt_max t) (dt_entries t)) raw e n.
Proof.
  intros m k data syms pad rest t O SP NE LD BAD first raw.
  pose (len := N.of_nat (length data)). fold len in LD.
  assert (FB : first < 256) by (destruct k; reflexivity).
  assert (OR : is_octets raw).
  { apply wf_octets. apply octets_wf in O. constructor; [exact FB|]. constructor; [unfold len in LD; change (128 + N.of_nat (length data) < 256); clear -LD; lia|exact O]. }
  assert (FM : first mod 2 ^ literal_prefix k = 1) by (destruct k; reflexivity).
  assert (PT : literal_pattern k raw) by (unfold raw, first; destruct k; do 2 eexists; (split; [reflexivity|lia])).
  assert (I1 : forall x, first :: x = [first] ++ x) by reflexivity.
  assert (RI : rfc_int (literal_prefix k) [first] 1) by (rewrite <- FM; constructor; [exact FB|rewrite FM; destruct k; reflexivity]).
  assert (LM : (128 + len) mod 2 ^ 7 = len) by (change (2 ^ 7) with 128; clear -LD; lia).
  assert (RL : rfc_int 7 [128 + len] len).
  { rewrite <- LM at 2. constructor; [clear -LD; lia|]. rewrite LM. change (2 ^ 7 - 1) with 127. exact LD. }
  assert (ONE : forall w x v tl, prefix_ok w -> rfc_int w [x] v -> v < 2 ^ 31 + (2 ^ w - 1) -> int_read w (x :: tl) v 1).
  { intros w x v tl P I B. exists [x], tl, [x]. split; [reflexivity|]. split; [exact I|]. split; [cbn; lia|]. split; [exact B|].
    split; [|reflexivity]. split; [exact I|]. intros l' I'. destruct I'; cbn; lia. }
  assert (PD : part 1 len ((128 + len) :: data ++ rest) = data).
  { unfold part, len. rewrite Nat2N.id. change (N.to_nat 1) with 1%nat; cbn [skipn]. rewrite firstn_app, firstn_all, Nat.sub_diag. apply app_nil_r. }
  assert (IL : int_read 7 ((128 + len) :: data ++ rest) len 1).
  { apply ONE; [exact pok7|exact RL|]. clear -LD. change (2 ^ 31 + (2 ^ 7 - 1)) with 2147483775. lia. }
  assert (F2 : first_in 128 256 ((128 + len) :: data ++ rest)) by (do 2 eexists; (split; [reflexivity|clear -LD; lia])).
  split.
  - apply C87_accepted_exactly; [exact OR|].
    replace (2 + N.of_nat (length data)) with (1 + (1 + len)) by (unfold len; lia).
    change (octets ":authority") with (fst (octets ":authority", @nil N)).
    apply (read_named _ _ _ k 1 (octets ":authority", [])); [|exact PT|reflexivity|discriminate|].
    + apply ONE; [apply literal_prefix_ok|exact RI|destruct k; reflexivity].
    + change (skipn (N.to_nat 1) raw) with ((128 + len) :: data ++ rest).
      apply (text_huffman m _ len 1 syms pad IL F2); [|rewrite PD; exact SP|intros _; exact NE].
      cbn [length]. rewrite app_length. unfold len. lia.
  - intros e n S. destruct (says_exec _ _ _ _ S) as (r & rest' & limit & o & t' & E & _).
    assert (X : exec_literal k raw = Some (r, rest')) by (destruct k; exact E). clear E.
    unfold exec_literal in X. unfold raw in X. cbn [app] in X. rewrite I1, (exec_int_complete _ _ _ RI) in X.
    change (1 =? 0) with false in X. cbv iota in X.
    unfold exec_string in X. fold len in X.
    change ((128 + len) :: data ++ rest) with ([128 + len] ++ data ++ rest) in X. rewrite (exec_int_complete _ _ _ RL) in X. cbn [app] in X.
    destruct (len <=? N.of_nat (length (data ++ rest))); [|discriminate X].
    replace (firstn (N.to_nat len) (data ++ rest)) with data in X by (symmetry; exact PD).
    destruct (N.ltb_spec (128 + len) 128); [lia|].
    destruct (exec_huffman _ (octets_bits data)) as [y|] eqn:Q; [|discriminate X].
    apply exec_huffman_sound in Q. destruct Q as (OY & p & B & LP). apply (BAD y OY). split; [|exists p; auto].
    apply octets_wf, wf_bytes_app in O. apply wf_octets. tauto.
Qed.

(* ---- which fields do not depart ---- *)

Lemma int_read_small : forall w l v rest v' c, prefix_ok w -> small_int w l v -> int_read w (l ++ rest) v' c ->
  v' = v /\ c = size l.
Proof.
  intros w l v rest v' c P [S _] (l' & rest' & s & E & I & _ & _ & S' & ->).
  destruct (int_unique w l v l' v' rest rest' (proj1 S) I E) as (_ & <- & _). split; [reflexivity|].
  change (N.of_nat (length s)) with (size s). rewrite (shortest_size w l v P S), (shortest_size w s v P S'). reflexivity.
Qed.

Lemma not_overlong : forall w l v rest, small_int w l v -> ~ overlong w (l ++ rest).
Proof.
  intros w l v rest [S _] (l' & rest' & v' & E & I & NS). destruct (int_unique w l v l' v' rest rest' (proj1 S) I E) as (<- & <- & _).
  exact (NS S).
Qed.

Lemma good_text : forall p s rest, small_string p s -> ~ bad_text (p ++ rest).
Proof.
  intros p s rest S B. destruct S as [l s I F O|l e s I F O H]; rewrite <- app_assoc in B; destruct B as [B|(F' & len & k & I' & N)].
  - exact (not_overlong _ _ _ _ I B).
  - apply (first_disjoint 0 128 128 256 l (l ++ s ++ rest) (s ++ rest) []); [exact F|exact F'|symmetry; apply app_nil_r|left; lia].
  - exact (not_overlong _ _ _ _ I B).
  - destruct (int_read_small 7 l _ _ _ _ pok7 I I') as [-> ->]. apply (N s O). unfold part. rewrite splits_lengths, Nat2N.id, firstn_app, firstn_all, Nat.sub_diag.
    cbn [firstn]. rewrite app_nil_r. exact H.
Qed.

Lemma text_read_small : forall m p s rest s' c, is_octets rest -> small_string p s -> text_read m (p ++ rest) s' c -> c = size p.
Proof.
  intros m p s rest s' c O S T. assert (B := good_text p s rest S).
  assert (W : wf_bytes (p ++ rest)).
  { apply wf_bytes_app. split; [|apply octets_wf; exact O]. exact (proj1 (small_string_octets p s S)). }
  destruct (text_valid m _ _ _ W T B) as (p' & rest' & E & R & ->).
  assert (RS : rfc_string p s).
  { destruct S as [l s [[I _] _] F OO|l e s [[I _] _] F OO H]; [apply string_plain|apply string_huffman]; assumption. }
  destruct (string_unique p s p' s' rest rest' RS R E) as (-> & _ & _). reflexivity.
Qed.

(* Every field that the RFC gives a meaning, whose integers are in shortest
   form, and that uses neither index 20 nor an entry with an empty name. *)
Theorem C87_regular_fields : forall m limit t p r o t' rest, small_repr p r -> is_octets rest ->
  step limit t r = Some (o, t') -> table_ref r <> 20 ->
  (forall k i v h, r = RLiteral k (NameIndex i) v -> resolve t i = Some h -> fst h <> []) ->
  ~ departs m t (p ++ rest).
Proof.
  intros m limit t p r o t' rest S O ST N20 NN D.
  assert (NIL : forall l : list N, l = l ++ []) by (intros; symmetry; apply app_nil_r).
  assert (SELF : forall a b : list N, a ++ b = (a ++ b) ++ []) by (intros; apply NIL).
  destruct S as [l i I F|k l i vs v I P NZ SV|k l ns n vs v I P SN SV|l n I F].
  - assert (NL : forall k, literal_pattern k (l ++ rest) -> False).
    { intros k X. exact (first_disjoint 128 256 0 128 l (l ++ rest) rest [] F (literal_first k _ X) (SELF _ _) ltac:(lia)). }
    destruct D as [w W X|c W X|w c W N X|k j c h W X H1 H2|k j c W X H|k c n d W X H1 H2]; try exact (NL k W).
    + destruct W as [[W ->]|[[W ->]|(k & W & _)]]; [exact (not_overlong _ _ _ _ I X)| |exact (NL k W)].
      exact (first_disjoint 128 256 32 64 l (l ++ rest) rest [] F W (SELF _ _) ltac:(lia)).
    + destruct (int_read_small 7 l i rest 0 c pok7 I X) as [<- _]. discriminate ST.
    + destruct W as [[W ->]|[[W ->]|(k & W & _)]]; [|congruence|exact (NL k W)].
      destruct (int_read_small 7 l i rest 20 c pok7 I X) as [<- _]. apply N20. reflexivity.
  - rewrite <- app_assoc in D. set (tl := vs ++ rest) in *.
    assert (U : forall k', literal_pattern k' (l ++ tl) -> k' = k).
    { intros k' X. symmetry. exact (literal_unique k k' l (l ++ tl) tl [] P X (SELF _ _)). }
    assert (NI : first_in 128 256 (l ++ tl) -> False).
    { intros X. exact (first_disjoint 0 128 128 256 l (l ++ tl) tl [] (literal_first k _ P) X (SELF _ _) ltac:(lia)). }
    assert (NR : first_in 32 64 (l ++ tl) -> False) by (intros X; exact (literal_not_resize k l (l ++ tl) tl [] P X (SELF _ _))).
    destruct D as [w W X|c W X|w c W N X|k' j c h W X H1 H2|k' j c W X H|k' c n d W X H1 H2];
      try (pose proof (U _ W); subst k'; destruct (int_read_small _ l i tl _ _ (literal_prefix_ok k) I X) as [EI EC]).
    + destruct W as [[W _]|[[W _]|(k' & W & ->)]]; [exact (NI W)|exact (NR W)|]. rewrite (U _ W) in X. exact (not_overlong _ _ _ _ I X).
    + exact (NI W).
    + destruct W as [[W _]|[[W _]|(k' & W & ->)]]; [exact (NI W)|exact (NR W)|]. rewrite (U _ W) in X.
      destruct (int_read_small _ l i tl 20 c (literal_prefix_ok k) I X) as [<- _]. apply N20. reflexivity.
    + subst j. exact (NN k i v h eq_refl H1 H2).
    + subst c. rewrite splits_lengths in H. exact (good_text vs v rest SV H).
    + subst i. contradiction.
  - rewrite <- !app_assoc in D. set (tl := ns ++ vs ++ rest) in *.
    assert (OV : is_octets (vs ++ rest)).
    { apply wf_octets, wf_bytes_app. split; [exact (proj1 (small_string_octets vs v SV))|apply octets_wf; exact O]. }
    assert (U : forall k', literal_pattern k' (l ++ tl) -> k' = k).
    { intros k' X. symmetry. exact (literal_unique k k' l (l ++ tl) tl [] P X (SELF _ _)). }
    assert (NI : first_in 128 256 (l ++ tl) -> False).
    { intros X. exact (first_disjoint 0 128 128 256 l (l ++ tl) tl [] (literal_first k _ P) X (SELF _ _) ltac:(lia)). }
    assert (NR : first_in 32 64 (l ++ tl) -> False) by (intros X; exact (literal_not_resize k l (l ++ tl) tl [] P X (SELF _ _))).
    destruct D as [w W X|c W X|w c W N X|k' j c h W X H1 H2|k' j c W X H|k' c nm d W X H1 H2];
      try (pose proof (U _ W); subst k'; destruct (int_read_small _ l 0 tl _ _ (literal_prefix_ok k) I X) as [EI EC]).
    + destruct W as [[W _]|[[W _]|(k' & W & ->)]]; [exact (NI W)|exact (NR W)|]. rewrite (U _ W) in X. exact (not_overlong _ _ _ _ I X).
    + exact (NI W).
    + destruct W as [[W _]|[[W _]|(k' & W & ->)]]; [exact (NI W)|exact (NR W)|]. rewrite (U _ W) in X.
      destruct (int_read_small _ l 0 tl 20 c (literal_prefix_ok k) I X) as [E _]. discriminate E.
    + subst j. discriminate H1.
    + subst c. rewrite splits_lengths in H. exact (good_text ns n (vs ++ rest) SN H).
    + subst c. rewrite splits_lengths in H1. pose proof (text_read_small m ns n (vs ++ rest) _ _ OV SN H1) as ->.
      rewrite <- skipn_sum, splits_lengths in H2. unfold tl in H2. rewrite splits_lengths in H2. exact (good_text vs v rest SV H2).
  - assert (NL : forall k, literal_pattern k (l ++ rest) -> False).
    { intros k X. exact (literal_not_resize k (l ++ rest) l [] rest X F (eq_sym (SELF _ _))). }
    assert (NI : first_in 128 256 (l ++ rest) -> False).
    { intros X. exact (first_disjoint 32 64 128 256 l (l ++ rest) rest [] F X (SELF _ _) ltac:(lia)). }
    destruct D as [w W X|c W X|w c W N X|k j c h W X H1 H2|k j c W X H|k c nm d W X H1 H2]; try exact (NL k W).
    + destruct W as [[W _]|[[W ->]|(k & W & _)]]; [exact (NI W)|exact (not_overlong _ _ _ _ I X)|exact (NL k W)].
    + exact (NI W).
    + destruct W as [[W _]|[[W ->]|(k & W & _)]]; [exact (NI W)|congruence|exact (NL k W)].
Qed.

(* A name index that designates an entry with an empty name is read as if a
   new name followed. *)
Theorem C87_nameless_refuted : forall m a b v0 h rest t, is_octets (a :: b :: rest) -> dt_entries t = ([], v0) :: h ->
  let raw := 126 :: 1 :: a :: 1 :: b :: rest in
  decode_header m raw t = Ok (HEntry IncrementalIndexing (EHeader ([a], [b])), 5) /\
  forall e n, rfc_says (Table (dt_max t) (dt_entries t)) raw e n ->
    e = HEntry IncrementalIndexing (EHeader ([], [a])) /\ n = 3.
Proof.
  intros m a b v0 h rest t O TE raw. apply octets_wf in O. inversion O as [|? ? A O1]. inversion O1 as [|? ? B O2]. subst.
  assert (OR : is_octets raw) by (apply wf_octets; repeat (constructor; [reflexivity || assumption|]); assumption).
  assert (ONE : forall w x tl, prefix_ok w -> x < 256 -> x mod 2 ^ w < 2 ^ w - 1 -> x mod 2 ^ w < 2 ^ 31 -> int_read w (x :: tl) (x mod 2 ^ w) 1).
  { intros w x tl P X S L. exists [x], tl, [x]. split; [reflexivity|]. split; [constructor; assumption|]. split; [cbn; lia|].
    split; [clear -L; lia|]. split; [|reflexivity]. split; [constructor; assumption|]. intros l' I'. destruct I'; cbn; lia. }
  assert (TX : forall x tl, x < 256 -> text_read m (1 :: x :: tl) [x] 2).
  { intros x tl X. change [x] with (part 1 1 (1 :: x :: tl)). change 2 with (1 + 1). apply text_plain.
    - apply (ONE 7 1); [exact pok7|reflexivity|reflexivity|reflexivity].
    - do 2 eexists. split; [reflexivity|lia].
    - cbn [length]. lia.
    - intros _. cbn [length]. lia. }
  split.
  - apply C87_accepted_exactly; [exact OR|]. change 5 with (1 + 2 + 2). change IncrementalIndexing with (lib_prefix Incremental).
    apply (read_new _ _ _ Incremental 62).
    + apply (ONE 6 126); [unfold prefix_ok; lia|reflexivity|reflexivity|reflexivity].
    + do 2 eexists. split; [reflexivity|lia].
    + right. exists ([], v0). split; [|reflexivity]. unfold resolve_in. cbn. rewrite TE. reflexivity.
    + apply TX. exact A.
    + apply TX. exact B.
  - intros e n S. destruct (says_exec _ _ _ _ S) as (r & rest' & limit & o & t' & E & ST & L & ->).
    assert (E2 : exec_repr raw = Some (RLiteral Incremental (NameIndex 62) [a], 1 :: b :: rest)).
    { change raw with (([126] ++ [1] ++ [a]) ++ 1 :: b :: rest). apply exec_repr_complete. apply repr_literal_indexed_name.
      - change 62 with (126 mod 2 ^ literal_prefix Incremental). constructor; reflexivity.
      - do 2 eexists. split; [reflexivity|lia].
      - discriminate.
      - apply string_plain.
        + change (N.of_nat (length [a])) with (1 mod 2 ^ 7). constructor; reflexivity.
        + do 2 eexists. split; [reflexivity|lia].
        + apply wf_octets. constructor; [exact A|constructor]. }
    rewrite E in E2. injection E2 as -> ->. cbn in ST. rewrite TE in ST. cbn in ST. injection ST as <- <-.
    split; [reflexivity|]. unfold raw in L. cbn [length] in L. lia.
Qed.

Lemma octets_checked : forall l, forallb (fun b => b <? 256) l = true -> is_octets l.
Proof. intros l H b I. rewrite forallb_forall in H. apply N.ltb_lt, H, I. Qed.

(* RFC 7541, C.5.2, the second response of the appendix: the library reads the
   block in the table left by the first one, although its first field changes
   that table (C28). *)
Theorem C28_rfc_example_refuted : forall m,
  let raw := hex "4803 3330 37c1 c0bf" in
  let t := DynTable (fields response_table_1) 222 256 in
  rfc_block 256 (Table 256 (fields response_table_1)) raw (fields response_2) (Table 256 (fields response_table_2)) /\
  exists b, decode_block m raw t = Ok b /\
    fields_of b = fields [(":status", "307"); (":status", "302"); private; date_1].
Proof.
  intros m raw t. split.
  - apply reference_decoder_correct; [|vm_compute; reflexivity]. apply octets_checked. vm_compute. reflexivity.
  - exists [HEntry IncrementalIndexing (EHeader (octets ":status", octets "307"));
            HEntry Indexed (EHeader (octets ":status", octets "302"));
            HEntry Indexed (EHeader (octets (fst private), octets (snd private)));
            HEntry Indexed (EHeader (octets (fst date_1), octets (snd date_1)))].
    split; [destruct m; vm_compute; reflexivity|vm_compute; reflexivity].
Qed.

(* "GET" by index, then ":authority: www.example.com" as in RFC 7541, C.4.1. *)
Example C87_case : forall m,
  let data := [0xf1; 0xe3; 0xc2; 0xe5; 0xf2; 0x3a; 0x6b; 0xa0; 0xab; 0x90; 0xf4; 0xff] in
  let raw := [0x82] ++ ([0x41] ++ [0x8c] ++ data) ++ [] in
  let t := Table (dt_max default_table) (dt_entries default_table) in
  let host := fields [(":authority", "www.example.com")] in
  decode_block m raw default_table = Ok [HEntry Indexed (EHeader (octets ":method", octets "GET"));
    HEntry IncrementalIndexing (EHeader (octets ":authority", octets "www.example.com"))] /\
  is_octets raw /\ clean m default_table raw /\
  rfc_block 4096 t raw (fields [(":method", "GET"); (":authority", "www.example.com")]) (Table 4096 host).
Proof.
  intros m data raw t host.
  assert (O : is_octets raw) by (apply octets_checked; vm_compute; reflexivity).
  split; [destruct m; vm_compute; reflexivity|]. split; [exact O|].
  assert (ONE : forall w x, x < 256 -> x mod 2 ^ w < 2 ^ w - 1 -> x mod 2 ^ w < 2 ^ 31 -> small_int w [x] (x mod 2 ^ w)).
  { intros w x X S L. split; [|exact L]. split; [constructor; assumption|]. intros l' I'. destruct I'; cbn; lia. }
  split.
  - apply (clean_cons m _ _ (HEntry Indexed (EHeader (octets ":method", octets "GET"))) 1); [destruct m; vm_compute; reflexivity| |].
    + unfold raw. apply (C87_regular_fields m 4096 (Table 4096 []) [130] (RIndexed 2) (Some (octets ":method", octets "GET")) (Table 4096 [])).
      * apply repr_indexed; [apply (ONE 7 130); reflexivity|]. do 2 eexists. split; [reflexivity|lia].
      * apply octets_checked. vm_compute. reflexivity.
      * reflexivity.
      * discriminate.
      * discriminate.
    + apply (clean_cons m _ _ (HEntry IncrementalIndexing (EHeader (octets ":authority", octets "www.example.com"))) 14);
        [destruct m; vm_compute; reflexivity| |constructor].
      change (skipn (N.to_nat 1) raw) with (([0x41] ++ [0x8c] ++ data) ++ []).
      apply (C87_regular_fields m 4096 (Table 4096 []) _ (RLiteral Incremental (NameIndex 1) (octets "www.example.com"))
        (Some (octets ":authority", octets "www.example.com")) (Table 4096 host)).
      * apply repr_literal_indexed_name; [apply (ONE 6 65); reflexivity|do 2 eexists; (split; [reflexivity|lia])|discriminate|].
        apply string_huffman; [apply (ONE 7 140); reflexivity|do 2 eexists; (split; [reflexivity|lia])|apply octets_checked; vm_compute; reflexivity|].
        split; [apply octets_checked; vm_compute; reflexivity|]. exists 7%nat. split; [vm_compute; reflexivity|lia].
      * intros b [].
      * reflexivity.
      * discriminate.
      * intros k i v h E H. injection E as _ <- _. vm_compute in H. injection H as <-. discriminate.
  - apply reference_decoder_correct; [exact O|vm_compute; reflexivity].
Qed.

(* The encodings the four theorems above are about: 127 in three octets, with a
   table of 66 entries; the end-of-string symbol, and padding of zeros, in a
   string that is said to be Huffman coded. *)
Example C87_refuted_case :
  let t := DynTable (repeat ([97], []) 66) (66 * 33) 4096 in
  (rfc_int 7 [255; 128; 0] 127 /\ ~ rfc_int_shortest 7 [255; 128; 0] 127 /\ first_in 128 256 [255; 128; 0] /\
   resolve (Table (dt_max t) (dt_entries t)) 127 = Some ([97], []) /\
   decode_header Strict [255; 128; 0] t = Ok (HEntry Indexed (EHeader ([97], [])), 2)) /\
  (huffman_splits [0xff; 0xff; 0xff; 0xff] [EOS] [true; true] /\
   (forall s, is_octets s -> ~ rfc_huffman_encodes s [0xff; 0xff; 0xff; 0xff])) /\
  (huffman_splits [0] [48] [false; false; false] /\
   (forall s, is_octets s -> ~ rfc_huffman_encodes s [0])).
Proof.
  assert (NO : forall e syms pad, huffman_splits e syms pad -> pad <> repeat true (length pad) \/ In EOS syms ->
    forall s, is_octets s -> ~ rfc_huffman_encodes s e).
  { intros e syms pad SP BAD s O (_ & n & E & LN). apply splits_parses in SP.
    assert (P : parses (octets_bits e) s (repeat true n)).
    { split; [exact E|]. split; [apply Forall_forall; intros x X; specialize (O x X); unfold EOS; lia|].
      split; [rewrite repeat_length; exact LN|]. apply ones_no_code. exact LN. }
    destruct (parses_unique _ _ _ _ _ SP P) as [-> ->]. destruct BAD as [B|B].
    - apply B. rewrite repeat_length. reflexivity.
    - specialize (O EOS B). discriminate. }
  assert (S1 : huffman_splits [0xff; 0xff; 0xff; 0xff] [EOS] [true; true]) by apply C08_case_ok.
  assert (S2 : huffman_splits [0] [48] [false; false; false]).
  { split; [reflexivity|]. split; [intros s [<-|[]]; discriminate|]. split; [cbn; lia|].
    intros s S (x & X). apply (f_equal (@length bool)) in X. rewrite app_length in X. cbn [length] in X.
    pose proof (encode_table_at_ok s S) as (_ & _ & L5 & _). pose proof (code_len s). lia. }
  split; [|split; split; [exact S1| |exact S2|]].
  - split; [apply (rfc_int_long 7 255 [128; 0] 0); [reflexivity|reflexivity|]|].
    { apply (rfc_cont_more 128 [0] 0); [lia|]. apply rfc_cont_last. reflexivity. }
    split. { intros (_ & X). specialize (X [255; 0]). cbn [length] in X.
      assert (I : rfc_int 7 [255; 0] 127) by (apply (rfc_int_long 7 255 [0] 0); [reflexivity|reflexivity|apply rfc_cont_last; reflexivity]).
      specialize (X I). lia. }
    split; [do 2 eexists; split; [reflexivity|lia]|]. split; vm_compute; reflexivity.
  - apply (NO _ _ _ S1). right. left. reflexivity.
  - apply (NO _ _ _ S2). left. discriminate.
Qed.

Print Assumptions C87_accepted_exactly.
Print Assumptions C87_accepted_partial.
Print Assumptions C87_block_partial.
Print Assumptions C87_block_fields_partial.
Print Assumptions C87_index_zero_refuted.
Print Assumptions C87_misspelt_refuted.
Print Assumptions C87_overlong_refuted.
Print Assumptions C87_bad_huffman_refuted.
Print Assumptions C87_regular_fields.
Print Assumptions C87_nameless_refuted.
Print Assumptions C28_rfc_example_refuted.
