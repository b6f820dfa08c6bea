(* Property C91: which received data leads to undefined behaviour. *)
From Coq Require Import String.
From Coq Require Import ZArith NArith List Bool Lia ZifyBool ZifyNat ZifyN.
From Verif Require Import Base Arith Util IntRep Huffman StaticTable HeaderType DynTable HeaderEnc HeaderDec
  FrameHeader Frames FrameBuilder Ssl Client SpecBits SpecHuffman SpecInt SpecHpack SpecFrame SpecValid SpecExec SpecExecProofs SpecUnique
  IntRepProofs IntSpecProofs UtilProofs HuffmanProofs HuffmanDecProofs DynTableProofs StaticProofs FrameProofs
  HeaderProofs HeaderProofs2 BlockProofs PropHuffman PropHeader PropFrame PropBlock PropSsl PropClient PropEntry PropTerm
  PropAccept PropValid PropThrow PropBound.
Import ListNotations.
Local Open Scope string_scope.
Local Open Scope list_scope.
Local Open Scope N_scope.
Ltac Zify.zify_post_hook ::= Z.div_mod_to_equations.

(* ---- the data that leads to undefined behaviour ---- *)

(* An integer that runs off the end, or is too long or too large for the
   decoder. *)
Inductive int_broken (w : N) (raw : list N) : Prop :=
| int_truncated : (forall l rest v, raw = l ++ rest -> ~ rfc_int w l v) -> int_broken w raw
| int_large : forall l rest v, raw = l ++ rest -> rfc_int w l v ->
    (6 < length l)%nat \/ 2 ^ 31 + (2 ^ w - 1) <= v -> int_broken w raw.

(* A string whose length cannot be read or exceeds what is there; in a build
   with checked accesses also an empty string at the end of the data, and an
   empty Huffman coded one. *)
Inductive text_broken (m : ub_mode) (raw : list N) : Prop :=
| broken_length : int_broken 7 raw -> text_broken m raw
| broken_short : forall len k, int_read 7 raw len k -> N.of_nat (length raw) < k + len -> text_broken m raw
| broken_empty : forall len k, m = Strict -> int_read 7 raw len k -> first_in 0 128 raw -> N.of_nat (length raw) <= k -> text_broken m raw
| broken_empty_coded : forall len k pad, m = Strict -> int_read 7 raw len k -> first_in 128 256 raw -> k + len <= N.of_nat (length raw) ->
    huffman_splits (part k len raw) [] pad -> text_broken m raw.

Inductive field_broken (m : ub_mode) (t : table) (raw : list N) : Prop :=
| broken_none : raw = [] -> field_broken m t raw
| broken_index : forall w,
    (first_in 128 256 raw /\ w = 7) \/ (first_in 32 64 raw /\ w = 5) \/ (exists k, literal_pattern k raw /\ w = literal_prefix k) ->
    int_broken w raw -> field_broken m t raw
| broken_string : forall k i c, literal_pattern k raw -> int_read (literal_prefix k) raw i c ->
    (i = 0 \/ resolve_in used_static t i <> None) -> text_broken m (skipn (N.to_nat c) raw) -> field_broken m t raw
| broken_value : forall k i c n d, literal_pattern k raw -> int_read (literal_prefix k) raw i c ->
    (i = 0 \/ exists h, resolve_in used_static t i = Some h /\ fst h = []) ->
    text_read m (skipn (N.to_nat c) raw) n d -> text_broken m (skipn (N.to_nat (c + d)) raw) -> field_broken m t raw.

(* The first field that is not accepted is broken. *)
Inductive block_broken (m : ub_mode) (t : table) : list N -> Prop :=
| block_broken_here : forall raw, raw <> [] -> field_broken m t raw -> block_broken m t raw
| block_broken_later : forall raw e n, raw <> [] -> field_read m t raw e n -> block_broken m t (skipn (N.to_nat n) raw) ->
    block_broken m t raw.

(* A block all of whose fields are accepted. *)
Inductive block_read (m : ub_mode) (t : table) : list N -> header_block -> Prop :=
| block_read_nil : block_read m t [] []
| block_read_cons : forall raw e n b, field_read m t raw e n -> block_read m t (skipn (N.to_nat n) raw) b ->
    block_read m t raw (e :: b).

(* The header block fragment of a payload. *)
Definition fragment_of (c : content) : option (list N) :=
  match c with
  | CHeaders _ fragment _ | CPush _ fragment _ | CContinuation fragment => Some fragment
  | _ => None
  end.

Inductive frame_broken (m : ub_mode) (t : table) (type flags : N) (payload : list N) : Prop :=
| broken_format : In type [HEADERS; SETTINGS; PUSH_PROMISE] -> (forall c, ~ layout flags type payload c) ->
    frame_broken m t type flags payload
| broken_block : forall c fragment, layout flags type payload c -> fragment_of c = Some fragment -> block_broken m t fragment ->
    frame_broken m t type flags payload.

(* An entry to be added that is larger than the table is at that point. *)
Definition overflows (t : table) (b : header_block) : Prop :=
  exists applied e rest, b = applied ++ e :: rest /\ oversized (fold_left entry_effect applied t) e.

Inductive misbehaves (m : ub_mode) (t : table) (type flags : N) (payload : list N) : Prop :=
| misbehaves_parsing : frame_broken m t type flags payload -> misbehaves m t type flags payload
| misbehaves_rejected : forall c fragment x, type = HEADERS -> layout flags type payload c -> fragment_of c = Some fragment ->
    block_rejected m t fragment x -> misbehaves m t type flags payload
| misbehaves_update : forall c fragment b, layout flags type payload c -> fragment_of c = Some fragment ->
    block_read m t fragment b -> overflows t b -> misbehaves m t type flags payload.

(* ---- proofs: fields ---- *)

Definition is_ub {A} (r : res A) : Prop := exists u, r = UB u.

Lemma bind_ub : forall A B (r : res A) (f : A -> res B), is_ub (bind r f) -> is_ub r \/ exists a, r = Ok a /\ is_ub (f a).
Proof. intros A B [a|y|u|] f [v E]; cbn [bind] in E; try discriminate E; [right; exists a; split; [reflexivity|eexists; exact E]|left; eexists; reflexivity]. Qed.

Lemma ub_bind : forall A B (r : res A) (f : A -> res B), is_ub r -> is_ub (bind r f).
Proof. intros A B r f [u ->]. eexists. reflexivity. Qed.

Lemma dec_loop_outcome : forall rest acc k, is_ub (dec_loop rest acc k) \/ exists v, dec_loop rest acc k = Ok v.
Proof.
  induction rest as [|b rest IH]; intros acc k; cbn [dec_loop]; [left; eexists; reflexivity|].
  destruct (32 <=? k); [left; eexists; reflexivity|]. destruct (2 ^ 31 <=? _); [left; eexists; reflexivity|]. destruct (_ =? 128); [apply IH|right; eauto].
Qed.

Lemma int_outcome : forall w raw, is_ub (decode_int_and_length w raw) \/ exists v c, decode_int_and_length w raw = Ok (v, c).
Proof.
  intros w raw. unfold decode_int_and_length, decode_integer_value. destruct raw as [|b raw]; [left; eexists; reflexivity|].
  destruct (_ <? _); [right; cbn [bind]; eauto|]. destruct (dec_loop_outcome raw (N.land b (2 ^ w - 1)) 0) as [U|(v & ->)].
  - left. apply ub_bind. exact U.
  - right. cbn [bind]. eauto.
Qed.

Lemma int_ub_iff : forall w raw, prefix_ok w -> wf_bytes raw -> (is_ub (decode_int_and_length w raw) <-> int_broken w raw).
Proof.
  intros w raw P W. split.
  - intros [u U]. destruct (exec_int w raw) as [[v rest]|] eqn:E.
    + apply exec_int_sound in E; [|apply wf_octets; exact W]. destruct E as (l & -> & I).
      apply (int_large w _ l rest v eq_refl I).
      destruct (Nat.lt_ge_cases 6 (length l)) as [L|L]; [left; exact L|right].
      destruct (N.lt_ge_cases v (2 ^ 31 + (2 ^ w - 1))) as [B|B]; [|exact B]. exfalso.
      assert (D : decode_integer_value w (l ++ rest) = Ok v).
      { apply decode_integer_char; [exact P|exact W|]. exists l, rest. split; [reflexivity|]. split; [exact I|]. split; [unfold size; lia|exact B]. }
      unfold decode_int_and_length in U. rewrite D in U. discriminate U.
    + apply int_truncated. intros l rest v -> I. rewrite (exec_int_complete w l v I rest) in E. discriminate E.
  - intros B. destruct (int_outcome w raw) as [U|(v & c & D)]; [exact U|]. exfalso.
    apply int_read_iff in D; [|exact P|exact W]. destruct D as (l & rest & s & E & I & L & BD & _). destruct B as [T|l' rest' v' E' I' X].
    + exact (T l rest v E I).
    + rewrite E in E'. destruct (int_unique _ _ _ _ _ _ _ I I' E') as (EL & EV & _). rewrite EL, EV in *. lia.
Qed.

Lemma vrange_ub : forall v b n, is_ub (vrange v b n) <-> size v < b + n.
Proof. intros v b n. unfold vrange. destruct (N.leb_spec (b + n) (size v)); split; [intros [u U]; discriminate U|lia|lia|eexists; reflexivity]. Qed.

Lemma address_ub : forall m v i, is_ub (address_of m v i) <-> m = Strict /\ size v <= i.
Proof.
  intros [] v i; cbn [address_of]; [destruct (N.ltb_spec i (size v))|]; split; try (intros [u U]; discriminate U); try (intros [E L]; try discriminate E; lia).
  - intros _. split; [reflexivity|lia].
  - intros _. eexists. reflexivity.
Qed.

Lemma erase_ub : forall v n, is_ub (verase_front v n) <-> size v < n.
Proof. intros v n. unfold verase_front. destruct (N.leb_spec n (size v)); split; [intros [u U]; discriminate U|lia|lia|eexists; reflexivity]. Qed.

Lemma not_ub_ok : forall A (a : A), ~ is_ub (Ok a).
Proof. intros A a [u U]. discriminate U. Qed.

Lemma text_ub_iff : forall m raw, wf_bytes raw -> (is_ub (decode_string m raw) <-> text_broken m raw).
Proof.
  intros m raw W. unfold decode_string. split.
  - intros E. apply bind_ub in E. destruct E as [E|([len k] & I & E)]; [apply broken_length, int_ub_iff; [exact pok7|exact W|exact E]|].
    apply int_read_iff in I; [|exact pok7|exact W].
    destruct raw as [|b raw]; [apply int_read_bounds in I; [cbn in I; lia|exact pok7|exact W]|].
    rewrite vget_head in E. cbn [bind] in E. assert (B : b < 256) by (inversion W; assumption). rewrite high_bit1 in E by exact B.
    apply bind_ub in E. destruct E as [E|(s & _ & E)]; [|destruct (not_ub_ok _ _ E)].
    destruct (N.ltb_spec b 128) as [B1|B1]; cbn [negb] in E.
    + apply bind_ub in E. destruct E as [A|(u & _ & E)].
      * apply address_ub in A. destruct A as [M A]. apply (broken_empty m _ len k M I); [exists b, raw; split; [reflexivity|lia]|exact A].
      * apply (broken_short m _ len k I). apply vrange_ub. destruct (vrange (b :: raw) k len); try (destruct E as [v E]; discriminate E). eexists. reflexivity.
    + apply bind_ub in E. destruct E as [R|(enc & R & E)]; [apply (broken_short m _ len k I), vrange_ub; exact R|].
      apply vrange_ok in R. destruct R as [L ->].
      change (firstn (N.to_nat len) (skipn (N.to_nat k) (b :: raw))) with (part k len (b :: raw)) in E.
      destruct (huffman_decode_spec _ (part_wf k len _ W)) as [(syms & pad & PS & D)|(_ & D)]; rewrite D in E; cbn [bind] in E; [|destruct E as [v E]; discriminate E].
      apply bind_ub in E. destruct E as [A|(u & _ & E)]; [|destruct (not_ub_ok _ _ E)]. apply address_ub in A. destruct A as [M A].
      apply splits_parses in PS. destruct syms as [|sy syms]; [|cbn [map] in A; rewrite size_cons in A; lia].
      apply (broken_empty_coded m _ len k pad M I); [exists b, raw; split; [reflexivity|lia]|exact L|exact PS].
  - intros T. destruct T as [B|len k I L|len k M I (b & tl & -> & B) L|len k pad M I (b & tl & -> & B) L PS].
    + apply ub_bind, int_ub_iff; [exact pok7|exact W|exact B].
    + destruct raw as [|b raw]; [apply int_read_bounds in I; [cbn in I; lia|exact pok7|exact W]|].
      apply int_read_iff in I; [|exact pok7|exact W]. rewrite I. cbn [bind]. rewrite vget_head. cbn [bind]. apply ub_bind.
      destruct (negb _).
      * apply ub_bind, vrange_ub. exact L.
      * destruct (address_of m (b :: raw) k) as [u|x|u|] eqn:A; try (exfalso; exact (address_no_throw _ _ _ _ A)); try (eexists; reflexivity).
        -- cbn [bind]. assert (V : is_ub (vrange (b :: raw) k len)) by (apply vrange_ub; exact L). destruct V as [v ->]. eexists. reflexivity.
        -- destruct m; cbn [address_of] in A; [destruct (_ <? _)|]; discriminate A.
    + apply int_read_iff in I; [|exact pok7|exact W]. rewrite I. cbn [bind]. rewrite vget_head. cbn [bind].
      rewrite high_bit1 by lia. destruct (N.ltb_spec b 128); [|lia]. cbn [negb]. apply ub_bind, ub_bind, address_ub. split; [exact M|exact L].
    + apply int_read_iff in I; [|exact pok7|exact W]. rewrite I. cbn [bind]. rewrite vget_head. cbn [bind].
      rewrite high_bit1 by lia. destruct (N.ltb_spec b 128); [lia|]. cbn [negb]. rewrite vrange_part by exact L. cbn [bind].
      destruct (C08_huffman_decoder_outcome (part k len (b :: tl)) (wf_octets _ (part_wf k len _ W))) as (D & _).
      rewrite (D [] pad PS). cbn [bind]. apply ub_bind, ub_bind, address_ub. split; [exact M|]. cbn. lia.
Qed.

Lemma resolve_not_ub : forall i t, i <> 0 -> ~ is_ub (make_indexed_header i t).
Proof. intros i t NZ [u U]. rewrite indexed_header_spec in U by exact NZ. destruct (resolve_in _ _ _); discriminate U. Qed.

Theorem C91_field : forall m raw t, is_octets raw ->
  ((exists u, decode_header m raw t = UB u) <-> field_broken m (Table (dt_max t) (dt_entries t)) raw).
Proof.
  intros m raw t O. apply octets_wf in O. change (Table (dt_max t) (dt_entries t)) with (rfc_table t).
  change (exists u, decode_header m raw t = UB u) with (is_ub (decode_header m raw t)). unfold decode_header. split.
  - intros E. destruct raw as [|b raw]; [apply broken_none; reflexivity|]. rewrite vget_head in E. cbn [bind] in E.
    assert (B : b < 256) by (inversion O; assumption). rewrite check_prefix_spec in E by exact B. cbn [bind] in E.
    destruct (class_cases b raw B) as [(C & F)|[(C & F)|(k & C & F)]]; rewrite C in E.
    + change (hprefix_eqb Indexed SizeUpdate) with false in E. change (hprefix_eqb Indexed Indexed) with true in E. cbv iota in E. cbn [decode_index] in E.
      apply bind_ub in E. destruct E as [E|([i c] & I & E)].
      { apply broken_index with (w := 7); [left; split; [exact F|reflexivity]|]. apply int_ub_iff; [exact pok7|exact O|exact E]. }
      apply bind_ub in E. destruct E as [E|(h & _ & E)]; [|destruct (not_ub_ok _ _ E)]. exfalso.
      destruct (N.ltb_spec 0 i) as [P|P]; [|destruct (not_ub_ok _ _ E)]. apply (resolve_not_ub i t) in E; [exact E|lia].
    + change (hprefix_eqb SizeUpdate SizeUpdate) with true in E. cbv iota in E. unfold decode_max_size in E.
      apply bind_ub in E. destruct E as [E|([i c] & I & E)]; [|destruct (not_ub_ok _ _ E)].
      apply broken_index with (w := 5); [right; left; split; [exact F|reflexivity]|]. apply int_ub_iff; [unfold prefix_ok; lia|exact O|exact E].
    + rewrite lib_prefix_not_update, lib_prefix_not_indexed, decode_index_literal in E.
      apply bind_ub in E. destruct E as [E|([i c] & I & E)].
      { apply broken_index with (w := literal_prefix k); [right; right; exists k; split; [exact F|reflexivity]|].
        apply int_ub_iff; [apply literal_prefix_ok|exact O|exact E]. }
      apply int_read_iff in I; [|apply literal_prefix_ok|exact O].
      pose proof (int_read_bounds _ _ _ _ (literal_prefix_ok k) O I) as BD.
      apply bind_ub in E. destruct E as [E|(h & H & E)].
      { exfalso. destruct (N.ltb_spec 0 i) as [P|P]; [|destruct (not_ub_ok _ _ E)]. apply (resolve_not_ub i t) in E; [exact E|lia]. }
      assert (RS : i = 0 \/ resolve_in used_static (rfc_table t) i = Some h).
      { destruct (N.ltb_spec 0 i) as [P|P]; [right; apply resolve_some; [lia|exact H]|left; lia]. }
      rewrite erase_le in E by lia. cbn [bind] in E.
      apply bind_ub in E. destruct (N.leb_spec (size (fst h)) 0) as [Z|Z].
      * destruct E as [X|([[nm data2] used] & X & E)].
        { apply bind_ub in X. destruct X as [X|([nm' d'] & N & X)].
          - apply broken_string with (k := k) (i := i) (c := c); [exact F|exact I|destruct RS as [RS|RS]; [left; exact RS|right; congruence]|].
            apply text_ub_iff; [apply skipn_wf; exact O|exact X].
          - exfalso. apply text_read_iff in N; [|apply skipn_wf; exact O]. pose proof (text_read_bounds _ _ _ _ (skipn_wf _ _ O) N) as BE.
            rewrite erase_le in X by lia. exact (not_ub_ok _ _ X). }
        apply bind_ok in X. destruct X as ([nm' d'] & N & X). apply text_read_iff in N; [|apply skipn_wf; exact O].
        apply bind_ok in X. destruct X as (data' & D & X). apply erase_is_skipn in D. destruct D as [-> LD].
        apply Ok_pair in X. destruct X as [X <-]. injection X as <- <-. rewrite skipn_sum in E.
        apply bind_ub in E. destruct E as [V|([v d] & V & E)].
        { apply broken_value with (k := k) (i := i) (c := c) (n := nm') (d := d'); [exact F|exact I| |exact N|apply text_ub_iff; [apply skipn_wf; exact O|exact V]].
          destruct RS as [RS|RS]; [left; exact RS|right; exists h; split; [exact RS|apply size0; apply N.eqb_eq; lia]]. }
        exfalso. apply text_read_iff in V; [|apply skipn_wf; exact O]. pose proof (text_read_bounds _ _ _ _ (skipn_wf _ _ O) V) as BV.
        rewrite erase_le in E by lia. exact (not_ub_ok _ _ E).
      * destruct E as [X|([[nm data2] used] & X & E)]; [destruct (not_ub_ok _ _ X)|].
        apply Ok_pair in X. destruct X as [X <-]. injection X as <- <-.
        apply bind_ub in E. destruct E as [V|([v d] & V & E)].
        { apply broken_string with (k := k) (i := i) (c := c); [exact F|exact I|destruct RS as [RS|RS]; [left; exact RS|right; congruence]|].
          apply text_ub_iff; [apply skipn_wf; exact O|exact V]. }
        exfalso. apply text_read_iff in V; [|apply skipn_wf; exact O]. pose proof (text_read_bounds _ _ _ _ (skipn_wf _ _ O) V) as BV.
        rewrite erase_le in E by lia. exact (not_ub_ok _ _ E).
  - intros R.
    assert (H0 : raw = [] \/ exists b tl, raw = b :: tl /\ b < 256).
    { destruct raw as [|b tl]; [left; reflexivity|right]. exists b, tl. split; [reflexivity|inversion O; assumption]. }
    destruct H0 as [->|(b & tl & -> & B)]; [eexists; reflexivity|]. rewrite vget_head. cbn [bind]. rewrite check_prefix_spec by exact B. cbn [bind].
    assert (LIT : forall k, literal_pattern k (b :: tl) -> class_of b = lib_prefix k).
    { intros k F. destruct (literal_class k (b :: tl) [] F) as (b' & V0 & CP). rewrite app_nil_r, vget_head in V0. apply Ok_inj in V0. subst b'.
      rewrite check_prefix_spec in CP by exact B. apply Ok_inj in CP. exact CP. }
    destruct R as [R|w [[F ->]|[[F ->]|(k & F & ->)]] I|k i c F I RS BC|k i c n d F I RS N BC].
    + discriminate R.
    + destruct F as (b' & tl' & Q & BB). injection Q as <- <-.
      replace (class_of b) with Indexed by (unfold class_of; destruct (N.leb_spec 128 b); [reflexivity|lia]).
      change (hprefix_eqb Indexed SizeUpdate) with false. change (hprefix_eqb Indexed Indexed) with true. cbv iota. cbn [decode_index].
      apply ub_bind, int_ub_iff; [exact pok7|exact O|exact I].
    + destruct F as (b' & tl' & Q & BB). injection Q as <- <-.
      replace (class_of b) with SizeUpdate by (unfold class_of; destruct (N.leb_spec 128 b); [lia|]; destruct (N.leb_spec 64 b); [lia|]; destruct (N.leb_spec 32 b); [reflexivity|lia]).
      change (hprefix_eqb SizeUpdate SizeUpdate) with true. cbv iota. unfold decode_max_size.
      apply ub_bind, int_ub_iff; [unfold prefix_ok; lia|exact O|exact I].
    + rewrite (LIT k F), lib_prefix_not_update, lib_prefix_not_indexed, decode_index_literal.
      apply ub_bind, int_ub_iff; [apply literal_prefix_ok|exact O|exact I].
    + rewrite (LIT k F), lib_prefix_not_update, lib_prefix_not_indexed, decode_index_literal.
      pose proof (int_read_bounds _ _ _ _ (literal_prefix_ok k) O I) as BD.
      apply int_read_iff in I; [|apply literal_prefix_ok|exact O]. rewrite I. cbn [bind].
      assert (X : exists h, (if 0 <? i then make_indexed_header i t else Ok ([], [])) = Ok h).
      { destruct (N.ltb_spec 0 i) as [P|P]; [|eauto]. destruct RS as [->|RS]; [lia|].
        destruct (resolve_in used_static (rfc_table t) i) as [h|] eqn:Q; [|contradiction]. exists h. apply resolve_used; [lia|exact Q]. }
      destruct X as (h & ->). cbn [bind]. rewrite erase_le by lia. cbn [bind].
      assert (TH : is_ub (decode_string m (skipn (N.to_nat c) (b :: tl)))) by (apply text_ub_iff; [apply skipn_wf; exact O|exact BC]).
      unfold decode_header_name, decode_header_value. destruct TH as [u TH]. destruct (size (fst h) <=? 0); cbn [bind]; rewrite TH; eexists; reflexivity.
    + rewrite (LIT k F), lib_prefix_not_update, lib_prefix_not_indexed, decode_index_literal.
      pose proof (int_read_bounds _ _ _ _ (literal_prefix_ok k) O I) as BD. pose proof (text_read_bounds _ _ _ _ (skipn_wf _ _ O) N) as BE.
      apply int_read_iff in I; [|apply literal_prefix_ok|exact O]. rewrite I. cbn [bind].
      assert (X : exists h, (if 0 <? i then make_indexed_header i t else Ok ([], [])) = Ok h /\ fst h = []).
      { destruct RS as [->|(h & H & E)]; [exists ([], []); auto|]. exists h. assert (NZ : i <> 0) by (intros ->; discriminate H).
        destruct (N.ltb_spec 0 i); [|lia]. split; [apply resolve_used; assumption|exact E]. }
      destruct X as (h & -> & E). cbn [bind]. rewrite erase_le by lia. cbn [bind]. rewrite E. change (size [] <=? 0) with true. cbv iota.
      apply text_read_iff in N; [|apply skipn_wf; exact O].
      assert (TH : is_ub (decode_string m (skipn (N.to_nat (c + d)) (b :: tl)))) by (apply text_ub_iff; [apply skipn_wf; exact O|exact BC]).
      destruct TH as [u TH].
      unfold decode_header_name, decode_header_value. rewrite N. cbn [bind]. rewrite erase_le by lia. cbn [bind]. rewrite skipn_sum, TH. eexists. reflexivity.
Qed.

Theorem C91_block : forall m raw t, is_octets raw ->
  ((exists u, decode_block m raw t = UB u) <-> block_broken m (Table (dt_max t) (dt_entries t)) raw).
Proof.
  intros m raw t O. change (exists u, decode_block m raw t = UB u) with (is_ub (decode_block m raw t)). split.
  - revert O. remember (length raw) as n eqn:LN. revert raw LN. induction n as [n IH] using lt_wf_ind. intros raw -> O E.
    destruct raw as [|b raw]; [destruct (not_ub_ok _ _ E)|]. rewrite decode_block_step in E; [|apply octets_wf; exact O|discriminate].
    apply bind_ub in E. destruct E as [E|([e k] & D & E)].
    + apply block_broken_here; [discriminate|]. apply C91_field; assumption.
    + apply bind_ub in E. destruct E as [E|(bl & _ & E)]; [|destruct (not_ub_ok _ _ E)].
      pose proof (decode_header_bounds _ _ _ _ _ (octets_wf _ O) D) as BD.
      apply block_broken_later with (e := e) (n := k); [discriminate|apply C87_accepted_exactly; assumption|].
      eapply IH; [|reflexivity| |exact E].
      * rewrite skipn_length. unfold size in BD. cbn [length] in *. lia.
      * apply wf_octets, skipn_wf, octets_wf. exact O.
  - intros R. induction R as [raw NE F|raw e n NE F R IH].
    + rewrite decode_block_step; [|apply octets_wf; exact O|exact NE]. apply C91_field in F; [|exact O]. apply ub_bind. exact F.
    + rewrite decode_block_step; [|apply octets_wf; exact O|exact NE]. apply C87_accepted_exactly in F; [|exact O]. rewrite F. cbn [bind].
      apply ub_bind, IH. apply wf_octets, skipn_wf, octets_wf. exact O.
Qed.

Lemma block_read_iff : forall m raw t b, is_octets raw ->
  (decode_block m raw t = Ok b <-> block_read m (Table (dt_max t) (dt_entries t)) raw b).
Proof.
  intros m raw t b O. split.
  - revert O b. remember (length raw) as n eqn:LN. revert raw LN. induction n as [n IH] using lt_wf_ind. intros raw -> O b E.
    destruct raw as [|x raw]; [apply Ok_inj in E; subst b; constructor|]. rewrite decode_block_step in E; [|apply octets_wf; exact O|discriminate].
    apply bind_ok in E. destruct E as ([e k] & D & E). apply bind_ok in E. destruct E as (bl & R & E). apply Ok_inj in E. subst b.
    pose proof (decode_header_bounds _ _ _ _ _ (octets_wf _ O) D) as BD.
    apply block_read_cons with (n := k); [apply C87_accepted_exactly; assumption|].
    eapply IH; [|reflexivity| |exact R].
    * rewrite skipn_length. unfold size in BD. cbn [length] in *. lia.
    * apply wf_octets, skipn_wf, octets_wf. exact O.
  - intros R. induction R as [|raw e n b F R IH]; [reflexivity|].
    apply C87_accepted_exactly in F; [|exact O].
    assert (NE : raw <> []) by (intros ->; discriminate F).
    rewrite decode_block_step; [|apply octets_wf; exact O|exact NE]. rewrite F. cbn [bind].
    rewrite IH; [reflexivity|]. apply wf_octets, skipn_wf, octets_wf. exact O.
Qed.

(* ---- proofs: frames ---- *)

Lemma padded_same : forall b ct ct' pad pad', padded_payload b ct pad = padded_payload b ct' pad' -> ct = ct'.
Proof.
  intros [] ct ct' pad pad' E; [|exact E]. unfold padded_payload in E. cbn [app] in E. injection E as L E. apply Nat2N.inj in L.
  pose proof (f_equal (@length N) E) as EL. rewrite !app_length in EL. apply app_len_inj in E; [apply E|lia].
Qed.

(* Whether the padding fits. *)
Lemma padding_cases : forall fl raw, wf_bytes raw ->
  (exists ct padding, padding_fits fl padding /\ raw = padded_payload (has_padded fl) ct padding /\ wf_bytes ct) \/
  (has_padded fl = true /\ is_ub (split_padding raw) /\ forall ct padding, raw <> padded_payload true ct padding).
Proof.
  intros fl raw W. destruct (has_padded fl) eqn:P.
  - assert (X : (raw = [] \/ exists p data, raw = p :: data /\ size data < p) \/ ~ (raw = [] \/ exists p data, raw = p :: data /\ size data < p)).
    { destruct raw as [|p data]; [left; left; reflexivity|]. destruct (N.ltb_spec (size data) p) as [L|L]; [left; right; eauto|right].
      intros [X|(p' & d' & X & L')]; [discriminate X|]. injection X as <- <-. lia. }
    destruct X as [X|X].
    + right. split; [reflexivity|]. split.
      * pose proof (split_padded raw W) as S. destruct X as [->|(p & data & -> & L)]; [eexists; reflexivity|].
        cbv beta iota in S. destruct (N.ltb_spec (size data) p); [exact S|lia].
      * intros ct padding ->. cbn [padded_payload app] in X. destruct X as [X|(p & d & X & L)]; [discriminate X|]. injection X as <- <-.
        unfold size in L. rewrite app_length in L. lia.
    + left. destruct (padding_of fl raw W) as (ct & padding & PF & E & WC); [intros _; exact X|]. exists ct, padding. rewrite P in E. auto.
  - left. destruct (padding_of fl raw W) as (ct & padding & PF & E & WC); [congruence|]. exists ct, padding. rewrite P in E. auto.
Qed.

Lemma split_priority_ub : forall raw, size raw < 5 -> is_ub (headers_split_priority raw).
Proof.
  intros raw L. destruct raw as [|a [|b [|c [|d [|e raw]]]]]; try (eexists; reflexivity). rewrite !size_cons in L. lia.
Qed.

Lemma headers_cases : forall m t len fl r sid raw, wf_bytes raw ->
  (exists c fr pad prio, layout fl HEADERS raw c /\ fragment_of c = Some fr /\ wf_bytes fr /\
     headers_decode_payload m (FH len HEADERS fl r sid) raw t = let* b := decode_block m fr t in Ok (pad, prio, b)) \/
  ((forall c, ~ layout fl HEADERS raw c) /\ is_ub (headers_decode_payload m (FH len HEADERS fl r sid) raw t)).
Proof.
  intros m t len fl r sid raw W. destruct (padding_cases fl raw W) as [(ct & padding & PF & E & WC)|(P & S & N)].
  - destruct (fits_size _ _ PF) as [SZ IFP]. destruct (has_priority fl) eqn:PR.
    + destruct (N.lt_ge_cases (size ct) 5) as [L|L].
      * right. split.
        -- intros c X. inversion X as [|fr pad PF' PR' QT Q|e d w fr pad PF' PR' HE HD HW QT Q| | | | | | | |]; [congruence|].
           rewrite E in Q. apply padded_same in Q. subst ct. unfold priority_fields in L. rewrite !size_app, be_octets_size in L. change (size [w]) with 1 in L. lia.
        -- unfold headers_decode_payload. cbn [fh_flags]. rewrite padded_flag, priority_flag, PR. subst raw.
           destruct (has_padded fl); [rewrite padded_split by exact SZ|]; cbn [bind padded_payload]; apply ub_bind, split_priority_ub; exact L.
      * left. destruct (word_of ct WC ltac:(lia)) as (e & d & rest & RE & RD & ->).
        destruct rest as [|w fr]; [rewrite size_app, be_octets_size, size_nil in L; lia|].
        exists (CHeaders (Some (e, d, w)) fr padding), fr.
        replace (be_octets 4 (e * 2 ^ 31 + d) ++ w :: fr) with (priority_fields e d w ++ fr) in *
          by (unfold priority_fields; rewrite <- app_assoc; reflexivity).
        assert (WW : w < 2 ^ 8).
        { apply wf_bytes_app in WC. destruct WC as [WC _]. unfold priority_fields in WC. apply wf_bytes_app in WC. destruct WC as [_ WC]. exact (Forall_inv WC). }
        pose proof (headers_parse_any m t fl len r sid e d w fr padding SZ RE RD) as Q. unfold headers_octets in Q. rewrite PR in Q. rewrite <- E in Q.
        eexists _, _. split; [rewrite E; apply layout_headers_priority; assumption|]. split; [reflexivity|]. split; [apply wf_bytes_app in WC; apply WC|exact Q].
    + left. exists (CHeaders None ct padding), ct.
      pose proof (headers_parse_any m t fl len r sid 0 0 0 ct padding SZ ltac:(lia) ltac:(reflexivity)) as Q. unfold headers_octets in Q. rewrite PR in Q.
      cbn [app] in Q. rewrite <- E in Q. eexists _, _. split; [rewrite E; apply layout_headers; assumption|]. split; [reflexivity|]. split; [exact WC|exact Q].
  - right. split.
    + intros c X. inversion X as [|fr pad PF' PR' QT Q|e d w fr pad PF' PR' HE HD HW QT Q| | | | | | | |]; subst; rewrite P in N; eapply N; reflexivity.
    + unfold headers_decode_payload. cbn [fh_flags]. rewrite padded_flag, P. apply ub_bind. exact S.
Qed.

Lemma push_cases : forall m t len fl r sid raw, wf_bytes raw ->
  (exists c fr rr pr pad, layout fl PUSH_PROMISE raw c /\ fragment_of c = Some fr /\ wf_bytes fr /\
     push_promise_decode_payload m (FH len PUSH_PROMISE fl r sid) raw t = let* b := decode_block m fr t in Ok (PushPromise rr pr b pad)) \/
  ((forall c, ~ layout fl PUSH_PROMISE raw c) /\ is_ub (push_promise_decode_payload m (FH len PUSH_PROMISE fl r sid) raw t)).
Proof.
  intros m t len fl r sid raw W. destruct (padding_cases fl raw W) as [(ct & padding & PF & E & WC)|(P & S & N)].
  - destruct (fits_size _ _ PF) as [SZ IFP]. destruct (N.lt_ge_cases (size ct) 4) as [L|L].
    + right. split.
      * intros c X. inversion X as [| | | | | |rr pr fr pad PF' RR RP QT Q| | | |].
        rewrite E in Q. apply padded_same in Q. subst ct. unfold push_promise_contents in L. rewrite size_app, be_octets_size in L. lia.
      * unfold push_promise_decode_payload. cbn [fh_flags]. rewrite padded_flag. subst raw.
        assert (U : forall pad, is_ub (let* b0 := vget ct 0 in let* x := bytes2integral 4 ct 0 in let* data' := verase_front ct 4 in
          let* b := decode_block m data' t in Ok (PushPromise (extract_high_bit RESERVED_BITS 8 b0) (extract_low_bit STREAM_ID_BITS x) b pad))).
        { intros pad. destruct ct as [|a [|b [|c [|d ct]]]]; try (eexists; reflexivity). rewrite !size_cons in L. lia. }
        destruct (has_padded fl); [rewrite padded_split by exact SZ|]; cbn [bind padded_payload]; apply U.
    + left. destruct (word_of ct WC L) as (rr & pr & fr & RR & RP & ->).
      exists (CPush pr fr padding), fr, rr, pr, padding.
      pose proof (push_parse_any m t fl len r sid rr pr fr padding SZ RR RP) as Q. unfold push_promise_octets, push_promise_contents in Q.
      rewrite <- E, IFP in Q. split; [rewrite E; apply (layout_push fl rr); assumption|]. split; [reflexivity|]. split; [apply wf_bytes_app in WC; apply WC|exact Q].
  - right. split.
    + intros c X. inversion X as [| | | | | |rr pr fr pad PF' RR RP QT Q| | | |]; subst; rewrite P in N; eapply N; reflexivity.
    + unfold push_promise_decode_payload. cbn [fh_flags]. rewrite padded_flag, P. apply ub_bind. exact S.
Qed.

(* A payload has one fragment. *)
Lemma fragment_unique : forall fl ty raw c c' fr fr', layout fl ty raw c -> layout fl ty raw c' ->
  fragment_of c = Some fr -> fragment_of c' = Some fr' -> fr = fr'.
Proof.
  intros fl ty raw c c' fr fr' L L' F F'.
  destruct L as [data padding PF|fr0 padding PF PR|e d w fr0 padding PF PR E D W|e d w E D W|code C|ps P
    |rr pr fr0 padding PF R P|data L8|rr last code debug R L C|rr inc R I|fr0]; cbn [fragment_of] in F; try discriminate F; apply (f_equal (fun o => match o with Some x => x | None => [] end)) in F; cbn in F; subst fr0.
  - inversion L' as [|fr1 pad PF' PR' QT Q|e d w fr1 pad PF' PR' HE HD HW QT Q| | | | | | | |]; [|congruence]. subst c'. apply padded_same in Q. cbn in F'. congruence.
  - inversion L' as [|fr1 pad PF' PR' QT Q|e1 d1 w1 fr1 pad PF' PR' HE HD HW QT Q| | | | | | | |]; [congruence|]. subst c'. apply padded_same in Q. cbn in F'.
    pose proof (f_equal (skipn 5) Q : fr1 = fr). congruence.
  - inversion L' as [| | | | | |rr1 pr1 fr1 pad PF' RR RP QT Q| | | |]. subst c'. apply padded_same in Q. cbn in F'. pose proof (f_equal (skipn 4) Q : fr1 = fr). congruence.
  - inversion L'. subst. cbn in F'. congruence.
Qed.

Lemma settings_octets_mod : forall ps, size (settings_octets ps) mod 6 = 0.
Proof.
  intros ps. replace (size (settings_octets ps)) with (N.of_nat (length ps) * 6); [apply N.mod_mul; discriminate|].
  induction ps as [|p ps IH]; [reflexivity|]. unfold settings_octets in *. cbn [flat_map]. rewrite !size_app, !be_octets_size, <- IH. cbn [length]. lia.
Qed.

Lemma settings_none : forall fl raw, wf_bytes raw -> (size raw mod 6 <> 0 <-> forall c, ~ layout fl SETTINGS raw c).
Proof.
  intros fl raw W. split.
  - intros M c X. inversion X; subst. apply M, settings_octets_mod.
  - intros N M. destruct (settings_of_octets (N.to_nat (size raw / 6)) raw W) as (ps & E & P & _).
    { rewrite N2Nat.id. rewrite (N.div_mod (size raw) 6) at 1 by discriminate. lia. }
    apply (N (CSettings ps)). rewrite E. apply layout_settings. exact P.
Qed.

(* When building a frame is undefined. *)
Theorem C91_frame : forall m h raw t, is_octets raw ->
  ((exists u, build_frame m h raw t = UB u) <->
   frame_broken m (Table (dt_max t) (dt_entries t)) (fh_type h) (fh_flags h) raw).
Proof.
  intros m [len ty fl r sid] raw t O. cbn [fh_type fh_flags]. pose proof (octets_wf _ O) as W.
  change (exists u, build_frame m (FH len ty fl r sid) raw t = UB u) with (is_ub (build_frame m (FH len ty fl r sid) raw t)).
  assert (BF : forall T fr, In T [HEADERS; PUSH_PROMISE; CONTINUATION] -> ty = T -> forall c, layout fl T raw c -> fragment_of c = Some fr -> wf_bytes fr ->
    (is_ub (decode_block m fr t) <-> frame_broken m (Table (dt_max t) (dt_entries t)) ty fl raw)).
  { intros T fr IT -> c L F WF. split.
    - intros U. apply (broken_block _ _ _ _ _ c fr L F). apply C91_block; [apply wf_octets; exact WF|exact U].
    - intros [_ N|c' fr' L' F' B]; [destruct (N c L)|]. rewrite (fragment_unique _ _ _ _ _ _ _ L L' F F'). apply C91_block; [|exact B].
      rewrite <- (fragment_unique _ _ _ _ _ _ _ L L' F F'). apply wf_octets. exact WF. }
  assert (NF : ty <> HEADERS -> ty <> SETTINGS -> ty <> PUSH_PROMISE -> ty <> CONTINUATION ->
    ~ frame_broken m (Table (dt_max t) (dt_entries t)) ty fl raw).
  { intros N1 N2 N3 N4 [I _|c fr L F _].
    - cbn in I. intuition congruence.
    - destruct L; try discriminate F; congruence. }
  destruct (N.ltb_spec 9 ty) as [T9|T9].
  { rewrite C46_unknown_type by exact T9. split; [intros [u U]; discriminate U|]. intros B. exfalso. apply NF in B; [exact B| | | |];
      intros ->; clear -T9; unfold HEADERS, SETTINGS, PUSH_PROMISE, CONTINUATION in T9; lia. }
  assert (C : In ty [DATA; HEADERS; PRIORITY; RST_STREAM; SETTINGS; PUSH_PROMISE; PING; GOAWAY; WINDOW_UPDATE; CONTINUATION]).
  { clear -T9. unfold DATA, HEADERS, PRIORITY, RST_STREAM, SETTINGS, PUSH_PROMISE, PING, GOAWAY, WINDOW_UPDATE, CONTINUATION. cbn. lia. }
  destruct C as [<-|[<-|[<-|[<-|[<-|[<-|[<-|[<-|[<-|[<-|[]]]]]]]]]]].
  - split; [intros [u U]; discriminate U|intros B; destruct (NF ltac:(discriminate) ltac:(discriminate) ltac:(discriminate) ltac:(discriminate) B)].
  - change (build_frame m (FH len HEADERS fl r sid) raw t) with (build_headers_frame m (FH len HEADERS fl r sid) raw t).
    assert (U : is_ub (build_headers_frame m (FH len HEADERS fl r sid) raw t) <-> is_ub (headers_decode_payload m (FH len HEADERS fl r sid) raw t)).
    { unfold build_headers_frame, parse_headers. destruct (headers_decode_payload m (FH len HEADERS fl r sid) raw t) as [[[a b] c]|x|u|]; cbn [bind];
        (split; intros [v V]; try discriminate V; eexists; reflexivity). }
    rewrite U. destruct (headers_cases m t len fl r sid raw W) as [(c & fr & pad & prio & L & F & WF & Q)|(N & S)].
    + rewrite <- (BF HEADERS fr ltac:(cbn; auto) eq_refl c L F WF), Q. split; [|apply ub_bind].
      intros V. apply bind_ub in V. destruct V as [V|(b & _ & V)]; [exact V|destruct (not_ub_ok _ _ V)].
    + split; intros _; [apply broken_format; [cbn; auto|exact N]|exact S].
  - split; [|intros B; destruct (NF ltac:(discriminate) ltac:(discriminate) ltac:(discriminate) ltac:(discriminate) B)]. intros [u E]. exfalso.
    destruct (Nat.lt_ge_cases (length raw) 5) as [L|L].
    + change (build_frame m (FH len PRIORITY fl r sid) raw t) with (parse_priority (FH len PRIORITY fl r sid) raw) in E.
      unfold parse_priority, priority_construct_payload in E. destruct (N.ltb_spec (size raw) 5) as [_|X]; [|unfold size in X; lia]. discriminate E.
    + destruct (Nat.eq_dec (length raw) 5) as [L5|L5].
      * destruct (word_of raw W ltac:(unfold size; lia)) as (e & d & rest & RE & RD & ->). rewrite app_length in L5. cbn [length be_octets] in L5.
        destruct rest as [|w [|y rest]]; [cbn in L5; lia| |cbn in L5; lia].
        apply wf_bytes_app in W. destruct (C88_well_formed_accepted m t (FH len PRIORITY fl r sid) _ (CPriority e d w)
          (layout_priority fl e d w RE RD (Forall_inv (proj2 W))) I) as (f & F & _). unfold priority_fields in F. congruence.
      * destruct (C88_size_refuted m t (FH len PRIORITY fl r sid) raw O) as [(f & F & _) _]; [right; left; split; [reflexivity|lia]|]. congruence.
  - split; [|intros B; destruct (NF ltac:(discriminate) ltac:(discriminate) ltac:(discriminate) ltac:(discriminate) B)]. intros [u E]. exfalso.
    change (build_frame m (FH len RST_STREAM fl r sid) raw t) with (parse_rst_stream (FH len RST_STREAM fl r sid) raw) in E.
    unfold parse_rst_stream, bytes2integral in E. destruct (N.ltb_spec (size raw) 4) as [X|X]; [discriminate E|].
    rewrite vrange_part in E by lia. discriminate E.
  - destruct (C40_settings_lengths_partial m (FH len SETTINGS fl r sid) t raw eq_refl W) as [A B]. split.
    + intros [u U]. apply broken_format; [cbn; auto|]. apply settings_none; [exact W|]. intros M. destruct (A M) as (ps & h' & mp & _ & Q & _). congruence.
    + intros [_ N|c fr L F _]; [|inversion L; subst c; discriminate F]. apply B. apply (settings_none fl); assumption.
  - change (build_frame m (FH len PUSH_PROMISE fl r sid) raw t) with (parse_push_promise m (FH len PUSH_PROMISE fl r sid) raw t).
    unfold parse_push_promise. destruct (push_cases m t len fl r sid raw W) as [(c & fr & rr & pr & pad & L & F & WF & Q)|(N & S)].
    + rewrite <- (BF PUSH_PROMISE fr ltac:(cbn; auto) eq_refl c L F WF), Q. split.
      * intros V. apply bind_ub in V. destruct V as [V|(b & _ & V)]; [|destruct (not_ub_ok _ _ V)].
        apply bind_ub in V. destruct V as [V|(b & _ & V)]; [exact V|destruct (not_ub_ok _ _ V)].
      * intros V. apply ub_bind, ub_bind. exact V.
    + split; intros _; [apply broken_format; [cbn; auto|exact N]|apply ub_bind; exact S].
  - split; [intros [u U]; discriminate U|intros B; destruct (NF ltac:(discriminate) ltac:(discriminate) ltac:(discriminate) ltac:(discriminate) B)].
  - split; [|intros B; destruct (NF ltac:(discriminate) ltac:(discriminate) ltac:(discriminate) ltac:(discriminate) B)]. intros [u E]. exfalso.
    change (build_frame m (FH len GOAWAY fl r sid) raw t) with (parse_goaway (FH len GOAWAY fl r sid) raw) in E.
    unfold parse_goaway, goaway_construct_payload, bytes2integral in E. destruct (N.ltb_spec (size raw) 8) as [X|X]; [discriminate E|].
    rewrite (vrange_part raw 0 4), (vrange_part raw 4 4) in E by lia. cbn [bind] in E. discriminate E.
  - split; [|intros B; destruct (NF ltac:(discriminate) ltac:(discriminate) ltac:(discriminate) ltac:(discriminate) B)]. intros [u E]. exfalso.
    change (build_frame m (FH len WINDOW_UPDATE fl r sid) raw t) with (parse_window_update (FH len WINDOW_UPDATE fl r sid) raw) in E.
    unfold parse_window_update in E. destruct raw as [|b raw]; [discriminate E|]. cbn [bind] in E.
    destruct (N.eqb_spec (size (b :: raw)) 4) as [X|X]; cbn [negb] in E; [|discriminate E].
    unfold bytes2integral in E. rewrite vrange_part in E by lia. cbn [bind] in E. unfold validate_window_size in E. destruct (_ <? _); discriminate E.
  - change (build_frame m (FH len CONTINUATION fl r sid) raw t) with (parse_continuation m (FH len CONTINUATION fl r sid) raw t).
    unfold parse_continuation. rewrite <- (BF CONTINUATION raw ltac:(cbn; auto) eq_refl _ (layout_continuation fl raw) eq_refl W). split; [|apply ub_bind].
    intros V. apply bind_ub in V. destruct V as [V|(b & _ & V)]; [exact V|destruct (not_ub_ok _ _ V)].
Qed.

Lemma padded_wf : forall b ct pad, wf_bytes (padded_payload b ct pad) -> wf_bytes ct.
Proof.
  intros [] ct pad W; [|exact W]. unfold padded_payload in W. apply wf_bytes_app in W. destruct W as [_ W]. apply wf_bytes_app in W. apply W.
Qed.

Lemma fragment_wf : forall fl ty raw c fr, layout fl ty raw c -> fragment_of c = Some fr -> wf_bytes raw -> wf_bytes fr.
Proof.
  intros fl ty raw c fr L F W. destruct L as [data padding PF|fr0 padding PF PR|e d w fr0 padding PF PR E D WW|e d w E D WW|code C|ps P
    |rr pr fr0 padding PF R P|data L8|rr last code debug R L C|rr inc R I|fr0]; cbn [fragment_of] in F; try discriminate F;
    apply (f_equal (fun o => match o with Some x => x | None => [] end)) in F; cbn in F; subst fr0.
  - exact (padded_wf _ _ _ W).
  - apply padded_wf, wf_bytes_app in W. apply W.
  - apply padded_wf, wf_bytes_app in W. apply W.
  - exact W.
Qed.

(* ---- receiving ---- *)

Lemma update_block_ub : forall b T, dt_ok T -> Forall (fun e => ~ mismatched e) b ->
  (is_ub (fst (update_block T b)) <-> overflows (rfc_table T) b).
Proof.
  induction b as [|e b IH]; intros T K C.
  - split; [intros U; destruct (not_ub_ok _ _ U)|]. intros (applied & e & rest & E & _). destruct applied; discriminate E.
  - cbn [update_block]. destruct (update_entry_cases T e K) as [(T1 & U & K1 & R1 & NM & NO)|[(M & U)|(O & U)]]; rewrite U.
    + rewrite (IH T1 K1 (Forall_inv_tail C)), R1. split.
      * intros (applied & e' & rest & -> & O). exists (e :: applied), e', rest. split; [reflexivity|exact O].
      * intros (applied & e' & rest & E & O). destruct applied as [|a applied]; cbn [app fold_left] in *; injection E as <- ->; [contradiction|].
        exists applied, e', rest. split; [reflexivity|exact O].
    + destruct (Forall_inv C M).
    + split; [|intros _; eexists; reflexivity]. intros _. exists [], e, b. split; [reflexivity|exact O].
Qed.

Lemma coherent_matched : forall b, Forall coherent b -> Forall (fun e => ~ mismatched e) b.
Proof. intros b. apply Forall_impl. intros [[] []] C M; cbn in *; contradiction. Qed.

Lemma decoded_matched : forall m raw t b, is_octets raw -> decode_block m raw t = Ok b -> Forall (fun e => ~ mismatched e) b.
Proof. intros m raw t b O D. apply coherent_matched. eapply block_coherent; eassumption. Qed.

(* What the update of the table does once the frame has been built. *)
Lemma update_ub : forall m h raw t f, is_octets raw -> dt_ok t -> build_frame m h raw t = Ok f ->
  (is_ub (fst (update_frame t f)) <-> misbehaves m (rfc_table t) (fh_type h) (fh_flags h) raw).
Proof.
  intros m [len ty fl r sid] raw t f O K B. cbn [fh_type fh_flags]. pose proof (octets_wf _ O) as W.
  assert (NB : ~ frame_broken m (rfc_table t) ty fl raw).
  { intros X. apply (C91_frame m (FH len ty fl r sid) raw t O) in X. destruct X as [u X]. congruence. }
  destruct (C46_dispatch _ _ _ _ _ B) as (T9 & _ & FT & _). cbn [fh_type] in T9, FT.
  assert (BLK : forall c fr b, layout fl ty raw c -> fragment_of c = Some fr -> wf_bytes fr -> decode_block m fr t = Ok b ->
    (is_ub (fst (update_block t b)) <-> misbehaves m (rfc_table t) ty fl raw)).
  { intros c fr b L F WF D. apply wf_octets in WF. rewrite (update_block_ub b t K (decoded_matched _ _ _ _ WF D)). split.
    - intros V. apply (misbehaves_update _ _ _ _ _ c fr b L F); [apply block_read_iff; assumption|exact V].
    - intros [X|c' fr' x T' L' F' R|c' fr' b' L' F' R V]; [contradiction| |]; rewrite <- (fragment_unique _ _ _ _ _ _ _ L L' F F') in R.
      + apply C89_block in R; [|exact WF]. congruence.
      + apply block_read_iff in R; [|exact WF]. rewrite D in R. apply Ok_inj in R. subst b'. exact V. }
  assert (OTH : ty <> HEADERS -> ty <> PUSH_PROMISE -> ty <> CONTINUATION -> ~ misbehaves m (rfc_table t) ty fl raw).
  { intros N1 N2 N3 [X|c' fr' x T' L' F' R|c' fr' b' L' F' R V]; [contradiction|contradiction|]. destruct L'; try discriminate F'; congruence. }
  unfold update_frame. rewrite FT.
  assert (C : In ty [HEADERS; PUSH_PROMISE; CONTINUATION; SETTINGS] \/ ~ In ty [HEADERS; PUSH_PROMISE; CONTINUATION; SETTINGS]).
  { destruct (in_dec N.eq_dec ty [HEADERS; PUSH_PROMISE; CONTINUATION; SETTINGS]); auto. }
  destruct C as [[<-|[<-|[<-|[<-|[]]]]]|C].
  - change (HEADERS =? T_HEADERS) with true. cbv iota.
    change (build_frame m (FH len HEADERS fl r sid) raw t) with (build_headers_frame m (FH len HEADERS fl r sid) raw t) in B.
    unfold build_headers_frame, parse_headers in B.
    destruct (headers_cases m t len fl r sid raw W) as [(c & fr & pad & prio & L & F & WF & Q)|(N & [u S])]; [|rewrite S in B; discriminate B].
    rewrite Q in B. destruct (decode_block m fr t) as [b|x|u|] eqn:D; cbn [bind] in B; try discriminate B; apply Ok_inj in B; subst f.
    + apply (BLK c fr b L F WF D).
    + cbn [fst]. split; [|intros _; eexists; reflexivity]. intros _. apply (misbehaves_rejected _ _ _ _ _ c fr x eq_refl L F). apply C89_block; [apply wf_octets; exact WF|exact D].
  - change (PUSH_PROMISE =? T_HEADERS) with false. change (PUSH_PROMISE =? T_PUSH_PROMISE) with true. cbv iota.
    change (build_frame m (FH len PUSH_PROMISE fl r sid) raw t) with (parse_push_promise m (FH len PUSH_PROMISE fl r sid) raw t) in B.
    unfold parse_push_promise in B.
    destruct (push_cases m t len fl r sid raw W) as [(c & fr & rr & pr & pad & L & F & WF & Q)|(N & [u S])]; [|rewrite S in B; discriminate B].
    rewrite Q in B. destruct (decode_block m fr t) as [b|x|u|] eqn:D; cbn [bind] in B; try discriminate B. apply Ok_inj in B. subst f.
    cbn [pp_block]. apply (BLK c fr b L F WF D).
  - change (CONTINUATION =? T_HEADERS) with false. change (CONTINUATION =? T_PUSH_PROMISE) with false. change (CONTINUATION =? T_CONTINUATION) with true. cbv iota.
    change (build_frame m (FH len CONTINUATION fl r sid) raw t) with (parse_continuation m (FH len CONTINUATION fl r sid) raw t) in B.
    unfold parse_continuation in B. destruct (decode_block m raw t) as [b|x|u|] eqn:D; cbn [bind] in B; try discriminate B. apply Ok_inj in B. subst f.
    apply (BLK (CContinuation raw) raw b (layout_continuation fl raw) eq_refl W D).
  - change (SETTINGS =? T_HEADERS) with false. change (SETTINGS =? T_PUSH_PROMISE) with false. change (SETTINGS =? T_CONTINUATION) with false.
    change (SETTINGS =? T_SETTINGS) with true. cbv iota.
    split; [|intros X; destruct (OTH ltac:(discriminate) ltac:(discriminate) ltac:(discriminate) X)]. intros U. exfalso.
    destruct (C46_dispatch _ _ _ _ _ B) as (_ & _ & _ & _ & _ & _ & _ & S). destruct (S eq_refl) as (mp & ->). unfold mk_settings in U.
    destruct (sm_find mp 1) as [n|]; [rewrite dt_update_spec in U by exact K|]; exact (not_ub_ok _ _ U).
  - assert (N1 : ty <> HEADERS) by (intros ->; apply C; cbn; auto). assert (N2 : ty <> PUSH_PROMISE) by (intros ->; apply C; cbn; auto).
    assert (N3 : ty <> CONTINUATION) by (intros ->; apply C; cbn; auto). assert (N4 : ty <> SETTINGS) by (intros ->; apply C; cbn; auto 6).
    split; [|intros X; destruct (OTH N1 N2 N3 X)]. change T_HEADERS with HEADERS. change T_PUSH_PROMISE with PUSH_PROMISE.
    change T_CONTINUATION with CONTINUATION. change T_SETTINGS with SETTINGS.
    rewrite (proj2 (N.eqb_neq _ _) N1), (proj2 (N.eqb_neq _ _) N2), (proj2 (N.eqb_neq _ _) N3), (proj2 (N.eqb_neq _ _) N4).
    intros U. destruct (not_ub_ok _ _ U).
Qed.

Lemma handled_ub : forall m t w, wframe_ok w -> dt_ok t ->
  (is_ub (fst (handled m t w)) <-> misbehaves m (rfc_table t) (w_type w) (w_flags w) (w_payload w)).
Proof.
  intros m t w (_ & _ & _ & _ & O & _) K. unfold handled. pose proof (C91_frame m (header_of w) (w_payload w) t O) as CF.
  pose proof (fun f => update_ub m (header_of w) (w_payload w) t f O K) as CU.
  destruct (build_frame m (header_of w) (w_payload w) t) as [f|x|u|] eqn:B.
  - specialize (CU f eq_refl). destruct (update_frame t f) as [r t']. cbn [fst] in *. rewrite <- CU. split; [|apply ub_bind].
    intros V. apply bind_ub in V. destruct V as [V|(b & _ & V)]; [exact V|destruct (not_ub_ok _ _ V)].
  - split; [intros [v V]; discriminate V|]. intros M. exfalso.
    assert (TH : frame_rejected m (rfc_table t) (w_type w) (w_flags w) (w_payload w) x) by exact (proj1 (C89_frame m (header_of w) (w_payload w) t x O) B).
    clear CU. destruct M as [M|c fr y T L F R|c fr b L F R V].
    + destruct (proj2 CF M) as [v V]. discriminate V.
    + change (T_HEADERS) with HEADERS in *. unfold build_frame in B. cbn [header_of fh_type] in B. rewrite T in B. cbn in B.
      unfold build_headers_frame in B. destruct (parse_headers _ _ _ _); discriminate B.
    + assert (BD : block_decodes_in m t c).
      { assert (D : decode_block m fr t = Ok b) by (apply block_read_iff; [apply wf_octets; eapply fragment_wf; eauto using octets_wf|exact R]).
        destruct c; cbn [fragment_of] in F; try discriminate F; exists b; congruence. }
      destruct (C88_well_formed_accepted m t (header_of w) (w_payload w) c L BD) as (f & Q & _). congruence.
  - split; intros _; [|eexists; reflexivity]. apply misbehaves_parsing. apply CF. eexists. reflexivity.
  - destruct (C64_build_frame m (header_of w) (w_payload w) t O B).
Qed.

(* One call of receive_frame takes one complete frame and handles it, or reports
   a failure of the connection. *)
Lemma receive_handled : forall m c, is_octets (tls_in (c_tls c)) ->
  exists r c' taken, receive_frame m c = (r, c') /\ tls_in (c_tls c) = taken ++ tls_in (c_tls c') /\
  ((exists w, wframe_ok w /\ taken = wire w /\ r = fst (handled m (c_resp c) w) /\ c_resp c' = snd (handled m (c_resp c) w)) \/
   (r = Throw RuntimeError /\ c_resp c' = c_resp c /\ forall w more, wframe_ok w -> taken <> wire w ++ more)).
Proof.
  intros m c O. pose proof (octets_wf _ O) as W.
  destruct (C48_read_exact (c_tls c) FRAME_HEADER_BYTES) as (k1 & H1). unfold receive_frame, receive_raw_data at 1.
  destruct (ssl_read (c_tls c) FRAME_HEADER_BYTES) as [r1 s1]. destruct H1 as (K1 & I1 & O1 & R1).
  destruct R1 as [[-> N1]|[-> N1]]; cbn [bind].
  2:{ eexists _, _, (firstn k1 (tls_in (c_tls c))). split; [reflexivity|]. cbn [set_tls c_tls c_resp]. rewrite I1. split; [symmetry; apply firstn_skipn|].
      right. split; [reflexivity|]. split; [reflexivity|]. intros w more WO E. apply (f_equal (@length N)) in E. rewrite app_length, firstn_length in E.
      pose proof (wire_size w WO) as WS. change FRAME_HEADER_BYTES with 9 in N1. unfold size in WS, K1. lia. }
  set (head := firstn k1 (tls_in (c_tls c))) in *.
  assert (SH : size head = 9).
  { unfold head, size. rewrite firstn_length. change FRAME_HEADER_BYTES with 9 in N1. unfold size in K1. lia. }
  assert (SPL : tls_in (c_tls c) = head ++ tls_in s1) by (rewrite I1; symmetry; apply firstn_skipn).
  rewrite SPL in W. apply wf_bytes_app in W. destruct W as [WH W1].
  destruct (build_fh_total head WH SH) as (h & B). rewrite B.
  destruct (header_octets_frame head h WH SH B) as [L24 FR].
  assert (G : exists r2 c2 k, (if 0 <? fh_length h then receive_raw_data (set_tls c s1) (fh_length h) else (Ok [], set_tls c s1)) = (r2, c2) /\
    c_resp c2 = c_resp c /\ c_req c2 = c_req c /\ tls_in s1 = firstn k (tls_in s1) ++ tls_in (c_tls c2) /\ N.of_nat k <= size (tls_in s1) /\
    ((r2 = Ok (firstn k (tls_in s1)) /\ N.of_nat k = fh_length h) \/ (r2 = Throw RuntimeError /\ N.of_nat k < fh_length h))).
  { destruct (N.ltb_spec 0 (fh_length h)) as [P|P].
    - unfold receive_raw_data. cbn [set_tls c_tls]. destruct (C48_read_exact s1 (fh_length h)) as (k2 & H2). destruct (ssl_read s1 (fh_length h)) as [r2 s2].
      destruct H2 as (K2 & I2 & _ & R2). exists r2, (set_tls (set_tls c s1) s2), k2. split; [reflexivity|]. cbn [set_tls c_tls c_req c_resp].
      split; [reflexivity|]. split; [reflexivity|]. split; [rewrite I2; symmetry; apply firstn_skipn|]. split; [exact K2|exact R2].
    - exists (Ok []), (set_tls c s1), 0%nat. split; [reflexivity|]. split; [reflexivity|]. split; [reflexivity|]. split; [reflexivity|]. split; [lia|].
      left. split; [reflexivity|lia]. }
  destruct G as (r2 & c2 & k2 & -> & CR & CQ & I2 & K2 & [[-> N2]|[-> N2]]); cbn [bind].
  - set (payload := firstn k2 (tls_in s1)) in *.
    assert (OP : is_octets payload) by (apply wf_octets; rewrite I2 in W1; apply wf_bytes_app in W1; apply W1).
    assert (SP : size payload = fh_length h) by (unfold payload, size; rewrite firstn_length; unfold size in K2; lia).
    destruct (FR payload OP SP) as (WO & WE & HW). rewrite CR.
    set (w := WFrame (fh_type h) (fh_flags h) (fh_reserved h) (fh_stream_id h) payload) in *.
    assert (REST : forall (r : res frame) c', (c_tls c' = c_tls c2) -> (r, c_resp c') = handled m (c_resp c) w ->
      exists r0 c0 taken, (r, c') = (r0, c0) /\ tls_in (c_tls c) = taken ++ tls_in (c_tls c0) /\
      ((exists w, wframe_ok w /\ taken = wire w /\ r0 = fst (handled m (c_resp c) w) /\ c_resp c0 = snd (handled m (c_resp c) w)) \/
       (r0 = Throw RuntimeError /\ c_resp c0 = c_resp c /\ forall w more, wframe_ok w -> taken <> wire w ++ more))).
    { intros r c' CT X. exists r, c', (wire w). split; [reflexivity|]. rewrite CT. split.
      - rewrite WE, <- app_assoc, <- I2. exact SPL.
      - left. exists w. split; [exact WO|]. split; [reflexivity|]. rewrite <- X. split; reflexivity. }
    unfold handled in REST. rewrite HW in REST. change (w_payload w) with payload in REST.
    destruct (build_frame m h payload (c_resp c)) as [f|y|u|] eqn:BF; try (apply REST; [reflexivity|rewrite CR; reflexivity]).
    destruct (update_frame (c_resp c) f) as [r3 t3]. apply REST; reflexivity.
  - eexists _, _, (head ++ firstn k2 (tls_in s1)). split; [reflexivity|]. split; [rewrite SPL, <- app_assoc, <- I2; reflexivity|].
    right. split; [reflexivity|]. split; [exact CR|]. intros w more WO E. destruct (wire_split w WO) as (head' & WE & SH' & B').
    rewrite WE, <- app_assoc in E.
    assert (HH : head = head').
    { apply (f_equal (firstn 9)) in E. rewrite !firstn_app in E. unfold size in SH, SH'.
      replace (9 - length head)%nat with 0%nat in E by lia. replace (9 - length head')%nat with 0%nat in E by lia.
      rewrite !firstn_O in E. rewrite !app_nil_r, !firstn_all2 in E by lia. exact E. }
    subst head'. rewrite B in B'. apply Ok_inj in B'. subst h. cbn [header_of fh_length] in N2.
    apply app_inv_head in E. apply (f_equal (@length N)) in E. rewrite app_length, firstn_length in E. unfold size in *. lia.
Qed.

Lemma handled_throws : forall m t w x, wframe_ok w ->
  (fst (handled m t w) = Throw x <-> frame_rejected m (rfc_table t) (w_type w) (w_flags w) (w_payload w) x).
Proof.
  intros m t w x WO. assert (O : is_octets (w_payload w)) by apply WO. split.
  - intros H. apply handled_throw in H; [|exact WO]. apply (C89_frame m (header_of w) (w_payload w) t x O), H.
  - intros R. unfold handled. rewrite (proj2 (C89_frame m (header_of w) (w_payload w) t x O) R). reflexivity.
Qed.

Lemma handled_real : forall m t w, wframe_ok w -> fst (handled m t w) <> NoFuel.
Proof.
  intros m t w WO E. assert (O : is_octets (w_payload w)) by apply WO. unfold handled in E. pose proof (C64_build_frame m (header_of w) (w_payload w) t O) as R.
  destruct (build_frame m (header_of w) (w_payload w) t) as [f|x|u|]; try discriminate E; [|destruct R; reflexivity].
  pose proof (update_frame_real t f) as U. destruct (update_frame t f) as [[[]|x|u|] t']; cbn in *; try discriminate E. destruct U. reflexivity.
Qed.

(* One call of receive_frame either takes one complete frame from the
   connection, and then is undefined, throws, or delivers a frame, according to
   what the frame is; or reports a failure of the connection, having taken no
   complete frame. *)
Theorem C91_receive : forall m c, is_octets (tls_in (c_tls c)) -> dt_ok (c_resp c) ->
  exists r c' taken, receive_frame m c = (r, c') /\ tls_in (c_tls c) = taken ++ tls_in (c_tls c') /\
  let t := Table (dt_max (c_resp c)) (dt_entries (c_resp c)) in
  ((exists w, wframe_ok w /\ taken = wire w /\
      let M := misbehaves m t (w_type w) (w_flags w) (w_payload w) in
      let R := exists x, frame_rejected m t (w_type w) (w_flags w) (w_payload w) x in
      ((exists u, r = UB u) <-> M) /\ ((exists x, r = Throw x) <-> R) /\ ((exists f, r = Ok f) <-> ~ M /\ ~ R) /\
      (~ M -> dt_ok (c_resp c'))) \/
   (r = Throw RuntimeError /\ dt_ok (c_resp c') /\ forall w more, wframe_ok w -> taken <> wire w ++ more)).
Proof.
  intros m c O K. destruct (receive_handled m c O) as (r & c' & taken & E & T & G). exists r, c', taken. split; [exact E|]. split; [exact T|]. intros t.
  destruct G as [(w & WO & TW & -> & CR)|(-> & CR & N)]; [left|right; split; [reflexivity|split; [rewrite CR; exact K|exact N]]].
  exists w. split; [exact WO|]. split; [exact TW|]. intros M R.
  assert (HM : (exists u, fst (handled m (c_resp c) w) = UB u) <-> M) by apply (handled_ub m (c_resp c) w WO K).
  assert (HR : (exists x, fst (handled m (c_resp c) w) = Throw x) <-> R).
  { split; intros [x X]; exists x; [apply handled_throws in X|apply handled_throws]; assumption. }
  split; [exact HM|]. split; [exact HR|]. split.
  - split.
    + intros [f F]. split; [intros X; apply HM in X; destruct X as [u X]|intros X; apply HR in X; destruct X as [x X]]; congruence.
    + intros [NM NR]. pose proof (handled_real m (c_resp c) w WO) as NF. destruct (fst (handled m (c_resp c) w)) as [f|x|u|]; [eauto| | |].
      * destruct NR. apply HR. eauto.
      * destruct NM. apply HM. eauto.
      * destruct NF. reflexivity.
  - intros NM. rewrite CR. clear HR. unfold handled in *.
    destruct (build_frame m (header_of w) (w_payload w) (c_resp c)) as [f|x|u|]; try exact K.
    destruct (update_frame (c_resp c) f) as [r3 t3] eqn:U. cbn [snd fst] in *.
    apply (update_frame_bound f (c_resp c) r3 t3 K U). intros u ->. apply NM, HM. eexists. reflexivity.
Qed.

(* A payload that has the format, and whose fragment, if it has one, is read to
   a block that fits the table, is harmless. *)
Theorem C91_well_formed : forall m t type flags payload c, is_octets payload ->
  layout flags type payload c ->
  (forall fragment, fragment_of c = Some fragment -> exists b, block_read m t fragment b /\ ~ overflows t b) ->
  ~ misbehaves m t type flags payload.
Proof.
  intros m [mx es] type flags payload c O L H M. set (T := DynTable es (total_size es) mx).
  assert (ET : Table mx es = Table (dt_max T) (dt_entries T)) by reflexivity. rewrite ET in *.
  assert (D : forall fr, fragment_of c = Some fr -> is_octets fr /\ exists b, decode_block m fr T = Ok b /\ ~ overflows (rfc_table T) b).
  { intros fr F. pose proof (fragment_wf _ _ _ _ _ L F (octets_wf _ O)) as WF. split; [apply wf_octets; exact WF|].
    destruct (H fr F) as (b & B & NO). exists b. split; [apply block_read_iff; [apply wf_octets; exact WF|exact B]|exact NO]. }
  assert (NB : forall c' fr', layout flags type payload c' -> fragment_of c' = Some fr' ->
    is_octets fr' /\ exists b, decode_block m fr' T = Ok b /\ ~ overflows (rfc_table T) b).
  { intros c' fr' L' F'. destruct (fragment_of c) as [fr|] eqn:F.
    - rewrite <- (fragment_unique _ _ _ _ _ _ _ L L' F F'). apply (D fr eq_refl).
    - exfalso. clear -L L' F F'. destruct L; cbn in F; try discriminate F; inversion L'; subst; discriminate F'. }
  destruct M as [[_ N|c' fr' L' F' B]|c' fr' x T' L' F' B|c' fr' b' L' F' B V].
  - exact (N c L).
  - destruct (NB c' fr' L' F') as (OF & b & Q & _). apply C91_block in B; [|exact OF]. destruct B as [u U]. congruence.
  - destruct (NB c' fr' L' F') as (OF & b & Q & _). apply C89_block in B; [|exact OF]. congruence.
  - destruct (NB c' fr' L' F') as (OF & b & Q & NO). apply block_read_iff in B; [|exact OF]. rewrite Q in B. apply Ok_inj in B. subst b'. exact (NO V).
Qed.

(* An indexed field of the static table is harmless; an index into the empty
   dynamic table, five octets of settings, an index that does not end, and an
   entry for a table of size 0 are not. *)
Example C91_case :
  let t := Table 4096 [] in
  block_read Strict t [0x82] [HEntry Indexed (EHeader (octets ":method", octets "GET"))] /\
  ~ misbehaves Strict t HEADERS 4 [0x82] /\
  misbehaves Strict t HEADERS 4 [0xbe] /\
  misbehaves Strict t SETTINGS 0 [0; 1; 0; 0; 0] /\
  misbehaves Strict t CONTINUATION 4 [0x7f] /\
  ~ misbehaves Strict t CONTINUATION 4 [0x40; 1; 97; 1; 98] /\
  misbehaves Strict (Table 0 []) CONTINUATION 4 [0x40; 1; 97; 1; 98].
Proof.
  intros t.
  assert (OK : forall ty fl l, ty < 256 -> fl < 256 -> wf_bytes l -> size l < 2 ^ 24 -> wframe_ok (WFrame ty fl 0 1 l)).
  { intros ty fl l A B C D. split; [exact A|]. split; [exact B|]. split; [reflexivity|]. split; [reflexivity|]. split; [apply wf_octets; exact C|exact D]. }
  assert (WL : forall l, forallb (fun x => x <? 256) l = true -> wf_bytes l).
  { intros l F. apply Forall_forall. intros x X. rewrite forallb_forall in F. apply N.ltb_lt, F. exact X. }
  pose proof (fun n ty fl l A B C D => handled_ub Strict (new_table n) (WFrame ty fl 0 1 l) (OK ty fl l A B (WL l C) D) (new_table_ok n)) as H.
  split; [apply (block_read_iff Strict [0x82] (new_table 4096)); [apply wf_octets, WL; reflexivity|reflexivity]|].
  split; [intros M; apply (H 4096 HEADERS 4 [0x82] eq_refl eq_refl eq_refl eq_refl) in M; destruct M as [u M]; discriminate M|].
  split; [apply (H 4096 HEADERS 4 [0xbe] eq_refl eq_refl eq_refl eq_refl); eexists; reflexivity|].
  split; [apply (H 4096 SETTINGS 0 [0; 1; 0; 0; 0] eq_refl eq_refl eq_refl eq_refl); eexists; reflexivity|].
  split; [apply (H 4096 CONTINUATION 4 [0x7f] eq_refl eq_refl eq_refl eq_refl); eexists; reflexivity|].
  split; [intros M; apply (H 4096 CONTINUATION 4 [0x40; 1; 97; 1; 98] eq_refl eq_refl eq_refl eq_refl) in M; destruct M as [u M]; discriminate M|].
  apply (H 0 CONTINUATION 4 [0x40; 1; 97; 1; 98] eq_refl eq_refl eq_refl eq_refl); eexists; reflexivity.
Qed.

Print Assumptions C91_field.
Print Assumptions C91_block.
Print Assumptions C91_frame.
Print Assumptions C91_receive.
Print Assumptions C91_well_formed.
