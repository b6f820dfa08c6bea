(* Property C89: what an exception thrown by the library means. *)
From Coq Require Import String.
From Coq Require Import ZArith NArith List Bool Lia ZifyBool ZifyNat ZifyN.
From Verif Require Import Base Arith Util IntRep Huffman StaticTable HeaderType DynTable HeaderEnc HeaderDec
  FrameHeader Frames FrameBuilder Ssl Client SpecBits SpecHuffman SpecInt SpecHpack SpecFrame SpecValid
  IntRepProofs IntSpecProofs UtilProofs HuffmanProofs HuffmanDecProofs DynTableProofs StaticProofs FrameProofs
  HeaderProofs HeaderProofs2 BlockProofs PropHuffman PropHeader PropFrame PropBlock PropSsl PropClient PropEntry PropTerm
  PropAccept PropValid.
Import ListNotations.
Local Open Scope string_scope.
Local Open Scope list_scope.
Local Open Scope N_scope.
Ltac Zify.zify_post_hook ::= Z.div_mod_to_equations.

(* ---- what is rejected, in terms of the specification ---- *)

(* A complete string, marked as Huffman coded, that is no sequence of code words
   and padding. *)
Definition bad_coding (raw : list N) : Prop :=
  exists len k, int_read 7 raw len k /\ first_in 128 256 raw /\ k + len <= N.of_nat (length raw) /\
    forall syms pad, ~ huffman_splits (part k len raw) syms pad.

(* An index, or the index of a name, that is in neither table; or a literal
   field one of whose strings has a bad coding. *)
Inductive field_rejected (m : ub_mode) (t : table) (raw : list N) : exn -> Prop :=
| bad_index : forall w i c, (first_in 128 256 raw /\ w = 7) \/ (exists k, literal_pattern k raw /\ w = literal_prefix k) ->
    int_read w raw i c -> i <> 0 -> resolve_in used_static t i = None ->
    field_rejected m t raw OutOfRange
| bad_string : forall k i c, literal_pattern k raw -> int_read (literal_prefix k) raw i c ->
    (i = 0 \/ resolve_in used_static t i <> None) -> bad_coding (skipn (N.to_nat c) raw) ->
    field_rejected m t raw InvalidArgument
| bad_value : forall k i c n d, literal_pattern k raw -> int_read (literal_prefix k) raw i c ->
    (i = 0 \/ exists h, resolve_in used_static t i = Some h /\ fst h = []) ->
    text_read m (skipn (N.to_nat c) raw) n d -> bad_coding (skipn (N.to_nat (c + d)) raw) ->
    field_rejected m t raw InvalidArgument.

(* The first field that is not accepted is rejected. *)
Inductive block_rejected (m : ub_mode) (t : table) : list N -> exn -> Prop :=
| rejected_here : forall raw x, raw <> [] -> field_rejected m t raw x -> block_rejected m t raw x
| rejected_later : forall raw e n x, raw <> [] -> field_read m t raw e n -> block_rejected m t (skipn (N.to_nat n) raw) x ->
    block_rejected m t raw x.

Inductive frame_rejected (m : ub_mode) (t : table) (type flags : N) (payload : list N) : exn -> Prop :=
| unknown_type : 9 < type -> frame_rejected m t type flags payload OutOfRange
| short_priority : type = PRIORITY -> (length payload < 5)%nat -> frame_rejected m t type flags payload InvalidArgument
| short_reset : type = RST_STREAM -> (length payload < 4)%nat -> frame_rejected m t type flags payload InvalidArgument
| short_goaway : type = GOAWAY -> (length payload < 8)%nat -> frame_rejected m t type flags payload InvalidArgument
| window_size : type = WINDOW_UPDATE -> length payload <> 4%nat -> frame_rejected m t type flags payload InvalidArgument
| bad_promise : forall promised fragment padding x, type = PUSH_PROMISE ->
    layout flags type payload (CPush promised fragment padding) -> block_rejected m t fragment x ->
    frame_rejected m t type flags payload x
| bad_continuation : forall x, type = CONTINUATION -> block_rejected m t payload x -> frame_rejected m t type flags payload x.

(* ---- proofs: fields ---- *)

Lemma dec_loop_no_throw : forall rest acc k x, dec_loop rest acc k <> Throw x.
Proof.
  induction rest as [|b rest IH]; intros acc k x; cbn [dec_loop]; [discriminate|].
  destruct (32 <=? k); [discriminate|]. destruct (2 ^ 31 <=? _); [discriminate|]. destruct (_ =? 128); [apply IH|discriminate].
Qed.

Lemma int_no_throw : forall w raw x, decode_int_and_length w raw <> Throw x.
Proof.
  intros w raw x. unfold decode_int_and_length, decode_integer_value. destruct raw as [|b raw]; [discriminate|].
  destruct (_ <? _); [discriminate|]. pose proof (dec_loop_no_throw raw (N.land b (2 ^ w - 1)) 0) as T.
  destruct (dec_loop _ _ _); cbn [bind]; try discriminate. intros E. apply (T e). reflexivity.
Qed.

Lemma bind_throw : forall A B (r : res A) (f : A -> res B) x, bind r f = Throw x ->
  r = Throw x \/ exists a, r = Ok a /\ f a = Throw x.
Proof. intros A B [a|y|u|] f x E; cbn [bind] in E; try discriminate E; [right; eauto|]. left. injection E as ->. reflexivity. Qed.

Lemma address_no_throw : forall m v i x, address_of m v i <> Throw x.
Proof. intros [] v i x; cbn [address_of]; [destruct (_ <? _)|]; discriminate. Qed.

Lemma vrange_no_throw : forall v b n x, vrange v b n <> Throw x.
Proof. intros. unfold vrange. destruct (_ <=? _); discriminate. Qed.

Lemma erase_no_throw : forall v n x, verase_front v n <> Throw x.
Proof. intros. unfold verase_front. destruct (_ <=? _); discriminate. Qed.

Lemma text_throws : forall m raw x, wf_bytes raw -> (decode_string m raw = Throw x <-> x = InvalidArgument /\ bad_coding raw).
Proof.
  intros m raw x W. unfold decode_string. split.
  - intros E. apply bind_throw in E. destruct E as [E|([len k] & I & E)]; [exfalso; exact (int_no_throw _ _ _ E)|].
    apply int_read_iff in I; [|exact pok7|exact W]. destruct raw as [|b raw]; [discriminate E|]. rewrite vget_head in E. cbn [bind] in E.
    assert (B : b < 256) by (inversion W; assumption). pose proof (int_read_bounds 7 _ _ _ pok7 W I) as BK.
    apply bind_throw in E. destruct E as [E|(s & _ & E)]; [|discriminate E].
    rewrite high1_8 in E. destruct (negb (b / 128 =? 0)) eqn:H.
    + apply bind_throw in E. destruct E as [E|(enc & R & E)]; [exfalso; exact (vrange_no_throw _ _ _ _ E)|].
      apply vrange_ok in R. destruct R as [L ->].
      assert (O : is_octets (part k len (b :: raw))) by (apply wf_octets, part_wf; exact W).
      change (firstn (N.to_nat len) (skipn (N.to_nat k) (b :: raw))) with (part k len (b :: raw)) in E.
      assert (NS : forall syms pad, ~ huffman_splits (part k len (b :: raw)) syms pad).
      { intros syms pad S. rewrite (proj1 (C08_huffman_decoder_outcome _ O) _ _ S) in E. cbn [bind] in E.
        apply bind_throw in E. destruct E as [E|(u & _ & E)]; [exact (address_no_throw _ _ _ _ E)|discriminate E]. }
      rewrite (proj1 (proj2 (C08_huffman_decoder_outcome _ O)) NS) in E. cbn [bind] in E.
      split; [congruence|]. exists len, k. split; [exact I|]. split; [exists b, raw; split; [reflexivity|lia]|]. split; [exact L|exact NS].
    + apply bind_throw in E. destruct E as [E|(u & _ & E)]; [exfalso; exact (address_no_throw _ _ _ _ E)|].
      destruct (vrange _ _ _) eqn:R; try discriminate E. exfalso. injection E as ->. exact (vrange_no_throw _ _ _ _ R).
  - intros (-> & len & k & I & (b & tl & -> & B) & L & NS).
    apply int_read_iff in I; [|exact pok7|exact W]. rewrite I. cbn [bind]. rewrite vget_head. cbn [bind].
    rewrite high1_8. replace (negb (b / 128 =? 0)) with true by lia.
    rewrite vrange_part by exact L. cbn [bind].
    assert (O : is_octets (part k len (b :: tl))) by (apply wf_octets, part_wf; exact W).
    rewrite (proj1 (proj2 (C08_huffman_decoder_outcome _ O)) NS). reflexivity.
Qed.

Lemma resolve_throws : forall i t x, i <> 0 ->
  (make_indexed_header i t = Throw x <-> x = OutOfRange /\ resolve_in used_static (rfc_table t) i = None).
Proof.
  intros i t x NZ. rewrite indexed_header_spec by exact NZ. rewrite used_is_lib.
  destruct (resolve_in lib_static (rfc_table t) i); split; [discriminate|intros [_ X]; discriminate X| |].
  - intros E. split; congruence.
  - intros [-> _]. reflexivity.
Qed.

Lemma resolve_some : forall i t h, i <> 0 -> make_indexed_header i t = Ok h -> resolve_in used_static (rfc_table t) i = Some h.
Proof. intros i t h NZ E. apply resolve_used; assumption. Qed.

Theorem C89_field : forall m raw t x, is_octets raw ->
  (decode_header m raw t = Throw x <-> field_rejected m (Table (dt_max t) (dt_entries t)) raw x).
Proof.
  intros m raw t x O. apply octets_wf in O. change (Table (dt_max t) (dt_entries t)) with (rfc_table t).
  unfold decode_header. split.
  - intros E. destruct raw as [|b raw]; [discriminate E|]. rewrite vget_head in E. cbn [bind] in E.
    assert (B : b < 256) by (inversion O; assumption). rewrite check_prefix_spec in E by exact B. cbn [bind] in E.
    destruct (class_cases b raw B) as [(C & F)|[(C & F)|(k & C & F)]]; rewrite C in E.
    + change (hprefix_eqb Indexed SizeUpdate) with false in E. change (hprefix_eqb Indexed Indexed) with true in E. cbv iota in E. cbn [decode_index] in E.
      apply bind_throw in E. destruct E as [E|([i c] & I & E)]; [exfalso; exact (int_no_throw _ _ _ E)|].
      apply int_read_iff in I; [|exact pok7|exact O].
      apply bind_throw in E. destruct E as [E|(h & _ & E)]; [|discriminate E].
      destruct (N.ltb_spec 0 i) as [P|P]; [|discriminate E]. apply resolve_throws in E; [|lia]. destruct E as [-> E].
      apply bad_index with (w := 7) (i := i) (c := c); [left; split; [exact F|reflexivity]|exact I|lia|exact E].
    + change (hprefix_eqb SizeUpdate SizeUpdate) with true in E. cbv iota in E. unfold decode_max_size in E.
      apply bind_throw in E. destruct E as [E|([i c] & I & E)]; [exfalso; exact (int_no_throw _ _ _ E)|discriminate E].
    + rewrite lib_prefix_not_update, lib_prefix_not_indexed, decode_index_literal in E.
      apply bind_throw in E. destruct E as [E|([i c] & I & E)]; [exfalso; exact (int_no_throw _ _ _ E)|].
      apply int_read_iff in I; [|apply literal_prefix_ok|exact O].
      apply bind_throw in E. destruct E as [E|(h & H & E)].
      { destruct (N.ltb_spec 0 i) as [P|P]; [|discriminate E]. apply resolve_throws in E; [|lia]. destruct E as [-> E].
        apply bad_index with (w := literal_prefix k) (i := i) (c := c); [right; exists k; split; [exact F|reflexivity]|exact I|lia|exact E]. }
      assert (RS : i = 0 \/ resolve_in used_static (rfc_table t) i = Some h).
      { destruct (N.ltb_spec 0 i) as [P|P]; [right; apply resolve_some; [lia|exact H]|left; lia]. }
      apply bind_throw in E. destruct E as [E|(data & D & E)]; [exfalso; exact (erase_no_throw _ _ _ E)|].
      apply erase_is_skipn in D. destruct D as [-> LC].
      apply bind_throw in E. destruct (N.leb_spec (size (fst h)) 0) as [Z|Z].
      * destruct E as [X|([[nm data2] used] & X & E)].
        { apply bind_throw in X. destruct X as [X|([nm' d'] & N & X)].
          - apply text_throws in X; [|apply skipn_wf; exact O]. destruct X as [-> BC].
            apply bad_string with (k := k) (i := i) (c := c); [exact F|exact I|destruct RS as [RS|RS]; [left; exact RS|right; congruence]|exact BC].
          - apply bind_throw in X. destruct X as [X|(data' & _ & X)]; [exfalso; exact (erase_no_throw _ _ _ X)|discriminate X]. }
        apply bind_ok in X. destruct X as ([nm' d'] & N & X). apply text_read_iff in N; [|apply skipn_wf; exact O].
        apply bind_ok in X. destruct X as (data' & D & X). apply erase_is_skipn in D. destruct D as [-> LD].
        apply Ok_pair in X. destruct X as [X <-]. injection X as <- <-. rewrite skipn_sum in E.
        apply bind_throw in E. destruct E as [V|([v d] & V & E)].
        { apply text_throws in V; [|apply skipn_wf; exact O]. destruct V as [-> BC].
          apply bad_value with (k := k) (i := i) (c := c) (n := nm') (d := d'); [exact F|exact I| |exact N|exact BC].
          destruct RS as [RS|RS]; [left; exact RS|right; exists h; split; [exact RS|apply size0; apply N.eqb_eq; lia]]. }
        apply bind_throw in E. destruct E as [E|(u & _ & E)]; [exfalso; exact (erase_no_throw _ _ _ E)|discriminate E].
      * destruct E as [X|([[nm data2] used] & X & E)]; [discriminate X|].
        apply Ok_pair in X. destruct X as [X <-]. injection X as <- <-.
        apply bind_throw in E. destruct E as [V|([v d] & V & E)].
        { apply text_throws in V; [|apply skipn_wf; exact O]. destruct V as [-> BC].
          apply bad_string with (k := k) (i := i) (c := c); [exact F|exact I|destruct RS as [RS|RS]; [left; exact RS|right; congruence]|exact BC]. }
        apply bind_throw in E. destruct E as [E|(u & _ & E)]; [exfalso; exact (erase_no_throw _ _ _ E)|discriminate E].
  - intros R.
    assert (H0 : exists b tl, raw = b :: tl /\ b < 256).
    { assert (H1 : (first_in 128 256 raw) \/ exists k, literal_pattern k raw).
      { destruct R as [w i c [[F _]|(k & F & _)] I NZ N|k i c F I RS BC|k i c n d F I RS N BC]; eauto. }
      destruct H1 as [F|(k & F)]; [|destruct k; cbn [literal_pattern] in F]; destruct F as (b & tl & -> & BB); exists b, tl; (split; [reflexivity|lia]). }
    destruct H0 as (b & tl & -> & B). rewrite vget_head. cbn [bind]. rewrite check_prefix_spec by exact B. cbn [bind].
    assert (LIT : forall k, literal_pattern k (b :: tl) -> class_of b = lib_prefix k).
    { intros k F. destruct (literal_class k (b :: tl) [] F) as (b' & V0 & CP). rewrite app_nil_r, vget_head in V0. apply Ok_inj in V0. subst b'.
      rewrite check_prefix_spec in CP by exact B. apply Ok_inj in CP. exact CP. }
    destruct R as [w i c [[F ->]|(k & F & ->)] I NZ N|k i c F I RS BC|k i c n d F I RS N BC].
    + destruct F as (b' & tl' & Q & BB). injection Q as <- <-.
      replace (class_of b) with Indexed by (unfold class_of; destruct (N.leb_spec 128 b); [reflexivity|lia]).
      change (hprefix_eqb Indexed SizeUpdate) with false. change (hprefix_eqb Indexed Indexed) with true. cbv iota. cbn [decode_index].
      apply int_read_iff in I; [|exact pok7|exact O]. rewrite I. cbn [bind].
      destruct (N.ltb_spec 0 i); [|lia]. rewrite (proj2 (resolve_throws i t OutOfRange NZ)) by (split; [reflexivity|exact N]). reflexivity.
    + rewrite (LIT k F), lib_prefix_not_update, lib_prefix_not_indexed, decode_index_literal.
      apply int_read_iff in I; [|apply literal_prefix_ok|exact O]. rewrite I. cbn [bind].
      destruct (N.ltb_spec 0 i); [|lia]. rewrite (proj2 (resolve_throws i t OutOfRange NZ)) by (split; [reflexivity|exact N]). reflexivity.
    + rewrite (LIT k F), lib_prefix_not_update, lib_prefix_not_indexed, decode_index_literal.
      pose proof (int_read_bounds _ _ _ _ (literal_prefix_ok k) O I) as BD.
      apply int_read_iff in I; [|apply literal_prefix_ok|exact O]. rewrite I. cbn [bind].
      assert (X : exists h, (if 0 <? i then make_indexed_header i t else Ok ([], [])) = Ok h).
      { destruct (N.ltb_spec 0 i) as [P|P]; [|eauto]. destruct RS as [->|RS]; [lia|].
        destruct (resolve_in used_static (rfc_table t) i) as [h|] eqn:Q; [|contradiction]. exists h. apply resolve_used; [lia|exact Q]. }
      destruct X as (h & ->). cbn [bind]. rewrite erase_le by lia. cbn [bind].
      assert (TH : decode_string m (skipn (N.to_nat c) (b :: tl)) = Throw InvalidArgument).
      { apply text_throws; [apply skipn_wf; exact O|]. split; [reflexivity|exact BC]. }
      unfold decode_header_name, decode_header_value. destruct (size (fst h) <=? 0); cbn [bind]; rewrite TH; reflexivity.
    + rewrite (LIT k F), lib_prefix_not_update, lib_prefix_not_indexed, decode_index_literal.
      pose proof (int_read_bounds _ _ _ _ (literal_prefix_ok k) O I) as BD. pose proof (text_read_bounds _ _ _ _ (skipn_wf _ _ O) N) as BE.
      apply int_read_iff in I; [|apply literal_prefix_ok|exact O]. rewrite I. cbn [bind].
      assert (X : exists h, (if 0 <? i then make_indexed_header i t else Ok ([], [])) = Ok h /\ fst h = []).
      { destruct RS as [->|(h & H & E)]; [exists ([], []); auto|]. exists h. assert (NZ : i <> 0) by (intros ->; discriminate H).
        destruct (N.ltb_spec 0 i); [|lia]. split; [apply resolve_used; assumption|exact E]. }
      destruct X as (h & -> & E). cbn [bind]. rewrite erase_le by lia. cbn [bind]. rewrite E. change (size [] <=? 0) with true. cbv iota.
      apply text_read_iff in N; [|apply skipn_wf; exact O].
      assert (TH : decode_string m (skipn (N.to_nat (c + d)) (b :: tl)) = Throw InvalidArgument).
      { apply text_throws; [apply skipn_wf; exact O|]. split; [reflexivity|exact BC]. }
      unfold decode_header_name, decode_header_value. rewrite N. cbn [bind]. rewrite erase_le by lia. cbn [bind]. rewrite skipn_sum, TH. reflexivity.
Qed.

Theorem C89_block : forall m raw t x, is_octets raw ->
  (decode_block m raw t = Throw x <-> block_rejected m (Table (dt_max t) (dt_entries t)) raw x).
Proof.
  intros m raw t x O. split.
  - revert O. remember (length raw) as n eqn:LN. revert raw LN. induction n as [n IH] using lt_wf_ind. intros raw -> O E.
    destruct raw as [|b raw]; [discriminate E|]. rewrite decode_block_step in E; [|apply octets_wf; exact O|discriminate].
    apply bind_throw in E. destruct E as [E|([e k] & D & E)].
    + apply rejected_here; [discriminate|]. apply C89_field; assumption.
    + apply bind_throw in E. destruct E as [E|(bl & _ & E)]; [|discriminate E].
      pose proof (decode_header_bounds _ _ _ _ _ (octets_wf _ O) D) as BD.
      apply rejected_later with (e := e) (n := k); [discriminate|apply C87_accepted_exactly; assumption|].
      eapply IH; [|reflexivity| |exact E].
      * rewrite skipn_length. unfold size in BD. cbn [length] in *. lia.
      * apply wf_octets, skipn_wf, octets_wf. exact O.
  - intros R. induction R as [raw x NE F|raw e n x NE F R IH].
    + rewrite decode_block_step; [|apply octets_wf; exact O|exact NE]. apply C89_field in F; [|exact O]. rewrite F. reflexivity.
    + rewrite decode_block_step; [|apply octets_wf; exact O|exact NE]. apply C87_accepted_exactly in F; [|exact O]. rewrite F. cbn [bind].
      rewrite IH; [reflexivity|]. apply wf_octets, skipn_wf, octets_wf. exact O.
Qed.

(* ---- proofs: frames ---- *)

Lemma b2i_no_throw : forall k v o x, bytes2integral k v o <> Throw x.
Proof. intros k v o x E. unfold bytes2integral in E. apply bind_throw in E. destruct E as [E|(l & _ & E)]; [exact (vrange_no_throw _ _ _ _ E)|discriminate E]. Qed.

Lemma vget_no_throw : forall v i x, vget v i <> Throw x.
Proof. intros v i x. unfold vget. match goal with |- context [match ?y with _ => _ end] => destruct y end; discriminate. Qed.

Lemma push_throws : forall m t len fl r sid raw x, wf_bytes raw ->
  parse_push_promise m (FH len PUSH_PROMISE fl r sid) raw t = Throw x ->
  exists promised fragment padding, layout fl PUSH_PROMISE raw (CPush promised fragment padding) /\ is_octets fragment /\
    decode_block m fragment t = Throw x.
Proof.
  intros m t len fl r sid raw x W H. unfold parse_push_promise in H. apply bind_throw in H. destruct H as [H|(pp & _ & H)]; [|discriminate H].
  destruct (padding_of fl raw W) as (ct & padding & PF & E & WC).
  { intros P X. unfold push_promise_decode_payload in H. cbn [fh_flags] in H. rewrite padded_flag, P in H.
    assert (S : exists u, split_padding raw = UB u).
    { pose proof (split_padded raw W) as S. destruct X as [->|(p & data & -> & L)]; [eauto|].
      cbv beta iota in S. destruct (N.ltb_spec (size data) p); [exact S|lia]. }
    destruct S as [u S]. rewrite S in H. discriminate H. }
  destruct (fits_size _ _ PF) as [SZ IFP]. subst raw.
  assert (S4 : 4 <= size ct).
  { unfold push_promise_decode_payload in H. cbn [fh_flags] in H. rewrite padded_flag in H.
    destruct (has_padded fl); [rewrite padded_split in H by exact SZ|]; cbn [bind padded_payload] in H;
      (apply bind_throw in H; destruct H as [H|(b0 & _ & H)]; [destruct (vget_no_throw _ _ _ H)|]; apply bind_throw in H; destruct H as [H|(y & _ & H)]; [destruct (b2i_no_throw _ _ _ _ H)|];
      unfold verase_front in H; destruct (N.leb_spec 4 (size ct)); try discriminate H; assumption). }
  destruct (word_of ct WC S4) as (rr & pr & fr & RR & RP & ->).
  exists pr, fr, padding. split; [apply (layout_push fl rr); assumption|].
  apply wf_bytes_app in WC. split; [apply wf_octets, WC|].
  pose proof (push_parse_any m t fl len r sid rr pr fr padding SZ RR RP) as Q. unfold push_promise_octets, push_promise_contents in Q.
  rewrite Q in H. apply bind_throw in H. destruct H as [H|(b & _ & H)]; [exact H|discriminate H].
Qed.

Lemma accepted_no_throw : forall m t h raw c x, layout (fh_flags h) (fh_type h) raw c -> block_decodes_in m t c ->
  build_frame m h raw t <> Throw x.
Proof. intros m t h raw c x L B E. destruct (C88_well_formed_accepted m t h raw c L B) as (f & F & _). congruence. Qed.

(* Which exception, if any, building a frame throws. *)
Theorem C89_frame : forall m h raw t x, is_octets raw ->
  (build_frame m h raw t = Throw x <->
   frame_rejected m (Table (dt_max t) (dt_entries t)) (fh_type h) (fh_flags h) raw x).
Proof.
  intros m [len ty fl r sid] raw t x O. cbn [fh_type fh_flags]. pose proof (octets_wf _ O) as W. split.
  - intros E. destruct (N.ltb_spec 9 ty) as [T9|T9].
    { rewrite C46_unknown_type in E by exact T9. injection E as <-. apply unknown_type. exact T9. }
    assert (C : In ty [DATA; HEADERS; PRIORITY; RST_STREAM; SETTINGS; PUSH_PROMISE; PING; GOAWAY; WINDOW_UPDATE; CONTINUATION]).
    { clear -T9. unfold DATA, HEADERS, PRIORITY, RST_STREAM, SETTINGS, PUSH_PROMISE, PING, GOAWAY, WINDOW_UPDATE, CONTINUATION. cbn. lia. }
    destruct C as [<-|[<-|[<-|[<-|[<-|[<-|[<-|[<-|[<-|[<-|[]]]]]]]]]]].
    + discriminate E.
    + change (build_frame m (FH len HEADERS fl r sid) raw t) with (build_headers_frame m (FH len HEADERS fl r sid) raw t) in E.
      unfold build_headers_frame in E. destruct (parse_headers m _ raw t); discriminate E.
    + destruct (Nat.lt_ge_cases (length raw) 5) as [L|L].
      * change (build_frame m (FH len PRIORITY fl r sid) raw t) with (parse_priority (FH len PRIORITY fl r sid) raw) in E.
        unfold parse_priority, priority_construct_payload in E. destruct (N.ltb_spec (size raw) 5) as [_|X]; [|unfold size in X; lia].
        injection E as <-. apply short_priority; [reflexivity|exact L].
      * exfalso. destruct (Nat.eq_dec (length raw) 5) as [L5|L5].
        -- destruct (word_of raw W ltac:(unfold size; lia)) as (e & d & rest & RE & RD & ->). rewrite app_length in L5. cbn [length be_octets] in L5.
           destruct rest as [|w [|y rest]]; [cbn in L5; lia| |cbn in L5; lia].
           apply wf_bytes_app in W. apply (accepted_no_throw m t (FH len PRIORITY fl r sid) _ (CPriority e d w) x) in E; [exact E| |exact I].
           apply layout_priority; [assumption|assumption|exact (Forall_inv (proj2 W))].
        -- destruct (C88_size_refuted m t (FH len PRIORITY fl r sid) raw O) as [(f & F & _) _]; [right; left; split; [reflexivity|lia]|]. congruence.
    + destruct (Nat.lt_ge_cases (length raw) 4) as [L|L].
      * change (build_frame m (FH len RST_STREAM fl r sid) raw t) with (parse_rst_stream (FH len RST_STREAM fl r sid) raw) in E.
        unfold parse_rst_stream in E. destruct (N.ltb_spec (size raw) 4) as [_|X]; [|unfold size in X; lia].
        injection E as <-. apply short_reset; [reflexivity|exact L].
      * exfalso. change (build_frame m (FH len RST_STREAM fl r sid) raw t) with (parse_rst_stream (FH len RST_STREAM fl r sid) raw) in E.
        unfold parse_rst_stream in E. destruct (N.ltb_spec (size raw) 4) as [X|_]; [unfold size in X; lia|].
        apply bind_throw in E. destruct E as [E|(y & _ & E)]; [exact (b2i_no_throw _ _ _ _ E)|discriminate E].
    + exfalso. destruct (C40_settings_lengths_partial m (FH len SETTINGS fl r sid) t raw eq_refl W) as [A B].
      destruct (N.eq_dec (size raw mod 6) 0) as [M|M]; [destruct (A M) as (ps & h' & mp & _ & Q & _)|destruct (B M) as [u Q]]; congruence.
    + destruct (push_throws m t len fl r sid raw x W E) as (pr & fr & pad & L & OF & D).
      apply bad_promise with (promised := pr) (fragment := fr) (padding := pad); [reflexivity|exact L|]. apply C89_block; assumption.
    + discriminate E.
    + change (build_frame m (FH len GOAWAY fl r sid) raw t) with (parse_goaway (FH len GOAWAY fl r sid) raw) in E.
      unfold parse_goaway, goaway_construct_payload in E. destruct (N.ltb_spec (size raw) 8) as [L|L].
      * injection E as <-. apply short_goaway; [reflexivity|unfold size in L; lia].
      * exfalso. apply bind_throw in E. destruct E as [E|(y & _ & E)]; [|discriminate E].
        apply bind_throw in E. destruct E as [E|(y & _ & E)]; [exact (b2i_no_throw _ _ _ _ E)|].
        apply bind_throw in E. destruct E as [E|(z & _ & E)]; [exact (b2i_no_throw _ _ _ _ E)|discriminate E].
    + destruct (Nat.eq_dec (length raw) 4) as [L|L].
      * exfalso. destruct (word_of raw W ltac:(unfold size; lia)) as (rr & inc & rest & RR & RI & ->). rewrite app_length in L. cbn [length be_octets] in L.
        destruct rest; [|cbn in L; lia]. rewrite app_nil_r in E. apply (accepted_no_throw m t (FH len WINDOW_UPDATE fl r sid) _ (CWindow inc) x) in E; [exact E| |exact I].
        apply (layout_window fl rr); assumption.
      * change (build_frame m (FH len WINDOW_UPDATE fl r sid) raw t) with (parse_window_update (FH len WINDOW_UPDATE fl r sid) raw) in E.
        unfold parse_window_update in E. destruct raw as [|b raw]; [injection E as <-; apply window_size; [reflexivity|exact L]|].
        cbn [bind] in E. destruct (N.eqb_spec (size (b :: raw)) 4) as [X|_]; [unfold size in X; lia|]. injection E as <-. apply window_size; [reflexivity|exact L].
    + change (build_frame m (FH len CONTINUATION fl r sid) raw t) with (parse_continuation m (FH len CONTINUATION fl r sid) raw t) in E.
      unfold parse_continuation in E. apply bind_throw in E. destruct E as [E|(b & _ & E)]; [|discriminate E].
      apply bad_continuation; [reflexivity|]. apply C89_block; assumption.
  - intros R. destruct R as [T9|T L|T L|T L|T L|pr fr pad x T L B|x T B].
    + apply C46_unknown_type. exact T9.
    + subst ty. change (build_frame m (FH len PRIORITY fl r sid) raw t) with (parse_priority (FH len PRIORITY fl r sid) raw).
      unfold parse_priority, priority_construct_payload. destruct (N.ltb_spec (size raw) 5) as [_|X]; [reflexivity|unfold size in X; lia].
    + subst ty. change (build_frame m (FH len RST_STREAM fl r sid) raw t) with (parse_rst_stream (FH len RST_STREAM fl r sid) raw).
      unfold parse_rst_stream. destruct (N.ltb_spec (size raw) 4) as [_|X]; [reflexivity|unfold size in X; lia].
    + subst ty. change (build_frame m (FH len GOAWAY fl r sid) raw t) with (parse_goaway (FH len GOAWAY fl r sid) raw).
      unfold parse_goaway, goaway_construct_payload. destruct (N.ltb_spec (size raw) 8) as [_|X]; [reflexivity|unfold size in X; lia].
    + subst ty. change (build_frame m (FH len WINDOW_UPDATE fl r sid) raw t) with (parse_window_update (FH len WINDOW_UPDATE fl r sid) raw).
      unfold parse_window_update. destruct raw as [|b raw]; [reflexivity|]. cbn [bind].
      destruct (N.eqb_spec (size (b :: raw)) 4) as [X|_]; [unfold size in X; lia|reflexivity].
    + subst ty. inversion L as [| | | | | |rr pr' fr' pad' PF RR RP| | | |]; subst.
      destruct (fits_size _ _ PF) as [SZ _].
      change (build_frame m (FH len PUSH_PROMISE fl r sid) ?y t) with (parse_push_promise m (FH len PUSH_PROMISE fl r sid) y t).
      unfold parse_push_promise.
      pose proof (push_parse_any m t fl len r sid rr pr fr pad SZ RR RP) as Q. unfold push_promise_octets in Q. rewrite Q.
      assert (OF : is_octets fr).
      { apply wf_octets. assert (WC : wf_bytes (push_promise_contents rr pr fr)).
        { unfold padded_payload in W. destruct (has_padded fl); [|exact W]. apply wf_bytes_app in W. destruct W as [_ W]. apply wf_bytes_app in W. apply W. }
        unfold push_promise_contents in WC. apply wf_bytes_app in WC. apply WC. }
      apply C89_block in B; [|exact OF]. rewrite B. reflexivity.
    + subst ty. change (build_frame m (FH len CONTINUATION fl r sid) raw t) with (parse_continuation m (FH len CONTINUATION fl r sid) raw t).
      unfold parse_continuation. apply C89_block in B; [|exact O]. rewrite B. reflexivity.
Qed.

(* Rejecting what was received never looks like a failure of the connection. *)
Theorem C89_rejection_kind : forall m t type flags payload x,
  frame_rejected m t type flags payload x -> x <> RuntimeError.
Proof.
  assert (F : forall m t raw x, field_rejected m t raw x -> x <> RuntimeError) by (intros m t raw x [| |]; discriminate).
  assert (B : forall m t raw x, block_rejected m t raw x -> x <> RuntimeError) by (intros m t raw x R; induction R; eauto).
  intros m t type flags payload x []; eauto; discriminate.
Qed.

(* ---- receiving ---- *)

Lemma header_octets_frame : forall head h, wf_bytes head -> size head = 9 -> build_frame_header head = Ok h ->
  fh_length h < 2 ^ 24 /\ forall payload, is_octets payload -> size payload = fh_length h ->
  let w := WFrame (fh_type h) (fh_flags h) (fh_reserved h) (fh_stream_id h) payload in
  wframe_ok w /\ wire w = head ++ payload /\ header_of w = h.
Proof.
  intros head h W S B.
  destruct head as [|a [|b [|c [|ty [|fl l4]]]]]; try (rewrite ?size_cons, ?size_nil in S; lia).
  assert (S4 : size l4 = 4) by (rewrite !size_cons in S; lia).
  change (a :: b :: c :: ty :: fl :: l4) with ([a; b; c] ++ [ty; fl] ++ l4) in *.
  pose proof (build_fh_spec [a; b; c] ty fl l4 [] W eq_refl S4) as Q. rewrite app_nil_r, B in Q. apply Ok_inj in Q. subst h.
  apply wf_bytes_app in W. destruct W as [W3 W]. apply wf_bytes_app in W. destruct W as [W2 W4].
  pose proof (be4_lt l4 W4 S4) as B4.
  assert (B3 : be_value [a; b; c] < 2 ^ 24).
  { assert (A1 : a < 256) by exact (Forall_inv W3). assert (A2 : b < 256) by exact (Forall_inv (Forall_inv_tail W3)).
    assert (A3 : c < 256) by exact (Forall_inv (Forall_inv_tail (Forall_inv_tail W3))). clear -A1 A2 A3.
    unfold be_value. cbn [fold_left]. change (2 ^ 24) with 16777216. lia. }
  split; [exact B3|]. intros payload OP SP w. cbn [fh_length fh_type fh_flags fh_reserved fh_stream_id] in SP, w. split; [|split].
  - unfold wframe_ok, w. cbn [w_type w_flags w_reserved w_stream w_payload].
    split; [exact (Forall_inv W2)|]. split; [exact (Forall_inv (Forall_inv_tail W2))|].
    split; [apply N.div_lt_upper_bound; [discriminate|exact B4]|]. split; [apply mod31_lt|]. split; [exact OP|rewrite SP; exact B3].
  - unfold wire, w, wire_frame, wire_header. cbn [w_type w_flags w_reserved w_stream w_payload].
    change (N.of_nat (length payload)) with (size payload). rewrite SP, N.mul_comm, <- N.div_mod by discriminate.
    pose proof (be_octets_of [a; b; c] W3) as E3. cbn [length] in E3. rewrite E3.
    pose proof (be_octets_of l4 W4) as E4. replace (length l4) with 4%nat in E4 by (unfold size in S4; lia). rewrite E4. reflexivity.
  - unfold header_of, w. cbn [w_type w_flags w_reserved w_stream w_payload]. rewrite SP. reflexivity.
Qed.

Lemma build_fh_total : forall head, wf_bytes head -> size head = 9 -> exists h, build_frame_header head = Ok h.
Proof.
  intros head W S.
  destruct head as [|a [|b [|c [|ty [|fl l4]]]]]; try (rewrite ?size_cons, ?size_nil in S; lia).
  assert (S4 : size l4 = 4) by (rewrite !size_cons in S; lia).
  change (a :: b :: c :: ty :: fl :: l4) with ([a; b; c] ++ [ty; fl] ++ l4) in *.
  pose proof (build_fh_spec [a; b; c] ty fl l4 [] W eq_refl S4) as Q. rewrite app_nil_r in Q. eauto.
Qed.

(* One call of receive_frame either takes one complete frame from the
   connection, and then throws exactly when that frame is rejected; or reports a
   failure of the connection, having taken no complete frame. *)
Theorem C89_receive : forall m c, is_octets (tls_in (c_tls c)) ->
  exists r c' taken, receive_frame m c = (r, c') /\ tls_in (c_tls c) = taken ++ tls_in (c_tls c') /\
  let t := Table (dt_max (c_resp c)) (dt_entries (c_resp c)) in
  ((exists w, wframe_ok w /\ taken = wire w /\
      forall x, r = Throw x <-> frame_rejected m t (w_type w) (w_flags w) (w_payload w) x) \/
   (r = Throw RuntimeError /\ forall w more, wframe_ok w -> taken <> wire w ++ more)).
Proof.
  intros m c O. pose proof (octets_wf _ O) as W.
  destruct (C48_read_exact (c_tls c) FRAME_HEADER_BYTES) as (k1 & H1). unfold receive_frame, receive_raw_data at 1.
  destruct (ssl_read (c_tls c) FRAME_HEADER_BYTES) as [r1 s1]. destruct H1 as (K1 & I1 & O1 & R1).
  destruct R1 as [[-> N1]|[-> N1]]; cbn [bind].
  2:{ eexists _, _, (firstn k1 (tls_in (c_tls c))). split; [reflexivity|]. cbn [set_tls c_tls]. rewrite I1. split; [symmetry; apply firstn_skipn|].
      right. split; [reflexivity|]. intros w more WO E. apply (f_equal (@length N)) in E. rewrite app_length, firstn_length in E.
      pose proof (wire_size w WO) as WS. change FRAME_HEADER_BYTES with 9 in N1. unfold size in WS, K1. lia. }
  set (head := firstn k1 (tls_in (c_tls c))) in *.
  assert (SH : size head = 9).
  { unfold head, size. rewrite firstn_length. change FRAME_HEADER_BYTES with 9 in N1. unfold size in K1. lia. }
  assert (SPL : tls_in (c_tls c) = head ++ tls_in s1) by (rewrite I1; symmetry; apply firstn_skipn).
  rewrite SPL in W. apply wf_bytes_app in W. destruct W as [WH W1].
  destruct (build_fh_total head WH SH) as (h & B). rewrite B.
  destruct (header_octets_frame head h WH SH B) as [L24 FR].
  assert (G : exists r2 c2 k, (if 0 <? fh_length h then receive_raw_data (set_tls c s1) (fh_length h) else (Ok [], set_tls c s1)) = (r2, c2) /\
    c_resp c2 = c_resp c /\ c_req c2 = c_req c /\ tls_in s1 = firstn k (tls_in s1) ++ tls_in (c_tls c2) /\ N.of_nat k <= size (tls_in s1) /\
    ((r2 = Ok (firstn k (tls_in s1)) /\ N.of_nat k = fh_length h) \/ (r2 = Throw RuntimeError /\ N.of_nat k < fh_length h))).
  { destruct (N.ltb_spec 0 (fh_length h)) as [P|P].
    - unfold receive_raw_data. cbn [set_tls c_tls]. destruct (C48_read_exact s1 (fh_length h)) as (k2 & H2). destruct (ssl_read s1 (fh_length h)) as [r2 s2].
      destruct H2 as (K2 & I2 & _ & R2). exists r2, (set_tls (set_tls c s1) s2), k2. split; [reflexivity|]. cbn [set_tls c_tls c_req c_resp].
      split; [reflexivity|]. split; [reflexivity|]. split; [rewrite I2; symmetry; apply firstn_skipn|]. split; [exact K2|exact R2].
    - exists (Ok []), (set_tls c s1), 0%nat. split; [reflexivity|]. split; [reflexivity|]. split; [reflexivity|]. split; [reflexivity|]. split; [lia|].
      left. split; [reflexivity|lia]. }
  destruct G as (r2 & c2 & k2 & -> & CR & CQ & I2 & K2 & [[-> N2]|[-> N2]]); cbn [bind].
  - set (payload := firstn k2 (tls_in s1)) in *.
    assert (OP : is_octets payload) by (apply wf_octets; rewrite I2 in W1; apply wf_bytes_app in W1; apply W1).
    assert (SP : size payload = fh_length h) by (unfold payload, size; rewrite firstn_length; unfold size in K2; lia).
    destruct (FR payload OP SP) as (WO & WE & HW). rewrite CR.
    pose proof (fun x => C89_frame m h payload (c_resp c) x OP) as CF.
    set (w := WFrame (fh_type h) (fh_flags h) (fh_reserved h) (fh_stream_id h) payload) in *.
    assert (REST : forall (r : res frame) c', (c_tls c' = c_tls c2) -> (forall x, r = Throw x <-> build_frame m h payload (c_resp c) = Throw x) ->
      exists r0 c0 taken, (r, c') = (r0, c0) /\ tls_in (c_tls c) = taken ++ tls_in (c_tls c0) /\
      ((exists w, wframe_ok w /\ taken = wire w /\
      forall x, r0 = Throw x <-> frame_rejected m (Table (dt_max (c_resp c)) (dt_entries (c_resp c))) (w_type w) (w_flags w) (w_payload w) x) \/
      (r0 = Throw RuntimeError /\ forall w more, wframe_ok w -> taken <> wire w ++ more))).
    { intros r c' CT X. exists r, c', (wire w). split; [reflexivity|]. rewrite CT. split.
      - rewrite WE, <- app_assoc, <- I2. exact SPL.
      - left. exists w. split; [exact WO|]. split; [reflexivity|]. intros x. rewrite X, CF. reflexivity. }
    destruct (build_frame m h payload (c_resp c)) as [f|y|u|] eqn:BF.
    + pose proof (built_no_throw _ _ _ _ _ (c_resp c) OP BF) as NT. destruct (update_frame (c_resp c) f) as [r3 t3]. cbn [fst] in NT.
      apply REST; [reflexivity|]. intros x. split; [|discriminate]. intros E. apply bind_throw in E. destruct E as [E|(u & _ & E)]; [destruct (NT x E)|discriminate E].
    + apply REST; [reflexivity|]. intros x. split; intros E; congruence.
    + apply REST; [reflexivity|]. intros x. split; intros E; congruence.
    + apply REST; [reflexivity|]. intros x. split; intros E; congruence.
  - eexists _, _, (head ++ firstn k2 (tls_in s1)). split; [reflexivity|]. split; [rewrite SPL, <- app_assoc, <- I2; reflexivity|].
    right. split; [reflexivity|]. intros w more WO E. destruct (wire_split w WO) as (head' & WE & SH' & B').
    rewrite WE, <- app_assoc in E.
    assert (HH : head = head').
    { apply (f_equal (firstn 9)) in E. rewrite !firstn_app in E. unfold size in SH, SH'.
      replace (9 - length head)%nat with 0%nat in E by lia. replace (9 - length head')%nat with 0%nat in E by lia.
      rewrite !firstn_O in E. rewrite !app_nil_r, !firstn_all2 in E by lia. exact E. }
    subst head'. rewrite B in B'. apply Ok_inj in B'. subst h. cbn [header_of fh_length] in N2.
    apply app_inv_head in E. apply (f_equal (@length N)) in E. rewrite app_length, firstn_length in E. unfold size in *. lia.
Qed.

(* ---- sending ---- *)

Lemma serialize_no_throw : forall host f x, serialize host f <> Throw x.
Proof.
  intros host f x E. unfold serialize in E. apply bind_throw in E. destruct E as [E|(p & _ & E)]; [|discriminate E].
  destruct f; cbn [payload_bytes] in E; try discriminate E. unfold goaway_payload_bytes, shl31 in E.
  apply bind_throw in E. destruct E as [E|(p' & _ & E)]; [|discriminate E]. destruct (2 <=? _); discriminate E.
Qed.

(* Sending throws exactly when the connection took only a part of the octets. *)
Theorem C89_send : forall host c o r c', send host c o = (r, c') -> forall x,
  (r = Throw x <->
   x = RuntimeError /\ exists d k, to_send host o d /\ (k < length d)%nat /\ tls_out (c_tls c') = tls_out (c_tls c) ++ firstn k d).
Proof.
  intros host c o r c' S x. destruct (C54_send_exact host c o r c' S) as (_ & _ & _ & [(d & T & -> & OUT)|[(d & k & T & -> & L & OUT)|(N & NOK & OUT)]]).
  - split; [discriminate|]. intros (_ & d' & k & T' & L & E). exfalso.
    assert (d' = d).
    { destruct o as [f|d0|]; cbn [to_send] in T, T'; congruence. }
    subst d'. rewrite E in OUT. apply app_inv_head in OUT. apply (f_equal (@length N)) in OUT. rewrite firstn_length in OUT. lia.
  - split; [intros E; injection E as <-; split; [reflexivity|exists d, k; auto]|]. intros (-> & _). reflexivity.
  - split; [|intros (_ & d & k & T & _); destruct (N d T)]. intros ->. exfalso. destruct o as [f|d|]; cbn [send to_send] in *.
    + unfold send_frame in S. pose proof (serialize_no_throw host f) as NT. destruct (serialize host f) as [raw|y|u|] eqn:Z.
      * exact (N raw eq_refl).
      * exact (NT y eq_refl).
      * discriminate S.
      * discriminate S.
    + exact (N d eq_refl).
    + exact (N _ eq_refl).
Qed.

(* ---- making frames ---- *)

(* A table size where a field is needed, or the reverse. *)
Definition unsendable (e : hentry) : Prop :=
  match e with
  | HEntry SizeUpdate (EHeader _) => True
  | HEntry SizeUpdate (ESize _) => False
  | HEntry _ (ESize _) => True
  | HEntry _ (EHeader _) => False
  end.

Lemma or_first_int : forall n v b, exists l, or_first (encode_integer_value n v) b = Ok l.
Proof. intros n v b. pose proof (encode_integer_nonempty n v) as E. destruct (encode_integer_value n v); [destruct (E eq_refl)|]. cbn. eauto. Qed.

Lemma encode_string_total : forall s mode, is_octets s -> exists l, encode_string s mode = Ok l.
Proof.
  intros s mode O. unfold encode_string. destruct mode.
  - cbn [bind]. destruct (or_first_int 7 (size s) (mode_val ModeNone)) as (l & ->). cbn [bind]. eauto.
  - destruct (huffman_encode_spec s (octets_wf _ O)) as (e & pad & -> & _). cbn [bind].
    destruct (or_first_int 7 (size e) (mode_val ModeHuffman)) as (l & ->). cbn [bind]. eauto.
Qed.

Lemma encode_index_total : forall i p, p <> SizeUpdate -> exists l, encode_index i p = Ok l.
Proof. intros i p N. destruct p; cbn [encode_index]; try apply or_first_int. destruct (N eq_refl). Qed.

Lemma encode_header_outcome : forall e mode t,
  match e_content e with EHeader h => is_octets (fst h) /\ is_octets (snd h) | ESize _ => True end ->
  (unsendable e /\ encode_header e mode t = Throw RuntimeError) \/ (~ unsendable e /\ exists l, encode_header e mode t = Ok l).
Proof.
  intros [p c] mode t O. cbn [e_content] in O. unfold encode_header. cbn [e_prefix].
  destruct (hprefix_eqb p SizeUpdate) eqn:P.
  - assert (p = SizeUpdate) by (destruct p; try discriminate P; reflexivity). subst p. destruct c as [h|n]; cbn [unsendable].
    + left. split; [exact I|reflexivity].
    + right. split; [exact (fun x => x)|]. unfold get_max_size, encode_max_size. cbn [e_content bind]. apply or_first_int.
  - assert (NP : p <> SizeUpdate) by (intros ->; discriminate P). destruct c as [h|n].
    2:{ left. split; [destruct p; try exact I; destruct (NP eq_refl)|reflexivity]. }
    right. split; [intros X; destruct p; try exact X; destruct (NP eq_refl)|].
    unfold get_header. cbn [e_content bind]. destruct O as [On Ov].
    destruct (match reverse_static_find h with Some i => if 0 <? size (snd h) then Some i else None | None => None end);
      [apply encode_index_total; discriminate|]. destruct (find_index (dt_entries t) h); [apply encode_index_total; discriminate|].
    destruct (encode_string_total (snd h) mode Ov) as (lv & EV). destruct (encode_string_total (fst h) mode On) as (ln & EN).
    unfold encode_header_value, encode_header_name. rewrite EV, EN. destruct (reverse_static_find (fst h, []));
    match goal with |- context [encode_index ?i ?q] => destruct (encode_index_total i q NP) as (li & ->) end; cbn [bind]; eauto.
Qed.

Lemma encode_block_outcome : forall b mode t, block_octets b ->
  (Exists unsendable b /\ encode_block b mode t = Throw RuntimeError) \/
  (~ Exists unsendable b /\ exists l, encode_block b mode t = Ok l).
Proof.
  induction b as [|e b IH]; intros mode t O; cbn [encode_block].
  - right. split; [intros X; inversion X|eauto].
  - destruct (encode_header_outcome e mode t (Forall_inv O)) as [[U ->]|[U (l & ->)]]; cbn [bind].
    + left. split; [apply Exists_cons_hd; exact U|reflexivity].
    + destruct (IH mode t (Forall_inv_tail O)) as [[X ->]|[X (l' & ->)]]; cbn [bind].
      * left. split; [apply Exists_cons_tl; exact X|reflexivity].
      * right. split; [|eauto]. intros Y. inversion Y; contradiction.
Qed.

(* Making a frame that carries fields throws exactly when the content of an
   entry does not suit its representation. *)
Theorem C89_make_block : forall host flags sid b mode t padding prio r promised x, block_octets b ->
  (is_flag_set flags 0x20 = true -> p_exclusive prio < 2) ->
  (mk_headers flags sid b mode t padding prio = Throw x <-> x = RuntimeError /\ Exists unsendable b) /\
  (mk_push_promise host flags sid (PushPromise r promised b padding) mode t = Throw x <-> x = RuntimeError /\ Exists unsendable b) /\
  (mk_continuation flags sid b mode t = Throw x <-> x = RuntimeError /\ Exists unsendable b).
Proof.
  intros host flags sid b mode t padding prio r promised x O E.
  unfold mk_headers, headers_construct_payload, mk_push_promise, push_promise_construct_payload, mk_continuation. cbn [pp_block].
  change F_PRIORITY with 0x20.
  assert (PR : exists l, (if is_flag_set flags 0x20 then
      let* e := shl31 (p_exclusive prio) in
      Ok (integral2bytes 4 (N.lor e (extract_low_bit STREAM_ID_BITS (p_dependency prio))) ++ [p_weight prio]) else Ok []) = Ok l).
  { destruct (is_flag_set flags 0x20); [|eauto]. specialize (E eq_refl). unfold shl31. destruct (N.leb_spec 2 (p_exclusive prio)); [lia|]. cbn [bind]. eauto. }
  destruct PR as (pl & PR). rewrite PR. cbn [bind].
  destruct (encode_block_outcome b mode t O) as [[U ->]|[U (l & ->)]]; cbn [bind].
  - assert (G : forall A, Throw (A := A) RuntimeError = Throw x <-> x = RuntimeError /\ Exists unsendable b).
    { intros A. split; [intros X; injection X as <-; auto|intros [-> _]; reflexivity]. }
    split; [apply G|]. split; apply G.
  - assert (G : forall A (y : A), Ok y = Throw x <-> x = RuntimeError /\ Exists unsendable b).
    { intros A y. split; [discriminate|intros [_ X]; contradiction]. }
    split; [apply G|]. split; apply G.
Qed.

(* The other constructors that can throw. *)
Theorem C89_make_other : forall x,
  (forall flags d, mk_ping flags d = Throw x <-> x = InvalidArgument /\ (8 < length d)%nat) /\
  (forall sid e d w, mk_priority sid (Prio e d w) = Throw x <-> x = InvalidArgument /\ (2 <= e \/ 2 ^ 31 <= d)) /\
  (forall sid r inc, mk_window_update sid r inc = Throw x <-> x = InvalidArgument /\ 2 ^ 31 <= inc).
Proof.
  intros x. split; [|split].
  - intros flags d. unfold mk_ping, construct_opaque_data, size. destruct (N.ltb_spec 8 (N.of_nat (length d))); cbn [bind]; split; intros E.
    + injection E as <-. split; [reflexivity|lia].
    + destruct E as [-> _]. reflexivity.
    + discriminate E.
    + destruct E as [_ E]. lia.
  - intros sid e d w. unfold mk_priority, validate_priority. cbn [p_exclusive p_dependency]. change MAX_STREAM_ID with (2 ^ 31 - 1).
    destruct (N.ltb_spec 1 e) as [L|L]; cbn [bind].
    + split; intros E; [injection E as <-; split; [reflexivity|left; lia]|destruct E as [-> _]; reflexivity].
    + destruct (N.ltb_spec (2 ^ 31 - 1) d) as [L2|L2]; cbn [bind].
      * split; intros E; [injection E as <-; split; [reflexivity|right; change (2 ^ 31) with 2147483648 in *; lia]|destruct E as [-> _]; reflexivity].
      * split; intros E; [discriminate E|destruct E as [_ [E|E]]; [lia|change (2 ^ 31) with 2147483648 in *; lia]].
  - intros sid r inc. unfold mk_window_update, validate_window_size. change 0x7fffffff with (2 ^ 31 - 1).
    destruct (N.ltb_spec (2 ^ 31 - 1) inc) as [L|L]; cbn [bind]; split; intros E.
    + injection E as <-. split; [reflexivity|change (2 ^ 31) with 2147483648 in *; lia].
    + destruct E as [-> _]. reflexivity.
    + discriminate E.
    + destruct E as [_ E]. change (2 ^ 31) with 2147483648 in *. lia.
Qed.

(* A GOAWAY frame of three octets, a CONTINUATION frame whose field has index 70
   and a frame that breaks off, received one after the other. *)
Example C89_case :
  let c := new_client (Tls ([0; 0; 3; 7; 0; 0; 0; 0; 0; 1; 2; 3] ++ [0; 0; 1; 9; 4; 0; 0; 0; 1; 198] ++ [0; 0; 5; 0; 0; 0; 0; 0; 1; 7]) []
    (repeat (Chunk 100) 20)) in
  let '(r1, c1) := receive_frame Strict c in
  let '(r2, c2) := receive_frame Strict c1 in
  let '(r3, c3) := receive_frame Strict c2 in
  (r1, r2, r3) = (Throw InvalidArgument, Throw OutOfRange, Throw RuntimeError) /\
  frame_rejected Strict (Table 4096 []) GOAWAY 0 [1; 2; 3] InvalidArgument /\
  frame_rejected Strict (Table 4096 []) CONTINUATION 4 [198] OutOfRange /\
  mk_headers 4 1 [HEntry Indexed (ESize 3)] ModeNone default_table [] (Prio 0 0 0) = Throw RuntimeError.
Proof.
  assert (G : frame_rejected Strict (Table 4096 []) CONTINUATION 4 [198] OutOfRange).
  { apply (C89_frame Strict (FH 1 CONTINUATION 4 0 1) [198] default_table OutOfRange); [|vm_compute; reflexivity].
    intros x [<-|[]]. reflexivity. }
  vm_compute. split; [reflexivity|]. split; [|split; [exact G|reflexivity]]. apply short_goaway; [reflexivity|cbn; lia].
Qed.

Print Assumptions C89_field.
Print Assumptions C89_block.
Print Assumptions C89_frame.
Print Assumptions C89_rejection_kind.
Print Assumptions C89_receive.
Print Assumptions C89_send.
Print Assumptions C89_make_block.
Print Assumptions C89_make_other.
