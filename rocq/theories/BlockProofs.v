(* Encoding and decoding of whole header blocks, padding and priority fields. *)
From Coq Require Import ZArith NArith List Bool Lia ZifyBool ZifyNat ZifyN.
From Verif Require Import Base Arith Util IntRep IntRepProofs Huffman StaticTable HeaderType DynTable HeaderEnc HeaderDec
  FrameHeader Frames FrameBuilder SpecBits SpecInt SpecHuffman SpecHpack SpecFrame UtilProofs IntSpecProofs
  DynTableProofs StaticProofs HeaderProofs HeaderProofs2 PropHeader FrameProofs.
Import ListNotations.
Open Scope N_scope.
Ltac Zify.zify_post_hook ::= Z.div_mod_to_equations.

(* ---- decoding does not look past the field ---- *)

Lemma vget_app : forall v i b rest, vget v i = Ok b -> vget (v ++ rest) i = Ok b.
Proof.
  intros v i b rest H. unfold vget in *. destruct (N.ltb_spec i (size v)) as [L|]; [|discriminate].
  rewrite size_app. destruct (N.ltb_spec i (size v + size rest)); [|lia].
  rewrite app_nth1; [exact H|]. unfold size in L. lia.
Qed.

Lemma vrange_app_r : forall v b n r rest, vrange v b n = Ok r -> vrange (v ++ rest) b n = Ok r.
Proof.
  intros v b n r rest H. unfold vrange in *. destruct (N.leb_spec (b + n) (size v)) as [L|]; [|discriminate].
  rewrite size_app. destruct (N.leb_spec (b + n) (size v + size rest)); [|lia].
  rewrite skipn_app, firstn_app. rewrite <- H. f_equal.
  replace (N.to_nat n - length (skipn (N.to_nat b) v))%nat with 0%nat
    by (rewrite skipn_length; unfold size in L; lia).
  cbn [firstn]. apply app_nil_r.
Qed.

Lemma verase_app_r : forall v n r rest, verase_front v n = Ok r -> verase_front (v ++ rest) n = Ok (r ++ rest).
Proof.
  intros v n r rest H. unfold verase_front in *. destruct (N.leb_spec n (size v)) as [L|]; [|discriminate].
  rewrite size_app. destruct (N.leb_spec n (size v + size rest)); [|lia].
  injection H as <-. rewrite skipn_app.
  replace (N.to_nat n - length v)%nat with 0%nat by (unfold size in L; lia). reflexivity.
Qed.

Lemma dec_loop_app : forall l acc m x rest, dec_loop l acc m = Ok x -> dec_loop (l ++ rest) acc m = Ok x.
Proof.
  induction l as [|b l IH]; intros acc m x rest H; cbn [dec_loop app] in *; [discriminate|].
  destruct (32 <=? m); [discriminate|]. destruct (2 ^ 31 <=? _); [discriminate|].
  destruct (N.land b 128 =? 128); [apply IH; exact H|exact H].
Qed.

Lemma int_app : forall n v p rest, decode_int_and_length n v = Ok p -> decode_int_and_length n (v ++ rest) = Ok p.
Proof.
  intros n v p rest H. unfold decode_int_and_length, decode_integer_value in *.
  apply bind_ok in H. destruct H as (x & D & E). destruct v as [|b v]; [discriminate|]. cbn [app].
  destruct (_ <? _); [injection D as ->; exact E|].
  rewrite (dec_loop_app _ _ _ _ rest D). exact E.
Qed.

Lemma address_app : forall m v i rest, address_of m v i = Ok tt -> address_of m (v ++ rest) i = Ok tt.
Proof.
  intros [|] v i rest H; [|reflexivity]. unfold address_of in *. destruct (N.ltb_spec i (size v)); [|discriminate].
  rewrite size_app. destruct (N.ltb_spec i (size v + size rest)); [reflexivity|lia].
Qed.

Lemma string_app : forall m v p rest, decode_string m v = Ok p -> decode_string m (v ++ rest) = Ok p.
Proof.
  intros m v p rest H. unfold decode_string in *.
  apply bind_ok in H. destruct H as ((len & c) & I & H). rewrite (int_app _ _ _ rest I). cbn [bind].
  apply bind_ok in H. destruct H as (b0 & V & H). rewrite (vget_app _ _ _ rest V). cbn [bind].
  apply bind_ok in H. destruct H as (s & S & H).
  assert (X : (if negb (extract_high_bit 1 8 b0 =? 0)
     then let* enc := vrange (v ++ rest) c len in let* dec := huffman_decode enc in let* _ := address_of m dec 0 in Ok dec
     else let* _ := address_of m (v ++ rest) c in match vrange (v ++ rest) c len with UB _ => UB OobRead | r => r end) = Ok s).
  { destruct (negb _).
    - apply bind_ok in S. destruct S as (enc & R & S). rewrite (vrange_app_r _ _ _ _ rest R). exact S.
    - apply bind_ok in S. destruct S as ([] & A & S). rewrite (address_app _ _ _ rest A). cbn [bind].
      destruct (vrange v c len) eqn:R; try discriminate. rewrite (vrange_app_r _ _ _ _ rest R). exact S. }
  rewrite X. exact H.
Qed.

Lemma index_app : forall v p r rest, decode_index v p = Ok r -> decode_index (v ++ rest) p = Ok r.
Proof. intros v [] r rest H; cbn [decode_index] in *; try discriminate; apply int_app; exact H. Qed.

Lemma decode_header_app : forall m v t r rest, decode_header m v t = Ok r -> decode_header m (v ++ rest) t = Ok r.
Proof.
  intros m v t r rest H. unfold decode_header in *.
  apply bind_ok in H. destruct H as (b0 & V & H). rewrite (vget_app _ _ _ rest V). cbn [bind].
  apply bind_ok in H. destruct H as (p & P & H). rewrite P. cbn [bind].
  destruct (hprefix_eqb p SizeUpdate).
  { unfold decode_max_size in *. apply bind_ok in H. destruct H as (x & I & H).
    rewrite (int_app _ _ _ rest I). exact H. }
  apply bind_ok in H. destruct H as ((i & il) & I & H). rewrite (index_app _ _ _ rest I). cbn [bind].
  apply bind_ok in H. destruct H as (h & Hh & H). rewrite Hh. cbn [bind].
  destruct (hprefix_eqb p Indexed); [exact H|].
  apply bind_ok in H. destruct H as (data & D & H). rewrite (verase_app_r _ _ _ rest D). cbn [bind].
  apply bind_ok in H. destruct H as ([[name data'] c] & N & H).
  assert (X : (if size (fst h) <=? 0
     then let* (name, n) := decode_header_name m (data ++ rest) in
          let* data' := verase_front (data ++ rest) n in Ok (name, data', il + n)
     else Ok (fst h, data ++ rest, il)) = Ok (name, data' ++ rest, c)).
  { destruct (size (fst h) <=? 0).
    - apply bind_ok in N. destruct N as ((nm & n) & S & N). unfold decode_header_name in *.
      rewrite (string_app _ _ _ rest S). cbn [bind].
      apply bind_ok in N. destruct N as (d' & E & N). rewrite (verase_app_r _ _ _ rest E). cbn [bind].
      injection N as -> -> ->. reflexivity.
    - injection N as -> -> ->. reflexivity. }
  rewrite X. cbn [bind].
  apply bind_ok in H. destruct H as ((val & n) & S & H). unfold decode_header_value in *.
  rewrite (string_app _ _ _ rest S). cbn [bind].
  apply bind_ok in H. destruct H as (d & E & H). rewrite (verase_app_r _ _ _ rest E). exact H.
Qed.

(* A block that decodes on its own is a prefix of any longer block's decoding. *)
Lemma decode_block_app : forall m t b v rest, wf_bytes v -> wf_bytes rest -> decode_block m v t = Ok b ->
  decode_block m (v ++ rest) t = let* b' := decode_block m rest t in Ok (b ++ b').
Proof.
  intros m t. induction b as [|e b IH]; intros v rest W Wr H.
  - destruct v as [|x v].
    + cbn [app]. destruct (decode_block m rest t); reflexivity.
    + rewrite decode_block_step in H by (try exact W; discriminate).
      apply bind_ok in H. destruct H as ((e & n) & _ & H). apply bind_ok in H. destruct H as (b & _ & H). discriminate.
  - destruct v as [|x v]; [discriminate|].
    rewrite decode_block_step in H by (try exact W; discriminate).
    apply bind_ok in H. destruct H as ((e' & n) & D & H). apply bind_ok in H. destruct H as (b' & B & H).
    injection H as -> ->.
    rewrite decode_block_step by (try (apply wf_bytes_app; split; assumption); discriminate).
    rewrite (decode_header_app _ _ _ _ rest D). cbn [bind].
    apply decode_header_bounds in D; [|exact W]. destruct D as [D _].
    rewrite skipn_app. replace (N.to_nat n - length (x :: v))%nat with 0%nat by (unfold size in D; lia).
    change (skipn 0 rest) with rest. rewrite (IH _ rest (wf_bytes_skipn _ _ W) Wr B).
    destruct (decode_block m rest t); reflexivity.
Qed.

(* ---- encoding then decoding a block ---- *)

(* An entry the encoder can represent: a header of octets, not INDEXED unless
   it is in a table; or a table size below the decoder's limit (C19).  Under
   the strict reading names and values are not empty. *)
Inductive sendable (m : ub_mode) (t : dyn_table) : hentry -> Prop :=
| send_literal k name value :
    is_octets name -> is_octets value -> m = Lenient \/ (name <> [] /\ value <> []) ->
    sendable m t (HEntry (lib_prefix k) (EHeader (name, value)))
| send_indexed name value :
    is_octets name -> is_octets value -> in_tables t (name, value) ->
    sendable m t (HEntry Indexed (EHeader (name, value)))
| send_size n : n < 2 ^ 31 + 2 ^ 5 - 1 -> sendable m t (HEntry SizeUpdate (ESize n)).

(* The entry a receiver with the same table reports for the entry sent: the
   same, except that a header found in a table is reported as INDEXED. *)
Inductive received (t : dyn_table) : hentry -> hentry -> Prop :=
| rec_same e : (forall h, e_content e = EHeader h -> ~ in_tables t h) -> received t e e
| rec_indexed p h : in_tables t h -> received t (HEntry p (EHeader h)) (HEntry Indexed (EHeader h)).

Lemma in_tables_dec : forall t h, in_tables t h \/ ~ in_tables t h.
Proof.
  intros t h. destruct (chosen_cases Never h t) as [(I & _)|(NI & _)]; auto.
Qed.

Lemma entry_roundtrip : forall m t e mode, sendable m t e -> size (dt_entries t) < 2 ^ 30 ->
  exists out, encode_header e mode t = Ok out /\
   (size out < 2 ^ 31 -> wf_bytes out /\ out <> [] /\
    forall rest, wf_bytes rest -> exists e', decode_header m (out ++ rest) t = Ok (e', size out) /\ received t e e').
Proof.
  intros m t e mode S T. destruct S as [k name value On Ov M|name value On Ov I|n B].
  - destruct (C18_encoder_total k name value mode t On Ov) as (out & E). exists out. split; [exact E|]. intros L.
    assert (X : wf_bytes out /\ out <> []).
    { destruct (encode_header_spec k (name, value) mode t) as (out' & E' & R); try (apply octets_wf; assumption).
      rewrite E' in E. injection E as ->.
      apply minimal_small in R; [|exact L|apply chosen_index_bound; exact T]. eapply small_repr_octets. exact R. }
    split; [apply X|]. split; [apply X|]. intros rest W.
    destruct (C18_header_roundtrip m k name value mode t rest out On Ov (wf_octets rest W) M E L T) as (p & D & P1 & P2).
    exists (HEntry p (EHeader (name, value))). split; [exact D|].
    destruct (in_tables_dec t (name, value)) as [I|NI].
    + rewrite (P1 I). constructor. exact I.
    + rewrite (P2 NI). constructor. cbn. intros h X'. injection X' as <-. exact NI.
  - destruct (C21_indexed_in_tables_partial m (name, value) mode t [] On Ov (wf_octets [] (Forall_nil _)) I T) as (out & E & _).
    exists out. split; [exact E|]. intros L.
    assert (X : forall rest, wf_bytes rest -> decode_header m (out ++ rest) t = Ok (HEntry Indexed (EHeader (name, value)), size out)).
    { intros rest W.
      destruct (C21_indexed_in_tables_partial m (name, value) mode t rest On Ov (wf_octets rest W) I T) as (out' & E' & D).
      rewrite E in E'. injection E' as <-. exact D. }
    assert (Y : wf_bytes out /\ out <> []).
    { assert (Z : exists i, encode_header (HEntry Indexed (EHeader (name, value))) mode t = encode_index i Indexed).
      { clear - I. destruct (chosen_cases Never (name, value) t) as [(_ & i & C & _ & _)|(NI & _)]; [|contradiction].
        exists i. unfold chosen in C. unfold encode_header. cbn [e_prefix get_header e_content bind].
        change (hprefix_eqb Indexed SizeUpdate) with false. cbv iota. rewrite static_size.
        destruct (match reverse_static_find (name, value) with
              | Some i => if 0 <? size (snd (name, value)) then Some i else None | None => None end) as [j|].
        - inversion C; subst. reflexivity.
        - destruct (find_index (dt_entries t) (name, value)) as [j|]; [inversion C; subst; reflexivity|].
          destruct (reverse_static_find (fst (name, value), [])); discriminate. }
      destruct Z as (i & Z). destruct (encode_index_indexed i) as (l & E' & S & F).
      rewrite Z, E' in E. injection E as ->. split; [eapply rfc_int_octets; apply S|].
      destruct F as (b & tl & -> & _). discriminate. }
    split; [apply Y|]. split; [apply Y|]. intros rest W. eexists. split; [apply X; exact W|]. apply rec_indexed. exact I.
  - destruct (C19_size_update_roundtrip_partial m n mode t [] (wf_octets [] (Forall_nil _)) B) as (out & E & _).
    exists out. split; [exact E|]. intros L.
    assert (Y : wf_bytes out /\ out <> []).
    { unfold encode_header in E. cbn [e_prefix get_max_size e_content bind] in E.
      change (hprefix_eqb SizeUpdate SizeUpdate) with true in E. cbv iota in E. unfold encode_max_size in E.
      destruct (or_prefix 5 n 1 ltac:(unfold prefix_ok; lia)) as (l & E' & S & F & _); [vm_compute; discriminate|].
      change (1 * 2 ^ 5) with 32 in *. change (prefix_val SizeUpdate) with 32 in E. rewrite E' in E. injection E as ->.
      split; [eapply rfc_int_octets; apply S|]. destruct F as (b & tl & -> & _). discriminate. }
    split; [apply Y|]. split; [apply Y|]. intros rest W.
    destruct (C19_size_update_roundtrip_partial m n mode t rest (wf_octets rest W) B) as (out' & E' & D).
    rewrite E in E'. injection E' as <-.
    eexists. split; [exact D|]. constructor. cbn. discriminate.
Qed.

Lemma encode_block_total : forall m t mode b, Forall (sendable m t) b -> size (dt_entries t) < 2 ^ 30 ->
  exists out, encode_block b mode t = Ok out.
Proof.
  intros m t mode b F T. induction F as [|e b S F (out & IH)]; [exists []; reflexivity|].
  destruct (entry_roundtrip m t e mode S T) as (x & E & _). cbn [encode_block]. rewrite E, IH. cbn. eauto.
Qed.

Lemma block_roundtrip : forall m t mode b, Forall (sendable m t) b -> size (dt_entries t) < 2 ^ 30 ->
  forall out, encode_block b mode t = Ok out -> size out < 2 ^ 31 ->
  wf_bytes out /\ exists b', decode_block m out t = Ok b' /\ Forall2 (received t) b b'.
Proof.
  intros m t mode b F T. induction F as [|e b S F IH]; intros out E L; cbn [encode_block] in E.
  - injection E as <-. split; [constructor|]. exists []. split; [reflexivity|constructor].
  - apply bind_ok in E. destruct E as (x & X & E). apply bind_ok in E. destruct E as (y & Y & E). injection E as <-.
    rewrite size_app in L.
    destruct (IH y Y ltac:(lia)) as (Wy & b' & D & R).
    destruct (entry_roundtrip m t e mode S T) as (x' & X' & P). rewrite X in X'. injection X' as <-.
    destruct (P ltac:(lia)) as (Wx & NE & Q). destruct (Q y Wy) as (e' & De & Re).
    assert (W : wf_bytes (x ++ y)) by (apply wf_bytes_app; split; assumption).
    split; [exact W|]. exists (e' :: b'). split; [|constructor; assumption].
    rewrite (decode_block_cons m x y t e' W NE De), D. reflexivity.
Qed.

(* ---- padding ---- *)

Lemma padded_split : forall contents padding, size padding < 256 ->
  split_padding (padded_payload true contents padding) = Ok (padding, contents).
Proof.
  intros contents padding L. unfold padded_payload, split_padding. change (N.of_nat (length padding)) with (size padding).
  cbn [app]. rewrite size_cons, size_app.
  destruct (N.ltb_spec (size contents + size padding + 1) (size padding)); [lia|].
  assert (K : N.to_nat (size contents + size padding + 1 - size padding) = Datatypes.S (length contents)) by (unfold size; lia).
  rewrite K. cbn [firstn skipn]. rewrite firstn_len_app, skipn_len_app by reflexivity. reflexivity.
Qed.

Lemma split_padded : forall raw, wf_bytes raw ->
  match raw with
  | [] => split_padding raw = UB EmptyBack
  | p :: data =>
      if size data <? p then exists u, split_padding raw = UB u
      else exists contents padding, raw = padded_payload true contents padding /\ size padding = p
  end.
Proof.
  intros [|p data] W; [reflexivity|]. destruct (N.ltb_spec (size data) p) as [L|L].
  - unfold split_padding. rewrite size_cons. destruct (N.ltb_spec (size data + 1) p) as [L'|L']; [eauto|].
    replace (size data + 1 - p) with 0 by lia. cbn. eauto.
  - exists (firstn (length data - N.to_nat p) data), (skipn (length data - N.to_nat p) data).
    assert (Z : length (skipn (length data - N.to_nat p) data) = N.to_nat p).
    { rewrite skipn_length. unfold size in L. lia. }
    split; [|unfold size; rewrite Z; lia].
    unfold padded_payload. rewrite firstn_skipn, Z, N2Nat.id. reflexivity.
Qed.

(* ---- priority fields ---- *)

Lemma split_priority : forall e dep w rest, e < 2 -> dep < 2 ^ 31 ->
  headers_split_priority (priority_fields e dep w ++ rest) = Ok (Prio e dep w, rest).
Proof.
  intros e dep w rest E D. unfold headers_split_priority, priority_fields.
  rewrite <- app_assoc.
  pose proof (vrange_app [] (be_octets 4 (e * 2 ^ 31 + dep)) ([w] ++ rest) 0 4 eq_refl) as R.
  rewrite be_octets_size in R. specialize (R eq_refl). cbn [app] in R. change ([w] ++ rest) with (w :: rest). rewrite R. cbn [bind].
  destruct (be4_first e dep E D) as (b & tl & Q & B & _).
  assert (G : vget (be_octets 4 (e * 2 ^ 31 + dep)) 0 = Ok b).
  { unfold vget. rewrite be_octets_size. change (0 <? N.of_nat 4) with true. cbv iota. rewrite Q. reflexivity. }
  rewrite G. cbn [bind].
  pose proof (be4_round (e * 2 ^ 31 + dep) [] (join_lt e dep E D)) as V. rewrite app_nil_r in V. rewrite V. cbn [bind].
  rewrite verase_front_app by (rewrite be_octets_size; reflexivity). cbn [bind].
  unfold STREAM_ID_BITS. rewrite high1_8, B, low31, join_low by exact D. reflexivity.
Qed.
