(* Property C76: how long an encoded header block can be. *)
From Coq Require Import String.
From Coq Require Import ZArith NArith List Bool Lia ZifyBool ZifyNat ZifyN.
From Verif Require Import Base Arith IntRep Huffman StaticTable HeaderType DynTable HeaderEnc Frames
  SpecBits SpecHuffman SpecInt SpecHpack IntRepProofs IntSpecProofs HuffmanProofs DynTableProofs StaticProofs
  HeaderProofs PropHuffman PropHeader PropFrame.
Import ListNotations.
Local Open Scope string_scope.
Local Open Scope list_scope.
Local Open Scope N_scope.
Ltac Zify.zify_post_hook ::= Z.div_mod_to_equations.

(* The size of a header list, RFC 7540 section 6.5.2: per field the octets of
   its name and value and 32.  A table size update is no field; it is allowed
   11 octets, a 64-bit integer. *)
Definition entry_list_size (e : hentry) : N :=
  match e_content e with
  | EHeader (name, value) => size name + size value + 32
  | ESize _ => 11
  end.
Definition header_list_size (b : header_block) : N := fold_right (fun e n => entry_list_size e + n) 0 b.

(* Objects that a machine with 64-bit addresses can hold. *)
Definition fits (e : hentry) : Prop :=
  match e_content e with
  | EHeader (name, value) => size name < 2 ^ 60 /\ size value < 2 ^ 60
  | ESize n => n < 2 ^ 64
  end.

(* Strings whose codes in RFC 7541, Appendix B have at most 8 bits per octet on
   average: every string of digits, letters and the most common punctuation, and
   many others. *)
Definition code_bits (s : list N) : N := fold_right (fun b n => rfc_code_length b + n) 0 s.
Definition compact (s : list N) : Prop := code_bits s <= 8 * size s.
Definition octet_entry (e : hentry) : Prop :=
  match e_content e with
  | EHeader (name, value) => is_octets name /\ is_octets value
  | ESize _ => True
  end.
Definition compact_entry (e : hentry) : Prop :=
  match e_content e with
  | EHeader (name, value) => is_octets name /\ is_octets value /\ compact name /\ compact value
  | ESize _ => True
  end.

(* ---- integers ---- *)

Lemma enc_cont_mono : forall k v w, N.to_nat w = k -> v <= w -> (length (enc_cont v) <= length (enc_cont w))%nat.
Proof.
  intros k. induction k as [k IH] using lt_wf_ind. intros v w K L. rewrite (enc_cont_eq v), (enc_cont_eq w).
  destruct (N.leb_spec 128 v) as [V|V]; destruct (N.leb_spec 128 w) as [W|W]; cbn [length]; try lia.
  apply le_n_S. apply (IH (N.to_nat (w / 128))); [lia|reflexivity|]. apply N.div_le_mono; lia.
Qed.

Lemma encode_integer_mono : forall n v w, v <= w -> size (encode_integer_value n v) <= size (encode_integer_value n w).
Proof.
  intros n v w L. unfold encode_integer_value.
  destruct (N.ltb_spec v (2 ^ n - 1)) as [V|V]; destruct (N.ltb_spec w (2 ^ n - 1)) as [W|W]; unfold size; cbn [length]; try lia.
  pose proof (enc_cont_mono _ (v - (2 ^ n - 1)) (w - (2 ^ n - 1)) eq_refl ltac:(lia)). lia.
Qed.

Lemma encode_integer_pos : forall n v, 1 <= size (encode_integer_value n v).
Proof. intros n v. unfold encode_integer_value, size. destruct (v <? 2 ^ n - 1); cbn [length]; lia. Qed.

Lemma or_first_size : forall l b out, or_first l b = Ok out -> size out = size l.
Proof. intros [|x l] b out H; [discriminate H|]. apply Ok_inj in H. subst out. reflexivity. Qed.

Lemma encode_index_size : forall i p out, encode_index i p = Ok out -> i < 2 ^ 64 -> size out <= 11.
Proof.
  intros i p out H L. destruct p; cbn [encode_index] in H; try discriminate H; apply or_first_size in H; rewrite H;
    apply encode_integer_length_64; exact L.
Qed.

Lemma encode_index_zero_size : forall p out, encode_index 0 p = Ok out -> size out = 1.
Proof. intros p out H. destruct p; cbn [encode_index] in H; try discriminate H; apply or_first_size in H; rewrite H; reflexivity. Qed.

(* ---- strings ---- *)

Lemma plain_string_size : forall s out, encode_string s ModeNone = Ok out ->
  size out = size (encode_integer_value 7 (size s)) + size s.
Proof.
  intros s out H. unfold encode_string in H. cbn [bind] in H. apply bind_ok in H. destruct H as (l & L & H).
  apply Ok_inj in H. subst out. rewrite size_app. apply or_first_size in L. rewrite L. reflexivity.
Qed.

Lemma huffman_string_size : forall s out, is_octets s -> encode_string s ModeHuffman = Ok out ->
  size out = size (encode_integer_value 7 ((size (flat_map rfc_code s) + 7) / 8)) + (size (flat_map rfc_code s) + 7) / 8.
Proof.
  intros s out O H. unfold encode_string in H. apply bind_ok in H. destruct H as (e & E & H).
  destruct (C07_huffman_encoder_output s O) as (e' & E' & _ & Z). rewrite E in E'. apply Ok_inj in E'. subst e'.
  apply bind_ok in H. destruct H as (l & L & H). apply Ok_inj in H. subst out. rewrite size_app. apply or_first_size in L.
  rewrite L, Z. reflexivity.
Qed.

Lemma bits_total : forall s, size (flat_map rfc_code s) = code_bits s.
Proof.
  induction s as [|b s IH]; [reflexivity|]. cbn [flat_map code_bits fold_right]. rewrite size_app, IH.
  unfold size at 1. rewrite (code_len b). unfold code_bits. lia.
Qed.

Lemma bits_bound : forall s, compact s -> size (flat_map rfc_code s) <= 8 * size s.
Proof. intros s C. rewrite bits_total. exact C. Qed.

Lemma bits_below : forall s n, (forall b, In b s -> rfc_code_length b <= n) -> code_bits s <= n * size s.
Proof.
  induction s as [|b s IH]; intros n C; [cbn; lia|]. cbn [code_bits fold_right]. fold (code_bits s). rewrite size_cons.
  specialize (IH n (fun x I => C x (or_intror I))). pose proof (C b (or_introl eq_refl)). lia.
Qed.

Lemma bits_above : forall s n, (forall b, In b s -> n <= rfc_code_length b) -> n * size s <= size (flat_map rfc_code s).
Proof.
  induction s as [|b s IH]; intros n C; [cbn; lia|]. cbn [flat_map]. rewrite size_app, size_cons.
  assert (X : forall x, In x s -> n <= rfc_code_length x) by (intros x I; apply C; right; exact I). specialize (IH n X).
  pose proof (code_len b) as L. pose proof (C b (or_introl eq_refl)) as Y. unfold size at 2. rewrite L. lia.
Qed.

Lemma string_not_longer : forall s x y, is_octets s -> compact s -> encode_string s ModeHuffman = Ok x ->
  encode_string s ModeNone = Ok y -> size x <= size y.
Proof.
  intros s x y O C X Y. rewrite (huffman_string_size _ _ O X), (plain_string_size _ _ Y).
  pose proof (bits_bound s C) as B. assert (L : (size (flat_map rfc_code s) + 7) / 8 <= size s) by lia.
  pose proof (encode_integer_mono 7 _ _ L). lia.
Qed.

(* ---- headers ---- *)

Lemma lookups_small : forall t h, size (dt_entries t) < 2 ^ 60 ->
  (forall i, reverse_static_find h = Some i -> i < 2 ^ 64) /\
  (forall i, find_index (dt_entries t) h = Some i -> static_table_size + 1 + i < 2 ^ 64).
Proof.
  intros t h T. split; intros i H.
  - assert (B : 1 <= i <= 61) by (eapply chosen_index_pos; exact H). clear - B.
    change (2 ^ 64) with 18446744073709551616. lia.
  - apply find_index_some in H. assert (B : (N.to_nat i < length (dt_entries t))%nat) by (apply nth_error_Some; rewrite H; discriminate).
    unfold size in T. rewrite static_size.
    change (2 ^ 64) with 18446744073709551616. change (2 ^ 60) with 1152921504606846976 in T. clear - B T. lia.
Qed.

(* Every encoded entry, both modes: how it was put together. *)
Lemma entry_parts : forall e mode t out, encode_header e mode t = Ok out -> fits e -> size (dt_entries t) < 2 ^ 60 ->
  (exists n, e_content e = ESize n /\ size out <= 11) \/
  exists name value, e_content e = EHeader (name, value) /\
    (size out <= 11 \/
     exists ix v : list N, size ix <= 11 /\ encode_string value mode = Ok v /\
       (size out = size ix + size v \/
        exists nm : list N, size ix = 1 /\ encode_string name mode = Ok nm /\ size out = size ix + size nm + size v)).
Proof.
  intros [p ct] mode t out H F T. unfold encode_header in H. cbn [e_prefix] in H. destruct (hprefix_eqb p SizeUpdate).
  - left. unfold get_max_size in H. cbn [e_content] in *. destruct ct as [h|n]; [discriminate H|]. exists n. split; [reflexivity|].
    cbn [bind] in H. unfold encode_max_size in H. apply or_first_size in H. rewrite H. apply encode_integer_length_64. exact F.
  - right. unfold get_header in H. cbn [e_content] in *. destruct ct as [[name value]|n]; [|discriminate H].
    exists name, value. split; [reflexivity|]. cbn [bind fst snd] in H.
    destruct (match reverse_static_find (name, value) with
              | Some i => if 0 <? size value then Some i else None | None => None end) as [i|] eqn:R.
    { left. eapply encode_index_size; [exact H|]. destruct (reverse_static_find (name, value)) as [j|] eqn:J; [|discriminate R].
      destruct (0 <? size value); [|discriminate R]. injection R as <-. eapply (proj1 (lookups_small t _ T)). exact J. }
    destruct (find_index (dt_entries t) (name, value)) as [i|] eqn:I.
    { left. eapply encode_index_size; [exact H|]. eapply (proj2 (lookups_small t _ T)). exact I. }
    right. destruct (reverse_static_find (name, [])) as [i|] eqn:J.
    + apply bind_ok in H. destruct H as (ix & X & H). apply bind_ok in H. destruct H as (v & V & H). apply Ok_inj in H. subst out.
      exists ix, v. split; [eapply encode_index_size; [exact X|]; eapply (proj1 (lookups_small t _ T)); exact J|].
      split; [exact V|]. left. apply size_app.
    + apply bind_ok in H. destruct H as (ix & X & H). apply bind_ok in H. destruct H as (nm & NM & H).
      apply bind_ok in H. destruct H as (v & V & H). apply Ok_inj in H. subst out. pose proof (encode_index_zero_size _ _ X) as X1.
      exists ix, v. split; [rewrite X1; lia|]. split; [exact V|]. right. exists nm. split; [exact X1|]. split; [exact NM|].
      rewrite !size_app. lia.
Qed.

Lemma entry_plain : forall e t out, encode_header e ModeNone t = Ok out -> fits e -> size (dt_entries t) < 2 ^ 60 ->
  size out <= entry_list_size e.
Proof.
  intros e t out H F T. destruct (entry_parts e ModeNone t out H F T) as [(n & E & L)|(name & value & E & K)];
    unfold entry_list_size, fits in *; rewrite E in *; [exact L|].
  assert (S : forall s x, encode_string s ModeNone = Ok x -> size s < 2 ^ 60 -> size x <= 11 + size s).
  { intros s x X Z. rewrite (plain_string_size _ _ X).
    pose proof (encode_integer_length_64 7 (size s) ltac:(eapply N.lt_trans; [exact Z|reflexivity])) as Y. clear - Y. lia. }
  destruct F as (F1 & F2). destruct K as [L|(ix & v & LI & V & [Z|(nm & L1 & NM & Z)])].
  - clear - L. lia.
  - pose proof (S _ _ V F2) as Y. clear - Y Z LI. lia.
  - pose proof (S _ _ V F2) as Y. pose proof (S _ _ NM F1) as X. clear - X Y Z L1. lia.
Qed.

(* Plain mode: a block is never longer than its header list is large. *)
Theorem C76_plain_partial : forall b t out, Forall fits b -> size (dt_entries t) < 2 ^ 60 ->
  encode_block b ModeNone t = Ok out -> size out <= header_list_size b.
Proof.
  intros b t out F T. revert out. induction F as [|e b E F IH]; intros out H; cbn [encode_block] in H.
  - apply Ok_inj in H. subst out. cbn. lia.
  - apply bind_ok in H. destruct H as (x & X & H). apply bind_ok in H. destruct H as (y & Y & H). apply Ok_inj in H. subst out.
    rewrite size_app. pose proof (entry_plain e t x X E T) as A. specialize (IH y Y). cbn [header_list_size fold_right].
    fold (header_list_size b). clear - A IH. lia.
Qed.

(* Huffman mode, for headers whose codes have at most 8 bits per octet on
   average: never longer than plain mode, so the same bound holds. *)
Lemma entry_huffman : forall e t x y, compact_entry e -> encode_header e ModeHuffman t = Ok x ->
  encode_header e ModeNone t = Ok y -> size x <= size y.
Proof.
  intros [p ct] t x y C X Y. unfold encode_header in X, Y. cbn [e_prefix] in *. destruct (hprefix_eqb p SizeUpdate).
  { rewrite X in Y. apply Ok_inj in Y. subst. lia. }
  unfold get_header in X, Y. unfold compact_entry in C. cbn [e_content] in *. destruct ct as [[name value]|n]; [|discriminate X].
  destruct C as (On & Ov & Cn & Cv). cbn [bind fst snd] in X, Y.
  destruct (match reverse_static_find (name, value) with
            | Some i => if 0 <? size value then Some i else None | None => None end) as [i|].
  { rewrite X in Y. apply Ok_inj in Y. subst. lia. }
  destruct (find_index (dt_entries t) (name, value)) as [i|].
  { rewrite X in Y. apply Ok_inj in Y. subst. lia. }
  destruct (reverse_static_find (name, [])) as [i|].
  - apply bind_ok in X. destruct X as (ix & X1 & X). apply bind_ok in X. destruct X as (v & V & X). apply Ok_inj in X. subst x.
    apply bind_ok in Y. destruct Y as (ix' & Y1 & Y). apply bind_ok in Y. destruct Y as (v' & V' & Y). apply Ok_inj in Y. subst y.
    rewrite X1 in Y1. apply Ok_inj in Y1. subst ix'. rewrite !size_app.
    pose proof (string_not_longer value v v' Ov Cv V V'). lia.
  - apply bind_ok in X. destruct X as (ix & X1 & X). apply bind_ok in X. destruct X as (nm & X2 & X).
    apply bind_ok in X. destruct X as (v & V & X). apply Ok_inj in X. subst x.
    apply bind_ok in Y. destruct Y as (ix' & Y1 & Y). apply bind_ok in Y. destruct Y as (nm' & Y2 & Y).
    apply bind_ok in Y. destruct Y as (v' & V' & Y). apply Ok_inj in Y. subst y.
    rewrite X1 in Y1. apply Ok_inj in Y1. subst ix'. rewrite !size_app.
    pose proof (string_not_longer value v v' Ov Cv V V'). pose proof (string_not_longer name nm nm' On Cn X2 Y2). lia.
Qed.

Theorem C76_huffman_partial : forall b t x y, Forall compact_entry b ->
  encode_block b ModeHuffman t = Ok x -> encode_block b ModeNone t = Ok y -> size x <= size y.
Proof.
  intros b t x y F. revert x y. induction F as [|e b E F IH]; intros x y X Y; cbn [encode_block] in X, Y.
  - apply Ok_inj in X. apply Ok_inj in Y. subst. lia.
  - apply bind_ok in X. destruct X as (x1 & X1 & X). apply bind_ok in X. destruct X as (x2 & X2 & X). apply Ok_inj in X. subst x.
    apply bind_ok in Y. destruct Y as (y1 & Y1 & Y). apply bind_ok in Y. destruct Y as (y2 & Y2 & Y). apply Ok_inj in Y. subst y.
    rewrite !size_app. pose proof (entry_huffman e t _ _ E X1 Y1). specialize (IH _ _ X2 Y2). lia.
Qed.

Lemma string_longer : forall s x y, is_octets s -> ~ compact s -> encode_string s ModeHuffman = Ok x ->
  encode_string s ModeNone = Ok y -> size y < size x.
Proof.
  intros s x y O C X Y. rewrite (huffman_string_size _ _ O X), (plain_string_size _ _ Y), bits_total.
  unfold compact in C. assert (L : size s < (code_bits s + 7) / 8) by lia.
  pose proof (encode_integer_mono 7 _ _ (N.lt_le_incl _ _ L)). lia.
Qed.

Lemma string_not_shorter : forall s x y, is_octets s -> 8 * size s < code_bits s + 8 -> encode_string s ModeHuffman = Ok x ->
  encode_string s ModeNone = Ok y -> size y <= size x.
Proof.
  intros s x y O C X Y. rewrite (huffman_string_size _ _ O X), (plain_string_size _ _ Y), bits_total.
  assert (L : size s <= (code_bits s + 7) / 8) by lia.
  pose proof (encode_integer_mono 7 _ _ L). lia.
Qed.

(* And nothing beyond them: a header in neither table whose value has more than
   8 bits per octet on average, and whose name is not shortened by its codes, is
   longer in Huffman mode. *)
Theorem C76_value_longer_refuted : forall k name value t x y, is_octets name -> is_octets value ->
  8 * size value < code_bits value -> 8 * size name < code_bits name + 8 -> ~ in_tables t (name, value) ->
  encode_block [HEntry (lib_prefix k) (EHeader (name, value))] ModeHuffman t = Ok x ->
  encode_block [HEntry (lib_prefix k) (EHeader (name, value))] ModeNone t = Ok y -> size y < size x.
Proof.
  intros k name value t x y On Ov W WN NI X Y.
  cbn [encode_block] in X, Y.
  apply bind_ok in X. destruct X as (x1 & X1 & X). cbn [bind] in X. apply Ok_inj in X. rewrite app_nil_r in X. subst x1.
  apply bind_ok in Y. destruct Y as (y1 & Y1 & Y). cbn [bind] in Y. apply Ok_inj in Y. rewrite app_nil_r in Y. subst y1.
  unfold encode_header in X1, Y1. cbn [e_prefix] in *. rewrite lib_prefix_not_update in X1, Y1.
  unfold get_header in X1, Y1. cbn [e_content bind fst snd] in X1, Y1.
  pose proof (chosen_cases k (name, value) t) as CC. destruct CC as [(I & _)|(_ & n & CH & _ & _)]; [contradiction|].
  unfold chosen in CH. cbn [fst snd] in CH.
  destruct (match reverse_static_find (name, value) with
            | Some i => if 0 <? size value then Some i else None | None => None end) as [i|]; [discriminate CH|].
  destruct (find_index (dt_entries t) (name, value)) as [i|]; [discriminate CH|]. clear CH n.
  assert (NC : ~ compact value) by (unfold compact; clear - W; lia).
  destruct (reverse_static_find (name, [])) as [i|].
  - apply bind_ok in X1. destruct X1 as (ix & XI & X1). apply bind_ok in X1. destruct X1 as (v & XV & X1). apply Ok_inj in X1. subst x.
    apply bind_ok in Y1. destruct Y1 as (ix' & YI & Y1). apply bind_ok in Y1. destruct Y1 as (v' & YV & Y1). apply Ok_inj in Y1. subst y.
    rewrite XI in YI. apply Ok_inj in YI. subst ix'. rewrite !size_app.
    pose proof (string_longer _ _ _ Ov NC XV YV) as L. clear - L. lia.
  - apply bind_ok in X1. destruct X1 as (ix & XI & X1). apply bind_ok in X1. destruct X1 as (nm & XN & X1).
    apply bind_ok in X1. destruct X1 as (v & XV & X1). apply Ok_inj in X1. subst x.
    apply bind_ok in Y1. destruct Y1 as (ix' & YI & Y1). apply bind_ok in Y1. destruct Y1 as (nm' & YN & Y1).
    apply bind_ok in Y1. destruct Y1 as (v' & YV & Y1). apply Ok_inj in Y1. subst y.
    rewrite XI in YI. apply Ok_inj in YI. subst ix'. rewrite !size_app.
    pose proof (string_longer _ _ _ Ov NC XV YV) as L. pose proof (string_not_shorter _ _ _ On WN XN YN) as M. clear - L M. lia.
Qed.

(* Whatever the octets, Huffman mode stays within four times the size of the
   header list. *)
Lemma code_at_most_30 : forall b, rfc_code_length b <= 30.
Proof.
  intros b. unfold rfc_code_length. assert (F : Forall (fun n => n <= 30) rfc_code_lengths).
  { apply Forall_forall. intros n I.
    assert (A : forallb (fun n => n <=? 30) rfc_code_lengths = true) by (vm_compute; reflexivity).
    rewrite forallb_forall in A. apply N.leb_le. apply A. exact I. }
  destruct (nth_in_or_default (N.to_nat b) rfc_code_lengths 0) as [I|E].
  - rewrite Forall_forall in F. apply F. exact I.
  - rewrite E. lia.
Qed.

Lemma entry_any : forall e mode t out, octet_entry e -> encode_header e mode t = Ok out -> fits e -> size (dt_entries t) < 2 ^ 60 ->
  size out <= 4 * entry_list_size e.
Proof.
  intros e mode t out O H F T. destruct (entry_parts e mode t out H F T) as [(n & E & L)|(name & value & E & K)];
    unfold entry_list_size, fits, octet_entry in *; rewrite E in *; [lia|].
  destruct O as (On & Ov).
  assert (S : forall s x, is_octets s -> encode_string s mode = Ok x -> size s < 2 ^ 60 -> size x <= 12 + 4 * size s).
  { intros s x O X Z. assert (Z2 : 4 * size s + 1 < 2 ^ 64).
    { change (2 ^ 60) with 1152921504606846976 in Z. change (2 ^ 64) with 18446744073709551616. clear - Z. lia. }
    destruct mode.
    - rewrite (plain_string_size _ _ X).
      pose proof (encode_integer_length_64 7 (size s) ltac:(clear - Z2; lia)) as Y. clear - Y. lia.
    - rewrite (huffman_string_size _ _ O X), bits_total. pose proof (bits_below s 30 (fun b _ => code_at_most_30 b)) as B.
      assert (Q : (code_bits s + 7) / 8 <= 4 * size s + 1) by (clear - B; lia).
      pose proof (encode_integer_length_64 7 ((code_bits s + 7) / 8) ltac:(clear - Z2 Q; lia)) as Y. clear - Y Q. lia. }
  destruct F as (F1 & F2). destruct K as [L|(ix & v & LI & V & [Z|(nm & L1 & NM & Z)])].
  - clear - L. lia.
  - pose proof (S _ _ Ov V F2) as Y. clear - Y Z LI. lia.
  - pose proof (S _ _ Ov V F2) as Y. pose proof (S _ _ On NM F1) as X. clear - X Y Z L1. lia.
Qed.

Theorem C76_four_times_partial : forall b mode t out, Forall octet_entry b -> Forall fits b -> size (dt_entries t) < 2 ^ 60 ->
  encode_block b mode t = Ok out -> size out <= 4 * header_list_size b.
Proof.
  intros b mode t out O F T. revert out. induction F as [|e b E F IH]; intros out H; cbn [encode_block] in H.
  - apply Ok_inj in H. subst out. cbn. lia.
  - inversion O as [|? ? O1 O2]; subst.
    apply bind_ok in H. destruct H as (x & X & H). apply bind_ok in H. destruct H as (y & Y & H). apply Ok_inj in H. subst out.
    rewrite size_app. pose proof (entry_any e mode t x O1 X E T) as A. specialize (IH O2 y Y). cbn [header_list_size fold_right].
    fold (header_list_size b). clear - A IH. lia.
Qed.

(* Huffman mode is used as asked, also where it makes the header longer: for
   every header in neither table whose value consists of octets with codes of 13
   bits and more (control characters, most octets above 127), plain mode would
   be shorter, and a long value even exceeds the header list size. *)
Theorem C76_longer_refuted : forall k name value t x y, is_octets name -> is_octets value -> size name < 2 ^ 60 ->
  (forall b, In b value -> 13 <= rfc_code_length b) -> 8 * (size name + 35) < 5 * size value -> ~ in_tables t (name, value) ->
  encode_block [HEntry (lib_prefix k) (EHeader (name, value))] ModeHuffman t = Ok x ->
  encode_block [HEntry (lib_prefix k) (EHeader (name, value))] ModeNone t = Ok y ->
  size y < size x /\ header_list_size [HEntry (lib_prefix k) (EHeader (name, value))] < size x.
Proof.
  intros k name value t x y On Ov Cn W L NI X Y.
  cbn [encode_block] in X, Y.
  apply bind_ok in X. destruct X as (x1 & X1 & X). cbn [bind] in X. apply Ok_inj in X. rewrite app_nil_r in X. subst x1.
  apply bind_ok in Y. destruct Y as (y1 & Y1 & Y). cbn [bind] in Y. apply Ok_inj in Y. rewrite app_nil_r in Y. subst y1.
  unfold encode_header in X1, Y1. cbn [e_prefix] in *. rewrite lib_prefix_not_update in X1, Y1.
  unfold get_header in X1, Y1. cbn [e_content bind fst snd] in X1, Y1.
  pose proof (chosen_cases k (name, value) t) as CC. destruct CC as [(I & _)|(_ & n & CH & _ & _)]; [contradiction|].
  unfold chosen in CH. cbn [fst snd] in CH.
  destruct (match reverse_static_find (name, value) with
            | Some i => if 0 <? size value then Some i else None | None => None end) as [i|]; [discriminate CH|].
  destruct (find_index (dt_entries t) (name, value)) as [i|]; [discriminate CH|]. clear CH n.
  pose proof (bits_above value 13 W) as BA.
  assert (V : forall v v', encode_string value ModeHuffman = Ok v -> encode_string value ModeNone = Ok v' ->
              size v' + size name + 35 <= size v).
  { intros v v' V V'. rewrite (huffman_string_size _ _ Ov V), (plain_string_size _ _ V').
    pose proof (encode_integer_mono 7 (size value) ((size (flat_map rfc_code value) + 7) / 8) ltac:(lia)). lia. }
  assert (P : forall s z m, is_octets s -> encode_string s m = Ok z -> 1 <= size z).
  { intros s z m O Z. destruct m; [rewrite (plain_string_size _ _ Z)|rewrite (huffman_string_size _ _ O Z)];
      match goal with |- context [encode_integer_value 7 ?q] => pose proof (encode_integer_pos 7 q) end; lia. }
  assert (PV : forall v', encode_string value ModeNone = Ok v' -> size value + 1 <= size v').
  { intros v' V'. rewrite (plain_string_size _ _ V'). pose proof (encode_integer_pos 7 (size value)). lia. }
  cbn [header_list_size fold_right entry_list_size e_content]. unfold entry_list_size. cbn [e_content].
  assert (NM : forall z z', encode_string name ModeHuffman = Ok z -> encode_string name ModeNone = Ok z' ->
      size z' <= size z + size name + 11).
  { intros z z' Z Z'. rewrite (plain_string_size _ _ Z').
    pose proof (encode_integer_length_64 7 (size name) ltac:(eapply N.lt_trans; [exact Cn|reflexivity])) as LN. clear - LN. lia. }
  destruct (reverse_static_find (name, [])) as [i|].
  - apply bind_ok in X1. destruct X1 as (ix & XI & X1). apply bind_ok in X1. destruct X1 as (v & XV & X1). apply Ok_inj in X1. subst x.
    apply bind_ok in Y1. destruct Y1 as (ix' & YI & Y1). apply bind_ok in Y1. destruct Y1 as (v' & YV & Y1). apply Ok_inj in Y1. subst y.
    rewrite XI in YI. apply Ok_inj in YI. subst ix'. rewrite !size_app. specialize (V _ _ XV YV). specialize (PV _ YV). lia.
  - apply bind_ok in X1. destruct X1 as (ix & XI & X1). apply bind_ok in X1. destruct X1 as (nm & XN & X1).
    apply bind_ok in X1. destruct X1 as (v & XV & X1). apply Ok_inj in X1. subst x.
    apply bind_ok in Y1. destruct Y1 as (ix' & YI & Y1). apply bind_ok in Y1. destruct Y1 as (nm' & YN & Y1).
    apply bind_ok in Y1. destruct Y1 as (v' & YV & Y1). apply Ok_inj in Y1. subst y.
    rewrite XI in YI. apply Ok_inj in YI. subst ix'. rewrite !size_app.
    specialize (V _ _ XV YV). specialize (PV _ YV). specialize (NM _ _ XN YN). lia.
Qed.

Example C76_case :
  let b := [HEntry IncrementalIndexing (EHeader (octets ":authority", octets "example.com"));
            HEntry NeverIndexed (EHeader (octets "x-token", octets "0123456789")); HEntry SizeUpdate (ESize 4096)] in
  Forall fits b /\ Forall compact_entry b /\
  (exists x y, encode_block b ModeHuffman default_table = Ok x /\ encode_block b ModeNone default_table = Ok y /\
     size x = 30 /\ size y = 36 /\ header_list_size b = 113).
Proof.
  cbv zeta. split; [|split].
  - repeat constructor.
  - assert (D : forall s, forallb (fun b => (b <? 256) && (rfc_code_length b <=? 8)) s = true -> is_octets s /\ compact s).
    { intros s H. rewrite forallb_forall in H. split.
      - intros b I. specialize (H b I). apply andb_prop in H. apply N.ltb_lt. apply H.
      - apply bits_below. intros b I. specialize (H b I). apply andb_prop in H. apply N.leb_le. apply H. }
    assert (E : forall p n v, forallb (fun b => (b <? 256) && (rfc_code_length b <=? 8)) n = true ->
                forallb (fun b => (b <? 256) && (rfc_code_length b <=? 8)) v = true -> compact_entry (HEntry p (EHeader (n, v)))).
    { intros p n v N V. destruct (D n N). destruct (D v V). unfold compact_entry. cbn [e_content]. auto. }
    repeat constructor; apply D; vm_compute; reflexivity.
  - eexists _, _. split; [vm_compute; reflexivity|]. split; [vm_compute; reflexivity|]. repeat split.
Qed.

Example C76_longer_case :
  let value := repeat 255 70 in let e := HEntry (lib_prefix Without) (EHeader (octets "a", value)) in
  is_octets value /\ (forall b, In b value -> 13 <= rfc_code_length b) /\ 8 * (size (octets "a") + 35) < 5 * size value /\
  exists x y, encode_block [e] ModeHuffman default_table = Ok x /\ encode_block [e] ModeNone default_table = Ok y /\
    size y = 74 /\ size x = 233 /\ header_list_size [e] = 103 /\ 8 * size value < code_bits value /\
    8 * size (octets "a") < code_bits (octets "a") + 8.
Proof.
  cbv zeta. split; [intros b I; apply repeat_spec in I; subst b; reflexivity|].
  split; [intros b I; apply repeat_spec in I; subst b; vm_compute; discriminate|]. split; [vm_compute; reflexivity|].
  eexists _, _. split; [vm_compute; reflexivity|]. split; [vm_compute; reflexivity|]. repeat split.
Qed.

Print Assumptions C76_plain_partial.
Print Assumptions C76_huffman_partial.
Print Assumptions C76_value_longer_refuted.
Print Assumptions C76_four_times_partial.
Print Assumptions C76_longer_refuted.
