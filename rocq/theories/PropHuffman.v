(* Properties C06 - C10 (Huffman coding). *)
From Coq Require Import ZArith NArith List Bool Lia ZifyBool ZifyNat ZifyN.
From Verif Require Import Base HuffmanTable Huffman SpecBits SpecHuffman Arith UtilProofs IntSpecProofs
  BitsProofs HuffmanProofs HuffmanDecProofs.
Import ListNotations.
Open Scope N_scope.

(* C06 *)
Theorem C06_huffman_roundtrip : forall s, is_octets s ->
  exists e, huffman_encode s = Ok e /\ is_octets e /\ huffman_decode e = Ok s.
Proof.
  intros s W. apply is_octets_wf in W.
  destruct (huffman_roundtrip s W) as (e & E & We & _ & D).
  exists e. split; [exact E|]. split; [apply is_octets_wf; exact We|exact D].
Qed.

Example C06_case : huffman_encode [119; 119; 119; 0; 255] = Ok [241; 227; 199; 254; 63; 255; 254; 239]
  /\ huffman_decode [241; 227; 199; 254; 63; 255; 254; 239] = Ok [119; 119; 119; 0; 255].
Proof. vm_compute. auto. Qed.

(* C07 *)
Theorem C07_huffman_encoder_output : forall s, is_octets s ->
  exists e, huffman_encode s = Ok e /\ rfc_huffman_encodes s e /\
    size e = (size (flat_map rfc_code s) + 7) / 8.
Proof.
  intros s W. apply is_octets_wf in W.
  destruct (huffman_roundtrip s W) as (e & E & _ & R & _).
  exists e. split; [exact E|]. split; [exact R|].
  destruct R as (_ & pad & B & L). apply (f_equal (@length bool)) in B.
  rewrite octets_bits_len, app_length, repeat_length in B. unfold size. lia.
Qed.

Example C07_case : rfc_code 119 = [true; true; true; true; false; false; false].
Proof. vm_compute. reflexivity. Qed.

(* C08: e splits into code words of syms (EOS included) and fewer than 8 bits
   that do not start with a code word. *)
Definition huffman_splits (e : list N) (syms : list N) (pad : list bool) : Prop :=
  octets_bits e = flat_map rfc_code syms ++ pad /\
  (forall s, In s syms -> s <= EOS) /\ (length pad < 8)%nat /\
  (forall s, s <= EOS -> ~ is_prefix (rfc_code s) pad).

Lemma splits_parses : forall e syms pad,
  huffman_splits e syms pad <-> parses (octets_bits e) syms pad.
Proof.
  intros. unfold huffman_splits, parses, has_code. rewrite Forall_forall.
  split; intros (A & B & C & D); repeat split; auto.
  - intros (s & Hs & P). exact (D s Hs P).
  - intros s Hs P. apply D. exists s. auto.
Qed.

Theorem C08_huffman_decoder_outcome : forall e, is_octets e ->
  (forall syms pad, huffman_splits e syms pad ->
     huffman_decode e = Ok (map (fun s => s mod 256) syms)) /\
  ((forall syms pad, ~ huffman_splits e syms pad) ->
     huffman_decode e = Throw InvalidArgument) /\
  (exists r, huffman_decode e = Ok r \/ huffman_decode e = Throw InvalidArgument).
Proof.
  intros e W. apply is_octets_wf in W.
  destruct (huffman_decode_spec e W) as [(syms & pad & P & E)|(NP & E)]; repeat split.
  - intros syms' pad' S. apply splits_parses in S.
    destruct (parses_unique _ _ _ _ _ P S) as [<- _]. exact E.
  - intros H. exfalso. apply (H syms pad), splits_parses, P.
  - eauto.
  - intros syms pad S. exfalso. apply NP. apply splits_parses in S. eauto.
  - intros _. exact E.
  - exists []. auto.
Qed.

(* Both cases of C08 occur. *)
Example C08_case_ok : huffman_splits [0xff; 0xff; 0xff; 0xff] [EOS] [true; true] /\
  huffman_decode [0xff; 0xff; 0xff; 0xff] = Ok [0].
Proof.
  split; [|vm_compute; reflexivity].
  apply splits_parses. split; [vm_compute; reflexivity|]. split; [|split].
  - constructor; [discriminate|constructor].
  - repeat constructor.
  - apply (ones_no_code 2). repeat constructor.
Qed.
Example C08_case_throw : huffman_decode [0xff; 0xff] = Throw InvalidArgument.
Proof. vm_compute. reflexivity. Qed.

(* C09: what holds: padding of 8 bits or more, or padding that contains a cut
   code word of 8 bits or more, is rejected; and a string is accepted only if it
   splits as in C08. *)
Theorem C09_huffman_errors_rejected_partial : forall e s p, is_octets e ->
  octets_bits e = flat_map rfc_code s ++ p -> (forall x, In x s -> x <= EOS) ->
  (forall x, x <= EOS -> ~ is_prefix (rfc_code x) p) -> (8 <= length p)%nat ->
  huffman_decode e = Throw InvalidArgument.
Proof.
  intros e s p W E HS NP L. apply is_octets_wf in W.
  destruct (huffman_decode_spec e W) as [(syms & pad & P & D)|(N & D)]; [|exact D].
  exfalso. revert P. rewrite E. intros (EQ & F & PL & PN).
  assert (forall syms s, Forall (fun x => x <= 256) syms -> Forall (fun x => x <= 256) s ->
            flat_map rfc_code s ++ p = flat_map rfc_code syms ++ pad -> p = pad) as U.
  { clear - NP PN. induction syms as [|x syms IH]; intros [|y s] Fa Fb EQ; cbn [flat_map app] in EQ.
    - exact EQ.
    - exfalso. apply PN. exists y. split; [exact (Forall_inv Fb)|].
      rewrite <- EQ, <- app_assoc. eexists. reflexivity.
    - exfalso. apply (NP x); [exact (Forall_inv Fa)|].
      rewrite EQ, <- app_assoc. eexists. reflexivity.
    - inversion Fa; inversion Fb; subst. rewrite <- !app_assoc in EQ.
      assert (y = x).
      { apply (same_code y x (rfc_code y ++ flat_map rfc_code s ++ p)); auto.
        - eexists. reflexivity.
        - rewrite EQ. eexists. reflexivity. }
      subst. apply app_inv_head in EQ. eapply IH; eauto. }
  rewrite (U syms s F (proj2 (Forall_forall _ _) HS) EQ) in L. lia.
Qed.

Example C09_case : huffman_decode [0xff] = Throw InvalidArgument.
Proof. vm_compute. reflexivity. Qed.

(* C09 is false: a string containing EOS, and a string padded with zero bits,
   are accepted, although no octet string has these encodings. *)
Theorem C09_huffman_errors_refuted :
  (octets_bits [0xff; 0xff; 0xff; 0xff] = rfc_code EOS ++ [true; true] /\
   huffman_decode [0xff; 0xff; 0xff; 0xff] = Ok [0]) /\
  (octets_bits [0] = rfc_code 48 ++ [false; false; false] /\
   huffman_decode [0] = Ok [48]).
Proof. vm_compute. auto. Qed.

(* The padding accepted is arbitrary: every bit string of fewer than 8 bits that
   does not start with a code word is accepted as padding. *)
Theorem C09_huffman_any_padding_refuted : forall s e pad, is_octets s -> is_octets e ->
  octets_bits e = flat_map rfc_code s ++ pad -> (length pad < 8)%nat ->
  (forall x, x <= EOS -> ~ is_prefix (rfc_code x) pad) ->
  huffman_decode e = Ok s.
Proof.
  intros s e pad Ws We E L NP.
  assert (S : huffman_splits e s pad).
  { repeat split; auto. intros x I. apply Ws in I. unfold EOS. lia. }
  apply is_octets_wf in Ws.
  rewrite (proj1 (C08_huffman_decoder_outcome e We) s pad S). f_equal.
  apply (map_u8_id s Ws).
Qed.

(* C10: the tables of the library and the RFC code. *)
Theorem C10_encode_table_is_rfc : forall s, s <= EOS ->
  map_find encode_table_rows s = Some (rfc_code_value s, rfc_code_length s).
Proof.
  intros s H. destruct (encode_table_at_ok s H) as (E & _ & _). unfold encode_table_at in E.
  destruct (map_find encode_table_rows s); inversion E. reflexivity.
Qed.

Theorem C10_decode_table_inverse : forall len m, In (len, m) decode_table ->
  forall key sym, map_find m key = Some sym <->
    (sym <= EOS /\ map_find encode_table_rows sym = Some (key, len)).
Proof.
  intros len m I key sym.
  pose proof (proj1 (Forall_forall _ _) decode_table_sound _ I) as [_ RS]. cbn [fst snd] in RS. split.
  - intros F. apply RS in F. destruct F as (H & HL & HV). split; [exact H|].
    rewrite C10_encode_table_is_rfc by exact H. congruence.
  - intros (H & E). rewrite C10_encode_table_is_rfc in E by exact H. inversion E; subst.
    destruct (decode_table_split sym H) as (pre & m' & post & ET & F & Hpre).
    assert (m = m'); [|subst; exact F].
    rewrite ET in I. apply in_app_or in I.
    pose proof dec_table_ascending as A. rewrite ET, map_app in A.
    destruct I as [I|[I|I]].
    + apply Hpre in I. cbn in I. lia.
    + congruence.
    + exfalso. clear - A I. induction (map fst pre) as [|x l IH].
      * cbn [map fst app ascending] in A. apply andb_true_iff in A. destruct A as [A _].
        pose proof (proj1 (forallb_forall _ _) A (rfc_code_length sym)) as Q.
        assert (In (rfc_code_length sym) (map fst post)) as J.
        { apply in_map_iff. exists (rfc_code_length sym, m). auto. }
        apply Q in J. apply N.ltb_lt in J. exact (N.lt_irrefl _ J).
      * cbn [app ascending] in A. apply andb_true_iff in A. apply IH, A.
Qed.

(* Every symbol has a row in the decoding table; rows are ordered by length. *)
Theorem C10_decode_table_total : forall s, s <= EOS ->
  exists m, In (rfc_code_length s, m) decode_table /\ map_find m (rfc_code_value s) = Some s.
Proof.
  intros s H. destruct (decode_table_split s H) as (pre & m & post & ET & F & _).
  exists m. split; [rewrite ET; apply in_elt|exact F].
Qed.

Theorem C10_code_prefix_free : forall s s', s <= EOS -> s' <= EOS ->
  is_prefix (rfc_code s) (rfc_code s') -> s = s'.
Proof. exact prefix_free. Qed.

Theorem C10_code_complete : forall bits, (30 <= length bits)%nat ->
  exists s, s <= EOS /\ is_prefix (rfc_code s) bits.
Proof. exact complete. Qed.

Theorem C10_code_values_fit : forall s, s <= EOS ->
  rfc_code_value s < 2 ^ rfc_code_length s /\ 5 <= rfc_code_length s <= 30.
Proof. intros s H. apply (encode_table_at_ok s H). Qed.

(* The duplicate row of the encoding table (258 rows, 257 symbols). *)
Theorem C10_duplicate_row_harmless :
  length encode_table_rows = 258%nat /\ map_size encode_table_rows = 257 /\
  forall s r, In (s, r) encode_table_rows -> map_find encode_table_rows s = Some r.
Proof.
  split; [vm_compute; reflexivity|]. split; [vm_compute; reflexivity|].
  assert (K : forallb (fun row => match map_find encode_table_rows (fst row) with
     | Some r => (fst r =? fst (snd row)) && (snd r =? snd (snd row)) | None => false end)
     encode_table_rows = true) by (vm_compute; reflexivity).
  intros s [c l] I. pose proof (proj1 (forallb_forall _ _) K _ I) as Q. cbn [fst snd] in Q.
  destruct (map_find encode_table_rows s) as [[c' l']|]; [|discriminate].
  cbn [fst snd] in Q. apply andb_true_iff in Q. rewrite !N.eqb_eq in Q. destruct Q as [-> ->]. reflexivity.
Qed.

Example C10_case : rfc_code_value 48 = 0 /\ rfc_code_length 48 = 5 /\
  rfc_code_value EOS = 0x3fffffff /\ rfc_code_length EOS = 30 /\ rfc_code_value 31 = 0xffffffb /\
  length decode_table = 21%nat.
Proof. vm_compute. repeat split. Qed.

Print Assumptions C06_huffman_roundtrip.
Print Assumptions C07_huffman_encoder_output.
Print Assumptions C08_huffman_decoder_outcome.
Print Assumptions C09_huffman_errors_rejected_partial.
Print Assumptions C09_huffman_errors_refuted.
Print Assumptions C09_huffman_any_padding_refuted.
Print Assumptions C10_encode_table_is_rfc.
Print Assumptions C10_decode_table_inverse.
Print Assumptions C10_decode_table_total.
Print Assumptions C10_code_prefix_free.
Print Assumptions C10_code_complete.
Print Assumptions C10_code_values_fit.
Print Assumptions C10_duplicate_row_harmless.
