(* Properties C41-C44: frames that carry header blocks.  sendable and received
   (BlockProofs.v) say which entries are sent and what the receiver reports. *)
From Coq Require Import String.
From Coq Require Import ZArith NArith List Bool Lia ZifyBool ZifyNat ZifyN.
From Verif Require Import Base Arith Util HeaderType DynTable HeaderEnc HeaderDec FrameHeader Frames FrameBuilder
  SpecBits SpecHpack SpecFrame UtilProofs DynTableProofs HeaderProofs HeaderProofs2 PropHeader FrameProofs BlockProofs PropFrame.
Import ListNotations.
Local Open Scope string_scope.
Local Open Scope list_scope.
Local Open Scope N_scope.
Ltac Zify.zify_post_hook ::= Z.div_mod_to_equations.

Lemma padded_flag : forall flags, is_flag_set flags F_PADDED = has_padded flags.
Proof. intros. exact (is_flag_set_bit flags 3). Qed.
Lemma priority_flag : forall flags, is_flag_set flags F_PRIORITY = has_priority flags.
Proof. intros. exact (is_flag_set_bit flags 5). Qed.

Lemma u8_size : forall p : bytes, size p < 256 -> u8 (size p) = N.of_nat (length p).
Proof. intros p H. apply u8_small. exact H. Qed.

Lemma wf_list : forall flags : N, flags < 2 ^ 8 -> flags < 256.
Proof. intros. assumption. Qed.

(* ---------------------------------------------------------------- C41 *)

(* RFC 7540 section 6.2: the payload of a HEADERS frame *)
Definition headers_octets (flags : N) (e dep w : N) (fragment padding : list N) : list N :=
  padded_payload (has_padded flags)
    ((if has_priority flags then priority_fields e dep w else []) ++ fragment) padding.

Lemma headers_payload_wire : forall flags b mode t padding e dep w fragment,
  size padding < 256 -> e < 2 -> dep < 2 ^ 31 -> encode_block b mode t = Ok fragment ->
  headers_construct_payload flags b mode t padding (Prio e dep w) = Ok (headers_octets flags e dep w fragment padding).
Proof.
  intros flags b mode t padding e dep w fragment P E D F. unfold headers_construct_payload, headers_octets, padded_payload.
  rewrite padded_flag, priority_flag, F. cbn [p_exclusive p_dependency p_weight].
  unfold shl31. destruct (N.leb_spec 2 e); [lia|]. unfold STREAM_ID_BITS.
  rewrite low31, (N.mod_small dep) by exact D.
  destruct (has_padded flags), (has_priority flags); cbn [bind];
    rewrite ?join31 by exact D; rewrite ?be_octets_eq, ?u8_size by exact P; cbn [app]; rewrite ?app_nil_r, <- ?app_assoc; reflexivity.
Qed.

Lemma headers_parse_wire : forall m t flags len r sid e dep w fragment padding b,
  size padding < 256 -> e < 2 -> dep < 2 ^ 31 -> decode_block m fragment t = Ok b ->
  headers_decode_payload m (FH len HEADERS flags r sid) (headers_octets flags e dep w fragment padding) t =
  Ok (if has_padded flags then padding else [],
      if has_priority flags then Prio e dep w else Prio 0 0 0, b).
Proof.
  intros m t flags len r sid e dep w fragment padding b P E D B.
  unfold headers_decode_payload, headers_octets. cbn [fh_flags]. rewrite padded_flag, priority_flag.
  destruct (has_padded flags).
  - rewrite padded_split by exact P. cbn [bind]. destruct (has_priority flags).
    + rewrite split_priority by assumption. cbn [bind]. rewrite B. reflexivity.
    + cbn [app bind]. rewrite B. reflexivity.
  - cbn [padded_payload bind]. destruct (has_priority flags).
    + rewrite split_priority by assumption. cbn [bind]. rewrite B. reflexivity.
    + cbn [app bind]. rewrite B. reflexivity.
Qed.

Theorem C41_headers_roundtrip : forall host m t flags sid b mode padding e dep w,
  flags < 2 ^ 8 -> sid < 2 ^ 31 -> size padding <= 255 -> e < 2 -> dep < 2 ^ 31 -> w < 2 ^ 8 ->
  Forall (sendable m t) b -> size (dt_entries t) < 2 ^ 30 ->
  exists f fragment, mk_headers flags sid b mode t padding (Prio e dep w) = Ok f /\
    encode_block b mode t = Ok fragment /\
    let payload := headers_octets flags e dep w fragment padding in
    (size payload < 2 ^ 24 ->
     serialize host f = Ok (wire_frame HEADERS flags 0 sid payload) /\
     exists b', Forall2 (received t) b b' /\
       reads_back m t (wire_frame HEADERS flags 0 sid payload)
         (HeadersFrame payload (FH (size payload) HEADERS flags 0 sid)
            (if has_padded flags then padding else [])
            (if has_priority flags then Prio e dep w else Prio 0 0 0) b')).
Proof.
  intros host m t flags sid b mode padding e dep w F S P E D W B T.
  destruct (encode_block_total m t mode b B T) as (fragment & X).
  eexists. exists fragment. unfold mk_headers.
  rewrite (headers_payload_wire flags b mode t padding e dep w fragment) by (try assumption; lia).
  cbn [bind]. split; [reflexivity|]. split; [exact X|]. cbv zeta. set (payload := headers_octets flags e dep w fragment padding). intros L.
  assert (U : cast_to_fh_length (size payload) = size payload).
  { apply u32_small. change (2 ^ 32) with 4294967296. change (2 ^ 24) with 16777216 in L. lia. }
  split.
  - rewrite (serialize_wire host _ payload); cbn; try assumption; reflexivity.
  - assert (LF : size fragment < 2 ^ 31).
    { assert (size fragment <= size payload).
      { unfold payload, headers_octets, padded_payload. destruct (has_padded flags), (has_priority flags);
        rewrite ?size_app; lia. }
      change (2 ^ 24) with 16777216 in L. change (2 ^ 31) with 2147483648. lia. }
    destruct (block_roundtrip m t mode b B T fragment X LF) as (_ & b' & Db & R).
    exists b'. split; [exact R|]. apply reads_back_intro; try assumption; try reflexivity.
    unfold build_frame. cbn [fh_type]. change (HEADERS =? T_DATA) with false. change (HEADERS =? T_HEADERS) with true. cbv iota.
    unfold build_headers_frame, parse_headers, payload at 2.
    rewrite (headers_parse_wire m t flags (size payload) 0 sid e dep w fragment padding b') by (try assumption; lia).
    reflexivity.
Qed.

(* With no header of a table asked for as a literal, and both optional parts
   present or empty, the frame read back is the frame sent, member by member. *)
Theorem C41_same_frame : forall host m t flags sid b mode padding e dep w f,
  flags < 2 ^ 8 -> sid < 2 ^ 31 -> size padding <= 255 -> e < 2 -> dep < 2 ^ 31 -> w < 2 ^ 8 ->
  Forall (sendable m t) b -> size (dt_entries t) < 2 ^ 30 ->
  has_padded flags = true \/ padding = [] -> has_priority flags = true \/ (e = 0 /\ dep = 0 /\ w = 0) ->
  (forall x h, In x b -> e_content x = EHeader h -> in_tables t h -> e_prefix x = Indexed) ->
  mk_headers flags sid b mode t padding (Prio e dep w) = Ok f ->
  forall raw, serialize host f = Ok raw -> size raw < 9 + 2 ^ 24 -> reads_back m t raw f.
Proof.
  intros host m t flags sid b mode padding e dep w f F S P E D W B T HP HR NI M raw Z LR.
  destruct (C41_headers_roundtrip host m t flags sid b mode padding e dep w F S P E D W B T)
    as (f' & fragment & M' & X & H). rewrite M in M'. injection M' as <-.
  cbv zeta in H. set (payload := headers_octets flags e dep w fragment padding) in *.
  assert (Mf : mk_headers flags sid b mode t padding (Prio e dep w) =
    Ok (HeadersFrame payload (FH (cast_to_fh_length (size payload)) T_HEADERS flags 0 sid) padding (Prio e dep w) b)).
  { unfold mk_headers. rewrite (headers_payload_wire flags b mode t padding e dep w fragment) by (try assumption; lia). reflexivity. }
  rewrite Mf in M. apply Ok_inj in M. subst f.
  assert (SP : size payload < 2 ^ 24).
  { unfold serialize in Z. cbn [payload_bytes bind] in Z. apply Ok_inj in Z. subst raw.
    rewrite size_app, serialize_fh_size in LR. lia. }
  destruct (H SP) as (Z' & b' & R & RB). rewrite Z in Z'. apply Ok_inj in Z'. subst raw.
  assert (U : cast_to_fh_length (size payload) = size payload).
  { apply u32_small. change (2 ^ 32) with 4294967296. change (2 ^ 24) with 16777216 in SP. lia. }
  assert (EP : (if has_padded flags then padding else []) = padding)
    by (destruct HP as [->| ->]; [reflexivity|destruct (has_padded flags); reflexivity]).
  assert (ER : (if has_priority flags then Prio e dep w else Prio 0 0 0) = Prio e dep w)
    by (destruct HR as [->|(-> & -> & ->)]; [reflexivity|destruct (has_priority flags); reflexivity]).
  rewrite EP, ER in RB. rewrite U.
  replace b with b'; [exact RB|].
  clear - R NI. induction R as [|x y b b' Q R IH]; [reflexivity|]. f_equal.
  - inversion Q as [|q h I]; subst; [reflexivity|]. cbn [In] in NI.
    assert (K : e_prefix (HEntry q (EHeader h)) = Indexed) by (eapply NI; [left; reflexivity|reflexivity|assumption]).
    cbn [e_prefix] in K. subst q. reflexivity.
  - apply IH. intros x' h I. apply NI. right. exact I.
Qed.

Example C41_case : exists f raw,
  mk_headers 0x2c 1 [HEntry IncrementalIndexing (EHeader (octets "x", octets "yz")); HEntry SizeUpdate (ESize 100);
                     HEntry NeverIndexed (EHeader (octets ":method", octets "GET"))]
    ModeHuffman default_table [0; 0] (Prio 1 3 15) = Ok f /\
  serialize LittleEndian f = Ok raw /\ size raw = 9 + 17 /\
  Forall (sendable Strict default_table) [HEntry IncrementalIndexing (EHeader (octets "x", octets "yz")); HEntry SizeUpdate (ESize 100);
                     HEntry NeverIndexed (EHeader (octets ":method", octets "GET"))].
Proof.
  eexists. eexists. split; [vm_compute; reflexivity|]. split; [vm_compute; reflexivity|]. split; [reflexivity|].
  assert (O : forall l, forallb (fun b => b <? 256) l = true -> is_octets l).
  { intros l H b I. rewrite forallb_forall in H. apply N.ltb_lt, H, I. }
  repeat constructor.
  - apply (send_literal Strict default_table Incremental); try (apply O; reflexivity). right. split; discriminate.
  - apply (send_literal Strict default_table Never); try (apply O; reflexivity). right. split; discriminate.
Qed.

(* ---------------------------------------------------------------- C42 *)

(* RFC 7540 section 6.6 *)
Definition push_promise_octets (flags r promised : N) (fragment padding : list N) : list N :=
  padded_payload (has_padded flags) (push_promise_contents r promised fragment) padding.

Lemma push_payload_wire : forall host flags r promised b padding mode t fragment,
  size padding < 256 -> r < 2 -> promised < 2 ^ 31 -> encode_block b mode t = Ok fragment ->
  push_promise_construct_payload host flags (PushPromise r promised b padding) mode t =
  Ok (push_promise_octets flags r promised fragment padding).
Proof.
  intros host flags r promised b padding mode t fragment P R D F.
  unfold push_promise_construct_payload, push_promise_octets, push_promise_contents, padded_payload.
  cbn [pp_reserved pp_promised pp_block pp_padding]. rewrite padded_flag, F, net_be. cbn [bind].
  unfold RESERVED_BITS, STREAM_ID_BITS. rewrite low1, low31, (N.mod_small r), (N.mod_small promised), join31 by assumption.
  destruct (has_padded flags); rewrite ?u8_size by exact P; cbn [app]; rewrite ?app_nil_r, <- ?app_assoc; reflexivity.
Qed.

Lemma push_contents_parse : forall m t r promised fragment b padding, r < 2 -> promised < 2 ^ 31 ->
  decode_block m fragment t = Ok b ->
  (let* b0 := vget (push_promise_contents r promised fragment) 0 in
   let* x := bytes2integral 4 (push_promise_contents r promised fragment) 0 in
   let* data' := verase_front (push_promise_contents r promised fragment) 4 in
   let* b := decode_block m data' t in
   Ok (PushPromise (extract_high_bit RESERVED_BITS 8 b0) (extract_low_bit STREAM_ID_BITS x) b padding)) =
  Ok (PushPromise r promised b padding).
Proof.
  intros m t r promised fragment b padding R D B. unfold push_promise_contents.
  destruct (be4_first r promised R D) as (b0 & tl & Q & B0 & _).
  assert (G : vget (be_octets 4 (r * 2 ^ 31 + promised) ++ fragment) 0 = Ok b0).
  { unfold vget. rewrite size_app, be_octets_size. destruct (N.ltb_spec 0 (N.of_nat 4 + size fragment)); [|lia].
    rewrite Q. reflexivity. }
  rewrite G. cbn [bind]. rewrite be4_round by (apply join_lt; assumption). cbn [bind].
  rewrite verase_front_app by (rewrite be_octets_size; reflexivity). cbn [bind]. rewrite B. cbn [bind].
  unfold RESERVED_BITS, STREAM_ID_BITS. rewrite high1_8, B0, low31, join_low by exact D. reflexivity.
Qed.

Lemma push_parse_wire : forall m t flags len r' sid r promised fragment padding b,
  size padding < 256 -> r < 2 -> promised < 2 ^ 31 -> decode_block m fragment t = Ok b ->
  push_promise_decode_payload m (FH len PUSH_PROMISE flags r' sid) (push_promise_octets flags r promised fragment padding) t =
  Ok (PushPromise r promised b (if has_padded flags then padding else [])).
Proof.
  intros m t flags len r' sid r promised fragment padding b P R D B.
  unfold push_promise_decode_payload, push_promise_octets. cbn [fh_flags]. rewrite padded_flag.
  destruct (has_padded flags).
  - rewrite padded_split by exact P. cbn [bind]. apply push_contents_parse; assumption.
  - cbn [padded_payload bind]. apply push_contents_parse; assumption.
Qed.

Theorem C42_push_promise_roundtrip : forall host m t flags sid b mode padding r promised,
  flags < 2 ^ 8 -> sid < 2 ^ 31 -> size padding <= 255 -> r < 2 -> promised < 2 ^ 31 ->
  Forall (sendable m t) b -> size (dt_entries t) < 2 ^ 30 ->
  exists f fragment, mk_push_promise host flags sid (PushPromise r promised b padding) mode t = Ok f /\
    encode_block b mode t = Ok fragment /\
    let payload := push_promise_octets flags r promised fragment padding in
    (size payload < 2 ^ 24 ->
     serialize host f = Ok (wire_frame PUSH_PROMISE flags 0 sid payload) /\
     exists b', Forall2 (received t) b b' /\
       reads_back m t (wire_frame PUSH_PROMISE flags 0 sid payload)
         (PushPromiseFrame payload (FH (size payload) PUSH_PROMISE flags 0 sid)
            (PushPromise r promised b' (if has_padded flags then padding else [])))).
Proof.
  intros host m t flags sid b mode padding r promised F S P R D B T.
  destruct (encode_block_total m t mode b B T) as (fragment & X).
  eexists. exists fragment. unfold mk_push_promise.
  rewrite (push_payload_wire host flags r promised b padding mode t fragment) by (try assumption; lia).
  cbn [bind]. split; [reflexivity|]. split; [exact X|]. cbv zeta. set (payload := push_promise_octets flags r promised fragment padding). intros L.
  assert (U : cast_to_fh_length (size payload) = size payload).
  { apply u32_small. change (2 ^ 32) with 4294967296. change (2 ^ 24) with 16777216 in L. lia. }
  split.
  - rewrite (serialize_wire host _ payload); cbn; try assumption; reflexivity.
  - assert (LF : size fragment < 2 ^ 31).
    { assert (size fragment <= size payload).
      { unfold payload, push_promise_octets, push_promise_contents, padded_payload. destruct (has_padded flags);
        rewrite ?size_app; lia. }
      change (2 ^ 24) with 16777216 in L. change (2 ^ 31) with 2147483648. lia. }
    destruct (block_roundtrip m t mode b B T fragment X LF) as (_ & b' & Db & Rb).
    exists b'. split; [exact Rb|]. apply reads_back_intro; try assumption; try reflexivity.
    unfold build_frame. cbn [fh_type]. change (PUSH_PROMISE =? T_DATA) with false. change (PUSH_PROMISE =? T_HEADERS) with false.
    change (PUSH_PROMISE =? T_PRIORITY) with false. change (PUSH_PROMISE =? T_RST_STREAM) with false.
    change (PUSH_PROMISE =? T_SETTINGS) with false. change (PUSH_PROMISE =? T_PUSH_PROMISE) with true. cbv iota.
    unfold parse_push_promise, payload at 2.
    rewrite (push_parse_wire m t flags (size payload) 0 sid r promised fragment padding b') by (try assumption; lia).
    reflexivity.
Qed.

Example C42_case : exists f raw,
  mk_push_promise BigEndian 0xc 1 (PushPromise 1 (2 ^ 31 - 2) [HEntry WithoutIndexing (EHeader (octets "a", octets "b"))] [9])
    ModeNone default_table = Ok f /\
  serialize BigEndian f = Ok raw /\
  raw = [0; 0; 11; 5; 12; 0; 0; 0; 1;  1; 255; 255; 255; 254; 0; 1; 97; 1; 98; 9].
Proof. eexists. eexists. split; [vm_compute; reflexivity|]. split; vm_compute; reflexivity. Qed.

(* ---------------------------------------------------------------- C43 *)

Theorem C43_continuation_roundtrip : forall host m t flags sid b mode,
  flags < 2 ^ 8 -> sid < 2 ^ 31 -> Forall (sendable m t) b -> size (dt_entries t) < 2 ^ 30 ->
  exists f fragment, mk_continuation flags sid b mode t = Ok f /\ encode_block b mode t = Ok fragment /\
    (size fragment < 2 ^ 24 ->
     serialize host f = Ok (wire_frame CONTINUATION flags 0 sid fragment) /\
     exists b', Forall2 (received t) b b' /\
       reads_back m t (wire_frame CONTINUATION flags 0 sid fragment)
         (ContinuationFrame fragment (FH (size fragment) CONTINUATION flags 0 sid) b')).
Proof.
  intros host m t flags sid b mode F S B T.
  destruct (encode_block_total m t mode b B T) as (fragment & X).
  eexists. exists fragment. unfold mk_continuation. rewrite X. cbn [bind]. split; [reflexivity|].
  split; [reflexivity|]. intros L.
  assert (U : cast_to_fh_length (size fragment) = size fragment).
  { apply u32_small. change (2 ^ 32) with 4294967296. change (2 ^ 24) with 16777216 in L. lia. }
  split.
  - rewrite (serialize_wire host _ fragment); cbn; try assumption; reflexivity.
  - assert (LF : size fragment < 2 ^ 31).
    { change (2 ^ 24) with 16777216 in L. change (2 ^ 31) with 2147483648. lia. }
    destruct (block_roundtrip m t mode b B T fragment X LF) as (_ & b' & Db & R).
    exists b'. split; [exact R|]. apply reads_back_intro; try assumption; try reflexivity.
    unfold build_frame. cbn [fh_type].
    change (CONTINUATION =? T_DATA) with false. change (CONTINUATION =? T_HEADERS) with false.
    change (CONTINUATION =? T_PRIORITY) with false. change (CONTINUATION =? T_RST_STREAM) with false.
    change (CONTINUATION =? T_SETTINGS) with false. change (CONTINUATION =? T_PUSH_PROMISE) with false.
    change (CONTINUATION =? T_PING) with false. change (CONTINUATION =? T_GOAWAY) with false.
    change (CONTINUATION =? T_WINDOW_UPDATE) with false. change (CONTINUATION =? T_CONTINUATION) with true. cbv iota.
    unfold parse_continuation. rewrite Db. reflexivity.
Qed.

(* What a receiver reports for one HEADERS frame with this header block
   fragment, and for a HEADERS frame followed by a CONTINUATION frame. *)
Definition in_one (m : ub_mode) (t : dyn_table) (l : bytes) (b : header_block) : Prop :=
  exists h, fh_type h = HEADERS /\ fh_flags h = F_END_HEADERS /\
    build_frame m h l t = Ok (HeadersFrame l h [] (Prio 0 0 0) b).
Definition in_two (m : ub_mode) (t : dyn_table) (l1 l2 : bytes) (b : header_block) : Prop :=
  exists h h' b1 b2, fh_type h = HEADERS /\ fh_flags h = 0 /\ fh_type h' = CONTINUATION /\ b = b1 ++ b2 /\
    build_frame m h l1 t = Ok (HeadersFrame l1 h [] (Prio 0 0 0) b1) /\
    build_frame m h' l2 t = Ok (ContinuationFrame l2 h' b2).

(* Splitting inside a field is not supported: here after the first octet of a
   literal. *)
Theorem C43_split_refuted :
  ~ (forall m t l1 l2 b, in_one m t (l1 ++ l2) b -> in_two m t l1 l2 b).
Proof.
  intros H. destruct (H Lenient default_table [0] [1; 97; 1; 98] [HEntry WithoutIndexing (EHeader ([97], [98]))])
    as (h & h' & b1 & b2 & T & F & _ & _ & B & _).
  - exists (FH 5 HEADERS F_END_HEADERS 0 1). repeat split; vm_compute; reflexivity.
  - destruct h as [len ty fl r sid]. cbn in T, F. subst. vm_compute in B. discriminate B.
Qed.

(* A split between two fields is invisible, wherever the first fragment is
   decodable on its own; in particular between any two fields the library
   encodes (next theorem). *)
Theorem C43_split_between_fields_partial : forall m t l1 l2 b, is_octets l1 -> is_octets l2 ->
  (exists b1, decode_block m l1 t = Ok b1) ->
  in_one m t (l1 ++ l2) b -> in_two m t l1 l2 b.
Proof.
  intros m t l1 l2 b O1 O2 (b1 & B1) (h & T & F & B). destruct h as [len ty fl r sid]. cbn in T, F. subst ty fl.
  apply octets_wf in O1, O2.
  assert (U : forall len fl l, fl = 0 \/ fl = F_END_HEADERS ->
    build_frame m (FH len HEADERS fl r sid) l t =
    match decode_block m l t with
    | Ok b => Ok (HeadersFrame l (FH len HEADERS fl r sid) [] (Prio 0 0 0) b)
    | Throw _ => Ok (RawFrame (FH len HEADERS fl r sid) l)
    | UB u => UB u | NoFuel => NoFuel end).
  { intros len' fl l [->| ->]; unfold build_frame; cbn [fh_type]; change (HEADERS =? T_DATA) with false;
      change (HEADERS =? T_HEADERS) with true; cbv iota; unfold build_headers_frame, parse_headers, headers_decode_payload;
      cbn [fh_flags]; match goal with |- context [is_flag_set ?a F_PADDED] => change (is_flag_set a F_PADDED) with false;
        change (is_flag_set a F_PRIORITY) with false end; cbv iota; cbn [bind]; destruct (decode_block m l t); reflexivity. }
  rewrite U in B by (right; reflexivity).
  rewrite (decode_block_app m t b1 l1 l2 O1 O2 B1) in B.
  destruct (decode_block m l2 t) as [b2| | |] eqn:B2; cbn [bind] in B; try discriminate B.
  injection B as <-.
  exists (FH len HEADERS 0 r sid), (FH len CONTINUATION 0 r sid), b1, b2.
  split; [reflexivity|]. split; [reflexivity|]. split; [reflexivity|]. split; [reflexivity|]. split.
  - rewrite U by (left; reflexivity). rewrite B1. reflexivity.
  - unfold build_frame. cbn [fh_type].
    change (CONTINUATION =? T_DATA) with false. change (CONTINUATION =? T_HEADERS) with false.
    change (CONTINUATION =? T_PRIORITY) with false. change (CONTINUATION =? T_RST_STREAM) with false.
    change (CONTINUATION =? T_SETTINGS) with false. change (CONTINUATION =? T_PUSH_PROMISE) with false.
    change (CONTINUATION =? T_PING) with false. change (CONTINUATION =? T_GOAWAY) with false.
    change (CONTINUATION =? T_WINDOW_UPDATE) with false. change (CONTINUATION =? T_CONTINUATION) with true. cbv iota.
    unfold parse_continuation. rewrite B2. reflexivity.
Qed.

Theorem C43_split_own_blocks_partial : forall m t mode b1 b2 l1 l2,
  Forall (sendable m t) (b1 ++ b2) -> size (dt_entries t) < 2 ^ 30 ->
  encode_block b1 mode t = Ok l1 -> encode_block b2 mode t = Ok l2 -> size (l1 ++ l2) < 2 ^ 31 ->
  encode_block (b1 ++ b2) mode t = Ok (l1 ++ l2) /\
  exists b, in_one m t (l1 ++ l2) b /\ in_two m t l1 l2 b /\ Forall2 (received t) (b1 ++ b2) b.
Proof.
  intros m t mode b1 b2 l1 l2 B T E1 E2 L.
  assert (E : encode_block (b1 ++ b2) mode t = Ok (l1 ++ l2)).
  { clear B L. revert l1 E1. induction b1 as [|e b1 IH]; intros l1 E1; cbn [encode_block app] in *.
    - injection E1 as <-. exact E2.
    - apply bind_ok in E1. destruct E1 as (x & X & E1). apply bind_ok in E1. destruct E1 as (y & Y & E1). injection E1 as <-.
      rewrite X, (IH y Y). cbn [bind]. rewrite <- app_assoc. reflexivity. }
  split; [exact E|].
  destruct (block_roundtrip m t mode _ B T _ E L) as (W & b & D & R). apply wf_bytes_app in W. destruct W as [W1 W2].
  apply Forall_app in B. destruct B as [B1 B2]. rewrite size_app in L.
  destruct (block_roundtrip m t mode b1 B1 T l1 E1 ltac:(lia)) as (_ & b1' & D1 & _).
  assert (I : in_one m t (l1 ++ l2) b).
  { exists (FH 0 HEADERS F_END_HEADERS 0 0). split; [reflexivity|]. split; [reflexivity|].
    unfold build_frame; cbn [fh_type]; change (HEADERS =? T_DATA) with false;
      change (HEADERS =? T_HEADERS) with true; cbv iota; unfold build_headers_frame, parse_headers, headers_decode_payload.
    cbn [fh_flags]. change (is_flag_set F_END_HEADERS F_PADDED) with false.
    change (is_flag_set F_END_HEADERS F_PRIORITY) with false. cbv iota. cbn [bind]. rewrite D. reflexivity. }
  exists b. split; [exact I|]. split; [|exact R].
  apply C43_split_between_fields_partial; try (apply wf_octets; assumption); eauto.
Qed.

Example C43_case : in_one Strict default_table ([0x82] ++ [0x84]) 
    [HEntry Indexed (EHeader (octets ":method", octets "GET")); HEntry Indexed (EHeader (octets ":path", octets "/"))] /\
  in_two Strict default_table [0x82] [0x84]
    [HEntry Indexed (EHeader (octets ":method", octets "GET")); HEntry Indexed (EHeader (octets ":path", octets "/"))].
Proof.
  split.
  - exists (FH 2 HEADERS F_END_HEADERS 0 1). repeat split; vm_compute; reflexivity.
  - exists (FH 1 HEADERS 0 0 1), (FH 1 CONTINUATION F_END_HEADERS 0 1),
      [HEntry Indexed (EHeader (octets ":method", octets "GET"))], [HEntry Indexed (EHeader (octets ":path", octets "/"))].
    repeat split; vm_compute; reflexivity.
Qed.

(* ---------------------------------------------------------------- C44 *)

(* Emission: padding of 256 octets is accepted, its length octet is 0, and the
   receiver takes the padding for 256 header fields. *)
Theorem C44_long_padding_refuted :
  ~ (forall host m t flags sid b mode padding f raw g,
       has_padded flags = true -> sid < 2 ^ 31 -> is_octets padding ->
       mk_headers flags sid b mode t padding (Prio 0 0 0) = Ok f -> serialize host f = Ok raw ->
       reads_back m t raw g ->
       exists enc h b', g = HeadersFrame enc h padding (Prio 0 0 0) b' /\ Forall2 (received t) b b').
Proof.
  intros H. pose (padding := repeat 0x82 256).
  assert (F : mk_headers 8 1 [] ModeNone default_table padding (Prio 0 0 0) =
              Ok (HeadersFrame (0 :: padding) (FH 257 HEADERS 8 0 1) padding (Prio 0 0 0) []))
    by (vm_compute; reflexivity).
  assert (G : exists g, build_frame Strict (FH 257 HEADERS 8 0 1) (0 :: padding) default_table = Ok g /\
              match g with HeadersFrame _ _ p _ _ => size p = 0 | _ => False end)
    by (eexists; split; vm_compute; reflexivity).
  destruct G as (g & G & Z).
  destruct (H LittleEndian Strict default_table 8 1 [] ModeNone padding
              (HeadersFrame (0 :: padding) (FH 257 HEADERS 8 0 1) padding (Prio 0 0 0) [])
              (serialize_fh LittleEndian (FH 257 HEADERS 8 0 1) ++ 0 :: padding) g) as (enc & h & b' & E & _).
  - reflexivity.
  - reflexivity.
  - intros b I. apply repeat_spec in I. subst b. reflexivity.
  - exact F.
  - reflexivity.
  - exists (serialize_fh LittleEndian (FH 257 HEADERS 8 0 1)), (0 :: padding), (FH 257 HEADERS 8 0 1).
    split; [reflexivity|]. split; [reflexivity|]. split; [reflexivity|]. split; [vm_compute; reflexivity|exact G].
  - subst g. vm_compute in Z. discriminate Z.
Qed.

(* Reception: a pad length that does not fit the payload is undefined
   behaviour, for every such payload. *)
Theorem C44_received_padding_refuted : forall m h t raw, is_octets raw -> fh_type h = HEADERS ->
  has_padded (fh_flags h) = true ->
  (raw = [] \/ exists p data, raw = p :: data /\ size data < p) ->
  exists u, build_frame m h raw t = UB u.
Proof.
  intros m [len ty fl r sid] t raw O T P C. cbn [fh_type fh_flags] in *. subst ty. apply octets_wf in O.
  assert (X : exists u, split_padding raw = UB u).
  { pose proof (split_padded raw O) as S. destruct C as [->|(p & data & -> & L)]; [eauto|].
    cbv beta iota in S. destruct (N.ltb_spec (size data) p); [exact S|lia]. }
  destruct X as (u & X). exists u.
  unfold build_frame; cbn [fh_type]; change (HEADERS =? T_DATA) with false;
    change (HEADERS =? T_HEADERS) with true; cbv iota; unfold build_headers_frame, parse_headers, headers_decode_payload.
  cbn [fh_flags]. rewrite padded_flag, P, X. reflexivity.
Qed.

Theorem C44_received_padding_push_refuted : forall m h t raw, is_octets raw -> fh_type h = PUSH_PROMISE ->
  has_padded (fh_flags h) = true ->
  (raw = [] \/ exists p data, raw = p :: data /\ size data < p) ->
  exists u, build_frame m h raw t = UB u.
Proof.
  intros m [len ty fl r sid] t raw O T P C. cbn [fh_type fh_flags] in *. subst ty. apply octets_wf in O.
  assert (X : exists u, split_padding raw = UB u).
  { pose proof (split_padded raw O) as S. destruct C as [->|(p & data & -> & L)]; [eauto|].
    cbv beta iota in S. destruct (N.ltb_spec (size data) p); [exact S|lia]. }
  destruct X as (u & X). exists u.
  change (build_frame m (FH len PUSH_PROMISE fl r sid) raw t) with (parse_push_promise m (FH len PUSH_PROMISE fl r sid) raw t).
  unfold parse_push_promise, push_promise_decode_payload.
  cbn [fh_flags]. rewrite padded_flag, P, X. reflexivity.
Qed.

(* Every other received payload is divided as the RFC says (emission up to 255
   octets is C41 and C42): building the padded frame gives what building the
   frame without padding from exactly the contents gives, plus the padding. *)
Definition unpadded (h h0 : frame_header) : Prop :=
  fh_type h0 = fh_type h /\ has_padded (fh_flags h) = true /\ has_padded (fh_flags h0) = false /\
  has_priority (fh_flags h0) = has_priority (fh_flags h).

Theorem C44_received_padding_partial : forall m h h0 t contents padding, fh_type h = HEADERS ->
  unpadded h h0 -> size padding <= 255 ->
  let raw := padded_payload true contents padding in
  match build_frame m h0 contents t with
  | Ok (HeadersFrame _ _ _ prio b) => build_frame m h raw t = Ok (HeadersFrame raw h padding prio b)
  | Ok _ => build_frame m h raw t = Ok (RawFrame h raw)
  | Throw _ => False
  | UB u => build_frame m h raw t = UB u
  | NoFuel => is_octets contents -> False
  end.
Proof.
  intros m [len ty fl r sid] [len0 ty0 fl0 r0 sid0] t contents padding T (T0 & P & P0 & R) L.
  cbn [fh_type fh_flags] in *. subst ty0 ty. cbv zeta.
  assert (X : forall len fl r sid raw, build_frame m (FH len HEADERS fl r sid) raw t =
    match parse_headers m (FH len HEADERS fl r sid) raw t with Throw _ => Ok (RawFrame (FH len HEADERS fl r sid) raw) | x => x end)
    by reflexivity.
  rewrite !X. unfold parse_headers, headers_decode_payload. cbn [fh_flags]. rewrite !padded_flag, !priority_flag, P, P0, R.
  rewrite padded_split by lia. cbn [bind].
  pose proof (fun O => decode_block_real m contents t (octets_wf contents O)) as Q.
  destruct (has_priority fl).
  - unfold headers_split_priority.
    destruct (vrange contents 0 4) as [dep| | |] eqn:V; cbn [bind]; try reflexivity;
      try (unfold vrange in V; destruct (_ <=? _); discriminate V).
    destruct (vget dep 0) as [b0| | |] eqn:V0; cbn [bind]; try reflexivity;
      try (unfold vget in V0; destruct (_ <? _); discriminate V0).
    destruct (bytes2integral 4 dep 0) as [x| | |] eqn:V1; cbn [bind]; try reflexivity;
      try (unfold bytes2integral in V1; destruct (vrange _ _ _); discriminate V1);
      try (unfold bytes2integral, vrange in V1; destruct (_ <=? _); discriminate V1).
    destruct (verase_front contents 4) as [rest| | |] eqn:V2; cbn [bind]; try reflexivity;
      try (unfold verase_front in V2; destruct (_ <=? _); discriminate V2).
    destruct rest as [|w rest]; cbn [bind]; [reflexivity|].
    destruct (decode_block m rest t) eqn:D; cbn [bind]; try reflexivity.
    intros O. apply (decode_block_real m rest t); [|exact D].
    apply (erase_wf contents 4 (w :: rest)) in V2; [|apply octets_wf; exact O]. exact (Forall_inv_tail V2).
  - cbn [bind]. destruct (decode_block m contents t) eqn:D; cbn [bind]; try reflexivity.
    intros O. apply (Q O). reflexivity.
Qed.

Theorem C44_received_padding_push_partial : forall m h h0 t contents padding, fh_type h = PUSH_PROMISE ->
  unpadded h h0 -> size padding <= 255 ->
  let raw := padded_payload true contents padding in
  match build_frame m h0 contents t with
  | Ok (PushPromiseFrame _ _ p) =>
      build_frame m h raw t = Ok (PushPromiseFrame raw h (PushPromise (pp_reserved p) (pp_promised p) (pp_block p) padding))
  | Ok _ => False
  | Throw x => build_frame m h raw t = Throw x
  | UB u => build_frame m h raw t = UB u
  | NoFuel => is_octets contents -> False
  end.
Proof.
  intros m [len ty fl r sid] [len0 ty0 fl0 r0 sid0] t contents padding T (T0 & P & P0 & R) L.
  cbn [fh_type fh_flags] in *. subst ty0 ty. cbv zeta.
  assert (X : forall len fl r sid raw, build_frame m (FH len PUSH_PROMISE fl r sid) raw t =
    parse_push_promise m (FH len PUSH_PROMISE fl r sid) raw t) by reflexivity.
  rewrite !X. unfold parse_push_promise, push_promise_decode_payload. cbn [fh_flags]. rewrite !padded_flag, P, P0.
  rewrite padded_split by lia. cbn [bind].
  destruct (vget contents 0) as [b0| | |] eqn:V0; cbn [bind]; try reflexivity;
    try (unfold vget in V0; destruct (_ <? _); discriminate V0).
  destruct (bytes2integral 4 contents 0) as [x| | |] eqn:V1; cbn [bind]; try reflexivity;
    try (unfold bytes2integral, vrange in V1; destruct (_ <=? _); discriminate V1).
  destruct (verase_front contents 4) as [rest| | |] eqn:V2; cbn [bind]; try reflexivity;
    try (unfold verase_front in V2; destruct (_ <=? _); discriminate V2).
  destruct (decode_block m rest t) eqn:D; cbn [bind]; try reflexivity.
  intros O. apply (decode_block_real m rest t); [|exact D].
  eapply erase_wf; [|exact V2]. apply octets_wf. exact O.
Qed.

(* The two kinds of received payload above are all there are. *)
Theorem C44_padding_cases_partial : forall raw, is_octets raw ->
  (raw = [] \/ exists p data, raw = p :: data /\ size data < p) \/
  (exists contents padding, raw = padded_payload true contents padding /\ size padding <= 255).
Proof.
  intros raw O. apply octets_wf in O. pose proof (split_padded raw O) as S.
  destruct raw as [|p data]; [left; left; reflexivity|]. cbv beta iota in S.
  destruct (N.ltb_spec (size data) p) as [L|L]; [left; right; eauto|].
  right. destruct S as (c & pd & E & Z). exists c, pd. split; [exact E|].
  pose proof (Forall_inv O) as B. unfold wf_byte in B. lia.
Qed.

Example C44_case :
  unpadded (FH 4 HEADERS 8 0 1) (FH 1 HEADERS 0 0 1) /\
  build_frame Strict (FH 4 HEADERS 8 0 1) (padded_payload true [0x82] [1; 2]) default_table =
    Ok (HeadersFrame [2; 0x82; 1; 2] (FH 4 HEADERS 8 0 1) [1; 2] (Prio 0 0 0)
          [HEntry Indexed (EHeader (octets ":method", octets "GET"))]) /\
  build_frame Strict (FH 4 HEADERS 8 0 1) [4; 0x82; 1; 2] default_table = UB BadRange.
Proof. repeat split; vm_compute; reflexivity. Qed.

Print Assumptions C41_headers_roundtrip.
Print Assumptions C41_same_frame.
Print Assumptions C42_push_promise_roundtrip.
Print Assumptions C43_continuation_roundtrip.
Print Assumptions C43_split_refuted.
Print Assumptions C43_split_between_fields_partial.
Print Assumptions C43_split_own_blocks_partial.
Print Assumptions C44_long_padding_refuted.
Print Assumptions C44_received_padding_refuted.
Print Assumptions C44_received_padding_push_refuted.
Print Assumptions C44_received_padding_partial.
Print Assumptions C44_received_padding_push_partial.
Print Assumptions C44_padding_cases_partial.
