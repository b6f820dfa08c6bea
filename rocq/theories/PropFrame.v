(* Properties C29-C40, C45-C47: frames whose payload is not a header block.
   The wire forms are those of SpecFrame.v. *)
From Coq Require Import ZArith NArith List Bool Sorting.Sorted Lia ZifyBool ZifyNat ZifyN.
From Verif Require Import Base Arith Util HeaderType DynTable HeaderEnc HeaderDec FrameHeader Frames FrameBuilder
  SpecBits SpecFrame UtilProofs FrameProofs.
Import ListNotations.
Open Scope N_scope.
Ltac Zify.zify_post_hook ::= Z.div_mod_to_equations.

(* ---------------------------------------------------------------- C29 *)

(* A header within the field widths of RFC 7540 section 4.1. *)
Definition fits (h : frame_header) : Prop :=
  fh_length h < 2 ^ 24 /\ fh_type h < 2 ^ 8 /\ fh_flags h < 2 ^ 8 /\
  fh_reserved h < 2 /\ fh_stream_id h < 2 ^ 31.

Theorem C29_header_wire_form : forall host h, fits h ->
  serialize_fh host h =
  wire_header (fh_length h) (fh_type h) (fh_flags h) (fh_reserved h) (fh_stream_id h).
Proof.
  intros host h (L & T & F & R & S). rewrite serialize_fh_wire by exact S.
  rewrite N.mod_small by exact R. reflexivity.
Qed.

Theorem C29_header_roundtrip : forall host h rest, fits h ->
  size (serialize_fh host h) = 9 /\ build_frame_header (serialize_fh host h ++ rest) = Ok h.
Proof.
  intros host h rest F. split; [apply serialize_fh_size|].
  rewrite C29_header_wire_form by exact F. destruct F as (L & T & F & R & S).
  apply build_serialize_fh; assumption.
Qed.

Theorem C29_octets_roundtrip : forall host raw rest, wf_bytes raw -> size raw = 9 ->
  exists h, build_frame_header (raw ++ rest) = Ok h /\ fits h /\ serialize_fh host h = raw.
Proof.
  intros host raw rest W S.
  pose (a := firstn 3 raw). pose (b := firstn 2 (skipn 3 raw)). pose (c := skipn 2 (skipn 3 raw)).
  assert (E : raw = a ++ b ++ c) by (unfold a, b, c; rewrite !firstn_skipn; reflexivity).
  assert (SA : length a = 3%nat) by (unfold a; rewrite firstn_length; unfold size in S; lia).
  assert (SB : length b = 2%nat) by (unfold b; rewrite firstn_length, skipn_length; unfold size in S; lia).
  assert (SC : length c = 4%nat) by (unfold c; rewrite !skipn_length; unfold size in S; lia).
  clearbody a b c. subst raw.
  destruct b as [|ty [|fl [|]]]; try discriminate.
  pose proof W as W'. apply wf_bytes_app in W'. destruct W' as [WA W']. apply wf_bytes_app in W'. destruct W' as [WB WC].
  pose proof (Forall_inv WB) as T. pose proof (Forall_inv (Forall_inv_tail WB)) as F.
  pose proof (be_lt a WA) as BA. pose proof (be_lt c WC) as BC. unfold size in BA, BC. rewrite SA in BA. rewrite SC in BC.
  change (256 ^ N.of_nat 3) with (2 ^ 24) in BA. change (256 ^ N.of_nat 4) with (2 ^ 31 * 2) in BC.
  eexists. split; [|split].
  - rewrite <- !app_assoc. apply build_fh_spec; [exact W| |]; unfold size; [rewrite SA|rewrite SC]; reflexivity.
  - repeat split; cbn [fh_length fh_type fh_flags fh_reserved fh_stream_id]; try assumption.
    + apply N.div_lt_upper_bound; [discriminate|exact BC].
    + apply mod31_lt.
  - rewrite serialize_fh_wire by (apply mod31_lt).
    cbn [fh_length fh_type fh_flags fh_reserved fh_stream_id]. unfold wire_header.
    rewrite (N.mod_small (_ / _)) by (apply N.div_lt_upper_bound; [discriminate|exact BC]).
    rewrite (N.mul_comm (_ / _)), <- N.div_mod by discriminate.
    rewrite <- SA at 1. rewrite <- SC at 1. rewrite !be_octets_of by assumption. reflexivity.
Qed.

Example C29_case :
  fits (FH 70000 4 1 1 2147483647) /\
  serialize_fh LittleEndian (FH 70000 4 1 1 2147483647) = [1; 17; 112; 4; 1; 255; 255; 255; 255].
Proof. split; [repeat split; reflexivity|vm_compute; reflexivity]. Qed.

(* ---------------------------------------------------------------- C30 *)

(* The stream id is not masked: a stream id of 2^31 or more, which the type
   admits, sets the reserved bit. *)
Theorem C30_stream_id_leak_refuted :
  ~ (forall host h h', fh_typed h -> build_frame_header (serialize_fh host h) = Ok h' ->
       fh_length h' = fh_length h mod 2 ^ 24 /\ fh_type h' = fh_type h /\ fh_flags h' = fh_flags h /\
       fh_reserved h' = fh_reserved h mod 2 /\ fh_stream_id h' = fh_stream_id h mod 2 ^ 31).
Proof.
  intros H. specialize (H LittleEndian (FH 0 0 0 0 (2 ^ 31)) (FH 0 0 0 1 0)).
  destruct H as (_ & _ & _ & H & _); [repeat split; reflexivity|reflexivity|discriminate H].
Qed.

(* What the receiver sees, for every header the C++ types admit: the only leak
   is from the top bit of the stream id into the reserved bit. *)
Theorem C30_out_of_range_fields_partial : forall host h rest, fh_typed h ->
  build_frame_header (serialize_fh host h ++ rest) =
  Ok (FH (fh_length h mod 2 ^ 24) (fh_type h) (fh_flags h)
         (N.lor (fh_reserved h mod 2) (fh_stream_id h / 2 ^ 31)) (fh_stream_id h mod 2 ^ 31)).
Proof.
  intros host [len ty fl r sid] rest (L & T & F & R & S).
  cbn [fh_length fh_type fh_flags fh_reserved fh_stream_id] in *.
  unfold serialize_fh. cbn [fh_length fh_type fh_flags fh_reserved fh_stream_id].
  rewrite !net_be, skip1_be. unfold RESERVED_BITS, STREAM_ID_BITS. rewrite low1.
  assert (J : N.lor (N.shiftl (r mod 2) 31) sid =
              N.lor (r mod 2) (sid / 2 ^ 31) * 2 ^ 31 + sid mod 2 ^ 31).
  { rewrite <- lor_add by (apply mod31_lt).
    rewrite <- !N.shiftl_mul_pow2, N.shiftl_lor, <- N.lor_assoc. f_equal.
    rewrite N.shiftl_mul_pow2. rewrite lor_add by (apply mod31_lt).
    rewrite N.mul_comm. apply N.div_mod. discriminate. }
  assert (Q : sid / 2 ^ 31 < 2).
  { apply N.div_lt_upper_bound; [discriminate|]. exact S. }
  assert (B : N.lor (r mod 2) (sid / 2 ^ 31) < 2).
  { assert (r mod 2 < 2) by (apply N.mod_lt; discriminate).
    destruct (sid / 2 ^ 31) as [|[|[]|]]; destruct (r mod 2) as [|[|[]|]]; try lia; reflexivity. }
  rewrite J, <- !app_assoc. rewrite (app_assoc [ty] [fl]). change ([ty] ++ [fl]) with [ty; fl].
  assert (W : wf_bytes (be_octets 3 len ++ [ty; fl] ++
    be_octets 4 (N.lor (r mod 2) (sid / 2 ^ 31) * 2 ^ 31 + sid mod 2 ^ 31))).
  { apply wf_bytes_app. split; [apply be_octets_wf|]. apply wf_bytes_app. split; [|apply be_octets_wf].
    repeat constructor; assumption. }
  rewrite (build_fh_spec _ _ _ _ _ W) by (apply be_octets_size).
  rewrite !be_octets_value. change (256 ^ N.of_nat 3) with (2 ^ 24).
  rewrite (mod32 (_ + _)) by (apply join_lt; [exact B|apply mod31_lt]).
  rewrite join_high, join_low by (apply mod31_lt). reflexivity.
Qed.

Example C30_case : fh_typed (FH (2 ^ 24 + 5) 9 4 6 7) /\
  build_frame_header (serialize_fh BigEndian (FH (2 ^ 24 + 5) 9 4 6 7) ++ [1]) = Ok (FH 5 9 4 0 7).
Proof. split; [repeat split; reflexivity|vm_compute; reflexivity]. Qed.

(* ---------------------------------------------------------------- C31 *)

(* The frames a user can build with the public constructors.  The C++ types of
   the arguments matter only through std::map for SETTINGS. *)
Inductive constructed : frame -> Prop :=
| c_data flags sid p : constructed (mk_data flags sid p)
| c_ping flags d f : mk_ping flags d = Ok f -> constructed f
| c_goaway p : constructed (mk_goaway p)
| c_rst sid ec : constructed (mk_rst_stream sid ec)
| c_priority sid p f : mk_priority sid p = Ok f -> constructed f
| c_window sid r w f : mk_window_update sid r w = Ok f -> constructed f
| c_settings flags sid m : constructed (mk_settings flags sid m)
| c_headers flags sid b mode t padding prio f :
    mk_headers flags sid b mode t padding prio = Ok f -> constructed f
| c_push host flags sid p mode t f : mk_push_promise host flags sid p mode t = Ok f -> constructed f
| c_continuation flags sid b mode t f : mk_continuation flags sid b mode t = Ok f -> constructed f.

Lemma settings_payload_wire : forall host m, settings_payload_bytes host m = settings_octets m.
Proof.
  intros host m. unfold settings_payload_bytes, settings_octets. apply flat_map_ext.
  intros [k v]. rewrite !net_be. reflexivity.
Qed.

Lemma opt_debug : forall d : bytes, (if 0 <? size d then d else []) = d.
Proof. intros [|a d]; [reflexivity|]. rewrite size_cons. destruct (N.ltb_spec 0 (size d + 1)); [reflexivity|lia]. Qed.

Lemma goaway_payload_wire : forall host p, g_reserved p < 2 ->
  goaway_payload_bytes host p = Ok (goaway_octets (g_reserved p) (g_last_stream_id p mod 2 ^ 31) (g_error_code p) (g_debug p)).
Proof.
  intros host [r l e d] R. cbn [g_reserved g_last_stream_id g_error_code g_debug] in *.
  unfold goaway_payload_bytes, shl31. cbn [g_reserved g_last_stream_id g_error_code g_debug].
  destruct (N.leb_spec 2 r); [lia|]. cbn [bind]. rewrite !net_be. unfold STREAM_ID_BITS.
  rewrite low31, join31' by (apply mod31_lt). rewrite opt_debug. reflexivity.
Qed.

Lemma constructed_length : forall f host p, constructed f -> payload_bytes host f = Ok p -> size p < 2 ^ 32 ->
  fh_length (frame_fh f) = size p.
Proof.
  intros f host p C P L. destruct C.
  - injection P as <-. cbn. apply u32_small. exact L.
  - unfold mk_ping in H. apply bind_ok in H. destruct H as (o & O & E). injection E as <-.
    injection P as <-. cbn. unfold construct_opaque_data in O.
    destruct (N.ltb_spec 8 (size d)); [discriminate|]. remember (8 - length d)%nat as z. injection O as <-.
    rewrite size_app. unfold size in *. rewrite repeat_length. lia.
  - cbn [payload_bytes mk_goaway] in P. unfold goaway_payload_bytes in P. apply bind_ok in P. destruct P as (r & R & P).
    injection P as <-. rewrite opt_debug in *. rewrite !size_app, !net_be, !be_octets_size in *.
    cbn [mk_goaway frame_fh fh_length]. rewrite u32_small; [lia|]. lia.
  - injection P as <-. rewrite net_be, be_octets_size. reflexivity.
  - unfold mk_priority in H. apply bind_ok in H. destruct H as (o & O & E). injection E as <-.
    injection P as <-. rewrite size_app, net_be, be_octets_size. reflexivity.
  - unfold mk_window_update in H. apply bind_ok in H. destruct H as (o & O & E). injection E as <-.
    injection P as <-. rewrite net_be, be_octets_size. reflexivity.
  - injection P as <-. rewrite settings_payload_wire, settings_size in *.
    cbn [mk_settings frame_fh fh_length]. rewrite u32_small; lia.
  - unfold mk_headers in H. apply bind_ok in H. destruct H as (e & E & F). injection F as <-.
    injection P as <-. cbn. apply u32_small. exact L.
  - unfold mk_push_promise in H. apply bind_ok in H. destruct H as (e & E & F). injection F as <-.
    injection P as <-. cbn. apply u32_small. exact L.
  - unfold mk_continuation in H. apply bind_ok in H. destruct H as (e & E & F). injection F as <-.
    injection P as <-. cbn. apply u32_small. exact L.
Qed.

(* The length a receiver reads in the first three octets of raw. *)
Definition declared_length (raw : bytes) : N := be_value (firstn 3 raw).

Theorem C31_declared_length_partial : forall host f raw, constructed f -> serialize host f = Ok raw ->
  size raw < 9 + 2 ^ 24 -> exists payload,
  payload_bytes host f = Ok payload /\ size raw = 9 + size payload /\ skipn 9 raw = payload /\
  declared_length raw = size payload.
Proof.
  intros host f raw C S L. unfold serialize in S. apply bind_ok in S. destruct S as (p & P & E). injection E as <-.
  assert (H9 : length (serialize_fh host (frame_fh f)) = 9%nat).
  { pose proof (serialize_fh_size host (frame_fh f)) as Q. unfold size in Q. lia. }
  rewrite size_app, serialize_fh_size in *.
  exists p. split; [exact P|]. split; [reflexivity|]. split; [apply skipn_len_app; exact H9|].
  pose proof (constructed_length f host p C P ltac:(lia)) as F.
  unfold declared_length. rewrite firstn_app, H9. change (firstn (3 - 9) p) with (@nil N). rewrite app_nil_r.
  unfold serialize_fh. rewrite !net_be, skip1_be.
  rewrite firstn_len_app by reflexivity.
  rewrite be_octets_value, F. apply N.mod_small. change (256 ^ N.of_nat 3) with (2 ^ 24). lia.
Qed.

(* A payload of 2^24 octets or more is neither rejected nor described
   correctly. *)
Theorem C31_declared_length_refuted :
  ~ (forall host f raw, constructed f -> serialize host f = Ok raw -> declared_length raw = size raw - 9).
Proof.
  intros H. pose (n := N.to_nat (2 ^ 24)). pose (p := repeat 0 n).
  assert (Z : size p = 2 ^ 24) by (unfold p, n, size; rewrite repeat_length, N2Nat.id; reflexivity).
  specialize (H LittleEndian (mk_data 0 1 p) _ (c_data 0 1 p) eq_refl).
  cbn [mk_data frame_fh payload_bytes] in H. rewrite size_app, serialize_fh_size, Z in H.
  unfold declared_length in H. rewrite firstn_app in H.
  assert (H9 : length (serialize_fh LittleEndian (FH (cast_to_fh_length (2 ^ 24)) T_DATA 0 0 1)) = 9%nat) by reflexivity.
  rewrite H9 in H. cbn [Nat.sub] in H. change (firstn 0 p) with (@nil N) in H. vm_compute in H. discriminate H.
Qed.

Example C31_case :
  constructed (mk_goaway (Goaway 0 3 1 [104; 105])) /\
  serialize LittleEndian (mk_goaway (Goaway 0 3 1 [104; 105])) =
    Ok [0; 0; 10; 7; 0; 0; 0; 0; 0;  0; 0; 0; 3; 0; 0; 0; 1; 104; 105].
Proof. split; [constructor|vm_compute; reflexivity]. Qed.

(* ---------------------------------------------------------------- C32 *)

(* Round trips are stated with reads_back (FrameProofs.v): reading 9 octets as
   a header, then as many octets as it declares, and building a frame from the
   two gives a frame equal in every member to the one serialised. *)

Theorem C32_data_roundtrip : forall host m t flags sid payload,
  flags < 2 ^ 8 -> sid < 2 ^ 31 -> size payload < 2 ^ 24 ->
  serialize host (mk_data flags sid payload) = Ok (wire_frame DATA flags 0 sid payload) /\
  reads_back m t (wire_frame DATA flags 0 sid payload) (mk_data flags sid payload).
Proof.
  intros host m t flags sid payload F S L.
  assert (U : cast_to_fh_length (size payload) = size payload).
  { apply u32_small. change (2 ^ 32) with 4294967296. change (2 ^ 24) with 16777216 in L. lia. }
  split.
  - apply (serialize_wire host (mk_data flags sid payload) payload); cbn; try assumption; reflexivity.
  - apply reads_back_intro; try assumption; try reflexivity.
Qed.

Example C32_case : exists raw, serialize BigEndian (mk_data 8 3 [1; 65; 0]) = Ok raw /\
  raw = [0; 0; 3; 0; 8; 0; 0; 0; 3; 1; 65; 0].
Proof. eexists; split; [vm_compute; reflexivity|reflexivity]. Qed.

(* ---------------------------------------------------------------- C33 *)

Theorem C33_ping_roundtrip : forall host m t flags d, flags < 2 ^ 8 -> size d <= 8 ->
  exists f, mk_ping flags d = Ok f /\ exists zeros, Forall (eq 0) zeros /\ size (d ++ zeros) = 8 /\
    serialize host f = Ok (wire_frame PING flags 0 0 (d ++ zeros)) /\
    reads_back m t (wire_frame PING flags 0 0 (d ++ zeros)) f.
Proof.
  intros host m t flags d F S. unfold mk_ping, construct_opaque_data.
  destruct (N.ltb_spec 8 (size d)); [lia|]. cbn [bind].
  eexists. split; [reflexivity|]. exists (repeat 0 (8 - length d)).
  assert (Z : size (d ++ repeat 0 (8 - length d)) = 8).
  { rewrite size_app. unfold size in *. rewrite repeat_length. lia. }
  split; [apply Forall_forall; intros x I; symmetry; eapply repeat_spec; exact I|].
  split; [exact Z|]. split.
  - apply (serialize_wire host (PingFrame (FH 8 T_PING flags 0 0) (d ++ repeat 0 (8 - length d)))); cbn;
      try reflexivity; try (symmetry; exact Z).
  - apply reads_back_intro; try assumption; try reflexivity; [rewrite Z; reflexivity|].
    rewrite Z. reflexivity.
Qed.

Theorem C33_ping_too_long : forall flags d, 8 < size d -> mk_ping flags d = Throw InvalidArgument.
Proof.
  intros flags d S. unfold mk_ping, construct_opaque_data. destruct (N.ltb_spec 8 (size d)); [reflexivity|lia].
Qed.

Example C33_case : mk_ping 1 [7; 7; 7] = Ok (PingFrame (FH 8 6 1 0 0) [7; 7; 7; 0; 0; 0; 0; 0]) /\
  mk_ping 1 [1; 2; 3; 4; 5; 6; 7; 8; 9] = Throw InvalidArgument.
Proof. split; reflexivity. Qed.

(* ---------------------------------------------------------------- C34 *)

Theorem C34_goaway_roundtrip : forall host m t r last ec debug,
  r < 2 -> last < 2 ^ 31 -> ec < 2 ^ 32 -> 8 + size debug < 2 ^ 24 ->
  serialize host (mk_goaway (Goaway r last ec debug)) = Ok (wire_frame GOAWAY 0 0 0 (goaway_octets r last ec debug)) /\
  reads_back m t (wire_frame GOAWAY 0 0 0 (goaway_octets r last ec debug)) (mk_goaway (Goaway r last ec debug)).
Proof.
  intros host m t r last ec debug R L E S.
  assert (Z : size (goaway_octets r last ec debug) = 8 + size debug).
  { unfold goaway_octets. rewrite !size_app, !be_octets_size. lia. }
  assert (U : u32 (4 + 4 + size debug) = 8 + size debug).
  { rewrite u32_small; [lia|]. change (2 ^ 32) with 4294967296. change (2 ^ 24) with 16777216 in S. lia. }
  split.
  - rewrite (serialize_wire host _ (goaway_octets r last ec debug)).
    + cbn [mk_goaway frame_fh fh_type fh_flags fh_reserved fh_stream_id]. reflexivity.
    + cbn [mk_goaway payload_bytes]. rewrite goaway_payload_wire by exact R.
      cbn [g_reserved g_last_stream_id g_error_code g_debug]. rewrite N.mod_small by exact L. reflexivity.
    + reflexivity.
    + cbn [mk_goaway frame_fh fh_length g_debug]. rewrite U, Z. reflexivity.
    + reflexivity.
  - apply reads_back_intro; try reflexivity; [rewrite Z; exact S|]. rewrite Z.
    unfold build_frame. cbn [fh_type]. change (GOAWAY =? T_DATA) with false. change (GOAWAY =? T_HEADERS) with false.
    change (GOAWAY =? T_PRIORITY) with false. change (GOAWAY =? T_RST_STREAM) with false.
    change (GOAWAY =? T_SETTINGS) with false. change (GOAWAY =? T_PUSH_PROMISE) with false.
    change (GOAWAY =? T_PING) with false. change (GOAWAY =? T_GOAWAY) with true. cbv iota.
    unfold parse_goaway, goaway_construct_payload.
    rewrite Z. destruct (N.ltb_spec (8 + size debug) 8); [lia|].
    unfold goaway_octets. rewrite be4_round by (apply join_lt; assumption). cbn [bind].
    assert (X : bytes2integral 4 (be_octets 4 (r * 2 ^ 31 + last) ++ be_octets 4 ec ++ debug) 4 = Ok ec).
    { change 4 with (size (be_octets 4 (r * 2 ^ 31 + last))) at 2.
      rewrite bytes2integral_spec by (apply be_octets_wf || apply be_octets_size).
      rewrite be_octets_value, mod32 by exact E. reflexivity. }
    rewrite X. cbn [bind].
    assert (Y : (if 8 <? 8 + size debug then skipn 8 (be_octets 4 (r * 2 ^ 31 + last) ++ be_octets 4 ec ++ debug) else []) = debug).
    { destruct (N.ltb_spec 8 (8 + size debug)).
      - rewrite app_assoc. apply skipn_len_app. reflexivity.
      - symmetry. apply size_0. lia. }
    rewrite Y. unfold RESERVED_BITS, STREAM_ID_BITS.
    rewrite high1_32, low31, join_high, join_low by exact L.
    rewrite u8_small by lia. unfold mk_goaway. cbn [g_debug]. rewrite U. reflexivity.
Qed.

Theorem C34_goaway_masks_stream_id : forall host r last ec debug,
  r < 2 -> last < 2 ^ 32 -> 8 + size debug < 2 ^ 24 ->
  serialize host (mk_goaway (Goaway r last ec debug)) =
  Ok (wire_frame GOAWAY 0 0 0 (goaway_octets r (last mod 2 ^ 31) ec debug)).
Proof.
  intros host r last ec debug R L S.
  assert (Z : size (goaway_octets r (last mod 2 ^ 31) ec debug) = 8 + size debug).
  { unfold goaway_octets. rewrite !size_app, !be_octets_size. lia. }
  rewrite (serialize_wire host _ (goaway_octets r (last mod 2 ^ 31) ec debug)).
  - reflexivity.
  - cbn [mk_goaway payload_bytes]. rewrite goaway_payload_wire by exact R. reflexivity.
  - reflexivity.
  - cbn [mk_goaway frame_fh fh_length g_debug]. rewrite Z.
    rewrite u32_small; [lia|]. change (2 ^ 32) with 4294967296. change (2 ^ 24) with 16777216 in S. lia.
  - reflexivity.
Qed.

Theorem C34_goaway_short : forall m h t raw, fh_type h = GOAWAY -> size raw < 8 ->
  build_frame m h raw t = Throw InvalidArgument.
Proof.
  intros m [len ty fl r sid] t raw T S. cbn [fh_type] in T. subst ty.
  cbn. unfold parse_goaway, goaway_construct_payload. destruct (N.ltb_spec (size raw) 8); [reflexivity|lia].
Qed.

Example C34_case : exists raw,
  serialize LittleEndian (mk_goaway (Goaway 1 (2 ^ 31 + 5) 11 [100])) = Ok raw /\
  raw = [0; 0; 9; 7; 0; 0; 0; 0; 0; 128; 0; 0; 5; 0; 0; 0; 11; 100].
Proof. eexists; split; [vm_compute; reflexivity|reflexivity]. Qed.

(* ---------------------------------------------------------------- C35 *)

Theorem C35_rst_stream_roundtrip : forall host m t sid ec, sid < 2 ^ 31 -> ec < 2 ^ 32 ->
  serialize host (mk_rst_stream sid ec) = Ok (wire_frame RST_STREAM 0 0 sid (rst_stream_octets ec)) /\
  reads_back m t (wire_frame RST_STREAM 0 0 sid (rst_stream_octets ec)) (mk_rst_stream sid ec).
Proof.
  intros host m t sid ec S E. split.
  - rewrite (serialize_wire host _ (rst_stream_octets ec)).
    + reflexivity.
    + cbn [mk_rst_stream payload_bytes]. rewrite net_be. reflexivity.
    + exact S.
    + unfold rst_stream_octets. rewrite be_octets_size. reflexivity.
    + reflexivity.
  - apply reads_back_intro; try assumption; try reflexivity.
    unfold build_frame, rst_stream_octets. rewrite be_octets_size. cbn [fh_type].
    change (RST_STREAM =? T_DATA) with false. change (RST_STREAM =? T_HEADERS) with false.
    change (RST_STREAM =? T_PRIORITY) with false. change (RST_STREAM =? T_RST_STREAM) with true. cbv iota.
    unfold parse_rst_stream. rewrite be_octets_size. change (N.of_nat 4 <? 4) with false. cbv iota.
    rewrite <- (app_nil_r (be_octets 4 ec)), be4_round by exact E. reflexivity.
Qed.

Theorem C35_rst_stream_short : forall m h t raw, fh_type h = RST_STREAM -> size raw < 4 ->
  build_frame m h raw t = Throw InvalidArgument.
Proof.
  intros m [len ty fl r sid] t raw T S. cbn [fh_type] in T. subst ty.
  cbn. unfold parse_rst_stream. destruct (N.ltb_spec (size raw) 4); [reflexivity|lia].
Qed.

Example C35_case : exists raw, serialize LittleEndian (mk_rst_stream 5 0xdeadbeef) = Ok raw /\
  raw = [0; 0; 4; 3; 0; 0; 0; 0; 5; 222; 173; 190; 239].
Proof. eexists; split; [vm_compute; reflexivity|reflexivity]. Qed.

(* ---------------------------------------------------------------- C36 *)

Theorem C36_priority_roundtrip : forall host m t sid e dep w,
  sid < 2 ^ 31 -> e < 2 -> dep < 2 ^ 31 -> w < 2 ^ 8 ->
  exists f, mk_priority sid (Prio e dep w) = Ok f /\
    serialize host f = Ok (wire_frame PRIORITY 0 0 sid (priority_fields e dep w)) /\
    reads_back m t (wire_frame PRIORITY 0 0 sid (priority_fields e dep w)) f.
Proof.
  intros host m t sid e dep w S E D W.
  assert (V : validate_priority (Prio e dep w) = Ok tt).
  { unfold validate_priority, MAX_STREAM_ID. cbn [p_exclusive p_dependency]. change (2 ^ 31) with 2147483648 in D.
    destruct (N.ltb_spec 1 e); [lia|]. destruct (N.ltb_spec 0x7fffffff dep); [lia|reflexivity]. }
  unfold mk_priority. rewrite V. cbn [bind]. eexists. split; [reflexivity|].
  assert (Z : size (priority_fields e dep w) = 5).
  { unfold priority_fields. rewrite size_app, be_octets_size. reflexivity. }
  split.
  - rewrite (serialize_wire host _ (priority_fields e dep w)).
    + reflexivity.
    + cbn [payload_bytes p_exclusive p_dependency p_weight]. rewrite net_be. unfold STREAM_ID_BITS.
      rewrite low1, (N.mod_small e) by exact E. rewrite join31 by exact D. reflexivity.
    + exact S.
    + rewrite Z. reflexivity.
    + reflexivity.
  - apply reads_back_intro; try assumption; try reflexivity. rewrite Z.
    unfold build_frame. cbn [fh_type].
    change (PRIORITY =? T_DATA) with false. change (PRIORITY =? T_HEADERS) with false.
    change (PRIORITY =? T_PRIORITY) with true. cbv iota.
    unfold parse_priority, priority_construct_payload. rewrite Z. change (5 <? 5) with false. cbv iota.
    destruct (be4_first e dep E D) as (b & tl & Q & B & _).
    assert (G0 : vget (priority_fields e dep w) 0 = Ok b).
    { unfold vget. rewrite Z. change (0 <? 5) with true. cbv iota. unfold priority_fields. rewrite Q. reflexivity. }
    assert (G4 : vget (priority_fields e dep w) 4 = Ok w).
    { unfold vget. rewrite Z. reflexivity. }
    rewrite G0, G4. cbn [bind]. unfold priority_fields. rewrite be4_round by (apply join_lt; assumption). cbn [bind].
    unfold STREAM_ID_BITS. rewrite high1_8, B, low31, join_low by exact D. rewrite V. reflexivity.
Qed.

Theorem C36_priority_rejects : forall sid e dep w, 2 <= e \/ 2 ^ 31 <= dep ->
  mk_priority sid (Prio e dep w) = Throw InvalidArgument.
Proof.
  intros sid e dep w H. unfold mk_priority, validate_priority, MAX_STREAM_ID. cbn [p_exclusive p_dependency].
  change (2 ^ 31) with 2147483648 in H.
  destruct (N.ltb_spec 1 e); [reflexivity|]. destruct (N.ltb_spec 0x7fffffff dep); [reflexivity|lia].
Qed.

Theorem C36_priority_short : forall m h t raw, fh_type h = PRIORITY -> size raw < 5 ->
  build_frame m h raw t = Throw InvalidArgument.
Proof.
  intros m [len ty fl r sid] t raw T S. cbn [fh_type] in T. subst ty.
  cbn. unfold parse_priority, priority_construct_payload. destruct (N.ltb_spec (size raw) 5); [reflexivity|lia].
Qed.

Example C36_case : exists f raw, mk_priority 3 (Prio 1 (2 ^ 31 - 1) 255) = Ok f /\
  serialize BigEndian f = Ok raw /\ raw = [0; 0; 5; 2; 0; 0; 0; 0; 3; 255; 255; 255; 255; 255].
Proof. eexists. eexists. split; [vm_compute; reflexivity|split; [vm_compute; reflexivity|reflexivity]]. Qed.

(* ---------------------------------------------------------------- C37 *)

Theorem C37_window_update_roundtrip : forall host m t sid r inc,
  sid < 2 ^ 31 -> r < 2 -> inc < 2 ^ 31 ->
  exists f, mk_window_update sid r inc = Ok f /\
    serialize host f = Ok (wire_frame WINDOW_UPDATE 0 0 sid (window_update_octets r inc)) /\
    reads_back m t (wire_frame WINDOW_UPDATE 0 0 sid (window_update_octets r inc)) f.
Proof.
  intros host m t sid r inc S R I.
  assert (V : validate_window_size inc = Ok tt).
  { unfold validate_window_size. change (2 ^ 31) with 2147483648 in I.
    destruct (N.ltb_spec 0x7fffffff inc); [lia|reflexivity]. }
  unfold mk_window_update. rewrite V. cbn [bind]. eexists. split; [reflexivity|].
  assert (Z : size (window_update_octets r inc) = 4) by (apply be_octets_size).
  split.
  - rewrite (serialize_wire host _ (window_update_octets r inc)).
    + reflexivity.
    + cbn [payload_bytes]. rewrite net_be. unfold window_update_get_payload, RESERVED_BITS.
      rewrite low1, low31, (N.mod_small r) by exact R. rewrite (N.mod_small inc), join31 by exact I. reflexivity.
    + exact S.
    + rewrite Z. reflexivity.
    + reflexivity.
  - apply reads_back_intro; try assumption; try reflexivity. rewrite Z.
    unfold build_frame. cbn [fh_type].
    change (WINDOW_UPDATE =? T_DATA) with false. change (WINDOW_UPDATE =? T_HEADERS) with false.
    change (WINDOW_UPDATE =? T_PRIORITY) with false. change (WINDOW_UPDATE =? T_RST_STREAM) with false.
    change (WINDOW_UPDATE =? T_SETTINGS) with false. change (WINDOW_UPDATE =? T_PUSH_PROMISE) with false.
    change (WINDOW_UPDATE =? T_PING) with false. change (WINDOW_UPDATE =? T_GOAWAY) with false.
    change (WINDOW_UPDATE =? T_WINDOW_UPDATE) with true. cbv iota.
    unfold parse_window_update. rewrite Z. change (negb (4 =? 4)) with false. cbv iota.
    destruct (be4_first r inc R I) as (b & tl & Q & B & _).
    pose proof (be4_round (r * 2 ^ 31 + inc) [] ltac:(apply join_lt; assumption)) as V4. rewrite app_nil_r in V4.
    unfold window_update_octets. rewrite V4. rewrite Q. cbn [bind].
    unfold RESERVED_BITS. rewrite high1_8, B, low31, join_low by exact I. rewrite V. reflexivity.
Qed.

Theorem C37_window_update_rejects : forall sid r inc, 2 ^ 31 <= inc ->
  mk_window_update sid r inc = Throw InvalidArgument.
Proof.
  intros sid r inc H. unfold mk_window_update, validate_window_size. change (2 ^ 31) with 2147483648 in H.
  destruct (N.ltb_spec 0x7fffffff inc); [reflexivity|lia].
Qed.

Theorem C37_window_update_wrong_size : forall m h t raw, fh_type h = WINDOW_UPDATE -> size raw <> 4 ->
  build_frame m h raw t = Throw InvalidArgument.
Proof.
  intros m [len ty fl r sid] t raw T S. cbn [fh_type] in T. subst ty.
  cbn. unfold parse_window_update. destruct raw; [reflexivity|]. cbn [bind].
  destruct (N.eqb_spec (size (n :: raw)) 4); [lia|reflexivity].
Qed.

Example C37_case : exists f raw, mk_window_update 1 1 65535 = Ok f /\
  serialize LittleEndian f = Ok raw /\ raw = [0; 0; 4; 8; 0; 0; 0; 0; 1; 128; 0; 255; 255].
Proof. eexists. eexists. split; [vm_compute; reflexivity|split; [vm_compute; reflexivity|reflexivity]]. Qed.

(* ---------------------------------------------------------------- C38 *)

(* A value of std::map<uint16_t, uint32_t>: strictly increasing 16-bit keys,
   32-bit values. *)
Definition std_map (m : list (N * N)) : Prop :=
  StronglySorted N.lt (map fst m) /\ Forall (fun p => fst p < 2 ^ 16 /\ snd p < 2 ^ 32) m.

(* settings_octets lists the pairs in order, 6 octets each. *)
Theorem C38_settings_roundtrip : forall host m t flags sid params,
  flags < 2 ^ 8 -> sid < 2 ^ 31 -> std_map params ->
  serialize host (mk_settings flags sid params) = Ok (wire_frame SETTINGS flags 0 sid (settings_octets params)) /\
  reads_back m t (wire_frame SETTINGS flags 0 sid (settings_octets params)) (mk_settings flags sid params).
Proof.
  intros host m t flags sid params F S (O & P).
  pose proof (settings_map_size params O P) as B. change (2 ^ 16) with 65536 in B.
  assert (U : u32 ((2 + 4) * size params) = size (settings_octets params)).
  { rewrite settings_size, u32_small; [lia|]. change (2 ^ 32) with 4294967296. lia. }
  split.
  - rewrite (serialize_wire host _ (settings_octets params)).
    + reflexivity.
    + cbn [mk_settings payload_bytes]. rewrite settings_payload_wire. reflexivity.
    + exact S.
    + cbn [mk_settings frame_fh fh_length]. exact U.
    + reflexivity.
  - apply reads_back_intro; try assumption; try reflexivity.
    + rewrite settings_size. change (2 ^ 24) with 16777216. lia.
    + unfold build_frame. cbn [fh_type].
      change (SETTINGS =? T_DATA) with false. change (SETTINGS =? T_HEADERS) with false.
      change (SETTINGS =? T_PRIORITY) with false. change (SETTINGS =? T_RST_STREAM) with false.
      change (SETTINGS =? T_SETTINGS) with true. cbv iota.
      unfold build_settings_frame. rewrite (settings_loop_spec params) by (try exact P; apply Nat.le_refl).
      cbn [bind]. rewrite fold_ordered_app by exact O. reflexivity.
Qed.

(* make_sf_payload yields such a map, for every list of 16-bit ids and 32-bit values. *)
Theorem C38_make_sf_payload : forall params, Forall (fun p => fst p < 2 ^ 16 /\ snd p < 2 ^ 32) params ->
  std_map (make_sf_payload params) /\
  (forall k, In k (map fst (make_sf_payload params)) <-> In k (map fst params)).
Proof.
  intros params P.
  assert (G : forall l m, map_ordered m -> Forall param_ok m -> Forall param_ok l ->
    std_map (fold_settings l m) /\
    (forall k, In k (map fst (fold_settings l m)) <-> In k (map fst m) \/ In k (map fst l))).
  { induction l as [|[k v] l IH]; intros m O Q R; cbn [fold_settings fold_left].
    - split; [split; assumption|]. intros k. cbn. tauto.
    - pose proof (Forall_inv R) as R0.
      assert (K : forall m0, Forall param_ok m0 -> Forall param_ok (sm_insert m0 k v)).
      { induction m0 as [|[a b] m0 IHm]; intros Z; cbn [sm_insert]; [repeat constructor; exact (proj1 R0) || exact (proj2 R0)|].
        destruct (k <? a); [constructor; assumption|]. destruct (k =? a); [assumption|].
        constructor; [exact (Forall_inv Z)|apply IHm; exact (Forall_inv_tail Z)]. }
      destruct (IH (sm_insert m k v) (sm_insert_ordered m k v O) (K m Q) (Forall_inv_tail R)) as [A B].
      split; [exact A|]. intros k'. unfold fold_settings in B. cbn [fst snd] in *. rewrite B.
      assert (X : In k' (map fst (sm_insert m k v)) <-> k = k' \/ In k' (map fst m)).
      { split; [intros I; destruct (sm_insert_keys _ _ _ _ I); auto|].
        clear. induction m as [|[a b] m IHm]; cbn [sm_insert map fst In]; [tauto|].
        destruct (N.ltb_spec k a); [cbn [map fst In]; tauto|].
        destruct (N.eqb_spec k a); cbn [map fst In]; [subst; tauto|]. tauto. }
      rewrite X. cbn [map fst In]. tauto. }
  destruct (G params [] ltac:(constructor) ltac:(constructor) P) as [A B].
  split; [exact A|]. intros k. unfold make_sf_payload. unfold fold_settings in B. rewrite B. cbn. tauto.
Qed.

Example C38_case : std_map (make_sf_payload [(4, 65535); (1, 4096); (3, 100)]) /\
  make_sf_payload [(4, 65535); (1, 4096); (3, 100)] = [(1, 4096); (3, 100); (4, 65535)] /\
  settings_octets [(1, 4096); (4, 65535)] = [0; 1; 0; 0; 16; 0; 0; 4; 0; 0; 255; 255].
Proof. split; [apply C38_make_sf_payload; repeat constructor|split; reflexivity]. Qed.

(* ---------------------------------------------------------------- C39 *)

(* The last value a list of parameters gives to id. *)
Definition last_value (params : list (N * N)) (id : N) : option N :=
  fold_left (fun acc p => if fst p =? id then Some (snd p) else acc) params None.

Theorem C39_received_last_wins_refuted :
  ~ (forall m h t params f, fh_type h = SETTINGS -> Forall (fun p => fst p < 2 ^ 16 /\ snd p < 2 ^ 32) params ->
       build_frame m h (settings_octets params) t = Ok f ->
       exists h' map, f = SettingsFrame h' map /\ forall id, sm_find map id = last_value params id).
Proof.
  intros H.
  specialize (H Strict (FH 12 SETTINGS 0 0 0) default_table [(3, 1); (3, 2)] _ eq_refl ltac:(repeat constructor) eq_refl).
  destruct H as (h' & map & E & F). injection E as _ <-. specialize (F 3). vm_compute in F. discriminate F.
Qed.

Theorem C39_make_sf_payload_last_wins_refuted :
  ~ (forall params id, sm_find (make_sf_payload params) id = last_value params id).
Proof. intros H. specialize (H [(3, 1); (3, 2)] 3). vm_compute in H. discriminate H. Qed.

(* In both cases the first value wins; so the property holds for parameters
   listed once. *)
Lemma first_last : forall params id, NoDup (map fst params) -> first_value params id = last_value params id.
Proof.
  intros params id. unfold last_value.
  assert (G : forall l acc, NoDup (map fst l) ->
    fold_left (fun acc p => if fst p =? id then Some (snd p) else acc) l acc =
    match first_value l id with Some v => Some v | None => acc end).
  { induction l as [|[k v] l IH]; intros acc D; cbn [fold_left first_value fst snd map] in *; [reflexivity|].
    inversion D as [|? ? NI D']; subst. rewrite IH by exact D'. destruct (N.eqb_spec k id); [|reflexivity].
    subst id. replace (first_value l k) with (@None N); [reflexivity|].
    symmetry. clear -NI. induction l as [|[a b] l IH]; [reflexivity|]. cbn [first_value map fst In] in *.
    destruct (N.eqb_spec a k); [tauto|]. apply IH. tauto. }
  intros D. rewrite G by exact D. destruct (first_value params id); reflexivity.
Qed.

Theorem C39_received_partial : forall m h t params, fh_type h = SETTINGS ->
  Forall (fun p => fst p < 2 ^ 16 /\ snd p < 2 ^ 32) params -> NoDup (map fst params) ->
  exists h' map, build_frame m h (settings_octets params) t = Ok (SettingsFrame h' map) /\
    forall id, sm_find map id = last_value params id.
Proof.
  intros m [len ty fl r sid] t params T P D. cbn [fh_type] in T. subst ty. cbn.
  unfold build_settings_frame. rewrite (settings_loop_spec params) by (try exact P; apply Nat.le_refl).
  cbn [bind mk_settings]. eexists. eexists. split; [reflexivity|]. intros id.
  rewrite sm_find_fold by constructor. cbn [sm_find]. apply first_last. exact D.
Qed.

Theorem C39_make_sf_payload_partial : forall params, NoDup (map fst params) ->
  forall id, sm_find (make_sf_payload params) id = last_value params id.
Proof.
  intros params D id. change (make_sf_payload params) with (fold_settings params []).
  rewrite sm_find_fold by constructor. cbn [sm_find]. apply first_last. exact D.
Qed.

Example C39_case : NoDup (map fst [(5, 7); (1, 0)]) /\ last_value [(5, 7); (1, 0)] 5 = Some 7 /\
  last_value [(5, 7); (1, 0); (5, 8)] 5 = Some 8.
Proof. split; [repeat constructor; cbn; intuition discriminate|split; reflexivity]. Qed.

(* ---------------------------------------------------------------- C40 *)

Theorem C40_settings_safe_refuted :
  ~ (forall m h t raw, fh_type h = SETTINGS -> wf_bytes raw -> forall u, build_frame m h raw t <> UB u).
Proof.
  intros H. apply (H Lenient (FH 1 SETTINGS 0 0 0) default_table [0] eq_refl ltac:(repeat constructor) BadRange).
  reflexivity.
Qed.

(* Exactly the lengths that are not multiples of 6 go wrong; the others parse
   to the parameters listed. *)
Theorem C40_settings_lengths_partial : forall m h t raw, fh_type h = SETTINGS -> wf_bytes raw ->
  (size raw mod 6 = 0 -> exists params h' map, raw = settings_octets params /\
     build_frame m h raw t = Ok (SettingsFrame h' map) /\
     forall id, sm_find map id = first_value params id) /\
  (size raw mod 6 <> 0 -> exists u, build_frame m h raw t = UB u).
Proof.
  intros m [len ty fl r sid] t raw T W. cbn [fh_type] in T. subst ty. cbn. unfold build_settings_frame. split.
  - intros M. destruct (settings_of_octets (N.to_nat (size raw / 6)) raw W) as (ps & E & P & _).
    { rewrite N2Nat.id. rewrite (N.div_mod (size raw) 6) at 1 by discriminate. lia. }
    exists ps. subst raw. rewrite (settings_loop_spec ps) by (try exact P; apply Nat.le_refl).
    cbn [bind mk_settings]. eexists. eexists. split; [reflexivity|]. split; [reflexivity|]. intros id.
    rewrite sm_find_fold by constructor. reflexivity.
  - intros M. pose (q := 6 * (size raw / 6)).
    assert (D : size raw = q + size raw mod 6) by (apply N.div_mod; discriminate).
    assert (B : size raw mod 6 < 6) by (apply N.mod_lt; discriminate).
    assert (SA : size (firstn (N.to_nat q) raw) = 6 * N.of_nat (N.to_nat (size raw / 6))).
    { rewrite size_firstn, N2Nat.id. fold q. lia. }
    assert (SB : size (skipn (N.to_nat q) raw) = size raw mod 6) by (rewrite size_skipn; lia).
    destruct (settings_of_octets _ (firstn (N.to_nat q) raw) (wf_bytes_firstn _ _ W) SA) as (ps & E & P & _).
    destruct (settings_loop_app_tail ps (skipn (N.to_nat q) raw) (length raw) [] P) as (u & U).
    + rewrite SB. lia.
    + apply wf_bytes_skipn, W.
    + rewrite <- E, firstn_skipn. apply Nat.le_refl.
    + rewrite <- E, firstn_skipn in U. rewrite U. cbn [bind]. eauto.
Qed.

Example C40_case : size (settings_octets [(1, 4096); (4, 65535)]) mod 6 = 0 /\
  build_frame Strict (FH 12 4 0 0 0) (settings_octets [(1, 4096); (4, 65535)]) default_table =
    Ok (SettingsFrame (FH 12 4 0 0 0) [(1, 4096); (4, 65535)]).
Proof. split; vm_compute; reflexivity. Qed.

(* ---------------------------------------------------------------- C45 *)

Theorem C45_byte_order_independent : forall f, serialize LittleEndian f = serialize BigEndian f.
Proof.
  assert (N : forall k x, net_bytes LittleEndian k x = net_bytes BigEndian k x) by (intros; rewrite !net_be; reflexivity).
  assert (H : forall h, serialize_fh LittleEndian h = serialize_fh BigEndian h) by (intros; unfold serialize_fh; rewrite !N; reflexivity).
  assert (P : forall f, payload_bytes LittleEndian f = payload_bytes BigEndian f).
  { intros []; cbn [payload_bytes]; rewrite ?N; try reflexivity.
    - rewrite !settings_payload_wire. reflexivity.
    - unfold goaway_payload_bytes. rewrite !N. destruct (shl31 _); cbn [bind]; rewrite ?N; reflexivity. }
  intros f. unfold serialize. rewrite P, H. reflexivity.
Qed.

(* push_promise is the one constructor that fixes octets itself. *)
Theorem C45_push_promise_construction : forall flags sid p mode t,
  mk_push_promise LittleEndian flags sid p mode t = mk_push_promise BigEndian flags sid p mode t.
Proof.
  intros. unfold mk_push_promise, push_promise_construct_payload. rewrite !net_be. reflexivity.
Qed.

Example C45_case : exists raw, serialize LittleEndian (mk_rst_stream 258 66051) = Ok raw /\
  serialize BigEndian (mk_rst_stream 258 66051) = Ok raw /\ raw = [0; 0; 4; 3; 0; 0; 0; 1; 2; 0; 1; 2; 3].
Proof. eexists; split; [vm_compute; reflexivity|split; [vm_compute; reflexivity|reflexivity]]. Qed.

(* ---------------------------------------------------------------- C46 *)

(* The frame class (the alternative of the variant) of a frame, as the type
   code it stands for; None for raw_frame. *)
Definition class_code (f : frame) : option N :=
  match f with
  | DataFrame _ _ => Some DATA | HeadersFrame _ _ _ _ _ => Some HEADERS
  | PriorityFrame _ _ => Some PRIORITY | RstStreamFrame _ _ => Some RST_STREAM
  | SettingsFrame _ _ => Some SETTINGS | PushPromiseFrame _ _ _ => Some PUSH_PROMISE
  | PingFrame _ _ => Some PING | GoawayFrame _ _ => Some GOAWAY
  | WindowUpdateFrame _ _ _ => Some WINDOW_UPDATE | ContinuationFrame _ _ _ => Some CONTINUATION
  | RawFrame _ _ => None
  end.

(* Ltac that opens a bind chain ending in Ok *)
Ltac open_ok H :=
  repeat match type of H with
  | (let* _ := _ in _) = Ok _ => apply bind_ok in H; let x := fresh "x" in let E := fresh "E" in destruct H as (x & E & H)
  | bind _ _ = Ok _ => apply bind_ok in H; let x := fresh "x" in let E := fresh "E" in destruct H as (x & E & H)
  | (let '(_, _) := ?x in _) = Ok _ => destruct x
  end.

Theorem C46_dispatch : forall m h raw t f, build_frame m h raw t = Ok f ->
  fh_type h <= 9 /\
  ((class_code f = Some (fh_type h)) \/
   (fh_type h = HEADERS /\ f = RawFrame h raw /\ exists e, parse_headers m h raw t = Throw e)) /\
  fh_type (frame_fh f) = fh_type h /\ fh_flags (frame_fh f) = fh_flags h /\
  fh_stream_id (frame_fh f) = fh_stream_id h /\
  (fh_type h <> DATA -> fh_type h <> SETTINGS -> frame_fh f = h) /\
  (fh_type h = DATA -> size raw < 2 ^ 32 ->
     frame_fh f = FH (size raw) DATA (fh_flags h) 0 (fh_stream_id h) /\ payload_bytes BigEndian f = Ok raw) /\
  (fh_type h = SETTINGS -> exists map, f = mk_settings (fh_flags h) (fh_stream_id h) map).
Proof.
  intros m [len ty fl r sid] raw t f H. cbn [fh_type fh_flags fh_stream_id].
  unfold build_frame in H. cbn [fh_type] in H.
  repeat match type of H with
  | (if ?ty =? ?c then _ else _) = _ => destruct (N.eqb_spec ty c) as [->|]
  end; try discriminate H.
  all: split; [vm_compute; discriminate|].
  - injection H as <-. split; [left; reflexivity|]. do 3 (split; [reflexivity|]). split; [intros X; destruct X; reflexivity|].
    split; [|discriminate]. intros _ L. split; [|reflexivity].
    cbn [mk_data frame_fh]. unfold cast_to_fh_length. rewrite u32_small by exact L. reflexivity.
  - unfold build_headers_frame in H. destruct (parse_headers m _ raw t) eqn:E; try discriminate H.
    + injection H as <-. unfold parse_headers in E. apply bind_ok in E. destruct E as ([[pad pr] b] & _ & E). injection E as <-.
      repeat split; try reflexivity; try (left; reflexivity); try discriminate.
    + injection H as <-. repeat split; try reflexivity; try discriminate. right. eauto.
  - unfold parse_priority in H. open_ok H. injection H as <-.
    repeat split; try reflexivity; try (left; reflexivity); try discriminate.
  - unfold parse_rst_stream in H. destruct (_ <? _); [discriminate H|]. open_ok H. injection H as <-.
    repeat split; try reflexivity; try (left; reflexivity); try discriminate.
  - unfold build_settings_frame in H. open_ok H. injection H as <-.
    split; [left; reflexivity|]. do 3 (split; [reflexivity|]). split; [intros _ X; destruct X; reflexivity|].
    split; [discriminate|]. eauto.
  - unfold parse_push_promise in H. open_ok H. injection H as <-.
    repeat split; try reflexivity; try (left; reflexivity); try discriminate.
  - injection H as <-. repeat split; try reflexivity; try (left; reflexivity); try discriminate.
  - unfold parse_goaway in H. open_ok H. injection H as <-.
    repeat split; try reflexivity; try (left; reflexivity); try discriminate.
  - unfold parse_window_update in H. open_ok H. injection H as <-.
    repeat split; try reflexivity; try (left; reflexivity); try discriminate.
  - unfold parse_continuation in H. open_ok H. injection H as <-.
    repeat split; try reflexivity; try (left; reflexivity); try discriminate.
Qed.

Theorem C46_unknown_type : forall m h raw t, 9 < fh_type h -> build_frame m h raw t = Throw OutOfRange.
Proof.
  intros m [len ty fl r sid] raw t H. cbn [fh_type] in H. unfold build_frame. cbn [fh_type].
  unfold T_DATA, T_HEADERS, T_PRIORITY, T_RST_STREAM, T_SETTINGS, T_PUSH_PROMISE, T_PING, T_GOAWAY, T_WINDOW_UPDATE, T_CONTINUATION.
  repeat match goal with |- (if ?a =? ?b then _ else _) = _ => destruct (N.eqb_spec a b); [lia|] end. reflexivity.
Qed.

Example C46_case :
  build_frame Strict (FH 1 10 0 0 0) [0] default_table = Throw OutOfRange /\
  build_frame Strict (FH 2 0 1 1 5) [7; 8] default_table = Ok (DataFrame (FH 2 0 1 0 5) [7; 8]).
Proof. split; reflexivity. Qed.

(* ---------------------------------------------------------------- C47 *)

(* Too short for its type: RFC 7540 sections 6.3, 6.4, 6.8, 6.9. *)
Definition too_short (type : N) (raw : bytes) : bool :=
  if type =? PRIORITY then size raw <? 5
  else if type =? RST_STREAM then size raw <? 4
  else if type =? GOAWAY then size raw <? 8
  else if type =? WINDOW_UPDATE then negb (size raw =? 4)
  else false.

Theorem C47_fixed_size_safe : forall m h raw t, wf_bytes raw ->
  In (fh_type h) [PRIORITY; RST_STREAM; GOAWAY; WINDOW_UPDATE; PING; DATA] ->
  if too_short (fh_type h) raw then build_frame m h raw t = Throw InvalidArgument
  else exists f, build_frame m h raw t = Ok f.
Proof.
  intros m [len ty fl r sid] raw t W I. cbn [fh_type] in *.
  destruct I as [<-|[<-|[<-|[<-|[<-|[<-|[]]]]]]].
  - change (too_short PRIORITY raw) with (size raw <? 5).
    change (build_frame m (FH len PRIORITY fl r sid) raw t) with (parse_priority (FH len PRIORITY fl r sid) raw).
    unfold parse_priority, priority_construct_payload. destruct (N.ltb_spec (size raw) 5) as [L|L]; [reflexivity|].
    unfold vget at 1. destruct (N.ltb_spec 0 (size raw)); [|lia]. cbn [bind].
    destruct (b2i_len 4 raw 0 ltac:(lia) W) as (x & -> & X). cbn [bind].
    unfold vget. destruct (N.ltb_spec 4 (size raw)); [|lia]. cbn [bind].
    unfold validate_priority. cbn [p_exclusive p_dependency].
    destruct raw as [|b0 raw']; [rewrite size_nil in L; lia|]. pose proof (Forall_inv W) as B0. unfold wf_byte in B0.
    cbn [N.to_nat nth]. rewrite high1_8. unfold STREAM_ID_BITS. rewrite low31.
    pose proof (mod31_lt x) as M. change (2 ^ 31) with 2147483648 in M at 2.
    assert (b0 / 128 < 2) by (apply N.div_lt_upper_bound; lia).
    destruct (N.ltb_spec 1 (b0 / 128)); [lia|]. unfold MAX_STREAM_ID.
    destruct (N.ltb_spec 0x7fffffff (x mod 2 ^ 31)); [lia|]. cbn [bind]. eauto.
  - change (too_short RST_STREAM raw) with (size raw <? 4).
    change (build_frame m (FH len RST_STREAM fl r sid) raw t) with (parse_rst_stream (FH len RST_STREAM fl r sid) raw).
    unfold parse_rst_stream. destruct (N.ltb_spec (size raw) 4) as [L|L]; [reflexivity|].
    destruct (b2i_len 4 raw 0 ltac:(lia) W) as (x & -> & X). cbn [bind]. eauto.
  - change (too_short GOAWAY raw) with (size raw <? 8).
    change (build_frame m (FH len GOAWAY fl r sid) raw t) with (parse_goaway (FH len GOAWAY fl r sid) raw).
    unfold parse_goaway, goaway_construct_payload. destruct (N.ltb_spec (size raw) 8) as [L|L]; [reflexivity|].
    destruct (b2i_len 4 raw 0 ltac:(lia) W) as (x & -> & X). cbn [bind].
    destruct (b2i_len 4 raw 4 ltac:(lia) W) as (y & -> & Y). cbn [bind]. eauto.
  - change (too_short WINDOW_UPDATE raw) with (negb (size raw =? 4)).
    change (build_frame m (FH len WINDOW_UPDATE fl r sid) raw t) with (parse_window_update (FH len WINDOW_UPDATE fl r sid) raw).
    unfold parse_window_update. destruct raw as [|b0 raw']; [reflexivity|]. cbn [bind].
    destruct (N.eqb_spec (size (b0 :: raw')) 4) as [L|L]; [|reflexivity]. cbn [negb].
    destruct (b2i_len 4 (b0 :: raw') 0 ltac:(lia) W) as (x & -> & X). cbn [bind].
    unfold validate_window_size. rewrite low31. pose proof (mod31_lt x) as M. change (2 ^ 31) with 2147483648 in M at 2.
    destruct (N.ltb_spec 0x7fffffff (x mod 2 ^ 31)); [lia|]. cbn [bind]. eauto.
  - eexists. reflexivity.
  - eexists. reflexivity.
Qed.

Example C47_case : too_short PRIORITY [1; 2; 3; 4] = true /\
  build_frame Strict (FH 4 PRIORITY 0 0 1) [1; 2; 3; 4] default_table = Throw InvalidArgument /\
  too_short GOAWAY [255; 0; 0; 1; 0; 0; 0; 2; 9] = false.
Proof. repeat split. Qed.

(* ---------------------------------------------------------------- C57 *)

(* The frame is of one of the seven classes without a header block and its
   members are within the ranges of the wire format (64-bit-safe: the C++
   types admit more only for the reserved, exclusive and id members). *)
Definition plain_in_range (f : frame) : Prop :=
  fits (frame_fh f) /\
  match f with
  | DataFrame _ _ | PingFrame _ _ => True
  | PriorityFrame _ p => p_exclusive p < 2 /\ p_dependency p < 2 ^ 31
  | RstStreamFrame _ ec => ec < 2 ^ 32
  | SettingsFrame _ m => std_map m
  | GoawayFrame _ p => g_reserved p < 2 /\ g_last_stream_id p < 2 ^ 31 /\ g_error_code p < 2 ^ 32
  | WindowUpdateFrame _ r w => r < 2 /\ w < 2 ^ 31
  | _ => False
  end.

Definition same_class (f g : frame) : Prop := class_code f = class_code g.

Lemma be_octets_inj : forall k x y, x < 256 ^ N.of_nat k -> y < 256 ^ N.of_nat k ->
  be_octets k x = be_octets k y -> x = y.
Proof.
  intros k x y X Y E. apply (f_equal be_value) in E. rewrite !be_octets_value in E.
  rewrite !N.mod_small in E by assumption. exact E.
Qed.

Lemma join_inj : forall a b c d, b < 2 ^ 31 -> d < 2 ^ 31 -> a * 2 ^ 31 + b = c * 2 ^ 31 + d -> a = c /\ b = d.
Proof.
  intros a b c d B D E. split.
  - rewrite <- (join_high a b B), E. apply join_high. exact D.
  - rewrite <- (join_low a b B), E. apply join_low. exact D.
Qed.

Lemma settings_octets_inj : forall p q, Forall param_ok p -> Forall param_ok q ->
  settings_octets p = settings_octets q -> p = q.
Proof.
  induction p as [|[k v] p IH]; intros [|[k' v'] q] P Q E; try discriminate E; [reflexivity|].
  pose proof (Forall_inv P) as [K V]. pose proof (Forall_inv Q) as [K' V']. cbn [fst snd] in *.
  unfold settings_octets in E. cbn [flat_map fst snd] in E. rewrite <- !app_assoc in E.
  apply app_split in E; [|reflexivity]. destruct E as [E1 E]. apply app_split in E; [|reflexivity]. destruct E as [E2 E].
  apply be_octets_inj in E1; try assumption. apply be_octets_inj in E2; try assumption. subst.
  f_equal. apply IH; [exact (Forall_inv_tail P)|exact (Forall_inv_tail Q)|exact E].
Qed.

Lemma fh_eqb_eq : forall a b, fh_eqb a b = true <-> a = b.
Proof.
  intros [] []. unfold fh_eqb. cbn. rewrite !andb_true_iff, !N.eqb_eq. split; [intros [[[[-> ->] ->] ->] ->]; reflexivity|].
  intros E. injection E as -> -> -> -> ->. auto.
Qed.

Lemma prio_eqb_eq : forall a b, prio_eqb a b = true <-> a = b.
Proof.
  intros [] []. unfold prio_eqb. cbn. rewrite !andb_true_iff, !N.eqb_eq. split; [intros [[-> ->] ->]; reflexivity|].
  intros E. injection E as -> -> ->. auto.
Qed.

Lemma map_eqb_eq : forall a b : settings_map,
  list_eqb (fun x y => (fst x =? fst y) && (snd x =? snd y)) a b = true <-> a = b.
Proof.
  induction a as [|[k v] a IH]; intros [|[k' v'] b]; cbn [list_eqb]; try (split; [discriminate|discriminate]).
  - split; reflexivity.
  - cbn [fst snd]. rewrite !andb_true_iff, !N.eqb_eq, IH. split; [intros [[-> ->] ->]; reflexivity|].
    intros E. injection E as -> -> ->. auto.
Qed.

Lemma plain_eqb_eq : forall f g, plain_in_range f -> frame_eqb f g = true <-> f = g.
Proof.
  intros f g [_ P]. destruct f; try contradiction; destruct g; cbn [frame_eqb];
    rewrite ?andb_true_iff, ?fh_eqb_eq, ?bytes_eqb_eq, ?prio_eqb_eq, ?map_eqb_eq, ?N.eqb_eq;
    (split; [|intros E; try discriminate E; injection E; intros; subst; auto]);
    try discriminate; try (intros [-> ->]; reflexivity); try (intros [[-> ->] ->]; reflexivity).
  destruct p, p0. cbn. intros [[[[-> ->] ->] ->] ->]. reflexivity.
Qed.

Lemma Ok_inj : forall A (a b : A), Ok a = Ok b -> a = b.
Proof. intros A a b E. injection E as ->. reflexivity. Qed.

Theorem C57_equality_is_wire_equality_partial : forall host f g,
  plain_in_range f -> plain_in_range g -> same_class f g ->
  (frame_eqb f g = true <-> serialize host f = serialize host g).
Proof.
  intros host f g F G C. rewrite plain_eqb_eq by exact F. split; [intros ->; reflexivity|].
  intros E. destruct F as [FF F], G as [GF G].
  assert (X : frame_fh f = frame_fh g /\ payload_bytes host f = payload_bytes host g).
  { assert (T : forall f, match f with GoawayFrame _ p => g_reserved p < 2 | _ => True end ->
               exists p, payload_bytes host f = Ok p).
    { intros []; cbn [payload_bytes]; eauto. intros R. rewrite goaway_payload_wire by exact R. eauto. }
    destruct (T f) as [p P]; [destruct f; tauto|]. destruct (T g) as [q Q]; [destruct g; tauto|].
    unfold serialize in E. rewrite P, Q in E |- *. cbn [bind] in E. injection E as E.
    apply app_split in E.
    - destruct E as [E1 ->]. split; [|reflexivity].
      destruct (C29_header_roundtrip host _ [] FF) as [_ A]. destruct (C29_header_roundtrip host _ [] GF) as [_ B].
      rewrite E1, B in A. injection A as ->. reflexivity.
    - pose proof (serialize_fh_size host (frame_fh f)) as A. pose proof (serialize_fh_size host (frame_fh g)) as B.
      unfold size in A, B. lia. }
  destruct X as [HH P]. clear E.
  destruct f; try contradiction; destruct g; try discriminate C; cbn [frame_fh payload_bytes] in HH, P; subst.
  - injection P as ->. reflexivity.
  - destruct p as [e d w], p0 as [e' d' w']. cbn [p_exclusive p_dependency p_weight] in *.
    apply Ok_inj in P. rewrite !net_be in P. unfold STREAM_ID_BITS in P. rewrite !low1 in P.
    apply app_split in P; [|reflexivity]. destruct P as [P W]. injection W as ->.
    rewrite !N.mod_small in P by tauto. rewrite !join31 in P by tauto.
    apply be_octets_inj in P; try (apply join_lt; tauto). apply join_inj in P; try tauto.
    destruct P as [-> ->]. reflexivity.
  - apply Ok_inj in P. rewrite !net_be in P. apply be_octets_inj in P; try assumption. subst. reflexivity.
  - apply Ok_inj in P. rewrite !settings_payload_wire in P. apply settings_octets_inj in P; [|apply F|apply G].
    subst. reflexivity.
  - injection P as ->. reflexivity.
  - rewrite !goaway_payload_wire in P by tauto. apply Ok_inj in P.
    destruct p as [r l e d], p0 as [r' l' e' d']. cbn [g_reserved g_last_stream_id g_error_code g_debug] in *.
    unfold goaway_octets in P. rewrite !(N.mod_small _ (2 ^ 31)) in P by tauto.
    apply app_split in P; [|reflexivity]. destruct P as [P1 P]. apply app_split in P; [|reflexivity].
    destruct P as [P2 ->]. apply be_octets_inj in P1; try (apply join_lt; tauto). apply join_inj in P1; try tauto.
    destruct P1 as [-> ->]. apply be_octets_inj in P2; try tauto. subst. reflexivity.
  - apply Ok_inj in P. rewrite !net_be in P. unfold window_update_get_payload, RESERVED_BITS in P.
    rewrite !low1, !low31 in P. rewrite !(N.mod_small _ (2 ^ 31)), !(N.mod_small _ 2) in P by tauto.
    rewrite !join31 in P by tauto.
    apply be_octets_inj in P; try (apply join_lt; tauto). apply join_inj in P; try tauto.
    destruct P as [-> ->]. reflexivity.
Qed.

(* HEADERS frames: equal frames with different octets (the same header sent
   with and without Huffman coding), ... *)
Theorem C57_equal_headers_differ_on_the_wire_refuted :
  ~ (forall host f g, constructed f -> constructed g -> same_class f g -> frame_eqb f g = true ->
       serialize host f = serialize host g).
Proof.
  intros H. pose (b := [HEntry WithoutIndexing (EHeader ([88], [90]))]).
  destruct (mk_headers 4 1 b ModeNone default_table [] (Prio 0 0 0)) as [f| | |] eqn:F; try discriminate F.
  destruct (mk_headers 4 1 b ModeHuffman default_table [] (Prio 0 0 0)) as [g| | |] eqn:G; try discriminate G.
  specialize (H LittleEndian f g (c_headers _ _ _ _ _ _ _ _ F) (c_headers _ _ _ _ _ _ _ _ G)).
  vm_compute in F, G. injection F as <-. injection G as <-.
  specialize (H eq_refl eq_refl). vm_compute in H. discriminate H.
Qed.

(* ... and different frames with the same octets (a weight set without the
   PRIORITY flag). *)
Theorem C57_different_headers_same_wire_refuted :
  ~ (forall host f g, constructed f -> constructed g -> same_class f g ->
       serialize host f = serialize host g -> frame_eqb f g = true).
Proof.
  intros H.
  destruct (mk_headers 4 1 [] ModeNone default_table [] (Prio 0 0 0)) as [f| | |] eqn:F; try discriminate F.
  destruct (mk_headers 4 1 [] ModeNone default_table [] (Prio 0 0 16)) as [g| | |] eqn:G; try discriminate G.
  specialize (H LittleEndian f g (c_headers _ _ _ _ _ _ _ _ F) (c_headers _ _ _ _ _ _ _ _ G)).
  vm_compute in F, G. injection F as <-. injection G as <-.
  specialize (H eq_refl eq_refl). vm_compute in H. discriminate H.
Qed.

Example C57_case :
  plain_in_range (mk_settings 0 0 [(1, 2)]) /\ plain_in_range (mk_settings 0 0 [(1, 3)]) /\
  same_class (mk_settings 0 0 [(1, 2)]) (mk_settings 0 0 [(1, 3)]) /\
  frame_eqb (mk_settings 0 0 [(1, 2)]) (mk_settings 0 0 [(1, 3)]) = false.
Proof. repeat split; repeat constructor. Qed.

Print Assumptions C29_header_wire_form.
Print Assumptions C29_header_roundtrip.
Print Assumptions C29_octets_roundtrip.
Print Assumptions C30_stream_id_leak_refuted.
Print Assumptions C30_out_of_range_fields_partial.
Print Assumptions C31_declared_length_partial.
Print Assumptions C31_declared_length_refuted.
Print Assumptions C32_data_roundtrip.
Print Assumptions C33_ping_roundtrip.
Print Assumptions C33_ping_too_long.
Print Assumptions C34_goaway_roundtrip.
Print Assumptions C34_goaway_masks_stream_id.
Print Assumptions C34_goaway_short.
Print Assumptions C35_rst_stream_roundtrip.
Print Assumptions C35_rst_stream_short.
Print Assumptions C36_priority_roundtrip.
Print Assumptions C36_priority_rejects.
Print Assumptions C36_priority_short.
Print Assumptions C37_window_update_roundtrip.
Print Assumptions C37_window_update_rejects.
Print Assumptions C37_window_update_wrong_size.
Print Assumptions C38_settings_roundtrip.
Print Assumptions C38_make_sf_payload.
Print Assumptions C39_received_last_wins_refuted.
Print Assumptions C39_make_sf_payload_last_wins_refuted.
Print Assumptions C39_received_partial.
Print Assumptions C39_make_sf_payload_partial.
Print Assumptions C40_settings_safe_refuted.
Print Assumptions C40_settings_lengths_partial.
Print Assumptions C45_byte_order_independent.
Print Assumptions C45_push_promise_construction.
Print Assumptions C46_dispatch.
Print Assumptions C46_unknown_type.
Print Assumptions C47_fixed_size_safe.
Print Assumptions C57_equality_is_wire_equality_partial.
Print Assumptions C57_equal_headers_differ_on_the_wire_refuted.
Print Assumptions C57_different_headers_same_wire_refuted.
