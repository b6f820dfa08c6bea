(* More about claims the code does not satisfy (C09, C43, C57, C59, C77): for
   which inputs they fail. *)
From Coq Require Import String.
From Coq Require Import ZArith NArith List Bool Lia ZifyBool ZifyNat ZifyN Sorted.
From Verif Require Import Base Arith Util Huffman HeaderType DynTable HeaderEnc HeaderDec FrameHeader Frames FrameBuilder Dump
  Ssl Client SpecBits SpecHuffman SpecHpack SpecFrame UtilProofs HeaderProofs DynTableProofs FrameProofs BlockProofs PropHuffman
  PropFrame PropBlock PropWire PropSsl PropClient PropForward PropDump PropMore.
Import ListNotations.
Local Open Scope string_scope.
Local Open Scope list_scope.
Local Open Scope N_scope.
Ltac Zify.zify_post_hook ::= Z.div_mod_to_equations.

(* ---------------------------------------------------------------- C09 *)

(* Every string that contains the EOS symbol, anywhere and any number of times,
   is accepted; each EOS is read as the octet 0. *)
Theorem C09_huffman_eos_refuted : forall s e pad, is_octets e -> In EOS s -> (forall x, In x s -> x <= EOS) ->
  octets_bits e = flat_map rfc_code s ++ pad -> (length pad < 8)%nat ->
  (forall x, x <= EOS -> ~ is_prefix (rfc_code x) pad) ->
  exists r, huffman_decode e = Ok r /\ length r = length s /\ In 0 r.
Proof.
  intros s e pad We I B E L NP. destruct (C08_huffman_decoder_outcome e We) as (D & _).
  exists (map (fun x => x mod 256) s). split; [apply (D s pad); repeat split; assumption|].
  split; [apply map_length|]. apply in_map_iff. exists EOS. split; [reflexivity|exact I].
Qed.

Example C09_eos_case :
  octets_bits [31; 255; 255; 255; 227] = flat_map rfc_code [97; EOS; 97] /\
  huffman_decode [31; 255; 255; 255; 227] = Ok [97; 0; 97].
Proof. vm_compute. split; reflexivity. Qed.

(* ---------------------------------------------------------------- C43 *)

(* The points at which a block of this library may be cut are exactly the ends
   of its entries. *)
Theorem C43_split_points_partial : forall m t mode b raw k, Forall (sendable m t) b -> size (dt_entries t) < 2 ^ 30 ->
  encode_block b mode t = Ok raw -> size raw < 2 ^ 31 ->
  ((exists b', in_two m t (firstn k raw) (skipn k raw) b') <->
   (exists j, encode_block (firstn j b) mode t = Ok (firstn k raw))).
Proof.
  intros m t mode b raw k F T E L. split.
  - intros (b' & h & h' & b1 & b2 & TH & FH0 & _ & _ & B & _). destruct h as [len ty fl r sid]. cbn in TH, FH0. subst ty fl.
    unfold build_frame in B. cbn [fh_type] in B. change (HEADERS =? T_DATA) with false in B.
    change (HEADERS =? T_HEADERS) with true in B. cbv iota in B.
    unfold build_headers_frame, parse_headers, headers_decode_payload in B. cbn [fh_flags] in B.
    change (is_flag_set 0 F_PADDED) with false in B. change (is_flag_set 0 F_PRIORITY) with false in B. cbv iota in B. cbn [bind] in B.
    destruct (decode_block m (firstn k raw) t) as [b3| | |] eqn:D; cbn [bind] in B; try discriminate B.
    destruct (C81_own_block m t mode b raw k b3 F T E L D) as (j & J & _). exists j. exact J.
  - intros (j & J). rewrite <- (firstn_skipn j b) in F, E.
    assert (K : exists l2, encode_block (skipn j b) mode t = Ok l2 /\ raw = firstn k raw ++ l2).
    { clear F. revert E J. generalize (firstn k raw). intros l1. revert raw L l1.
      generalize (firstn j b), (skipn j b). intros x y. induction x as [|e x IH]; intros raw L l1 E J.
      - cbn in J. apply Ok_inj in J. subst l1. exists raw. split; [exact E|reflexivity].
      - cbn [app encode_block] in E, J. apply bind_ok in E. destruct E as (u & U & E). apply bind_ok in E. destruct E as (v & V & E).
        apply Ok_inj in E. rewrite U in J. cbn [bind] in J. apply bind_ok in J. destruct J as (w & W & J). apply Ok_inj in J. subst raw l1.
        rewrite size_app in L. destruct (IH v ltac:(lia) w V W) as (l2 & L2 & EV). exists l2. split; [exact L2|]. rewrite EV at 1. apply app_assoc. }
    destruct K as (l2 & K & ER). assert (S : skipn k raw = l2).
    { apply (app_inv_head (firstn k raw)). rewrite firstn_skipn. exact ER. }
    rewrite S. rewrite ER in L.
    destruct (C43_split_own_blocks_partial m t mode _ _ _ _ F T J K L) as (_ & b' & _ & I & _). exists b'. exact I.
Qed.

(* ---------------------------------------------------------------- C57 *)

(* The coding mode is not compared: whenever the two codings of a block have the
   same length and are different, two equal frames differ on the wire. *)
Theorem C57_coding_not_compared_refuted : forall host flags sid b t padding prio mode mode' enc enc',
  encode_block b mode t = Ok enc -> encode_block b mode' t = Ok enc' -> size enc = size enc' -> enc <> enc' ->
  p_exclusive prio < 2 ->
  exists f g, mk_headers flags sid b mode t padding prio = Ok f /\ mk_headers flags sid b mode' t padding prio = Ok g /\
    frame_eqb f g = true /\ serialize host f <> serialize host g.
Proof.
  intros host flags sid b t padding [e dep w] mode mode' enc enc' E E' L D X. cbn [p_exclusive] in X.
  unfold mk_headers, headers_construct_payload. rewrite E, E'. cbn [bind p_exclusive].
  assert (Q : exists q, (if is_flag_set flags F_PRIORITY
     then let* e0 := shl31 e in Ok (integral2bytes 4 (N.lor e0 (extract_low_bit STREAM_ID_BITS dep)) ++ [w]) else Ok []) = Ok q).
  { destruct (is_flag_set flags F_PRIORITY); [|eauto]. unfold shl31. destruct (N.leb_spec 2 e) as [Z|_]; [exfalso; lia|]. cbn [bind]. eauto. }
  destruct Q as (q & Q). cbn [p_dependency p_weight]. rewrite Q. cbn [bind]. eexists _, _. split; [reflexivity|]. split; [reflexivity|]. split.
  - cbn [frame_eqb]. rewrite !andb_true_iff, fh_eqb_eq, prio_eqb_eq, bytes_eqb_eq. repeat split.
    + f_equal. f_equal. rewrite !size_app, L. reflexivity.
    + apply block_eqb_eq. reflexivity.
  - unfold serialize. cbn [payload_bytes bind frame_fh]. intros S. apply Ok_inj in S.
    assert (SS : forall a z : list N, size (a ++ q ++ enc ++ z) = size (a ++ q ++ enc' ++ z)) by (intros; rewrite !size_app, L; reflexivity).
    rewrite SS in S. apply app_inv_head in S. apply app_inv_head in S. apply app_inv_head in S. apply app_inv_tail in S.
    exact (D S).
Qed.

Example C57_coding_case :
  let b := [HEntry WithoutIndexing (EHeader ([88], [90]))] in
  exists enc enc', encode_block b ModeNone default_table = Ok enc /\ encode_block b ModeHuffman default_table = Ok enc' /\
    size enc = size enc' /\ enc <> enc'.
Proof. cbv zeta. eexists _, _. split; [vm_compute; reflexivity|]. split; [vm_compute; reflexivity|]. split; [reflexivity|discriminate]. Qed.

(* Fields that the flags leave out are compared: frames that differ only in
   them have the same octets and are not equal. *)
Theorem C57_unsent_priority_refuted : forall host flags sid b mode t padding p q f, has_priority flags = false -> p <> q ->
  mk_headers flags sid b mode t padding p = Ok f ->
  exists g, mk_headers flags sid b mode t padding q = Ok g /\ serialize host g = serialize host f /\ frame_eqb f g = false.
Proof.
  intros host flags sid b mode t padding p q f NP D M. unfold mk_headers, headers_construct_payload in *.
  rewrite priority_flag, NP in *. cbn [bind] in *. destruct (encode_block b mode t) as [enc| | |]; try discriminate M. cbn [bind] in *.
  apply Ok_inj in M. subst f. eexists. split; [reflexivity|]. split; [reflexivity|].
  cbn [frame_eqb]. destruct (prio_eqb p q) eqn:E; [apply prio_eqb_eq in E; contradiction|]. rewrite andb_false_r. reflexivity.
Qed.

Theorem C57_unsent_padding_refuted : forall host flags sid b mode t padding padding' p f, has_padded flags = false -> padding <> padding' ->
  mk_headers flags sid b mode t padding p = Ok f ->
  exists g, mk_headers flags sid b mode t padding' p = Ok g /\ serialize host g = serialize host f /\ frame_eqb f g = false.
Proof.
  intros host flags sid b mode t padding padding' p f NP D M. unfold mk_headers, headers_construct_payload in *.
  rewrite padded_flag, NP in *. destruct (if is_flag_set flags F_PRIORITY then _ else _) as [x| | |] in *; try discriminate M. cbn [bind] in *.
  destruct (encode_block b mode t) as [enc| | |]; try discriminate M. cbn [bind] in *.
  apply Ok_inj in M. subst f. eexists. split; [reflexivity|]. split; [reflexivity|].
  cbn [frame_eqb]. destruct (bytes_eqb padding padding') eqn:E; [apply bytes_eqb_eq in E; contradiction|]. rewrite andb_false_r. reflexivity.
Qed.

Example C57_unsent_case : exists f g,
  mk_headers 4 1 [HEntry WithoutIndexing (EHeader ([88], [90]))] ModeNone default_table [] (Prio 0 0 0) = Ok f /\
  mk_headers 4 1 [HEntry WithoutIndexing (EHeader ([88], [90]))] ModeNone default_table [7] (Prio 0 3 16) = Ok g /\
  has_priority 4 = false /\ has_padded 4 = false /\ serialize LittleEndian f = serialize LittleEndian g /\ frame_eqb f g = false.
Proof. eexists _, _. split; [vm_compute; reflexivity|]. split; [vm_compute; reflexivity|]. repeat split. Qed.

(* ---------------------------------------------------------------- C59 *)

Lemma c_string_cut : forall a b c, put_c_string (a ++ 0 :: b) = put_c_string (a ++ 0 :: c) /\ exists x, put_c_string (a ++ 0 :: b) = Ok x.
Proof.
  intros a b c. split; [|apply c_string_ok, in_or_app; right; left; reflexivity].
  induction a as [|x a IH]; [reflexivity|]. cbn [app put_c_string]. destruct (x =? 0); [reflexivity|]. rewrite IH. reflexivity.
Qed.

(* What follows a zero octet in the debug data is not shown. *)
Theorem C59_goaway_tail_refuted : forall m hex h r last ec a b c, exists x hex',
  dump m hex (GoawayFrame h (Goaway r last ec (a ++ 0 :: b))) = Ok (x, hex') /\
  dump m hex (GoawayFrame h (Goaway r last ec (a ++ 0 :: c))) = Ok (x, hex').
Proof.
  intros m hex h r last ec a b c. destruct (c_string_cut a b c) as (E & x & X). cbn [dump g_error_code g_reserved g_last_stream_id g_debug].
  assert (Y : exists y, dump_error_code ec = Ok y).
  { destruct (error_code_ok ec) as (y & Y). eauto. }
  destruct Y as (y & ->). cbn [bind].
  assert (Z : forall d, size (a ++ 0 :: d) =? 0 = false).
  { intros d. apply N.eqb_neq. rewrite size_app. unfold size at 2. cbn [length]. lia. }
  rewrite !Z, <- E, X. cbn [bind]. eexists _, _. split; reflexivity.
Qed.

(* ---------------------------------------------------------------- C77 *)

(* The reserved bit of a SETTINGS frame is cleared. *)
Theorem C77_settings_reserved_refuted : forall host m c w rest params, wframe_ok w -> w_type w = SETTINGS -> w_reserved w = 1 ->
  w_payload w = settings_octets params -> Forall (fun p => fst p < 2 ^ 16 /\ snd p < 2 ^ 32) params -> dt_ok (c_resp c) ->
  tls_in (c_tls c) = wire w ++ rest -> delivers (size (wire w)) (c_tls c) ->
  exists f c', receive_frame m c = (Ok f, c') /\ serialize host f <> Ok (wire w).
Proof.
  intros host m c w rest params W T R1 PE PO K I D.
  assert (B : build_frame m (header_of w) (w_payload w) (c_resp c) = Ok (mk_settings (w_flags w) (w_stream w) (fold_settings params []))).
  { unfold build_frame, header_of. cbn [fh_type]. rewrite T.
    change (SETTINGS =? T_DATA) with false. change (SETTINGS =? T_HEADERS) with false. change (SETTINGS =? T_PRIORITY) with false.
    change (SETTINGS =? T_RST_STREAM) with false. change (SETTINGS =? T_SETTINGS) with true. cbv iota.
    unfold build_settings_frame. rewrite PE, settings_loop_spec by (exact PO || apply Nat.le_refl). reflexivity. }
  assert (U : fst (update_frame (c_resp c) (mk_settings (w_flags w) (w_stream w) (fold_settings params []))) = Ok tt).
  { unfold update_frame, mk_settings. cbn [frame_fh fh_type]. change (T_SETTINGS =? T_HEADERS) with false.
    change (T_SETTINGS =? T_PUSH_PROMISE) with false. change (T_SETTINGS =? T_CONTINUATION) with false.
    change (T_SETTINGS =? T_SETTINGS) with true. cbv iota. destruct (sm_find _ 1) as [n|]; [|reflexivity].
    rewrite (dt_update_spec _ n K). reflexivity. }
  destruct (received_built m c w rest _ W I D B U) as (c' & R). eexists _, c'. split; [exact R|].
  destruct W as (WT & WF & WR & WS & WO & WL). unfold serialize, mk_settings. cbn [payload_bytes bind frame_fh].
  intros S. apply Ok_inj in S. rewrite serialize_fh_wire in S by exact WS.
  unfold wire, wire_frame in S. cbn [fh_length fh_type fh_flags fh_reserved fh_stream_id] in S. unfold wire_header in S. rewrite <- !app_assoc in S.
  rewrite T, R1 in S. apply app_split in S; [|reflexivity]. destruct S as (_ & S).
  apply app_split in S; [|reflexivity]. destruct S as (_ & S).
  apply app_split in S; [|reflexivity]. destruct S as (S & _).
  apply (f_equal be_value) in S. rewrite !be_octets_value in S. change (256 ^ N.of_nat 4) with 4294967296 in S.
  change (2 ^ 31) with 2147483648 in *. rewrite !N.mod_small in S by (clear -WS; lia). clear -S. lia.
Qed.

Example C77_settings_reserved_case :
  let w := WFrame SETTINGS 0 1 0 (settings_octets [(1, 4096)]) in
  wframe_ok w /\ exists f c', receive_frame Strict (new_client (Tls (wire w) [] (repeat (Chunk 2) 60))) = (Ok f, c') /\
    serialize LittleEndian f = Ok (wire_frame SETTINGS 0 0 0 (settings_octets [(1, 4096)])).
Proof.
  cbv zeta. split.
  - unfold wframe_ok. cbn [w_type w_flags w_reserved w_stream w_payload]. repeat (split; [reflexivity|]). split; [|reflexivity].
    apply octets_check. vm_compute. reflexivity.
  - eexists _, _. split; vm_compute; reflexivity.
Qed.

Print Assumptions C09_huffman_eos_refuted.
Print Assumptions C43_split_points_partial.
Print Assumptions C57_coding_not_compared_refuted.
Print Assumptions C57_unsent_priority_refuted.
Print Assumptions C57_unsent_padding_refuted.
Print Assumptions C59_goaway_tail_refuted.
Print Assumptions C77_settings_reserved_refuted.
