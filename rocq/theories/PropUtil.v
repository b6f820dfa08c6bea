(* Properties C01, C02 (mh2c/util and flags). *)
From Coq Require Import ZArith NArith List Bool Lia ZifyBool ZifyNat ZifyN.
From Verif Require Import Base Util FrameHeader SpecBits Arith UtilProofs IntSpecProofs.
Import ListNotations.
Open Scope N_scope.

(* C01: integer -> octets -> integer, for integers of k octets; the octets are
   the big-endian representation, whatever follows them. *)
Theorem C01_integral_roundtrip : forall (k : nat) x rest, (k <= 4)%nat -> x < 256 ^ N.of_nat k ->
  bytes2integral (N.of_nat k) (integral2bytes k x ++ rest) 0 = Ok x.
Proof. intros k x rest _. exact (bytes2integral_roundtrip k x rest). Qed.

Theorem C01_integral_big_endian : forall (k : nat) x, x < 256 ^ N.of_nat k ->
  length (integral2bytes k x) = k /\ is_octets (integral2bytes k x) /\
  be_value (integral2bytes k x) = x.
Proof.
  intros k x H. split; [apply integral2bytes_len|]. split.
  - apply is_octets_wf, integral2bytes_wf.
  - rewrite be_integral2bytes. apply N.mod_small. exact H.
Qed.

(* C01: octets -> integer -> octets, at any offset in any vector. *)
Theorem C01_bytes_roundtrip : forall before l after, is_octets l -> size l <= 4 ->
  bytes2integral (size l) (before ++ l ++ after) (size before) = Ok (be_value l) /\
  integral2bytes (length l) (be_value l) = l.
Proof.
  intros before l after W _. apply is_octets_wf in W. split.
  - apply bytes2integral_spec; [exact W|reflexivity].
  - apply integral2bytes_be. exact W.
Qed.

(* C01: reading outside the vector is the only way to fail. *)
Theorem C01_bytes2integral_bounds : forall k v off, k <= 4 ->
  (exists x, bytes2integral k v off = Ok x) <-> off + k <= size v.
Proof.
  intros k v off _. unfold bytes2integral, vrange.
  destruct (N.leb_spec (off + k) (size v)); cbn; split; intros; try lia; eauto.
  destruct H0 as [x H0]. discriminate.
Qed.

Example C01_case : integral2bytes 4 0x12345678 = [0x12; 0x34; 0x56; 0x78] /\
  bytes2integral 2 [9; 0xff; 0xfe; 7] 1 = Ok 0xfffe.
Proof. split; reflexivity. Qed.

(* C02: bit i of the combined flags is set iff it is set in some argument. *)
Theorem C02_flags_union : forall f fs i, is_octets (f :: fs) ->
  N.testbit (make_frame_header_flags f fs) i = true <->
  exists g, In g (f :: fs) /\ N.testbit g i = true.
Proof.
  intros f fs i W. apply is_octets_wf in W. rewrite make_flags_spec by exact W.
  apply existsb_exists.
Qed.

Theorem C02_flag_query : forall flags f,
  (f <> 0 -> (is_flag_set flags f = true <->
              forall i, N.testbit f i = true -> N.testbit flags i = true)) /\
  (f = 0 -> (is_flag_set flags f = true <-> flags = 0)).
Proof.
  intros flags f. split.
  - apply is_flag_set_spec.
  - intros ->. cbn. apply N.eqb_eq.
Qed.

(* C02: a flag passed to the constructor is reported set, a single-bit flag not
   contained in any argument is reported unset. *)
Theorem C02_flags_reported : forall f fs, is_octets (f :: fs) ->
  (forall g, In g (f :: fs) -> g <> 0 ->
     is_flag_set (make_frame_header_flags f fs) g = true) /\
  (forall i, (forall g, In g (f :: fs) -> N.testbit g i = false) ->
     is_flag_set (make_frame_header_flags f fs) (2 ^ i) = false).
Proof.
  intros f fs W. split.
  - intros g I NZ. apply (proj1 (C02_flag_query _ g) NZ). intros i T.
    apply C02_flags_union; eauto.
  - intros i H. rewrite is_flag_set_bit. apply not_true_is_false. intros T.
    apply C02_flags_union in T; [|exact W]. destruct T as (g & I & T).
    rewrite H in T by exact I. discriminate.
Qed.

Example C02_case :
  let flags := make_frame_header_flags 0x1 [0x4; 0x20] in
  flags = 0x25 /\ is_flag_set flags 0x4 = true /\ is_flag_set flags 0x8 = false /\
  is_flag_set 0 0 = true /\ is_octets [0x1; 0x4; 0x20].
Proof.
  cbv zeta. repeat split; try reflexivity.
  apply is_octets_wf. repeat constructor.
Qed.

Print Assumptions C01_integral_roundtrip.
Print Assumptions C01_integral_big_endian.
Print Assumptions C01_bytes_roundtrip.
Print Assumptions C01_bytes2integral_bounds.
Print Assumptions C02_flags_union.
Print Assumptions C02_flag_query.
Print Assumptions C02_flags_reported.
