From Coq Require Import ZArith NArith List Bool Sorting.Sorted Lia ZifyBool ZifyNat ZifyN.
From Verif Require Import Base Arith Util HeaderType DynTable HeaderEnc HeaderDec FrameHeader Frames FrameBuilder
  SpecBits SpecFrame UtilProofs.
Import ListNotations.
Open Scope N_scope.
Ltac Zify.zify_post_hook ::= Z.div_mod_to_equations.

Lemma be_octets_eq : forall k x, integral2bytes k x = be_octets k x.
Proof.
  induction k as [|k IH]; intros x; cbn [integral2bytes be_octets]; [reflexivity|].
  rewrite IH. unfold extract_low_bit. rewrite land_mod, N.shiftr_div_pow2, pow256. reflexivity.
Qed.

Lemma net_be : forall host k x, net_bytes host k x = be_octets k x.
Proof. intros. rewrite net_bytes_eq. apply be_octets_eq. Qed.

Lemma be_octets_size : forall k x, size (be_octets k x) = N.of_nat k.
Proof. intros. rewrite <- be_octets_eq. apply integral2bytes_size. Qed.
Lemma be_octets_wf : forall k x, wf_bytes (be_octets k x).
Proof. intros. rewrite <- be_octets_eq. apply integral2bytes_wf. Qed.
Lemma be_octets_value : forall k x, be_value (be_octets k x) = x mod 256 ^ N.of_nat k.
Proof. intros. rewrite <- be_octets_eq. apply be_integral2bytes. Qed.
Lemma be_octets_of : forall l, wf_bytes l -> be_octets (length l) (be_value l) = l.
Proof. intros. rewrite <- be_octets_eq. apply integral2bytes_be. assumption. Qed.

Lemma be_app : forall a b, be_value (a ++ b) = be_value a * 256 ^ size b + be_value b.
Proof. intros a b. unfold be_value. rewrite fold_left_app. apply be_acc. Qed.

Lemma low1 : forall x, extract_low_bit 1 x = x mod 2.
Proof. intros. unfold extract_low_bit. apply (land_mod x 1). Qed.
Lemma low31 : forall x, extract_low_bit 31 x = x mod 2 ^ 31.
Proof. intros. unfold extract_low_bit. apply (land_mod x 31). Qed.
Lemma high1_32 : forall x, extract_high_bit 1 32 x = x / 2 ^ 31.
Proof. intros. unfold extract_high_bit. rewrite N.shiftr_div_pow2. reflexivity. Qed.
Lemma high1_8 : forall x, extract_high_bit 1 8 x = x / 128.
Proof. intros. unfold extract_high_bit. rewrite N.shiftr_div_pow2. reflexivity. Qed.
Lemma high24_32 : forall x, extract_high_bit 24 32 x = x / 256.
Proof. intros. unfold extract_high_bit. rewrite N.shiftr_div_pow2. reflexivity. Qed.

Lemma join31 : forall r s, s < 2 ^ 31 -> N.lor (N.shiftl r 31) s = r * 2 ^ 31 + s.
Proof. intros r s H. rewrite N.shiftl_mul_pow2. apply lor_add. exact H. Qed.
Lemma join31' : forall r s, s < 2 ^ 31 -> N.lor s (N.shiftl r 31) = r * 2 ^ 31 + s.
Proof. intros r s H. rewrite N.lor_comm. apply join31. exact H. Qed.

Lemma mod31_lt : forall x, x mod 2 ^ 31 < 2 ^ 31.
Proof. intros. apply N.mod_lt. discriminate. Qed.

Lemma skip1_be : forall x, skipn 1 (be_octets 4 x) = be_octets 3 x.
Proof. reflexivity. Qed.

Lemma serialize_fh_wire : forall host h, fh_stream_id h < 2 ^ 31 ->
  serialize_fh host h = wire_header (fh_length h) (fh_type h) (fh_flags h) (fh_reserved h mod 2) (fh_stream_id h).
Proof.
  intros host h S. unfold serialize_fh, wire_header. rewrite !net_be, skip1_be.
  unfold RESERVED_BITS, STREAM_ID_BITS. rewrite low1, join31 by exact S. reflexivity.
Qed.

Lemma wire_header_size : forall a b c d e, size (wire_header a b c d e) = 9.
Proof. intros. unfold wire_header. rewrite !size_app, !be_octets_size. reflexivity. Qed.

Lemma serialize_fh_size : forall host h, size (serialize_fh host h) = 9.
Proof.
  intros. unfold serialize_fh. rewrite !net_be, skip1_be, !size_app, !be_octets_size. reflexivity.
Qed.

Lemma list3 : forall l : bytes, size l = 3 -> exists a b c, l = [a; b; c].
Proof.
  intros l H. destruct l as [|a [|b [|c [|]]]]; rewrite ?size_cons, ?size_nil in H; try lia. eauto.
Qed.
Lemma list4 : forall l : bytes, size l = 4 -> exists a b c d, l = [a; b; c; d].
Proof.
  intros l H. destruct l as [|a [|b [|c [|d [|]]]]]; rewrite ?size_cons, ?size_nil in H; try lia. eauto 6.
Qed.

Lemma u8_bit : forall x, x < 2 ^ 32 -> u8 (x / 2 ^ 31) = x / 2 ^ 31.
Proof. intros x H. apply u8_small. change (2 ^ 31) with 2147483648. change (2 ^ 32) with 4294967296 in H. lia. Qed.

Lemma be4_lt : forall l, wf_bytes l -> size l = 4 -> be_value l < 2 ^ 32.
Proof. intros l W S. pose proof (be_lt l W) as B. rewrite S in B. exact B. Qed.

Lemma build_fh_spec : forall l3 ty fl l4 rest, wf_bytes (l3 ++ [ty; fl] ++ l4) ->
  size l3 = 3 -> size l4 = 4 ->
  build_frame_header (l3 ++ [ty; fl] ++ l4 ++ rest) =
  Ok (FH (be_value l3) ty fl (be_value l4 / 2 ^ 31) (be_value l4 mod 2 ^ 31)).
Proof.
  intros l3 ty fl l4 rest W S3 S4. apply wf_bytes_app in W. destruct W as [W3 W].
  apply wf_bytes_app in W. destruct W as [W2 W4].
  pose proof (Forall_inv W2) as T. pose proof (Forall_inv (Forall_inv_tail W2)) as F.
  unfold build_frame_header.
  assert (A : bytes2integral 4 (l3 ++ [ty; fl] ++ l4 ++ rest) 0 = Ok (be_value l3 * 256 + ty)).
  { change (l3 ++ [ty; fl] ++ l4 ++ rest) with (l3 ++ [ty] ++ [fl] ++ l4 ++ rest).
    rewrite app_assoc. rewrite bytes2integral_0.
    - f_equal. rewrite be_app. reflexivity.
    - apply wf_bytes_app. split; [exact W3|]. constructor; [exact T|constructor].
    - rewrite size_app, S3. reflexivity. }
  rewrite A. cbn [bind].
  assert (B : bytes2integral 4 (l3 ++ [ty; fl] ++ l4 ++ rest) 5 = Ok (be_value l4)).
  { rewrite app_assoc. replace 5 with (size (l3 ++ [ty; fl])) by (rewrite size_app, S3; reflexivity).
    apply bytes2integral_spec; assumption. }
  rewrite B. cbn [bind].
  destruct (list3 l3 S3) as (a & b & c & ->).
  assert (V3 : vget ([a; b; c] ++ [ty; fl] ++ l4 ++ rest) 3 = Ok ty).
  { unfold vget. cbn [app]. rewrite !size_cons. match goal with |- context [?x <? ?y] => destruct (N.ltb_spec x y); [reflexivity|lia] end. }
  assert (V4 : vget ([a; b; c] ++ [ty; fl] ++ l4 ++ rest) 4 = Ok fl).
  { unfold vget. cbn [app]. rewrite !size_cons. match goal with |- context [?x <? ?y] => destruct (N.ltb_spec x y); [reflexivity|lia] end. }
  rewrite V3. cbn [bind]. rewrite V4. cbn [bind].
  unfold LENGTH_BITS, RESERVED_BITS, STREAM_ID_BITS.
  rewrite high24_32, high1_32, low31, u8_bit by (apply be4_lt; assumption).
  rewrite N.div_add_l, N.div_small by (try discriminate; exact T). rewrite N.add_0_r. reflexivity.
Qed.

Lemma join_lt : forall r s, r < 2 -> s < 2 ^ 31 -> r * 2 ^ 31 + s < 2 ^ 32.
Proof. intros. change (2 ^ 31) with 2147483648 in *. change (2 ^ 32) with 4294967296. lia. Qed.

Lemma join_high : forall r s, s < 2 ^ 31 -> (r * 2 ^ 31 + s) / 2 ^ 31 = r.
Proof. intros. rewrite N.div_add_l, N.div_small by (try discriminate; assumption). lia. Qed.
Lemma join_low : forall r s, s < 2 ^ 31 -> (r * 2 ^ 31 + s) mod 2 ^ 31 = s.
Proof. intros. rewrite N.add_comm, N.mod_add, N.mod_small by (try discriminate; assumption). reflexivity. Qed.

(* The header read back from a serialised one. *)
Lemma build_serialize_fh : forall h rest, fh_length h < 2 ^ 24 -> fh_type h < 256 -> fh_flags h < 256 ->
  fh_reserved h < 2 -> fh_stream_id h < 2 ^ 31 ->
  build_frame_header (wire_header (fh_length h) (fh_type h) (fh_flags h) (fh_reserved h) (fh_stream_id h) ++ rest) = Ok h.
Proof.
  intros [len ty fl r sid] rest L T F R S. cbn [fh_length fh_type fh_flags fh_reserved fh_stream_id] in *.
  unfold wire_header. rewrite <- !app_assoc. rewrite build_fh_spec.
  - rewrite !be_octets_value. change (256 ^ N.of_nat 3) with (2 ^ 24). change (256 ^ N.of_nat 4) with (2 ^ 32).
    rewrite (N.mod_small len) by exact L.
    rewrite (N.mod_small (r * 2 ^ 31 + sid)) by
      (change (2 ^ 31) with 2147483648 in *; change (2 ^ 32) with 4294967296; lia).
    rewrite join_high, join_low by exact S. reflexivity.
  - apply wf_bytes_app. split; [apply be_octets_wf|]. apply wf_bytes_app. split; [|apply be_octets_wf].
    repeat constructor; assumption.
  - apply be_octets_size.
  - apply be_octets_size.
Qed.

(* How a receiver reads a frame: 9 octets of header, then exactly as many
   octets as the header declares. *)
Definition reads_back (m : ub_mode) (t : dyn_table) (raw : bytes) (f : frame) : Prop :=
  exists head payload h, raw = head ++ payload /\ size head = 9 /\
    build_frame_header head = Ok h /\ fh_length h = size payload /\
    build_frame m h payload t = Ok f.

(* A frame of known wire form reads back through build_frame. *)
Lemma reads_back_intro : forall m t type flags r sid payload f,
  type < 256 -> flags < 256 -> r < 2 -> sid < 2 ^ 31 -> size payload < 2 ^ 24 ->
  build_frame m (FH (size payload) type flags r sid) payload t = Ok f ->
  reads_back m t (wire_frame type flags r sid payload) f.
Proof.
  intros m t type flags r sid payload f T F R S L B. unfold wire_frame.
  exists (wire_header (N.of_nat (length payload)) type flags r sid), payload, (FH (size payload) type flags r sid).
  split; [reflexivity|]. split; [apply wire_header_size|].
  split; [|split; [reflexivity|exact B]].
  pose proof (build_serialize_fh (FH (size payload) type flags r sid) [] L T F R S) as H.
  rewrite app_nil_r in H. exact H.
Qed.

(* serialize in terms of the wire form, given the payload. *)
Lemma serialize_wire : forall host f p, payload_bytes host f = Ok p ->
  fh_stream_id (frame_fh f) < 2 ^ 31 -> fh_length (frame_fh f) = size p -> fh_reserved (frame_fh f) < 2 ->
  serialize host f = Ok (wire_frame (fh_type (frame_fh f)) (fh_flags (frame_fh f)) (fh_reserved (frame_fh f))
                           (fh_stream_id (frame_fh f)) p).
Proof.
  intros host f p P S L R. unfold serialize. rewrite P. cbn [bind]. rewrite serialize_fh_wire by exact S.
  unfold wire_frame. change (N.of_nat (length p)) with (size p). rewrite L.
  rewrite N.mod_small by exact R. reflexivity.
Qed.

(* ---- fixed payloads ---- *)

Lemma split4 : forall raw : bytes, 4 <= size raw -> exists l r, raw = l ++ r /\ size l = 4.
Proof.
  intros raw H. exists (firstn 4 raw), (skipn 4 raw). split; [symmetry; apply firstn_skipn|].
  unfold size in *. rewrite firstn_length. lia.
Qed.

Lemma b2i4 : forall l r, wf_bytes l -> size l = 4 -> bytes2integral 4 (l ++ r) 0 = Ok (be_value l).
Proof. intros. apply bytes2integral_0; assumption. Qed.

Lemma mod32 : forall x, x < 2 ^ 32 -> x mod 256 ^ N.of_nat 4 = x.
Proof. intros x H. apply N.mod_small. exact H. Qed.

Lemma be4_round : forall x r, x < 2 ^ 32 -> bytes2integral 4 (be_octets 4 x ++ r) 0 = Ok x.
Proof.
  intros x r H. rewrite b2i4 by (apply be_octets_wf || apply be_octets_size).
  rewrite be_octets_value, mod32 by exact H. reflexivity.
Qed.

(* first octet of a 4-octet number *)
Lemma be4_first : forall r s, r < 2 -> s < 2 ^ 31 -> exists b tl,
  be_octets 4 (r * 2 ^ 31 + s) = b :: tl /\ b / 128 = r /\ b < 256.
Proof.
  intros r s R S. cbn [be_octets]. eexists. eexists. split; [reflexivity|].
  change (256 ^ N.of_nat 3) with 16777216. change (2 ^ 31) with 2147483648 in *.
  rewrite (N.mod_small (_ / 16777216)) by (apply N.div_lt_upper_bound; lia).
  split; [|apply N.div_lt_upper_bound; lia].
  rewrite N.div_div by discriminate. change (16777216 * 128) with 2147483648.
  rewrite N.div_add_l, N.div_small by lia. lia.
Qed.

Lemma app_split : forall A (a b c d : list A), length a = length c -> a ++ b = c ++ d -> a = c /\ b = d.
Proof.
  induction a as [|x a IH]; intros b [|y c] d L E; try discriminate; cbn in *; [auto|].
  injection L as L. injection E as -> E. destruct (IH _ _ _ L E) as [-> ->]. auto.
Qed.

(* Reading a frame is deterministic. *)
Lemma reads_back_fun : forall m t raw f g, reads_back m t raw f -> reads_back m t raw g -> f = g.
Proof.
  intros m t raw f g (hd & pl & h & E & S & B & L & F) (hd' & pl' & h' & E' & S' & B' & L' & F').
  assert (hd = hd' /\ pl = pl') as [-> ->].
  { subst raw. apply app_split.
    - unfold size in *. lia.
    - exact E'. }
  rewrite B in B'. injection B' as <-. rewrite F in F'. injection F' as <-. reflexivity.
Qed.

(* ---- bytes2integral inside its vector ---- *)
Lemma b2i_len : forall k raw b, b + k <= size raw -> wf_bytes raw -> exists x,
  bytes2integral k raw b = Ok x /\ x < 256 ^ k.
Proof.
  intros k raw b H W.
  assert (E : raw = firstn (N.to_nat b) raw ++ firstn (N.to_nat k) (skipn (N.to_nat b) raw) ++
                    skipn (N.to_nat k) (skipn (N.to_nat b) raw)).
  { rewrite !firstn_skipn. reflexivity. }
  remember (firstn (N.to_nat b) raw) as A. remember (firstn (N.to_nat k) (skipn (N.to_nat b) raw)) as B.
  assert (SA : size A = b) by (subst A; rewrite size_firstn; lia).
  assert (SB : size B = k) by (subst B; rewrite size_firstn, size_skipn; lia).
  assert (WB : wf_bytes B) by (subst B; apply wf_bytes_firstn, wf_bytes_skipn, W).
  exists (be_value B). split.
  - rewrite E. replace b with (size A) at 2. apply bytes2integral_spec; assumption.
  - rewrite <- SB. apply be_lt. exact WB.
Qed.

(* ---- settings ---- *)

Definition map_ordered (m : settings_map) : Prop := StronglySorted N.lt (map fst m).

Lemma ordered_inv : forall k v m, map_ordered ((k, v) :: m) -> map_ordered m /\ Forall (N.lt k) (map fst m).
Proof. intros k v m H. apply StronglySorted_inv in H. exact H. Qed.

Lemma sm_find_above : forall m k, Forall (N.lt k) (map fst m) -> sm_find m k = None.
Proof.
  induction m as [|[a b] m IH]; intros k H; [reflexivity|]. cbn [sm_find map fst] in *.
  pose proof (Forall_inv H). destruct (N.eqb_spec k a); [lia|]. apply IH. exact (Forall_inv_tail H).
Qed.

Lemma sm_find_insert : forall m k v k', map_ordered m ->
  sm_find (sm_insert m k v) k' = match sm_find m k' with Some x => Some x | None => if k' =? k then Some v else None end.
Proof.
  induction m as [|[a b] m IH]; intros k v k' O; cbn [sm_insert sm_find].
  - destruct (k' =? k); reflexivity.
  - apply ordered_inv in O. destruct O as [O F].
    destruct (N.ltb_spec k a) as [L|L]; [|destruct (N.eqb_spec k a) as [Q|Q]]; cbn [sm_find].
    + destruct (N.eqb_spec k' k) as [A|A].
      * subst k'. destruct (N.eqb_spec k a); [lia|]. rewrite sm_find_above; [reflexivity|].
        eapply Forall_impl; [|exact F]. intros; cbn in *; lia.
      * destruct (k' =? a); [reflexivity|]. destruct (sm_find m k'); reflexivity.
    + destruct (N.eqb_spec k' a) as [A|A]; [reflexivity|].
      destruct (sm_find m k'); [reflexivity|]. destruct (N.eqb_spec k' k); [lia|reflexivity].
    + destruct (N.eqb_spec k' a) as [A|A]; [reflexivity|]. apply IH. exact O.
Qed.

Lemma sm_insert_keys : forall m k v x, In x (map fst (sm_insert m k v)) -> x = k \/ In x (map fst m).
Proof.
  induction m as [|[a b] m IH]; intros k v x H; cbn [sm_insert] in H.
  - destruct H as [H|[]]. left. symmetry. exact H.
  - destruct (k <? a); [|destruct (k =? a)].
    + destruct H as [H|H]; [left; symmetry; exact H|right; exact H].
    + right. exact H.
    + destruct H as [H|H]; [right; left; exact H|]. destruct (IH _ _ _ H) as [->|I]; [left; reflexivity|right; right; exact I].
Qed.

Lemma sm_insert_ordered : forall m k v, map_ordered m -> map_ordered (sm_insert m k v).
Proof.
  induction m as [|[a b] m IH]; intros k v O; cbn [sm_insert].
  - repeat constructor.
  - pose proof (ordered_inv _ _ _ O) as [O' F].
    destruct (N.ltb_spec k a) as [L|L]; [|destruct (N.eqb_spec k a) as [Q|Q]].
    + constructor; [exact O|]. constructor; [exact L|]. cbn [fst].
      eapply Forall_impl; [|exact F]. intros; cbn in *; lia.
    + exact O.
    + constructor; [apply IH; exact O'|]. apply Forall_forall. intros x I.
      apply sm_insert_keys in I. destruct I as [->|I]; cbn [fst]; [lia|].
      rewrite Forall_forall in F. apply F. exact I.
Qed.

Lemma sm_insert_last : forall m k v, Forall (fun x => x < k) (map fst m) -> sm_insert m k v = m ++ [(k, v)].
Proof.
  induction m as [|[a b] m IH]; intros k v F; cbn [sm_insert app]; [reflexivity|].
  pose proof (Forall_inv F) as A. cbn in A.
  destruct (N.ltb_spec k a); [lia|]. destruct (N.eqb_spec k a); [lia|].
  rewrite IH by (exact (Forall_inv_tail F)). reflexivity.
Qed.

Definition fold_settings (l : list (N * N)) (m : settings_map) : settings_map :=
  fold_left (fun m kv => sm_insert m (fst kv) (snd kv)) l m.

Lemma fold_ordered_app : forall l m, StronglySorted N.lt (map fst (m ++ l)) -> fold_settings l m = m ++ l.
Proof.
  unfold fold_settings. induction l as [|[k v] l IH]; intros m O; cbn [fold_left].
  - rewrite app_nil_r. reflexivity.
  - cbn [fst snd]. rewrite sm_insert_last.
    + rewrite IH; rewrite <- app_assoc; [reflexivity|exact O].
    + clear IH. induction m as [|[a b] m IHm]; [constructor|]. cbn [map app fst] in *.
      apply StronglySorted_inv in O. destruct O as [O F]. constructor; [|exact (IHm O)].
      rewrite Forall_forall in F. apply F. rewrite map_app. apply in_or_app. right. left. reflexivity.
Qed.

Lemma fold_settings_ordered : forall l m, map_ordered m -> map_ordered (fold_settings l m).
Proof.
  unfold fold_settings. induction l as [|[k v] l IH]; intros m O; cbn [fold_left]; [exact O|].
  apply IH, sm_insert_ordered, O.
Qed.

(* the first value listed for k *)
Fixpoint first_value (l : list (N * N)) (k : N) : option N :=
  match l with
  | [] => None
  | (k', v) :: l' => if k' =? k then Some v else first_value l' k
  end.

Lemma sm_find_fold : forall l m k, map_ordered m ->
  sm_find (fold_settings l m) k = match sm_find m k with Some x => Some x | None => first_value l k end.
Proof.
  unfold fold_settings. induction l as [|[a b] l IH]; intros m k O; cbn [fold_left first_value].
  - destruct (sm_find m k); reflexivity.
  - rewrite IH by (apply sm_insert_ordered; exact O). rewrite sm_find_insert by exact O. cbn [fst snd].
    destruct (sm_find m k); [reflexivity|]. rewrite (N.eqb_sym k a). destruct (a =? k); reflexivity.
Qed.

Definition param_ok (p : N * N) : Prop := fst p < 2 ^ 16 /\ snd p < 2 ^ 32.

Lemma settings_loop_spec : forall ps fuel m, Forall param_ok ps -> (length (settings_octets ps) <= fuel)%nat ->
  settings_loop fuel (settings_octets ps) m = Ok (fold_settings ps m).
Proof.
  induction ps as [|[k v] ps IH]; intros fuel m P F.
  - destruct fuel; reflexivity.
  - pose proof (Forall_inv P) as [K V]. cbn [fst snd] in K, V.
    assert (E : settings_octets ((k, v) :: ps) = be_octets 2 k ++ be_octets 4 v ++ settings_octets ps).
    { unfold settings_octets. cbn [flat_map fst snd]. rewrite <- app_assoc. reflexivity. }
    rewrite E in *. destruct fuel as [|fuel].
    { rewrite app_length in F. cbn in F. lia. }
    assert (L : (length (settings_octets ps) <= fuel)%nat).
    { rewrite !app_length in F. pose proof (be_octets_size 2 k) as A. unfold size in A. lia. }
    assert (X : bytes2integral 2 (be_octets 2 k ++ be_octets 4 v ++ settings_octets ps) 0 = Ok k).
    { rewrite bytes2integral_0 by (apply be_octets_wf || apply be_octets_size).
      rewrite be_octets_value, N.mod_small by exact K. reflexivity. }
    assert (Y : bytes2integral 4 (be_octets 2 k ++ be_octets 4 v ++ settings_octets ps) 2 = Ok v).
    { replace 2 with (size (be_octets 2 k)) at 3 by (apply be_octets_size).
      rewrite bytes2integral_spec by (apply be_octets_wf || apply be_octets_size).
      rewrite be_octets_value, N.mod_small by exact V. reflexivity. }
    assert (Z : verase_front (be_octets 2 k ++ be_octets 4 v ++ settings_octets ps) 6 = Ok (settings_octets ps)).
    { rewrite app_assoc. apply verase_front_app. rewrite size_app, !be_octets_size. reflexivity. }
    remember (be_octets 2 k ++ be_octets 4 v ++ settings_octets ps) as raw.
    destruct raw as [|b raw].
    { exfalso. apply (f_equal size) in Heqraw. rewrite !size_app, !be_octets_size in Heqraw.
      rewrite size_nil in Heqraw. lia. }
    cbn [settings_loop]. rewrite X. cbn [bind]. rewrite Y. cbn [bind]. rewrite Z. cbn [bind].
    rewrite IH; [reflexivity|exact (Forall_inv_tail P)|exact L].
Qed.

Lemma settings_size : forall ps, size (settings_octets ps) = 6 * size ps.
Proof.
  induction ps as [|[k v] ps IH]; [reflexivity|].
  unfold settings_octets in *. cbn [flat_map fst snd]. rewrite !size_app, !be_octets_size, IH, size_cons. lia.
Qed.

(* every octet string whose length is a multiple of 6 is a settings payload *)
Lemma settings_of_octets : forall n raw, wf_bytes raw -> size raw = 6 * N.of_nat n ->
  exists ps, raw = settings_octets ps /\ Forall param_ok ps /\ length ps = n.
Proof.
  induction n as [|n IH]; intros raw W S.
  - exists []. split; [apply size_0; lia|split; [constructor|reflexivity]].
  - pose (a := firstn 2 raw). pose (b := firstn 4 (skipn 2 raw)). pose (c := skipn 4 (skipn 2 raw)).
    assert (E : raw = a ++ b ++ c) by (unfold a, b, c; rewrite !firstn_skipn; reflexivity).
    assert (SA : length a = 2%nat) by (unfold a; rewrite firstn_length; unfold size in S; lia).
    assert (SB : length b = 4%nat) by (unfold b; rewrite firstn_length, skipn_length; unfold size in S; lia).
    assert (SC : size c = 6 * N.of_nat n).
    { pose proof (f_equal size E) as Q. rewrite !size_app in Q. unfold size in *. lia. }
    assert (WA : wf_bytes a) by (apply wf_bytes_firstn; exact W).
    assert (WB : wf_bytes b) by (apply wf_bytes_firstn, wf_bytes_skipn; exact W).
    assert (WC : wf_bytes c) by (apply wf_bytes_skipn, wf_bytes_skipn; exact W).
    destruct (IH c WC SC) as (ps & EC & P & L).
    exists ((be_value a, be_value b) :: ps). split; [|split].
    + rewrite E, EC. unfold settings_octets. cbn [flat_map fst snd]. rewrite <- app_assoc.
      rewrite <- SA at 1. rewrite <- SB at 1. rewrite !be_octets_of by assumption. reflexivity.
    + constructor; [|exact P]. split; cbn [fst snd].
      * pose proof (be_lt a WA) as Q. unfold size in Q. rewrite SA in Q. exact Q.
      * pose proof (be_lt b WB) as Q. unfold size in Q. rewrite SB in Q. exact Q.
    + cbn [length]. rewrite L. reflexivity.
Qed.

Lemma settings_loop_tail : forall tail fuel m, 0 < size tail < 6 -> (length tail <= fuel)%nat -> wf_bytes tail ->
  exists u, settings_loop fuel tail m = UB u.
Proof.
  intros tail fuel m S F W.
  destruct tail as [|b tl] eqn:T; [rewrite size_nil in S; lia|]. rewrite <- T in *.
  destruct fuel; [subst tail; cbn in F; lia|]. 
  assert (settings_loop (Datatypes.S fuel) tail m =
     let* id := bytes2integral 2 tail 0 in
          let* value := bytes2integral 4 tail 2 in
          let* raw' := verase_front tail 6 in
          settings_loop fuel raw' (sm_insert m id value)) as -> by (rewrite T; reflexivity).
  assert (X : forall k b, (exists x, bytes2integral k tail b = Ok x) \/ exists u, bytes2integral k tail b = UB u).
  { intros k p. unfold bytes2integral, vrange. destruct (_ <=? _); cbn [bind]; eauto. }
  destruct (X 2 0) as [[x ->]|[u ->]]; cbn [bind]; [|eauto].
  destruct (X 4 2) as [[y ->]|[u ->]]; cbn [bind]; [|eauto].
  unfold verase_front. destruct (N.leb_spec 6 (size tail)); [lia|]. cbn [bind]. eauto.
Qed.

Lemma settings_loop_app_tail : forall ps tail fuel m, Forall param_ok ps -> 0 < size tail < 6 -> wf_bytes tail ->
  (length (settings_octets ps ++ tail) <= fuel)%nat ->
  exists u, settings_loop fuel (settings_octets ps ++ tail) m = UB u.
Proof.
  induction ps as [|[k v] ps IH]; intros tail fuel m P S W F.
  - apply settings_loop_tail; assumption.
  - pose proof (Forall_inv P) as [K V]. cbn [fst snd] in K, V.
    assert (E : settings_octets ((k, v) :: ps) ++ tail = be_octets 2 k ++ be_octets 4 v ++ (settings_octets ps ++ tail)).
    { unfold settings_octets. cbn [flat_map fst snd]. rewrite <- !app_assoc. reflexivity. }
    rewrite E in *. destruct fuel as [|fuel].
    { rewrite app_length in F. cbn in F. lia. }
    assert (L : (length (settings_octets ps ++ tail) <= fuel)%nat).
    { rewrite !app_length in F. rewrite app_length. pose proof (be_octets_size 2 k) as A. unfold size in A. lia. }
    remember (settings_octets ps ++ tail) as rest.
    assert (X : bytes2integral 2 (be_octets 2 k ++ be_octets 4 v ++ rest) 0 = Ok k).
    { rewrite bytes2integral_0 by (apply be_octets_wf || apply be_octets_size).
      rewrite be_octets_value, N.mod_small by exact K. reflexivity. }
    assert (Y : bytes2integral 4 (be_octets 2 k ++ be_octets 4 v ++ rest) 2 = Ok v).
    { replace 2 with (size (be_octets 2 k)) at 3 by (apply be_octets_size).
      rewrite bytes2integral_spec by (apply be_octets_wf || apply be_octets_size).
      rewrite be_octets_value, N.mod_small by exact V. reflexivity. }
    assert (Z : verase_front (be_octets 2 k ++ be_octets 4 v ++ rest) 6 = Ok rest).
    { rewrite app_assoc. apply verase_front_app. rewrite size_app, !be_octets_size. reflexivity. }
    remember (be_octets 2 k ++ be_octets 4 v ++ rest) as raw.
    destruct raw as [|b raw].
    { exfalso. apply (f_equal size) in Heqraw. rewrite !size_app, !be_octets_size in Heqraw.
      rewrite size_nil in Heqraw. lia. }
    cbn [settings_loop]. rewrite X. cbn [bind]. rewrite Y. cbn [bind]. rewrite Z. cbn [bind].
    subst rest. apply IH; try assumption. exact (Forall_inv_tail P).
Qed.

(* a map with 16-bit keys has at most 2^16 entries *)
Lemma ordered_length : forall l lo hi, StronglySorted N.lt l -> Forall (fun x => lo <= x < hi) l ->
  lo <= hi -> N.of_nat (length l) <= hi - lo.
Proof.
  induction l as [|a l IH]; intros lo hi S F LH; [cbn; lia|].
  apply StronglySorted_inv in S. destruct S as [S A]. pose proof (Forall_inv F) as B. cbn in B.
  cbn [length].
  assert (N.of_nat (length l) <= hi - (a + 1)); [|lia].
  apply IH; [exact S| |lia]. apply Forall_forall. intros x I.
  rewrite Forall_forall in A. specialize (A x I).
  pose proof (Forall_inv_tail F) as F'. rewrite Forall_forall in F'. specialize (F' x I). cbn in F'. lia.
Qed.

Lemma settings_map_size : forall m, map_ordered m -> Forall param_ok m -> size m <= 2 ^ 16.
Proof.
  intros m O P. unfold size. rewrite <- (map_length fst).
  pose proof (ordered_length (map fst m) 0 (2 ^ 16) O) as H. rewrite N.sub_0_r in H. apply H; [|lia].
  apply Forall_forall. intros x I. apply in_map_iff in I. destruct I as (p & <- & I).
  rewrite Forall_forall in P. destruct (P p I). lia.
Qed.
