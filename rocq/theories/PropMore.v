(* More about properties of earlier files: equality of frames with header
   blocks (C57), and general forms of refutations given there on one case. *)
From Coq Require Import String.
From Coq Require Import ZArith NArith List Bool Lia ZifyBool ZifyNat ZifyN.
From Verif Require Import Base Arith Util HeaderType DynTable HeaderEnc HeaderDec FrameHeader Frames FrameBuilder
  SpecBits SpecHpack SpecFrame UtilProofs DynTableProofs HeaderProofs HeaderProofs2 PropHeader FrameProofs BlockProofs PropFrame
  PropBlock Ssl Client SpecUnique HistoryProofs PropSsl PropClient PropHistory PropRequest.
Import ListNotations.
Local Open Scope string_scope.
Local Open Scope list_scope.
Local Open Scope N_scope.
Ltac Zify.zify_post_hook ::= Z.div_mod_to_equations.

(* ---------------------------------------------------------------- C57 *)

(* The entries of a block that a receiver reports as they were submitted: no
   header of a table is asked for as a literal. *)
Definition plain_entries (t : dyn_table) (b : header_block) : Prop :=
  Forall (sendable Lenient t) b /\ forall x h, In x b -> e_content x = EHeader h -> in_tables t h -> e_prefix x = Indexed.

(* Frames made by the three constructors with a coding mode and a table: all
   members within wire ranges, and padding or priority only together with the
   flag that puts them on the wire. *)
Inductive block_frame (host : endian) (mode : encode_mode) (t : dyn_table) : frame -> Prop :=
| bf_headers flags sid b padding e dep w f :
    flags < 2 ^ 8 -> sid < 2 ^ 31 -> size padding <= 255 -> e < 2 -> dep < 2 ^ 31 -> w < 2 ^ 8 ->
    has_padded flags = true \/ padding = [] -> has_priority flags = true \/ (e = 0 /\ dep = 0 /\ w = 0) ->
    plain_entries t b -> mk_headers flags sid b mode t padding (Prio e dep w) = Ok f -> block_frame host mode t f
| bf_push_promise flags sid b padding r promised f :
    flags < 2 ^ 8 -> sid < 2 ^ 31 -> size padding <= 255 -> r < 2 -> promised < 2 ^ 31 ->
    has_padded flags = true \/ padding = [] ->
    plain_entries t b -> mk_push_promise host flags sid (PushPromise r promised b padding) mode t = Ok f ->
    block_frame host mode t f
| bf_continuation flags sid b f : flags < 2 ^ 8 -> sid < 2 ^ 31 ->
    plain_entries t b -> mk_continuation flags sid b mode t = Ok f -> block_frame host mode t f.

Lemma received_new : forall t b b', (forall x h, In x b -> e_content x = EHeader h -> in_tables t h -> e_prefix x = Indexed) ->
  Forall2 (received t) b b' -> b' = b.
Proof.
  intros t b b' NI R. induction R as [|x y b b' Q R IH]; [reflexivity|]. f_equal.
  - inversion Q as [|q h I]; subst; [reflexivity|]. cbn [In] in NI.
    assert (K : e_prefix (HEntry q (EHeader h)) = Indexed) by (eapply NI; [left; reflexivity|reflexivity|assumption]).
    cbn [e_prefix] in K. subst q. reflexivity.
  - apply IH. intros x' h I. apply NI. right. exact I.
Qed.

Lemma small_cast : forall p : bytes, size p < 2 ^ 24 -> cast_to_fh_length (size p) = size p.
Proof. intros p L. apply u32_small. change (2 ^ 32) with 4294967296. change (2 ^ 24) with 16777216 in L. lia. Qed.

Lemma pad_some : forall (b : bool) (p : bytes), b = true \/ p = [] -> (if b then p else []) = p.
Proof. intros b p [->| ->]; [reflexivity|destruct b; reflexivity]. Qed.

Lemma block_frame_reads_back : forall host mode t f raw, block_frame host mode t f -> size (dt_entries t) < 2 ^ 30 ->
  serialize host f = Ok raw -> size raw < 9 + 2 ^ 24 -> reads_back Lenient t raw f.
Proof.
  intros host mode t f raw B T Z L.
  destruct B as [flags sid b padding e dep w f F S P E D W HP HR [N1 N2] M|flags sid b padding r promised f F S P R D HP [N1 N2] M
                |flags sid b f F S [N1 N2] M].
  - exact (C41_same_frame host Lenient t flags sid b mode padding e dep w f F S P E D W N1 T HP HR N2 M raw Z L).
  - destruct (C42_push_promise_roundtrip host Lenient t flags sid b mode padding r promised F S P R D N1 T)
      as (f' & fragment & M' & X & H). cbv zeta in H. set (payload := push_promise_octets flags r promised fragment padding) in *.
    assert (Mf : f = PushPromiseFrame payload (FH (cast_to_fh_length (size payload)) T_PUSH_PROMISE flags 0 sid) (PushPromise r promised b padding)).
    { unfold mk_push_promise in M. rewrite (push_payload_wire host flags r promised b padding mode t fragment) in M by (try assumption; lia).
      apply Ok_inj in M. symmetry. exact M. }
    rewrite M in M'. apply Ok_inj in M'. subst f'.
    assert (SP : size payload < 2 ^ 24).
    { rewrite Mf in Z. unfold serialize in Z. cbn [payload_bytes bind] in Z. apply Ok_inj in Z. rewrite <- Z in L.
      rewrite size_app, serialize_fh_size in L. lia. }
    destruct (H SP) as (Z' & b' & Rb & RB). rewrite Z in Z'. apply Ok_inj in Z'. rewrite Z'.
    rewrite (received_new t b b' N2 Rb), (pad_some _ _ HP) in RB. rewrite Mf, (small_cast _ SP). exact RB.
  - destruct (C43_continuation_roundtrip host Lenient t flags sid b mode F S N1 T) as (f' & fragment & M' & X & H).
    assert (Mf : f = ContinuationFrame fragment (FH (cast_to_fh_length (size fragment)) T_CONTINUATION flags 0 sid) b).
    { unfold mk_continuation in M. rewrite X in M. apply Ok_inj in M. symmetry. exact M. }
    rewrite M in M'. apply Ok_inj in M'. subst f'.
    assert (SP : size fragment < 2 ^ 24).
    { rewrite Mf in Z. unfold serialize in Z. cbn [payload_bytes bind] in Z. apply Ok_inj in Z. rewrite <- Z in L.
      rewrite size_app, serialize_fh_size in L. lia. }
    destruct (H SP) as (Z' & b' & Rb & RB). rewrite Z in Z'. apply Ok_inj in Z'. rewrite Z'.
    rewrite (received_new t b b' N2 Rb) in RB. rewrite Mf, (small_cast _ SP). exact RB.
Qed.

Lemma hentry_eqb_eq : forall a b, hentry_eqb a b = true <-> a = b.
Proof.
  assert (HH : forall h h', header_eqb h h' = true <-> h = h').
  { intros [n v] [n' v']. unfold header_eqb. cbn [fst snd]. rewrite andb_true_iff, !bytes_eqb_eq. split; [intros [-> ->]; reflexivity|].
    intros E. injection E as -> ->. auto. }
  assert (PP : forall p q, hprefix_eqb p q = true <-> p = q) by (intros [] []; split; intros E; try reflexivity; discriminate E).
  intros [p c] [q d]. unfold hentry_eqb. cbn [e_prefix e_content]. rewrite andb_true_iff, PP. destruct c, d; rewrite ?HH, ?N.eqb_eq;
    (split; [intros [-> X]; try discriminate X; subst; reflexivity|intros E; injection E; intros; subst; auto; discriminate E]).
Qed.

Lemma block_eqb_eq : forall a b : header_block, list_eqb hentry_eqb a b = true <-> a = b.
Proof.
  induction a as [|x a IH]; intros [|y b]; cbn [list_eqb]; try (split; discriminate); [split; reflexivity|].
  rewrite andb_true_iff, hentry_eqb_eq, IH. split; [intros [-> ->]; reflexivity|]. intros E. injection E as -> ->. auto.
Qed.

Lemma frame_eqb_refl : forall f, class_code f <> None -> frame_eqb f f = true.
Proof.
  intros f C. destruct f; cbn [frame_eqb]; rewrite ?andb_true_iff; repeat split;
    try (apply fh_eqb_eq; reflexivity); try (apply bytes_eqb_eq; reflexivity); try (apply prio_eqb_eq; reflexivity);
    try (apply map_eqb_eq; reflexivity); try (apply block_eqb_eq; reflexivity); try apply N.eqb_refl.
  exfalso. apply C. reflexivity.
Qed.

Lemma mk_headers_shape : forall flags sid b mode t padding p f, mk_headers flags sid b mode t padding p = Ok f ->
  exists enc len, f = HeadersFrame enc (FH len T_HEADERS flags 0 sid) padding p b.
Proof.
  intros flags sid b mode t padding p f M. unfold mk_headers in M.
  destruct (headers_construct_payload flags b mode t padding p) as [enc| | |]; try discriminate M. apply Ok_inj in M. eauto.
Qed.

Lemma mk_push_shape : forall host flags sid p mode t f, mk_push_promise host flags sid p mode t = Ok f ->
  exists enc len, f = PushPromiseFrame enc (FH len T_PUSH_PROMISE flags 0 sid) p.
Proof.
  intros host flags sid p mode t f M. unfold mk_push_promise in M.
  destruct (push_promise_construct_payload host flags p mode t) as [enc| | |]; try discriminate M. apply Ok_inj in M. eauto.
Qed.

Lemma mk_continuation_shape : forall flags sid b mode t f, mk_continuation flags sid b mode t = Ok f ->
  exists enc len, f = ContinuationFrame enc (FH len T_CONTINUATION flags 0 sid) b.
Proof.
  intros flags sid b mode t f M. unfold mk_continuation in M.
  destruct (encode_block b mode t) as [enc| | |]; try discriminate M. apply Ok_inj in M. eauto.
Qed.

(* HEADERS, PUSH_PROMISE and CONTINUATION frames made with the same coding mode
   and table. *)
Theorem C57_block_frames_partial : forall host mode t f g, size (dt_entries t) < 2 ^ 30 ->
  block_frame host mode t f -> block_frame host mode t g ->
  (forall raw, serialize host f = Ok raw -> size raw < 9 + 2 ^ 24) ->
  (frame_eqb f g = true <-> serialize host f = serialize host g).
Proof.
  intros host mode t f g T F G L. split.
  - intros E.
    destruct F as [flags sid b padding e dep w f _ _ _ _ _ _ _ _ _ M|flags sid b padding r promised f _ _ _ _ _ _ _ M|flags sid b f _ _ _ M];
    destruct G as [flags' sid' b' padding' e' dep' w' g _ _ _ _ _ _ _ _ _ M'|flags' sid' b' padding' r' promised' g _ _ _ _ _ _ _ M'|flags' sid' b' g _ _ _ M'];
    try (apply mk_headers_shape in M as S; destruct S as (enc & len & S));
    try (apply mk_push_shape in M as S; destruct S as (enc & len & S));
    try (apply mk_continuation_shape in M as S; destruct S as (enc & len & S));
    try (apply mk_headers_shape in M' as S'; destruct S' as (enc' & len' & S'));
    try (apply mk_push_shape in M' as S'; destruct S' as (enc' & len' & S'));
    try (apply mk_continuation_shape in M' as S'; destruct S' as (enc' & len' & S'));
    rewrite S, S' in E; cbn [frame_eqb] in E; try discriminate E;
    rewrite ?andb_true_iff, ?fh_eqb_eq, ?bytes_eqb_eq, ?prio_eqb_eq, ?block_eqb_eq, ?N.eqb_eq in E;
    cbn [pp_reserved pp_promised pp_block pp_padding] in E.
    + destruct E as [[[E1 E2] E3] E4]. injection E1 as _ <- <-. injection E2 as <- <- <-. subst b' padding'.
      rewrite M in M'. apply Ok_inj in M'. subst g. reflexivity.
    + destruct E as [[[[E1 E2] E3] E4] E5]. injection E1 as _ <- <-. subst r' promised' b' padding'.
      rewrite M in M'. apply Ok_inj in M'. subst g. reflexivity.
    + destruct E as [E1 E2]. injection E1 as _ <- <-. subst b'. rewrite M in M'. apply Ok_inj in M'. subst g. reflexivity.
  - intros E.
    assert (X : exists raw, serialize host f = Ok raw).
    { destruct F as [flags sid b padding e dep w f _ _ _ _ _ _ _ _ _ M|flags sid b padding r promised f _ _ _ _ _ _ _ M|flags sid b f _ _ _ M].
      - apply mk_headers_shape in M. destruct M as (enc & len & ->). eexists. reflexivity.
      - apply mk_push_shape in M. destruct M as (enc & len & ->). eexists. reflexivity.
      - apply mk_continuation_shape in M. destruct M as (enc & len & ->). eexists. reflexivity. }
    destruct X as (raw & X). pose proof (L raw X) as LR.
    pose proof (block_frame_reads_back host mode t f raw F T X LR) as RF. rewrite X in E. symmetry in E.
    pose proof (block_frame_reads_back host mode t g raw G T E LR) as RG.
    rewrite (reads_back_fun Lenient t raw f g RF RG). apply frame_eqb_refl.
    destruct G as [? ? ? ? ? ? ? g _ _ _ _ _ _ _ _ _ M|? ? ? ? ? ? g _ _ _ _ _ _ _ M|? ? ? g _ _ _ M].
    + apply mk_headers_shape in M. destruct M as (enc & len & ->). discriminate.
    + apply mk_push_shape in M. destruct M as (enc & len & ->). discriminate.
    + apply mk_continuation_shape in M. destruct M as (enc & len & ->). discriminate.
Qed.

Lemma octets_check : forall l, forallb (fun b => b <? 256) l = true -> is_octets l.
Proof. intros l H b I. rewrite forallb_forall in H. apply N.ltb_lt, H, I. Qed.

(* Two HEADERS frames that differ in the value of one header. *)
Example C57_block_case : exists f g,
  block_frame LittleEndian ModeHuffman default_table f /\ block_frame LittleEndian ModeHuffman default_table g /\
  frame_eqb f g = false /\ fh_length (frame_fh f) = fh_length (frame_fh g) /\ fh_length (frame_fh f) < 2 ^ 24.
Proof.
  assert (B : forall v, is_octets v -> v = octets "y" \/ v = octets "z" ->
            plain_entries default_table [HEntry WithoutIndexing (EHeader (octets "x", v)); HEntry SizeUpdate (ESize 5)]).
  { intros v O C. split.
    - constructor; [|constructor; [apply send_size; reflexivity|constructor]].
      apply (send_literal Lenient default_table Without); [apply octets_check; reflexivity|exact O|left; reflexivity].
    - intros x h [<-|[<-|[]]] E; [|discriminate E]. injection E as <-. intros I. unfold in_tables in I. destruct I as [[I _]|I]; [|destruct I].
      apply in_static in I. destruct I as (i & I). destruct C as [->| ->]; vm_compute in I; discriminate I. }
  eexists. eexists. split; [|split; [|split; [|split]]].
  - eapply (bf_headers _ _ _ 0x28 1 _ [] 0 3 7); try reflexivity; try (right; reflexivity); try (left; reflexivity).
    + discriminate.
    + apply (B (octets "y")); [apply octets_check; reflexivity|left; reflexivity].
    + vm_compute. reflexivity.
  - eapply (bf_headers _ _ _ 0x28 1 _ [] 0 3 7); try reflexivity; try (right; reflexivity); try (left; reflexivity).
    + discriminate.
    + apply (B (octets "z")); [apply octets_check; reflexivity|right; reflexivity].
    + vm_compute. reflexivity.
  - reflexivity.
  - reflexivity.
  - reflexivity.
Qed.

Lemma in_tables_encoding : forall t h p q mode, in_tables t h -> p <> SizeUpdate -> q <> SizeUpdate ->
  encode_header (HEntry p (EHeader h)) mode t = encode_header (HEntry q (EHeader h)) mode t.
Proof.
  intros t h p q mode I P Q. unfold encode_header. cbn [e_prefix get_header e_content bind].
  assert (NP : forall x, x <> SizeUpdate -> hprefix_eqb x SizeUpdate = false) by (intros [] X; try reflexivity; contradiction).
  rewrite (NP _ P), (NP _ Q).
  destruct (chosen_cases Never h t) as [(_ & i & C & _)|(NI & _)]; [|contradiction]. unfold chosen in C.
  destruct (match reverse_static_find h with
     | Some i => if 0 <? size (snd h) then Some i else None | None => None end) as [j|]; [reflexivity|].
  destruct (find_index (dt_entries t) h) as [j|]; [reflexivity|].
  destruct (reverse_static_find (fst h, [])); discriminate C.
Qed.

(* The representation asked for a header that is in a table is compared but not
   sent: frames that differ only in it have the same octets and are not equal. *)
Theorem C57_unsent_representation_refuted : forall host flags sid a h p q b mode t padding prio f, in_tables t h ->
  p <> q -> p <> SizeUpdate -> q <> SizeUpdate ->
  mk_headers flags sid (a ++ HEntry p (EHeader h) :: b) mode t padding prio = Ok f ->
  exists g, mk_headers flags sid (a ++ HEntry q (EHeader h) :: b) mode t padding prio = Ok g /\
    serialize host g = serialize host f /\ frame_eqb f g = false.
Proof.
  intros host flags sid a h p q b mode t padding prio f I D P Q M. unfold mk_headers in *. apply bind_ok in M. destruct M as (enc & E & M).
  apply Ok_inj in M. subst f.
  assert (X : encode_block (a ++ HEntry q (EHeader h) :: b) mode t = encode_block (a ++ HEntry p (EHeader h) :: b) mode t).
  { clear -I P Q. induction a as [|x a IH]; cbn [app encode_block].
    - rewrite (in_tables_encoding t h p q mode I P Q). reflexivity.
    - rewrite IH. reflexivity. }
  unfold headers_construct_payload in *. rewrite X, E. cbn [bind]. eexists. split; [reflexivity|]. split; [reflexivity|].
  cbn [frame_eqb]. destruct (list_eqb hentry_eqb (a ++ HEntry p (EHeader h) :: b) (a ++ HEntry q (EHeader h) :: b)) eqn:L;
    [|rewrite !andb_false_r; reflexivity].
  apply block_eqb_eq in L. apply app_inv_head in L. injection L as L. contradiction.
Qed.

Example C57_unsent_representation_case : exists f,
  mk_headers 4 1 ([] ++ HEntry NeverIndexed (EHeader (octets ":method", octets "GET")) :: []) ModeNone default_table [] (Prio 0 0 0) = Ok f /\
  in_tables default_table (octets ":method", octets "GET").
Proof.
  eexists. split; [vm_compute; reflexivity|]. left. split; [|discriminate]. apply in_static. exists 2. reflexivity.
Qed.

(* ---------------------------------------------------------------- C31 *)

Lemma mod_mod_24 : forall x, u32 x mod 2 ^ 24 = x mod 2 ^ 24.
Proof. intros x. unfold u32. change (2 ^ 32) with 4294967296. change (2 ^ 24) with 16777216. lia. Qed.

Lemma constructed_modulo : forall f host p, constructed f -> payload_bytes host f = Ok p ->
  fh_length (frame_fh f) mod 2 ^ 24 = size p mod 2 ^ 24.
Proof.
  intros f host p C P. destruct (N.lt_ge_cases (size p) (2 ^ 32)) as [L|L].
  { f_equal. exact (constructed_length f host p C P L). }
  change (2 ^ 32) with 4294967296 in L. destruct C.
  - injection P as <-. cbn [mk_data frame_fh fh_length]. apply mod_mod_24.
  - unfold mk_ping in H. apply bind_ok in H. destruct H as (o & O & E). injection E as <-.
    injection P as <-. unfold construct_opaque_data in O.
    destruct (N.ltb_spec 8 (size d)); [discriminate|]. exfalso. remember (8 - length d)%nat as z. injection O as <-.
    rewrite size_app in L. unfold size in *. rewrite repeat_length in L. lia.
  - cbn [payload_bytes mk_goaway] in P. unfold goaway_payload_bytes in P. apply bind_ok in P. destruct P as (r & R & P).
    injection P as <-. rewrite opt_debug in *. rewrite !size_app, !net_be, !be_octets_size in *.
    cbn [mk_goaway frame_fh fh_length]. unfold cast_to_fh_length. rewrite mod_mod_24. f_equal. lia.
  - injection P as <-. rewrite net_be, be_octets_size in L. exfalso. lia.
  - unfold mk_priority in H. apply bind_ok in H. destruct H as (o & O & E). injection E as <-.
    injection P as <-. rewrite size_app, net_be, be_octets_size in L. exfalso. apply L. reflexivity.
  - unfold mk_window_update in H. apply bind_ok in H. destruct H as (o & O & E). injection E as <-.
    injection P as <-. rewrite net_be, be_octets_size in L. exfalso. lia.
  - injection P as <-. rewrite settings_payload_wire, settings_size in *.
    cbn [mk_settings frame_fh fh_length]. unfold cast_to_fh_length. rewrite mod_mod_24. reflexivity.
  - unfold mk_headers in H. apply bind_ok in H. destruct H as (e & E & F). injection F as <-.
    injection P as <-. cbn [frame_fh fh_length]. apply mod_mod_24.
  - unfold mk_push_promise in H. apply bind_ok in H. destruct H as (e & E & F). injection F as <-.
    injection P as <-. cbn [frame_fh fh_length]. apply mod_mod_24.
  - unfold mk_continuation in H. apply bind_ok in H. destruct H as (e & E & F). injection F as <-.
    injection P as <-. cbn [frame_fh fh_length]. apply mod_mod_24.
Qed.

(* Every frame with a payload of 2^24 octets or more declares another length:
   its own modulo 2^24. *)
Theorem C31_long_payload_refuted : forall host f raw, constructed f -> serialize host f = Ok raw ->
  declared_length raw = (size raw - 9) mod 2 ^ 24 /\
  (9 + 2 ^ 24 <= size raw -> declared_length raw <> size raw - 9).
Proof.
  intros host f raw C S. unfold serialize in S. apply bind_ok in S. destruct S as (p & P & E). apply Ok_inj in E. subst raw.
  assert (H9 : length (serialize_fh host (frame_fh f)) = 9%nat).
  { pose proof (serialize_fh_size host (frame_fh f)) as Q. unfold size in Q. lia. }
  rewrite size_app, serialize_fh_size. replace (9 + size p - 9) with (size p) by lia.
  pose proof (constructed_modulo f host p C P) as F.
  assert (D : declared_length (serialize_fh host (frame_fh f) ++ p) = size p mod 2 ^ 24).
  { unfold declared_length. rewrite firstn_app, H9. change (firstn (3 - 9) p) with (@nil N). rewrite app_nil_r.
    unfold serialize_fh. rewrite !net_be, skip1_be.
    rewrite firstn_len_app by reflexivity.
    rewrite be_octets_value. exact F. }
  split; [exact D|]. intros L. rewrite D. pose proof (N.mod_lt (size p) (2 ^ 24) ltac:(discriminate)). lia.
Qed.

(* ---------------------------------------------------------------- C39 *)

(* On both paths the first value wins, for every list of parameters; so the
   value seen is wrong exactly when a later one differs. *)
Theorem C39_first_wins_refuted : forall params,
  (forall id, sm_find (make_sf_payload params) id = first_value params id) /\
  (Forall (fun p => fst p < 2 ^ 16 /\ snd p < 2 ^ 32) params -> forall m h t, fh_type h = SETTINGS ->
   exists h' map, build_frame m h (settings_octets params) t = Ok (SettingsFrame h' map) /\
     forall id, sm_find map id = first_value params id).
Proof.
  intros params. split.
  - intros id. change (make_sf_payload params) with (fold_settings params []).
    rewrite sm_find_fold by constructor. reflexivity.
  - intros P m [len ty fl r sid] t T. cbn [fh_type] in T. subst ty. cbn.
    unfold build_settings_frame. rewrite (settings_loop_spec params) by (try exact P; apply Nat.le_refl).
    cbn [bind mk_settings]. eexists. eexists. split; [reflexivity|]. intros id.
    rewrite sm_find_fold by constructor. reflexivity.
Qed.

Example C39_first_case : first_value [(3, 1); (4, 9); (3, 2)] 3 = Some 1 /\ last_value [(3, 1); (4, 9); (3, 2)] 3 = Some 2.
Proof. split; reflexivity. Qed.

(* ---------------------------------------------------------------- C44 *)

Lemma fh_length_9 : forall host h, length (serialize_fh host h) = 9%nat.
Proof. intros host h. pose proof (serialize_fh_size host h) as Q. unfold size in Q. lia. Qed.

Lemma split_last : forall (p : bytes) k, k <= size p -> exists front back, p = front ++ back /\ size back = k /\ size front = size p - k.
Proof.
  intros p k L. exists (firstn (N.to_nat (size p - k)) p), (skipn (N.to_nat (size p - k)) p).
  split; [symmetry; apply firstn_skipn|]. unfold size in *. rewrite skipn_length, firstn_length. lia.
Qed.

(* Every padding of 256 octets or more: on the wire only its last octets are
   delimited as padding, the others follow the header block as if they belonged
   to it.  No exception is thrown. *)
Theorem C44_long_padding_always_refuted : forall host flags sid b mode t padding e dep w fragment,
  has_padded flags = true -> e < 2 -> dep < 2 ^ 31 -> 256 <= size padding -> encode_block b mode t = Ok fragment ->
  exists f raw front back, mk_headers flags sid b mode t padding (Prio e dep w) = Ok f /\ serialize host f = Ok raw /\
    padding = front ++ back /\ front <> [] /\ size back = size padding mod 256 /\
    skipn 9 raw = headers_octets flags e dep w (fragment ++ front) back.
Proof.
  intros host flags sid b mode t padding e dep w fragment HP E D L X.
  destruct (split_last padding (size padding mod 256)) as (front & back & S & SB & SF); [lia|].
  assert (HC : headers_construct_payload flags b mode t padding (Prio e dep w) =
               Ok (headers_octets flags e dep w (fragment ++ front) back)).
  { unfold headers_construct_payload, headers_octets, padded_payload.
    rewrite padded_flag, priority_flag, X, HP. cbn [p_exclusive p_dependency p_weight].
    unfold shl31. destruct (N.leb_spec 2 e); [lia|]. unfold STREAM_ID_BITS.
    rewrite low31, (N.mod_small dep) by exact D. replace (u8 (size padding)) with (N.of_nat (length back)) by exact SB.
    rewrite S. destruct (has_priority flags); cbn [bind];
      rewrite ?join31 by exact D; rewrite ?be_octets_eq; cbn [app]; rewrite <- ?app_assoc; reflexivity. }
  eexists. eexists. exists front, back. unfold mk_headers. rewrite HC. cbn [bind]. split; [reflexivity|].
  split; [reflexivity|]. split; [exact S|]. split.
  - intros ->. rewrite size_nil in SF. lia.
  - split; [exact SB|]. apply skipn_len_app. apply fh_length_9.
Qed.

Theorem C44_long_padding_push_always_refuted : forall host flags sid b mode t padding r promised fragment,
  has_padded flags = true -> r < 2 -> promised < 2 ^ 31 -> 256 <= size padding -> encode_block b mode t = Ok fragment ->
  exists f raw front back, mk_push_promise host flags sid (PushPromise r promised b padding) mode t = Ok f /\
    serialize host f = Ok raw /\
    padding = front ++ back /\ front <> [] /\ size back = size padding mod 256 /\
    skipn 9 raw = push_promise_octets flags r promised (fragment ++ front) back.
Proof.
  intros host flags sid b mode t padding r promised fragment HP R D L X.
  destruct (split_last padding (size padding mod 256)) as (front & back & S & SB & SF); [lia|].
  assert (HC : push_promise_construct_payload host flags (PushPromise r promised b padding) mode t =
               Ok (push_promise_octets flags r promised (fragment ++ front) back)).
  { unfold push_promise_construct_payload, push_promise_octets, padded_payload, push_promise_contents.
    cbn [pp_reserved pp_promised pp_block pp_padding]. rewrite padded_flag, X, HP. cbn [bind].
    replace (u8 (size padding)) with (N.of_nat (length back)) by exact SB.
    unfold RESERVED_BITS, STREAM_ID_BITS. rewrite net_be, low1, low31, !N.mod_small by assumption. rewrite join31 by exact D.
    rewrite S. rewrite <- ?app_assoc. reflexivity. }
  eexists. eexists. exists front, back. unfold mk_push_promise. rewrite HC. cbn [bind]. split; [reflexivity|].
  split; [reflexivity|]. split; [exact S|]. split.
  - intros ->. rewrite size_nil in SF. lia.
  - split; [exact SB|]. apply skipn_len_app. apply fh_length_9.
Qed.

(* ---------------------------------------------------------------- C28 *)

Lemma decode_be : forall m T, decode_block m [0xbe] T =
  match dt_entries T with [] => Throw OutOfRange | old :: _ => Ok [HEntry Indexed (EHeader old)] end.
Proof.
  intros m T. assert (W : wf_bytes [0xbe]) by (repeat constructor).
  destruct (dt_entries T) as [|old es] eqn:E.
  - rewrite decode_block_step by (try exact W; discriminate).
    assert (D : decode_header m ([0xbe] ++ []) T = Throw OutOfRange).
    { destruct (C27_invalid_index_rejected_partial m [0xbe] 62 [] T) as [X _].
      - rewrite E. reflexivity.
      - intros b [].
      - discriminate.
      - apply X; [exact (short_int 7 0xbe eq_refl eq_refl)|reflexivity|]. do 2 eexists. split; [reflexivity|lia]. }
    rewrite app_nil_r in D. rewrite D. reflexivity.
  - eapply block_decodes with (changed := false); [apply (run_be m (rfc_table T) old)|split; [discriminate|exact I]|reflexivity].
    cbn [rfc_table t_entries]. rewrite E. reflexivity.
Qed.

Lemma insert_head : forall t h, field_size h <= t_max t -> nth_error (t_entries (insert t h)) 0 = Some h.
Proof.
  intros t h L. unfold insert. cbn [t_entries keep]. destruct (N.leb_spec (field_size h) (t_max t)); [reflexivity|lia].
Qed.

Lemma rfc_block_then : forall limit t a fs t1 b gs t2, rfc_block limit t a fs t1 -> rfc_block limit t1 b gs t2 ->
  rfc_block limit t (a ++ b) (fs ++ gs) t2.
Proof.
  intros limit t a fs t1 b gs t2 H. revert b gs t2. induction H; intros b gs t3 X; [exact X|]. rename IHrfc_block_in into IHB.
  rewrite <- app_assoc. replace (opt_cons o fs ++ gs) with (opt_cons o (fs ++ gs)) by (destruct o; reflexivity).
  eapply rfc_block_cons; [exact H|exact H0|]. apply IHB. exact X.
Qed.

(* Every field sent with indexing and then by reference to the entry just made,
   in the same block: the RFC reads it twice, the client reads the entry that was
   newest before the block, or rejects the block if there was none. *)
Theorem C28_late_reference_refuted : forall m limit mode T h out,
  is_octets (fst h) -> is_octets (snd h) -> m = Lenient \/ (fst h <> [] /\ snd h <> []) ->
  ~ in_tables T h -> fst h <> octets "accept-control-allow-origin" -> field_size h <= dt_max T ->
  encode_header (HEntry IncrementalIndexing (EHeader h)) mode T = Ok out ->
  size out < 2 ^ 31 -> size (dt_entries T) < 2 ^ 30 ->
  rfc_block limit (Table (dt_max T) (dt_entries T)) (out ++ [0xbe]) [h; h]
    (insert (Table (dt_max T) (dt_entries T)) h) /\
  decode_block m (out ++ [0xbe]) T =
    match dt_entries T with
    | [] => Throw OutOfRange
    | old :: _ => Ok [HEntry IncrementalIndexing (EHeader h); HEntry Indexed (EHeader old)]
    end.
Proof.
  intros m limit mode T [n v] out On Ov M NI NM F E L LT. cbn [fst snd] in *.
  assert (O : is_octets [0xbe]) by (apply octets_check; reflexivity). split.
  - change [(n, v); (n, v)] with ([(n, v)] ++ [(n, v)]).
    destruct (C58_means_header_partial Incremental (n, v) mode T On Ov (or_intror NM)) as (out' & E' & _ & X).
    cbn [lib_prefix] in E'. rewrite E in E'. apply Ok_inj in E'. subst out'. destruct (X NI limit) as [B _].
    eapply rfc_block_then; [exact B|].
    apply (one_repr _ _ _ (RIndexed 62)).
    + apply repr_indexed; [exact (short_int 7 0xbe eq_refl eq_refl)|]. do 2 eexists. split; [reflexivity|lia].
    + cbn [step_in]. replace (resolve_in rfc_static (insert (rfc_table T) (n, v)) 62) with (Some (n, v)); [reflexivity|].
      symmetry. exact (insert_head (rfc_table T) (n, v) F).
  - destruct (C18_header_roundtrip m Incremental n v mode T [0xbe] out On Ov O M E L LT) as (p & D & _ & P).
    rewrite (P NI) in D. cbn [lib_prefix] in D.
    destruct (entry_roundtrip Lenient T (HEntry IncrementalIndexing (EHeader (n, v))) mode) as (out' & E' & X).
    { apply (send_literal Lenient T Incremental); try assumption. left. reflexivity. }
    { exact LT. }
    rewrite E in E'. apply Ok_inj in E'. subst out'. destruct (X L) as (W & NE & _).
    rewrite (decode_block_cons m out [0xbe] T (HEntry IncrementalIndexing (EHeader (n, v)))).
    + rewrite decode_be. destruct (dt_entries T); reflexivity.
    + apply wf_bytes_app. split; [exact W|repeat constructor].
    + exact NE.
    + exact D.
Qed.

Example C28_late_case : forall m, exists out,
  encode_header (HEntry IncrementalIndexing (EHeader (octets "a", octets "b"))) ModeHuffman
    (DynTable [(octets "x", octets "y")] 34 4096) = Ok out /\
  decode_block m (out ++ [0xbe]) (DynTable [(octets "x", octets "y")] 34 4096) =
    Ok [HEntry IncrementalIndexing (EHeader (octets "a", octets "b")); HEntry Indexed (EHeader (octets "x", octets "y"))].
Proof. intros m. eexists. split; [vm_compute; reflexivity|destruct m; vm_compute; reflexivity]. Qed.

(* ---------------------------------------------------------------- C51 *)

Lemma refute_any : forall m limit T w fs t', rfc_server limit (rfc_table T) w fs t' -> wframe_ok w -> dt_ok T ->
  (~ reports fs (fst (handled m T w)) \/ rfc_table (snd (handled m T w)) <> t') ->
  ~ C51_step m limit (rfc_table T) w fs t'.
Proof.
  intros m limit T w fs t' S W K X C.
  pose (c := Client (Tls (wire w) [] (repeat (Chunk 0) (length (wire w)))) default_table T).
  assert (D : delivers (size (wire w)) (c_tls c)).
  { exists (repeat (Chunk 0) (length (wire w))), []. split; [symmetry; apply app_nil_r|]. split.
    - apply Forall_forall. intros e I. apply repeat_spec in I. subst. discriminate.
    - unfold size. rewrite repeat_length. lia. }
  destruct (C S W c [] K eq_refl) as (r & c' & R & RP & TE).
  { cbn. rewrite app_nil_r. reflexivity. }
  { exact D. }
  destruct (receive_complete m c w [] 0 W) as (s' & _ & _ & _ & Q).
  { cbn. rewrite app_nil_r. reflexivity. }
  { rewrite N.add_0_r. exact D. }
  rewrite Q in R. apply pair_equal_spec in R. destruct R as [<- <-]. cbn [c_resp c] in *. tauto.
Qed.

(* SETTINGS_HEADER_TABLE_SIZE with any value but the size in use, at any moment. *)
Theorem C51_settings_always_refuted : forall m limit T v, dt_ok T -> v < 2 ^ 32 -> v <> dt_max T ->
  ~ C51_step m limit (Table (dt_max T) (dt_entries T)) (WFrame SETTINGS 0 0 0 (settings_octets [(1, v)])) []
      (Table (dt_max T) (dt_entries T)).
Proof.
  intros m limit T v K V NE. change (Table (dt_max T) (dt_entries T)) with (rfc_table T).
  assert (P : Forall (fun p => fst p < 2 ^ 16 /\ snd p < 2 ^ 32) [(1, v)])
    by (constructor; [split; [reflexivity|exact V]|constructor]).
  assert (W : wframe_ok (WFrame SETTINGS 0 0 0 (settings_octets [(1, v)]))).
  { repeat split; try reflexivity. cbn [w_payload]. unfold settings_octets. cbn [flat_map fst snd]. rewrite app_nil_r.
    intros b I. apply in_app_or in I. destruct I as [I|I]; exact (wf_octets _ (be_octets_wf _ _) _ I). }
  apply refute_any; [| exact W |exact K|].
  - apply server_settings; [exact P|exact I].
  - right. unfold handled. cbn [w_payload].
    destruct (C39_first_wins_refuted [(1, v)]) as [_ H].
    destruct (H P m (header_of (WFrame SETTINGS 0 0 0 (settings_octets [(1, v)]))) T eq_refl) as (h' & map & B & F).
    pose proof (C46_dispatch _ _ _ _ _ B) as (_ & _ & TY & _). change (fh_type (header_of _)) with SETTINGS in TY.
    rewrite B. unfold update_frame. cbn [frame_fh] in TY |- *. rewrite TY.
    change (SETTINGS =? T_HEADERS) with false. change (SETTINGS =? T_PUSH_PROMISE) with false.
    change (SETTINGS =? T_CONTINUATION) with false. change (SETTINGS =? T_SETTINGS) with true. cbv iota.
    rewrite F. cbn [first_value]. change (1 =? 1) with true. cbv iota. rewrite (dt_update_spec T v K). cbn [snd].
    unfold rfc_table. cbn [dt_max]. congruence.
Qed.

Example C51_settings_case : dt_ok (DynTable [(octets "x", octets "y")] 34 4096) /\ 0 <> dt_max (DynTable [(octets "x", octets "y")] 34 4096).
Proof. split; [split; [reflexivity|discriminate]|discriminate]. Qed.

(* Any field sent with indexing and again by reference in the same block, with
   any entries in the table: the client reports another field, without an
   error. *)
Theorem C51_late_field_refuted : forall m limit mode T h old es out, dt_ok T -> dt_entries T = old :: es ->
  is_octets (fst h) -> is_octets (snd h) -> m = Lenient \/ (fst h <> [] /\ snd h <> []) ->
  ~ in_tables T h -> fst h <> octets "accept-control-allow-origin" -> field_size h <= dt_max T ->
  encode_header (HEntry IncrementalIndexing (EHeader h)) mode T = Ok out ->
  size out < 2 ^ 24 - 1 -> size (dt_entries T) < 2 ^ 30 ->
  let w := WFrame HEADERS 4 0 1 (out ++ [0xbe]) in
  (exists f, fst (handled m T w) = Ok f /\ frame_fields f = [h; old]) /\
  ~ C51_step m limit (Table (dt_max T) (dt_entries T)) w [h; h] (insert (Table (dt_max T) (dt_entries T)) h).
Proof.
  intros m limit mode T h old es out K EN On Ov M NI NM F E L LT w.
  assert (L31 : size out < 2 ^ 31) by (change (2 ^ 31) with 2147483648; change (2 ^ 24 - 1) with 16777215 in L; clear - L; lia).
  destruct (C28_late_reference_refuted m limit mode T h out On Ov M NI NM F E L31 LT) as [R D].
  rewrite EN in D.
  assert (OO : is_octets out).
  { destruct (entry_roundtrip Lenient T (HEntry IncrementalIndexing (EHeader h)) mode) as (out' & E' & X).
    { destruct h. apply (send_literal Lenient T Incremental); try assumption. left. reflexivity. }
    { exact LT. }
    rewrite E in E'. apply Ok_inj in E'. subst out'. apply wf_octets. apply (X L31). }
  assert (W : wframe_ok w).
  { unfold w. split; [reflexivity|]. split; [reflexivity|]. split; [reflexivity|]. split; [reflexivity|]. cbn [w_payload]. split.
    - intros b I. apply in_app_or in I. destruct I as [I|[<-|[]]]; [apply OO; exact I|reflexivity].
    - rewrite size_app, size_cons, size_nil. change (2 ^ 24 - 1) with 16777215 in L. change (2 ^ 24) with 16777216. clear - L; lia. }
  assert (H : exists f, fst (handled m T w) = Ok f /\ frame_fields f = [h; old]).
  { unfold handled, w, header_of. cbn [w_type w_flags w_reserved w_stream w_payload].
    unfold build_frame. cbn [fh_type]. change (HEADERS =? T_DATA) with false. change (HEADERS =? T_HEADERS) with true. cbv iota.
    unfold build_headers_frame, parse_headers.
    change (out ++ [0xbe]) with (headers_octets 4 0 0 0 (out ++ [0xbe]) []).
    rewrite (headers_parse_wire m T 4 _ 0 1 0 0 0 (out ++ [0xbe]) [] _ eq_refl eq_refl eq_refl D).
    cbn [bind]. unfold update_frame. cbn [frame_fh fh_type]. change (HEADERS =? T_HEADERS) with true. cbv iota.
    cbn [update_block update_entry e_prefix get_header e_content bind].
    rewrite (dt_push_spec T h K). rewrite entry_size_eq.
    destruct (N.leb_spec (field_size h) (dt_max T)); [|lia]. cbn [bind fst]. eexists. split; reflexivity. }
  split; [exact H|]. change (Table (dt_max T) (dt_entries T)) with (rfc_table T).
  apply refute_any; [|exact W|exact K|].
  - unfold w. change (out ++ [0xbe]) with (headers_octets 4 0 0 0 (out ++ [0xbe]) []). apply server_headers; try reflexivity. exact R.
  - left. destruct H as (f & HF & FF). rewrite HF. cbn [reports]. rewrite FF. intros X. injection X as ->.
    apply NI. right. rewrite EN. left. reflexivity.
Qed.

Print Assumptions C57_block_frames_partial.
Print Assumptions C57_unsent_representation_refuted.
Print Assumptions C31_long_payload_refuted.
Print Assumptions C39_first_wins_refuted.
Print Assumptions C44_long_padding_always_refuted.
Print Assumptions C44_long_padding_push_always_refuted.
Print Assumptions C28_late_reference_refuted.
Print Assumptions C51_settings_always_refuted.
Print Assumptions C51_late_field_refuted.
