(* Property C51, header blocks of one field or size update: exactly which of them
   are read as they were meant. *)
From Coq Require Import String.
From Coq Require Import ZArith NArith List Bool Lia ZifyBool ZifyNat ZifyN.
From Verif Require Import Base Arith Util StaticTable HeaderType DynTable HeaderEnc HeaderDec FrameHeader Frames FrameBuilder Ssl Client
  SpecBits SpecInt SpecHpack SpecFrame SpecUnique UtilProofs IntRepProofs DynTableProofs StaticProofs HeaderProofs HeaderProofs2 FrameProofs BlockProofs
  HistoryProofs PropHeader PropFrame PropBlock PropSsl PropClient PropHistory PropRequest PropGather PropRelay PropAccept.
Import ListNotations.
Local Open Scope string_scope.
Local Open Scope list_scope.
Local Open Scope N_scope.
Ltac Zify.zify_post_hook ::= Z.div_mod_to_equations.

(* A representation r, that adds the field o, if any, to the header list in a
   table of maximum size max, is read as it is meant. *)
Definition read_right (max : N) (r : repr) (o : option field) : Prop :=
  match r, o with
  | RIndexed i, _ => i <> 20
  | RLiteral k n v, Some h =>
      (k = Incremental -> field_size h <= max) /\
      match n with NameIndex i => i <> 20 /\ fst h <> [] | NameLiteral _ => True end
  | _, _ => True
  end.

(* Its strings are not empty, or the library's accesses are not checked (C83, C91). *)
Definition strings_readable (m : ub_mode) (r : repr) : Prop :=
  match r with
  | RLiteral _ n v => (m = Lenient \/ v <> []) /\ match n with NameLiteral s => m = Lenient \/ s <> [] | _ => True end
  | _ => True
  end.

(* What becomes of a frame whose block is decoded. *)
Lemma carried_any : forall m w x T b, carries w x -> decode_block m x T = Ok b ->
  exists f, frame_fields f = fields_of b /\
    handled m T w = ((let* _ := fst (update_block T b) in Ok f), snd (update_block T b)).
Proof.
  intros m w x T b C D. destruct (update_block T b) as [r T'] eqn:U0. cbn [fst snd].
  destruct C; unfold handled, header_of; cbn [w_type w_flags w_reserved w_stream w_payload].
  - unfold build_frame. cbn [fh_type]. change (HEADERS =? T_DATA) with false. change (HEADERS =? T_HEADERS) with true. cbv iota.
    unfold build_headers_frame, parse_headers.
    rewrite (headers_parse_wire m T flags _ 0 sid e dep wt fragment padding b) by assumption. cbn [bind].
    unfold update_frame. cbn [frame_fh fh_type]. change (HEADERS =? T_HEADERS) with true. cbv iota.
    rewrite U0. eexists. split; [|reflexivity]. reflexivity.
  - change (build_frame m (FH ?len PUSH_PROMISE flags 0 sid) ?raw T) with (parse_push_promise m (FH len PUSH_PROMISE flags 0 sid) raw T).
    unfold parse_push_promise.
    rewrite (push_parse_wire m T flags _ 0 sid r0 promised fragment padding b) by assumption. cbn [bind].
    unfold update_frame. cbn [frame_fh fh_type pp_block]. change (PUSH_PROMISE =? T_HEADERS) with false.
    change (PUSH_PROMISE =? T_PUSH_PROMISE) with true. cbv iota.
    rewrite U0. eexists. split; [|reflexivity]. reflexivity.
  - change (build_frame m (FH ?len CONTINUATION flags 0 sid) ?raw T) with (parse_continuation m (FH len CONTINUATION flags 0 sid) raw T).
    unfold parse_continuation. rewrite D. cbn [bind].
    unfold update_frame. cbn [frame_fh fh_type]. change (CONTINUATION =? T_HEADERS) with false.
    change (CONTINUATION =? T_PUSH_PROMISE) with false. change (CONTINUATION =? T_CONTINUATION) with true. cbv iota.
    rewrite U0. eexists. split; [|reflexivity]. reflexivity.
Qed.

(* A connection that holds the frame. *)
Definition holding (T : dyn_table) (w : wframe) : client :=
  Client (Tls (wire w) [] (repeat (Chunk 0) (length (wire w)))) default_table T.

Lemma holding_delivers : forall T w, delivers (size (wire w)) (c_tls (holding T w)).
Proof.
  intros T w. exists (repeat (Chunk 0) (length (wire w))), []. split; [cbn; rewrite app_nil_r; reflexivity|]. split.
  - apply Forall_forall. intros e I. apply repeat_spec in I. subst e. discriminate.
  - unfold size. rewrite repeat_length. lia.
Qed.

(* The claim for a frame that carries a block, in terms of the client's handling. *)
Lemma carried_step : forall m limit T w x fs t', carries w x -> wframe_ok w -> dt_ok T -> rfc_block limit (rfc_table T) x fs t' ->
  (C51_step m limit (rfc_table T) w fs t' <-> reports fs (fst (handled m T w)) /\ rfc_table (snd (handled m T w)) = t').
Proof.
  intros m limit T w x fs t' C W K B.
  assert (S : rfc_server limit (rfc_table T) w fs t') by (destruct C; constructor; assumption).
  split.
  - intros H. destruct (H S W (holding T w) [] K eq_refl) as (r & c' & R & RP & TE).
    { cbn. rewrite app_nil_r. reflexivity. }
    { apply holding_delivers. }
    destruct (receive_complete m (holding T w) w [] 0 W) as (s' & _ & _ & _ & Q).
    { cbn. rewrite app_nil_r. reflexivity. }
    { rewrite N.add_0_r. apply holding_delivers. }
    rewrite Q in R. apply pair_equal_spec in R. destruct R as [<- <-]. cbn [c_resp holding] in *. auto.
  - intros [RP TE] _ _ c rest Kc TC E D.
    assert (CT : c_resp c = T). { rewrite <- (of_rfc_table _ Kc), <- (of_rfc_table _ K). unfold rfc_table in TC at 1. exact (f_equal _ TC). }
    destruct (receive_complete m c w rest 0 W E) as (s' & _ & _ & _ & Q); [rewrite N.add_0_r; exact D|].
    rewrite CT in Q. eexists _, _. split; [exact Q|]. cbn [c_resp]. auto.
Qed.

(* A name index of an entry with an empty name: the value is taken for a name,
   and no octets are left for the value. *)
Lemma nameless : forall m k l i vs v t h,
  small_int (literal_prefix k) l i -> literal_pattern k l -> i <> 0 -> small_string vs v -> addressable m v ->
  resolve_in lib_static (rfc_table t) i = Some h -> fst h = [] ->
  forall x, decode_header m (l ++ vs) t <> Ok x.
Proof.
  intros m k l i vs v t h [I B] P NZ S A R E x H. pose proof (small_string_octets _ _ S) as [Ws _].
  revert H. unfold decode_header.
  destruct (literal_class k l vs P) as (b & V & C). rewrite V. cbn [bind]. rewrite C. cbn [bind].
  rewrite lib_prefix_not_update, decode_index_literal.
  rewrite (decode_int_small _ l i _ (literal_prefix_ok k) I (small_bound _ _ B)) by
    (apply wf_bytes_app; split; [eapply rfc_int_octets; apply I|assumption]).
  cbn [bind]. destruct (N.ltb_spec 0 i); [|lia]. rewrite indexed_header_spec by exact NZ. rewrite R. cbn [bind].
  rewrite lib_prefix_not_indexed, verase_front_app by reflexivity. cbn [bind]. rewrite E. change (size (@nil N) <=? 0) with true. cbv iota.
  unfold decode_header_name, decode_header_value. rewrite <- (app_nil_r vs).
  rewrite (decode_string_small m vs v [] S A) by constructor. cbn [bind]. rewrite verase_front_app by reflexivity. cbn [bind].
  change (decode_string m []) with (@UB (bytes * N) OobRead). discriminate.
Qed.

Lemma misspelt_not : forall v : list N, (octets "accept-control-allow-origin", v) <> (octets "access-control-allow-origin", v).
Proof. intros v H. apply (f_equal (fun h => nth 4 (fst h) 0)) in H. vm_compute in H. discriminate H. Qed.

Lemma one_decoded : forall m l e t, wf_bytes l -> l <> [] -> decode_header m l t = Ok (e, size l) -> decode_block m l t = Ok [e].
Proof.
  intros m l e t W NE D. rewrite <- (app_nil_r l) in W, D |- *. rewrite (app_nil_r l) in D at 2.
  rewrite (decode_block_cons m l [] t e W NE) by (rewrite app_nil_r in *; exact D). reflexivity.
Qed.

(* The library reads a block of one representation as meant, and its table is the
   encoder's afterwards, exactly when the representation does not use index 20,
   does not take its name from an entry with an empty name, and does not add a
   field larger than the table. *)
Theorem C51_single_partial : forall m limit T w p r o t', carries w p -> wframe_ok w -> dt_ok T ->
  small_repr p r -> strings_readable m r -> step limit (Table (dt_max T) (dt_entries T)) r = Some (o, t') ->
  (C51_step m limit (Table (dt_max T) (dt_entries T)) w (opt_cons o []) t' <-> read_right (dt_max T) r o).
Proof.
  intros m limit T w p r o t' C W K S SR ST. change (Table (dt_max T) (dt_entries T)) with (rfc_table T) in *.
  pose proof (small_repr_octets _ _ S) as [Wp NE].
  assert (B : rfc_block limit (rfc_table T) p (opt_cons o []) t').
  { rewrite <- (app_nil_r p). econstructor; [apply small_rfc; exact S|exact ST|constructor]. }
  rewrite (carried_step m limit T w p _ t' C W K B).
  (* a representation that is decoded to e *)
  assert (G : forall e, decode_header m p T = Ok (e, size p) ->
    exists f, frame_fields f = fields_of [e] /\
      handled m T w = ((let* _ := fst (update_block T [e]) in Ok f), snd (update_block T [e]))).
  { intros e D. apply (carried_any m w p T [e] C). apply one_decoded; assumption. }
  unfold step in ST. destruct r as [i|k n v|n]; cbn [step_in] in ST.
  - (* indexed *)
    fold resolve in ST. destruct (resolve (rfc_table T) i) as [h|] eqn:R; [|discriminate ST]. injection ST as <- <-. cbn [read_right opt_cons].
    assert (NZ : i <> 0) by (intros ->; discriminate R).
    assert (L : exists g, resolve_in lib_static (rfc_table T) i = Some g /\ (g = h <-> i <> 20)).
    { destruct (N.eq_dec i 20) as [->|N20].
      - exists (octets "accept-control-allow-origin", []). split; [vm_compute; reflexivity|].
        split; [|tauto]. intros X. exfalso. assert (Y : h = (octets "access-control-allow-origin", [])) by (vm_compute in R |- *; congruence).
        rewrite Y in X. exact (misspelt_not _ X).
      - exists h. rewrite resolve_lib_rfc by exact N20. split; [exact R|tauto]. }
    destruct L as (g & Rg & Gg).
    destruct (G (HEntry Indexed (EHeader g))) as (f & F & H).
    { pose proof (small_index_ok m p i [] T g S NZ ltac:(constructor) Rg) as D. rewrite app_nil_r in D. exact D. }
    rewrite H. cbn [update_block update_entry e_prefix]. cbn [fst snd bind reports]. rewrite F. cbn [fields_of flat_map].
    split.
    + intros [X _]. apply Gg. cbn in X. congruence.
    + intros X. apply Gg in X. subst g. split; reflexivity.
  - (* literal *)
    destruct SR as [SV SN]. destruct (name_of rfc_static (rfc_table T) n) as [nm|] eqn:Nm; [|discriminate ST]. injection ST as <- <-.
    cbn [read_right opt_cons fst].
    assert (DEC : forall nm', name_of lib_static (rfc_table T) n = Some nm' -> (forall i, n = NameIndex i -> nm' <> []) ->
      exists f, frame_fields f = [(nm', v)] /\
        handled m T w = ((let* _ := fst (update_block T [HEntry (lib_prefix k) (EHeader (nm', v))]) in Ok f),
                         snd (update_block T [HEntry (lib_prefix k) (EHeader (nm', v))]))).
    { intros nm' N' NN. destruct (G (HEntry (lib_prefix k) (EHeader (nm', v)))) as (f & F & H).
      - pose proof (small_literal_ok m p k n v [] T nm' S N' NN) as D. rewrite app_nil_r in D. apply D; [|exact SV|constructor].
        intros ->. exact SN.
      - exists f. split; [rewrite F; destruct k; reflexivity|exact H]. }
    assert (WRONG : forall nm' f, frame_fields f = [(nm', v)] -> nm' <> nm -> forall r' : res unit, ~ reports [(nm, v)] (let* _ := r' in Ok f)).
    { intros nm' f F X [u|x|u|]; cbn [bind reports]; [|discriminate|tauto|tauto]. rewrite F. congruence. }
    (* the name is the right one: what remains is the size *)
    assert (RIGHT : name_of lib_static (rfc_table T) n = Some nm -> (forall i, n = NameIndex i -> nm <> []) ->
      (reports [(nm, v)] (fst (handled m T w)) /\
       rfc_table (snd (handled m T w)) = (match k with Incremental => insert (rfc_table T) (nm, v) | _ => rfc_table T end) <->
       (k = Incremental -> field_size (nm, v) <= dt_max T))).
    { intros N' NN. destruct (DEC nm N' NN) as (f & F & ->). destruct k; cbn [lib_prefix].
      2, 3: cbn [update_block update_entry e_prefix fst snd bind reports]; rewrite F; split; [discriminate|auto].
      split.
      - intros [X _] _. destruct (N.le_gt_cases (field_size (nm, v)) (dt_max T)) as [Y|Y]; [exact Y|]. exfalso. revert X.
        cbn [update_block]. unfold update_entry. cbn [e_prefix get_header e_content bind].
        pose proof (dt_push_spec T (nm, v) K) as Q. rewrite entry_size_eq in Q.
        destruct (N.leb_spec (field_size (nm, v)) (dt_max T)) as [Z|_]; [clear - Y Z; lia|].
        destruct (dt_push T (nm, v)); try discriminate Q; cbn; tauto.
      - intros X. destruct (update_block_spec [HEntry IncrementalIndexing (EHeader (nm, v))] T K) as (T' & U & _ & R').
        { cbn [inserts_fit]. split; [apply X; reflexivity|exact I]. }
        rewrite U. cbn [fst snd bind reports]. split; [exact F|exact R']. }
    destruct n as [i|s].
    + cbn [name_of] in Nm. fold resolve in Nm. destruct (resolve (rfc_table T) i) as [h|] eqn:R; [|discriminate Nm].
      cbn [option_map] in Nm. injection Nm as <-.
      assert (NZ : i <> 0) by (intros ->; discriminate R).
      destruct (N.eq_dec i 20) as [->|N20].
      { split; [|intros (_ & X & _); destruct (X eq_refl)]. intros [X _]. exfalso.
        assert (Y : h = (octets "access-control-allow-origin", [])) by (vm_compute in R |- *; congruence).
        destruct (DEC (octets "accept-control-allow-origin")) as (f & F & H).
        - cbn [name_of]. vm_compute. reflexivity.
        - intros ? _ Z. vm_compute in Z. discriminate Z.
        - rewrite H in X. cbn [fst] in X. revert X. apply (WRONG _ f F). rewrite Y. cbn [fst]. intros Z.
          apply (misspelt_not []). rewrite Z. reflexivity. }
      assert (RL : resolve_in lib_static (rfc_table T) i = Some h) by (rewrite resolve_lib_rfc by exact N20; exact R).
      destruct (list_eq_dec N.eq_dec (fst h) []) as [E0|NE0].
      * split; [|intros (_ & _ & X); contradiction]. intros [X _]. exfalso.
        assert (BAD : forall x, decode_header m p T <> Ok x).
        { inversion S; subst. eapply nameless; eassumption. }
        destruct (carried_bad m T w p C (wf_octets _ Wp)) as [Q _].
        { intros b D. rewrite decode_block_step in D by assumption. destruct (decode_header m p T) as [x| | |] eqn:DH; try discriminate D.
          destruct (BAD x eq_refl). }
        destruct (fst (handled m T w)) as [f|x|u|]; cbn [reports] in X; try discriminate X; try contradiction. exact (Q f eq_refl).
      * rewrite RIGHT; [tauto|cbn [name_of]; rewrite RL; reflexivity|intros ? _; exact NE0].
    + cbn [name_of] in Nm. injection Nm as ->. rewrite RIGHT; [tauto|reflexivity|discriminate].
  - (* size update *)
    destruct (n <=? limit); [|discriminate ST]. injection ST as <- <-. cbn [read_right opt_cons].
    destruct (G (HEntry SizeUpdate (ESize n))) as (f & F & H).
    { inversion S; subst. pose proof (decode_resize_small m p n []) as D. rewrite app_nil_r in D. apply D; try assumption. constructor. }
    destruct (update_block_spec [HEntry SizeUpdate (ESize n)] T K I) as (T' & U & _ & R').
    rewrite H, U. cbn [fst snd bind reports]. split; [tauto|]. intros _. split; [exact F|exact R'].
Qed.

(* ":status: 200" by index and "x-a: b" with indexing are read right in every
   table that has room; a name taken from index 20 is not, whatever the table. *)
Example C51_single_case : forall m T flags sid, dt_ok T -> flags < 256 -> sid < 2 ^ 31 -> 36 <= dt_max T ->
  let t := Table (dt_max T) (dt_entries T) in
  C51_step m 4096 t (WFrame CONTINUATION flags 0 sid [0x88]) [(octets ":status", octets "200")] t /\
  C51_step m 4096 t (WFrame CONTINUATION flags 0 sid [0x40; 3; 120; 45; 97; 1; 98]) [(octets "x-a", octets "b")]
    (insert t (octets "x-a", octets "b")) /\
  ~ C51_step m 4096 t (WFrame CONTINUATION flags 0 sid [0x54; 1; 42]) [(octets "access-control-allow-origin", octets "*")]
    (insert t (octets "access-control-allow-origin", octets "*")).
Proof.
  intros m T flags sid K F I L t.
  assert (W : forall p, forallb (fun b => b <? 256) p = true -> size p < 2 ^ 24 -> wframe_ok (WFrame CONTINUATION flags 0 sid p)).
  { intros p O S. split; [reflexivity|]. split; [exact F|]. split; [reflexivity|]. split; [exact I|]. split; [|exact S].
    apply octets_checked. exact O. }
  assert (SI : forall w b, (w = 6 \/ w = 7) -> b < 256 -> b mod 2 ^ w < 2 ^ w - 1 -> small_int w [b] (b mod 2 ^ w)).
  { intros w b H B M. split.
    - split; [constructor; assumption|]. intros l' H'. destruct H'; cbn; lia.
    - destruct H as [-> | ->]; [change (2 ^ 6) with 64 in *|change (2 ^ 7) with 128 in *]; change (2 ^ 31) with 2147483648; clear - M; lia. }
  assert (ST : forall s, (length s < 100)%nat -> is_octets s -> small_string (N.of_nat (length s) :: s) s).
  { intros s LS O. change (N.of_nat (length s) :: s) with ([N.of_nat (length s)] ++ s). apply string_plain.
    - replace (N.of_nat (length s)) with (N.of_nat (length s) mod 2 ^ 7) at 2 by (apply N.mod_small; change (2 ^ 7) with 128; lia).
      apply SI; [right; reflexivity|lia|]. rewrite N.mod_small; change (2 ^ 7) with 128; lia.
    - do 2 eexists. split; [reflexivity|lia].
    - exact O. }
  split; [|split].
  - change [(octets ":status", octets "200")] with (opt_cons (Some (octets ":status", octets "200")) (@nil field)).
    apply (C51_single_partial m 4096 T _ [0x88] (RIndexed 8)); try exact K.
    + constructor.
    + apply W; reflexivity.
    + apply repr_indexed; [exact (SI 7 0x88 (or_intror eq_refl) ltac:(lia) ltac:(reflexivity))|]. do 2 eexists. split; [reflexivity|lia].
    + exact Logic.I.
    + reflexivity.
    + cbn. discriminate.
  - change [(octets "x-a", octets "b")] with (opt_cons (Some (octets "x-a", octets "b")) (@nil field)).
    apply (C51_single_partial m 4096 T _ [0x40; 3; 120; 45; 97; 1; 98] (RLiteral Incremental (NameLiteral (octets "x-a")) (octets "b"))); try exact K.
    + constructor.
    + apply W; reflexivity.
    + change [0x40; 3; 120; 45; 97; 1; 98] with ([0x40] ++ (N.of_nat (length (octets "x-a")) :: octets "x-a") ++ (N.of_nat (length (octets "b")) :: octets "b")).
      apply repr_literal_new_name.
      * exact (SI 6 0x40 (or_introl eq_refl) ltac:(lia) ltac:(reflexivity)).
      * do 2 eexists. split; [reflexivity|lia].
      * apply ST; [cbn; lia|apply octets_checked; reflexivity].
      * apply ST; [cbn; lia|apply octets_checked; reflexivity].
    + cbn. split; right; discriminate.
    + reflexivity.
    + cbn [read_right]. split; [|exact Logic.I]. intros _. exact L.
  - change [(octets "access-control-allow-origin", octets "*")] with (opt_cons (Some (octets "access-control-allow-origin", octets "*")) (@nil field)).
    intros X. apply (C51_single_partial m 4096 T _ [0x54; 1; 42] (RLiteral Incremental (NameIndex 20) (octets "*"))) in X; try exact K.
    + destruct X as (_ & X & _). apply X. reflexivity.
    + constructor.
    + apply W; reflexivity.
    + change [0x54; 1; 42] with ([0x54] ++ (N.of_nat (length (octets "*")) :: octets "*")).
      apply repr_literal_indexed_name.
      * exact (SI 6 0x54 (or_introl eq_refl) ltac:(lia) ltac:(reflexivity)).
      * do 2 eexists. split; [reflexivity|lia].
      * discriminate.
      * apply ST; [cbn; lia|apply octets_checked; reflexivity].
    + cbn. split; [right; discriminate|exact Logic.I].
    + reflexivity.
Qed.

(* ---- blocks of any length ---- *)

(* RFC 7541 reads the octets as the representations rs, whose integers are in
   shortest form and below 2^31, and they give the fields fs and the table t'. *)
Inductive meant (limit : N) : table -> list N -> list repr -> list field -> table -> Prop :=
| meant_nil : forall t, meant limit t [] [] [] t
| meant_cons : forall t l r o t1 ls rs fs t2, small_repr l r -> step limit t r = Some (o, t1) -> meant limit t1 ls rs fs t2 ->
    meant limit t (l ++ ls) (r :: rs) (opt_cons o fs) t2.

(* An index means the same field, or name, in the tables T and t, and is not 20. *)
Definition same_reference (T t : table) (r : repr) : Prop :=
  match r with
  | RIndexed i => i <> 20 /\ resolve T i = resolve t i
  | RLiteral _ (NameIndex i) _ => i <> 20 /\ option_map fst (resolve T i) = option_map fst (resolve t i)
  | _ => True
  end.

(* A field to be added is not larger than the table. *)
Definition addition_fits (max : N) (r : repr) (o : option field) : Prop :=
  match r, o with RLiteral Incremental _ _, Some h => field_size h <= max | _, _ => True end.

(* Every reference means the same in the table t of its moment and in the table T
   there was at the start of the block, and every field to be added fits. *)
Fixpoint block_right (limit : N) (T t : table) (rs : list repr) : Prop :=
  match rs with
  | [] => True
  | r :: rs' =>
      match step limit t r with
      | Some (o, t1) => same_reference T t r /\ addition_fits (t_max t) r o /\ block_right limit T t1 rs'
      | None => False
      end
  end.

(* What the library makes of representations. *)
Definition lib_entry (T : table) (r : repr) : option hentry :=
  match r with
  | RIndexed i => option_map (fun h => HEntry Indexed (EHeader h)) (resolve_in lib_static T i)
  | RLiteral k n v => option_map (fun nm => HEntry (lib_prefix k) (EHeader (nm, v))) (name_of lib_static T n)
  | RResize n => Some (HEntry SizeUpdate (ESize n))
  end.
Fixpoint lib_entries (T : table) (rs : list repr) : option header_block :=
  match rs with
  | [] => Some []
  | r :: rs' => match lib_entry T r with Some e => option_map (cons e) (lib_entries T rs') | None => None end
  end.

Lemma lib_named : forall T i h, Forall (fun h => fst h <> []) (t_entries T) -> resolve_in lib_static T i = Some h -> fst h <> [].
Proof.
  intros T i h N R. unfold resolve_in in R. rewrite lib_static_len in R. change (N.of_nat 61) with 61 in R.
  destruct (N.eqb_spec i 0); [discriminate R|]. destruct (N.leb_spec i 61).
  - rewrite <- lib_static_nth in R by lia. apply static_wf in R. intros X. rewrite X in R. cbn in R. lia.
  - rewrite Forall_forall in N. apply N. eapply nth_error_In. exact R.
Qed.

Lemma meant_octets : forall limit t raw rs fs t', meant limit t raw rs fs t' -> wf_bytes raw.
Proof.
  intros limit t raw rs fs t' H. induction H; [constructor|]. apply wf_bytes_app. split; [|exact IHmeant].
  apply (small_repr_octets _ _ H).
Qed.

Lemma meant_block : forall limit t raw rs fs t', meant limit t raw rs fs t' -> rfc_block limit t raw fs t'.
Proof. intros limit t raw rs fs t' H. induction H; [constructor|]. econstructor; [apply small_rfc; exact H|exact H0|exact IHmeant]. Qed.

Lemma decode_one : forall m T l r rest, Forall (fun h => fst h <> []) (dt_entries T) -> small_repr l r -> strings_readable m r ->
  (forall i, r = RIndexed i -> i <> 0) -> wf_bytes rest ->
  decode_header m (l ++ rest) T = match lib_entry (rfc_table T) r with Some e => Ok (e, size l) | None => Throw OutOfRange end.
Proof.
  intros m T l r rest N S SR NZ W. destruct r as [i|k n v|n]; cbn [lib_entry].
  - inversion S; subst. rewrite (decode_indexed_small m l i rest T) by assumption. specialize (NZ i eq_refl).
    destruct (N.eqb_spec i 0); [contradiction|]. destruct (resolve_in lib_static (rfc_table T) i); reflexivity.
  - destruct SR as [SV SN]. destruct (name_of lib_static (rfc_table T) n) as [nm|] eqn:Nm; cbn [option_map].
    + eapply small_literal_ok; try eassumption.
      * intros i ->. cbn [name_of] in Nm. destruct (resolve_in lib_static (rfc_table T) i) as [h|] eqn:R; [|discriminate Nm].
        cbn in Nm. injection Nm as <-. exact (lib_named (rfc_table T) _ _ N R).
      * intros ->. exact SN.
    + destruct n as [i|s]; [|discriminate Nm]. inversion S; subst. cbn [name_of] in Nm.
      assert (D := fun HI HP HZ HS => decode_literal_indexed_small m k l0 i vs v rest T HI HP HZ HS SV W).
      do 4 (specialize (D ltac:(assumption))).
      destruct (resolve_in lib_static (rfc_table T) i); [discriminate Nm|exact D].
  - inversion S; subst. apply decode_resize_small; assumption.
Qed.

Lemma decode_all : forall m limit T t raw rs fs t', Forall (fun h => fst h <> []) (dt_entries T) -> meant limit t raw rs fs t' ->
  Forall (strings_readable m) rs ->
  decode_block m raw T = match lib_entries (rfc_table T) rs with Some b => Ok b | None => Throw OutOfRange end.
Proof.
  intros m limit T t raw rs fs t' N H. induction H; intros SR; [reflexivity|].
  pose proof (Forall_inv SR) as S1. apply Forall_inv_tail in SR. specialize (IHmeant SR).
  pose proof (small_repr_octets _ _ H) as [W NE]. pose proof (meant_octets _ _ _ _ _ _ H1) as W2.
  assert (NZ : forall i, r = RIndexed i -> i <> 0).
  { intros i -> ->. unfold step in H0. cbn in H0. discriminate H0. }
  pose proof (decode_one m T l r ls N H S1 NZ W2) as D. cbn [lib_entries]. destruct (lib_entry (rfc_table T) r) as [e|].
  - rewrite (decode_block_cons m l ls T e) by (try assumption; apply wf_bytes_app; split; assumption). rewrite IHmeant.
    destruct (lib_entries (rfc_table T) rs); reflexivity.
  - rewrite decode_block_step; [|apply wf_bytes_app; split; assumption|destruct l; [contradiction|discriminate]]. rewrite D. reflexivity.
Qed.

(* The converse of update_block_spec. *)
Lemma update_fits : forall b t, dt_ok t -> fst (update_block t b) = Ok tt -> inserts_fit (dt_max t) b.
Proof.
  induction b as [|[p c] b IH]; intros t K U; [exact I|]. cbn [update_block] in U. unfold update_entry in U. cbn [e_prefix] in U.
  destruct p; try (apply IH; assumption).
  - destruct c as [h|n]; [discriminate U|]. cbn [get_max_size e_content bind] in U.
    destruct (dt_update_size t n) as [t1|x|u|] eqn:Q; try discriminate U.
    destruct (dt_update_ok t n t1 K Q) as (K1 & _ & M). cbn [inserts_fit]. rewrite <- M. apply IH; assumption.
  - destruct c as [h|n]; [|discriminate U]. cbn [get_header e_content bind] in U.
    destruct (dt_push t h) as [t1|x|u|] eqn:Q; try discriminate U.
    destruct (dt_push_ok t h t1 K Q) as (K1 & _ & L & M). cbn [inserts_fit]. rewrite entry_size_eq in L. split; [exact L|].
    rewrite <- M. apply IH; assumption.
Qed.

Lemma insert_max : forall t h, t_max (insert t h) = t_max t.
Proof. reflexivity. Qed.

Lemma lib_20 : forall T, resolve_in lib_static T 20 = Some (octets "accept-control-allow-origin", []).
Proof. reflexivity. Qed.
Lemma rfc_20 : forall T, resolve T 20 = Some (octets "access-control-allow-origin", []).
Proof. reflexivity. Qed.

(* The fields are right exactly when the references are. *)
Lemma right_entries : forall limit T t raw rs fs t', meant limit t raw rs fs t' -> block_right limit T t rs ->
  exists b, lib_entries T rs = Some b /\ fields_of b = fs /\ inserts_fit (t_max t) b /\ table_after t b = t'.
Proof.
  intros limit T t raw rs fs t' H. induction H; intros R.
  - exists []. repeat split.
  - cbn [block_right] in R. rewrite H0 in R. destruct R as (SR & AF & R). destruct (IHmeant R) as (b & L & F & IF & TA). clear IHmeant.
    unfold step in H0. destruct r as [i|k n v|n]; cbn [step_in lib_entries lib_entry] in *.
    + fold resolve in H0. destruct (resolve t i) as [h|] eqn:RS; [|discriminate H0]. injection H0 as <- <-.
      destruct SR as [N20 E]. rewrite resolve_lib_rfc by exact N20. fold resolve. rewrite E, RS. cbn [option_map]. rewrite L. cbn [option_map].
      eexists. split; [reflexivity|]. cbn [fields_of flat_map inserts_fit table_after opt_cons]. fold (fields_of b). rewrite F. auto.
    + destruct (name_of rfc_static t n) as [nm|] eqn:Nm; [|discriminate H0]. injection H0 as <- <-.
      assert (NL : name_of lib_static T n = Some nm).
      { destruct n as [i|s]; [|exact Nm]. destruct SR as [N20 E]. cbn [name_of] in *. rewrite resolve_lib_rfc by exact N20. fold resolve in *. rewrite E. exact Nm. }
      rewrite NL. cbn [option_map]. rewrite L. cbn [option_map]. eexists. split; [reflexivity|].
      destruct k; cbn [lib_prefix fields_of flat_map inserts_fit table_after opt_cons addition_fits] in *; fold (fields_of b); rewrite F; auto.
    + destruct (n <=? limit); [|discriminate H0]. injection H0 as <- <-. rewrite L. cbn [option_map]. eexists. split; [reflexivity|].
      cbn [fields_of flat_map inserts_fit table_after opt_cons]. fold (fields_of b). rewrite F. auto.
Qed.

Lemma entries_right : forall limit T t raw rs fs t', meant limit t raw rs fs t' -> forall b,
  lib_entries T rs = Some b -> fields_of b = fs -> inserts_fit (t_max t) b -> block_right limit T t rs.
Proof.
  intros limit T t raw rs fs t' H. induction H; intros b L F IF; [exact I|].
  cbn [block_right]. rewrite H0. cbn [lib_entries] in L. destruct (lib_entry T r) as [e|] eqn:LE; [|discriminate L].
  destruct (lib_entries T rs) as [b'|]; [|discriminate L]. cbn [option_map] in L. injection L as <-. specialize (IHmeant b' eq_refl).
  unfold step in H0. destruct r as [i|k n v|n]; cbn [step_in lib_entry same_reference addition_fits] in *.
  - fold resolve in H0. destruct (resolve t i) as [h|] eqn:RS; [|discriminate H0]. injection H0 as <- <-.
    destruct (resolve_in lib_static T i) as [g|] eqn:RL; [|discriminate LE]. cbn [option_map] in LE. injection LE as <-.
    cbn [fields_of flat_map opt_cons app] in F. fold (fields_of b') in F. injection F as -> F.
    assert (N20 : i <> 20).
    { intros ->. rewrite lib_20 in RL. rewrite rfc_20 in RS. apply (misspelt_not []). congruence. }
    split; [|split; [exact I|apply IHmeant; assumption]]. split; [exact N20|]. rewrite resolve_lib_rfc in RL by exact N20. exact RL.
  - destruct (name_of rfc_static t n) as [nm|] eqn:Nm; [|discriminate H0]. injection H0 as <- <-.
    destruct (name_of lib_static T n) as [nl|] eqn:NL; [|discriminate LE]. cbn [option_map] in LE. injection LE as <-.
    assert (F2 : nl = nm /\ fields_of b' = fs).
    { destruct k; cbn [lib_prefix fields_of flat_map opt_cons app] in F; fold (fields_of b') in F; injection F as -> F; auto. }
    destruct F2 as [-> F2]. split; [|split].
    + destruct n as [i|s]; [|exact I]. cbn [name_of] in *. fold resolve in Nm.
      assert (N20 : i <> 20).
      { intros ->. rewrite lib_20 in NL. rewrite rfc_20 in Nm. cbn in NL, Nm. apply (misspelt_not []). congruence. }
      split; [exact N20|]. rewrite resolve_lib_rfc in NL by exact N20. fold resolve in NL. congruence.
    + destruct k; try exact I. apply IF.
    + destruct k; apply IHmeant; try assumption; try apply IF.
  - destruct (n <=? limit); [|discriminate H0]. injection H0 as <- <-. injection LE as <-.
    cbn [fields_of flat_map opt_cons app] in F. fold (fields_of b') in F. split; [exact I|]. split; [exact I|]. apply IHmeant; [exact F|exact IF].
Qed.

(* Without a reference nothing is missing. *)
Lemma entries_exist : forall limit T t raw rs t', meant limit t raw rs [] t' -> exists b, lib_entries T rs = Some b.
Proof.
  intros limit T t raw rs t' H. remember (@nil field) as fs eqn:E. induction H; [eexists; reflexivity|].
  unfold step in H0. destruct r as [i|k n v|n]; cbn [step_in] in H0.
  - destruct (resolve_in rfc_static t i); [|discriminate H0]. injection H0 as <- <-. discriminate E.
  - destruct (name_of rfc_static t n); [|discriminate H0]. injection H0 as <- <-. discriminate E.
  - destruct (n <=? limit); [|discriminate H0]. injection H0 as <- <-. destruct (IHmeant E) as [b L]. cbn [lib_entries lib_entry].
    rewrite L. eexists. reflexivity.
Qed.

Lemma resizes_only : forall limit T t raw rs t', meant limit t raw rs [] t' -> forall b, lib_entries T rs = Some b ->
  forall e, In e b -> exists n, e = HEntry SizeUpdate (ESize n).
Proof.
  intros limit T t raw rs t' M. remember (@nil field) as fs eqn:E.
  induction M; intros b L e I; [injection L as <-; destruct I|].
  unfold step in H0. cbn [lib_entries] in L. destruct r as [i|k n v|n]; cbn [step_in] in H0.
  - destruct (resolve_in rfc_static t i); [|discriminate H0]. injection H0 as <- <-. discriminate E.
  - destruct (name_of rfc_static t n); [|discriminate H0]. injection H0 as <- <-. discriminate E.
  - destruct (n <=? limit); [|discriminate H0]. injection H0 as <- <-. cbn [lib_entry] in L.
    destruct (lib_entries T rs) as [b'|]; [|discriminate L]. injection L as <-.
    destruct I as [<-|I]; [eauto|]. exact (IHM E b' eq_refl e I).
Qed.

Lemma resizes_update : forall b t, dt_ok t -> (forall e, In e b -> exists n, e = HEntry SizeUpdate (ESize n)) -> fst (update_block t b) = Ok tt.
Proof.
  induction b as [|e b IH]; intros t K A; [reflexivity|]. destruct (A e (or_introl eq_refl)) as [n ->]. cbn [update_block].
  unfold update_entry. cbn [e_prefix get_max_size e_content bind].
  destruct (dt_update_size t n) as [t1|y|u|] eqn:Q; pose proof (dt_update_spec t n K) as S; rewrite Q in S; try discriminate S.
  apply IH; [apply (dt_update_ok t n t1 K Q)|]. intros e I. apply A. right. exact I.
Qed.

(* The same for the handling of a frame. *)
Lemma carried_exact : forall m limit T w raw rs fs t', carries w raw -> dt_ok T ->
  Forall (fun h => fst h <> []) (dt_entries T) -> Forall (strings_readable m) rs -> meant limit (rfc_table T) raw rs fs t' ->
  (reports fs (fst (handled m T w)) /\ rfc_table (snd (handled m T w)) = t' <-> block_right limit (rfc_table T) (rfc_table T) rs) /\
  (block_right limit (rfc_table T) (rfc_table T) rs -> dt_ok (snd (handled m T w))).
Proof.
  intros m limit T w raw rs fs t' C K N SR M.
  pose proof (decode_all m limit T _ _ _ _ _ N M SR) as D.
  assert (BACK : block_right limit (rfc_table T) (rfc_table T) rs ->
    (reports fs (fst (handled m T w)) /\ rfc_table (snd (handled m T w)) = t') /\ dt_ok (snd (handled m T w))).
  { intros R. destruct (right_entries _ _ _ _ _ _ _ M R) as (b & L & F & IF & TA). rewrite L in D.
    destruct (carried_any m w raw T b C D) as (f & FF & H). destruct (update_block_spec b T K IF) as (T' & U & K' & R').
    rewrite H, U. cbn [fst snd bind reports]. split; [|exact K']. split; [congruence|]. rewrite R'. exact TA. }
  split; [|intros R; apply BACK; exact R]. split; [|intros R; apply BACK; exact R].
  intros [RP _]. destruct (lib_entries (rfc_table T) rs) as [b|] eqn:L.
  + destruct (carried_any m w raw T b C D) as (f & F & H). rewrite H in RP. cbn [fst] in RP.
    destruct (fst (update_block T b)) as [[]|x|u|] eqn:U; cbn [bind reports] in RP; try contradiction.
    * apply (entries_right limit _ _ _ _ _ _ M b L); [congruence|]. apply update_fits; assumption.
    * exfalso. subst fs. rewrite (resizes_update b T K (resizes_only _ _ _ _ _ _ M b L)) in U. discriminate U.
  + exfalso. destruct (carried_bad m T w raw C (wf_octets _ (meant_octets _ _ _ _ _ _ M))) as [Q _].
    { intros b X. rewrite D in X. discriminate X. }
    destruct (fst (handled m T w)) as [f|x|u|]; cbn [reports] in RP; try contradiction.
    * exact (Q f eq_refl).
    * subst fs. destruct (entries_exist _ (rfc_table T) _ _ _ _ M) as [b X]. congruence.
Qed.

(* A header block of any length is read as meant, and the tables agree afterwards,
   exactly when every index in it means the same before and within the block, none
   is 20, and every field to be added fits the table at its moment. *)
Theorem C51_block_partial : forall m limit T w raw rs fs t', carries w raw -> wframe_ok w -> dt_ok T ->
  Forall (fun h => fst h <> []) (dt_entries T) -> Forall (strings_readable m) rs ->
  let t := Table (dt_max T) (dt_entries T) in
  meant limit t raw rs fs t' -> (C51_step m limit t w fs t' <-> block_right limit t t rs).
Proof.
  intros m limit T w raw rs fs t' C W K N SR t M. subst t. change (Table (dt_max T) (dt_entries T)) with (rfc_table T) in *.
  rewrite (carried_step m limit T w raw fs t' C W K (meant_block _ _ _ _ _ _ M)).
  apply (carried_exact m limit T w raw rs fs t' C K N SR M).
Qed.

Lemma case_int : forall w b, (w = 6 \/ w = 7) -> b < 256 -> b mod 2 ^ w < 2 ^ w - 1 -> small_int w [b] (b mod 2 ^ w).
Proof.
  intros w b H B M. split.
  - split; [constructor; assumption|]. intros l' H'. destruct H'; cbn; lia.
  - destruct H as [-> | ->]; [change (2 ^ 6) with 64 in *|change (2 ^ 7) with 128 in *]; change (2 ^ 31) with 2147483648; clear - M; lia.
Qed.

Lemma case_string : forall x, x < 256 -> small_string [1; x] [x].
Proof.
  intros x X. change [1; x] with ([1] ++ [x]). apply string_plain.
  - exact (case_int 7 1 (or_intror eq_refl) ltac:(lia) ltac:(reflexivity)).
  - do 2 eexists. split; [reflexivity|lia].
  - intros y [<-|[]]. exact X.
Qed.

(* "a: b" with indexing and then index 62: read right if the newest entry before
   the block was "a: b" too, and not if it was another. *)
Example C51_block_case : forall m old flags sid, flags < 256 -> sid < 2 ^ 31 -> fst old <> [] -> field_size old <= 1000 ->
  let ab := (octets "a", octets "b") in
  let t := Table 4096 [old] in
  C51_step m 4096 t (WFrame CONTINUATION flags 0 sid [0x40; 1; 97; 1; 98; 0xbe]) [ab; ab] (Table 4096 [ab; old]) <-> old = ab.
Proof.
  intros m old flags sid F I NO L ab t.
  set (rs := [RLiteral Incremental (NameLiteral [97]) [98]; RIndexed 62]).
  assert (INS : insert t ab = Table 4096 [ab; old]).
  { change (insert t ab) with (Table 4096 (ab :: (if field_size old <=? 4062 then [old] else []))).
    destruct (N.leb_spec (field_size old) 4062); [reflexivity|lia]. }
  assert (M : meant 4096 t [0x40; 1; 97; 1; 98; 0xbe] rs [ab; ab] (Table 4096 [ab; old])).
  { change [0x40; 1; 97; 1; 98; 0xbe] with (([0x40] ++ [1; 97] ++ [1; 98]) ++ [0xbe] ++ []).
    change [ab; ab] with (opt_cons (Some ab) (opt_cons (Some ab) (@nil field))).
    apply (meant_cons _ _ _ _ _ (insert t ab)).
    - apply repr_literal_new_name; [exact (case_int 6 0x40 (or_introl eq_refl) ltac:(lia) ltac:(reflexivity))| | |].
      + do 2 eexists. split; [reflexivity|lia].
      + apply case_string. lia.
      + apply case_string. lia.
    - reflexivity.
    - rewrite INS. apply (meant_cons _ _ _ _ _ (Table 4096 [ab; old])); [|reflexivity|constructor].
      apply repr_indexed; [exact (case_int 7 0xbe (or_intror eq_refl) ltac:(lia) ltac:(reflexivity))|]. do 2 eexists. split; [reflexivity|lia]. }
  pose proof (C51_block_partial m 4096 (DynTable [old] (field_size old) 4096) (WFrame CONTINUATION flags 0 sid [0x40; 1; 97; 1; 98; 0xbe])
    [0x40; 1; 97; 1; 98; 0xbe] rs [ab; ab] (Table 4096 [ab; old])) as X. cbn [dt_max dt_entries] in X.
  change (Table 4096 [old]) with t in X. rewrite X; clear X.
  - cbn [block_right rs]. change (step 4096 t (RLiteral Incremental (NameLiteral [97]) [98])) with (Some (Some ab, insert t ab)).
    rewrite INS. change (step 4096 (Table 4096 [ab; old]) (RIndexed 62)) with (Some (Some ab, Table 4096 [ab; old])).
    cbn [same_reference addition_fits]. change (resolve t 62) with (Some old). change (resolve (Table 4096 [ab; old]) 62) with (Some ab).
    split.
    + intros (_ & _ & (_ & E) & _). congruence.
    + intros ->. repeat split; discriminate.
  - constructor.
  - split; [reflexivity|]. split; [exact F|]. split; [reflexivity|]. split; [exact I|]. split; [apply octets_checked; reflexivity|reflexivity].
  - split; cbn; [rewrite N.add_0_r; reflexivity|lia].
  - constructor; [exact NO|constructor].
  - constructor; [|constructor; [exact Logic.I|constructor]]. split; right; discriminate.
  - exact M.
Qed.

(* ---- histories ---- *)

(* A frame of the server, the representations in it, the fields they are, and the
   server's table after it. *)
Record arrival := Arrival { a_frame : wframe; a_reprs : list repr; a_fields : list field; a_table : table }.

Inductive server_run (limit : N) : table -> list arrival -> Prop :=
| run_nil : forall t, server_run limit t []
| run_block : forall t w raw rs fs t1 xs, carries w raw -> wframe_ok w -> meant limit t raw rs fs t1 -> server_run limit t1 xs ->
    server_run limit t (Arrival w rs fs t1 :: xs)
| run_settings : forall t flags sid params xs, wframe_ok (WFrame SETTINGS flags 0 sid (settings_octets params)) ->
    Forall param_ok params -> no_table_size params -> server_run limit t xs ->
    server_run limit t (Arrival (WFrame SETTINGS flags 0 sid (settings_octets params)) [] [] t :: xs)
| run_other : forall t w xs, wframe_ok w -> ~ In (w_type w) [HEADERS; PUSH_PROMISE; CONTINUATION; SETTINGS] -> server_run limit t xs ->
    server_run limit t (Arrival w [] [] t :: xs).

(* Every call reports the fields of its frame, and after every call the client's
   table is the server's. *)
Fixpoint followed (m : ub_mode) (c : client) (xs : list arrival) : Prop :=
  match xs with
  | [] => True
  | a :: xs' =>
      let '(r, c') := receive_frame m c in
      reports (a_fields a) r /\ Table (dt_max (c_resp c')) (dt_entries (c_resp c')) = a_table a /\ followed m c' xs'
  end.

Fixpoint all_right (limit : N) (t : table) (xs : list arrival) : Prop :=
  match xs with
  | [] => True
  | a :: xs' => block_right limit t t (a_reprs a) /\ all_right limit (a_table a) xs'
  end.

(* Names are not empty (RFC 7230, 3.2), and values are not, unless accesses are
   not checked. *)
Definition proper (m : ub_mode) (r : repr) : Prop :=
  match r with
  | RLiteral _ n v => (m = Lenient \/ v <> []) /\ match n with NameLiteral s => s <> [] | _ => True end
  | _ => True
  end.

Lemma proper_readable : forall m rs, Forall (proper m) rs -> Forall (strings_readable m) rs.
Proof.
  intros m rs H. eapply Forall_impl; [|exact H]. intros [i|k [i|s] v|n] P; try exact I.
  - exact P.
  - destruct P as [P Q]. split; [exact P|right; exact Q].
Qed.

Lemma rfc_named : forall T i h, Forall (fun h => fst h <> []) (t_entries T) -> resolve T i = Some h -> fst h <> [].
Proof.
  intros T i h N R. destruct (N.eq_dec i 20) as [->|N20].
  - rewrite rfc_20 in R. injection R as <-. vm_compute. discriminate.
  - unfold resolve in R. rewrite <- resolve_lib_rfc in R by exact N20. exact (lib_named _ _ _ N R).
Qed.

Lemma keep_named : forall l n, Forall (fun h : field => fst h <> []) l -> Forall (fun h : field => fst h <> []) (keep n l).
Proof.
  induction l as [|h l IH]; intros n H; [constructor|]. cbn [keep]. destruct (field_size h <=? n); [|constructor].
  constructor; [exact (Forall_inv H)|]. apply IH. exact (Forall_inv_tail H).
Qed.

Lemma meant_named : forall m limit t raw rs fs t', meant limit t raw rs fs t' -> Forall (proper m) rs ->
  Forall (fun h => fst h <> []) (t_entries t) -> Forall (fun h => fst h <> []) (t_entries t').
Proof.
  intros m limit t raw rs fs t' H. induction H; intros P N; [exact N|].
  pose proof (Forall_inv P) as P1. apply Forall_inv_tail in P. apply IHmeant; [exact P|]. clear IHmeant H1.
  unfold step in H0. destruct r as [i|k n v|n]; cbn [step_in] in H0.
  - destruct (resolve_in rfc_static t i); [|discriminate H0]. injection H0 as <- <-. exact N.
  - destruct (name_of rfc_static t n) as [nm|] eqn:Nm; [|discriminate H0]. injection H0 as <- <-. destruct k; [|exact N|exact N].
    cbn [insert t_entries]. apply keep_named. constructor; [|exact N]. cbn [fst]. destruct n as [i|s].
    + cbn [name_of] in Nm. fold resolve in Nm. destruct (resolve t i) as [h|] eqn:R; [|discriminate Nm]. cbn in Nm. injection Nm as <-.
      exact (rfc_named _ _ _ N R).
    + cbn in Nm. injection Nm as <-. apply P1.
  - destruct (n <=? limit); [|discriminate H0]. injection H0 as <- <-. cbn [resize t_entries]. apply keep_named. exact N.
Qed.

(* A whole history: the client follows the server after every frame exactly when
   every block is right. *)
Theorem C51_history_partial : forall m limit xs t c rest, server_run limit t xs ->
  dt_ok (c_resp c) -> Table (dt_max (c_resp c)) (dt_entries (c_resp c)) = t ->
  Forall (fun h => fst h <> []) (t_entries t) -> Forall (fun a => Forall (proper m) (a_reprs a)) xs ->
  tls_in (c_tls c) = concat (map (fun a => wire (a_frame a)) xs) ++ rest ->
  delivers (size (concat (map (fun a => wire (a_frame a)) xs))) (c_tls c) ->
  (followed m c xs <-> all_right limit t xs).
Proof.
  intros m limit xs t c rest H. revert c. induction H; intros c K TC N P E D.
  - cbn. tauto.
  - cbn [map concat a_frame] in E, D. rewrite <- app_assoc in E. rewrite size_app in D.
    pose proof (Forall_inv P) as P1. apply Forall_inv_tail in P. cbn [a_reprs] in P1.
    destruct (receive_complete m c w _ _ H0 E D) as (s1 & I1 & O1 & D1 & R1).
    cbn [followed all_right a_frame a_reprs a_fields a_table]. rewrite R1. cbn [c_resp].
    change (Table (dt_max (c_resp c)) (dt_entries (c_resp c))) with (rfc_table (c_resp c)) in TC. subst t.
    destruct (carried_exact m limit (c_resp c) w raw rs fs t1 H K N (proper_readable _ _ P1) H1) as [X Y].
    change (Table (dt_max (snd (handled m (c_resp c) w))) (dt_entries (snd (handled m (c_resp c) w)))) with (rfc_table (snd (handled m (c_resp c) w))).
    assert (STEP : block_right limit (rfc_table (c_resp c)) (rfc_table (c_resp c)) rs ->
      (followed m (Client s1 (c_req c) (snd (handled m (c_resp c) w))) xs <-> all_right limit t1 xs)).
    { intros B. apply IHserver_run; cbn [c_resp c_tls]; try assumption.
      - apply Y. exact B.
      - apply X in B. destruct B as [_ B]. exact B.
      - exact (meant_named m _ _ _ _ _ _ H1 P1 N). }
    split.
    + intros (A & B & F). assert (Z : block_right limit (rfc_table (c_resp c)) (rfc_table (c_resp c)) rs) by (apply X; auto).
      split; [exact Z|]. apply STEP; assumption.
    + intros (Z & F). pose proof Z as Z'. apply X in Z'. destruct Z' as [A B]. split; [exact A|]. split; [exact B|]. apply STEP; assumption.
  - cbn [map concat a_frame] in E, D. rewrite <- app_assoc in E. rewrite size_app in D.
    apply Forall_inv_tail in P.
    destruct (receive_complete m c _ _ _ H E D) as (s1 & I1 & O1 & D1 & R1).
    cbn [followed all_right a_frame a_reprs a_fields a_table]. rewrite R1. cbn [c_resp block_right].
    destruct (handled_server m limit t (WFrame SETTINGS flags 0 sid (settings_octets params)) [] t (c_resp c)) as (A1 & A2 & A3);
      [apply server_settings; assumption|assumption..|].
    assert (STEP := IHserver_run (Client s1 (c_req c) (snd (handled m (c_resp c) (WFrame SETTINGS flags 0 sid (settings_octets params))))) A1 A2 N P I1 D1).
    split.
    + intros (_ & _ & F). split; [exact I|]. apply STEP. exact F.
    + intros (_ & F). split; [exact A3|]. split; [exact A2|]. apply STEP. exact F.
  - cbn [map concat a_frame] in E, D. rewrite <- app_assoc in E. rewrite size_app in D.
    apply Forall_inv_tail in P.
    destruct (receive_complete m c _ _ _ H E D) as (s1 & I1 & O1 & D1 & R1).
    cbn [followed all_right a_frame a_reprs a_fields a_table]. rewrite R1. cbn [c_resp block_right].
    destruct (handled_server m limit t w [] t (c_resp c)) as (A1 & A2 & A3); [apply server_other; assumption|assumption..|].
    assert (STEP := IHserver_run (Client s1 (c_req c) (snd (handled m (c_resp c) w))) A1 A2 N P I1 D1).
    split.
    + intros (_ & _ & F). split; [exact I|]. apply STEP. exact F.
    + intros (_ & F). split; [exact A3|]. split; [exact A2|]. apply STEP. exact F.
Qed.

(* "a: b" in a first frame, and in a second one "a: x" followed by index 62: the
   client follows exactly when x is b. *)
Example C51_history_case : forall m x s q rest, x < 256 ->
  let first := WFrame CONTINUATION 4 0 1 [0x40; 1; 97; 1; 98] in
  let second := WFrame CONTINUATION 4 0 3 [0x40; 1; 97; 1; x; 0xbe] in
  let ab := (octets "a", octets "b") in
  let ax := (octets "a", [x]) in
  tls_in s = concat (map wire [first; second]) ++ rest -> delivers (size (concat (map wire [first; second]))) s ->
  (followed m (Client s q (DynTable [] 0 4096))
     [Arrival first [RLiteral Incremental (NameLiteral [97]) [98]] [ab] (Table 4096 [ab]);
      Arrival second [RLiteral Incremental (NameLiteral [97]) [x]; RIndexed 62] [ax; ax] (Table 4096 [ax; ab])]
   <-> x = 98).
Proof.
  intros m x s q rest X first second ab ax E D.
  assert (L : forall y, y < 256 -> small_repr ([0x40] ++ [1; 97] ++ [1; y]) (RLiteral Incremental (NameLiteral [97]) [y])).
  { intros y Y. apply repr_literal_new_name; [exact (case_int 6 0x40 (or_introl eq_refl) ltac:(lia) ltac:(reflexivity))| | |].
    - do 2 eexists. split; [reflexivity|lia].
    - apply case_string. lia.
    - apply case_string. exact Y. }
  assert (W : forall sid p, sid < 2 ^ 31 -> is_octets p -> size p < 2 ^ 24 -> wframe_ok (WFrame CONTINUATION 4 0 sid p)).
  { intros sid p I O Z. repeat split; try assumption; reflexivity. }
  rewrite (C51_history_partial m 4096 _ (Table 4096 []) (Client s q (DynTable [] 0 4096)) rest).
  - cbn [all_right block_right a_reprs a_table].
    change (step 4096 (Table 4096 []) (RLiteral Incremental (NameLiteral [97]) [98])) with (Some (Some ab, Table 4096 [ab])).
    change (step 4096 (Table 4096 [ab]) (RLiteral Incremental (NameLiteral [97]) [x])) with (Some (Some ax, Table 4096 [ax; ab])).
    change (step 4096 (Table 4096 [ax; ab]) (RIndexed 62)) with (Some (Some ax, Table 4096 [ax; ab])).
    cbn [same_reference addition_fits].
    change (resolve (Table 4096 [ab]) 62) with (Some ab). change (resolve (Table 4096 [ax; ab]) 62) with (Some ax).
    split.
    + intros (_ & (_ & _ & (_ & R) & _) & _). injection R as R. congruence.
    + intros ->. repeat split; vm_compute; discriminate.
  - apply (run_block _ _ _ [0x40; 1; 97; 1; 98]); [constructor|apply W; [lia|apply octets_checked; reflexivity|reflexivity]| |].
    + change [ab] with (opt_cons (Some ab) (@nil field)). change [0x40; 1; 97; 1; 98] with (([0x40] ++ [1; 97] ++ [1; 98]) ++ []).
      apply (meant_cons _ _ _ _ _ (Table 4096 [ab])); [apply L; lia|reflexivity|constructor].
    + apply (run_block _ _ _ [0x40; 1; 97; 1; x; 0xbe]); [constructor| | |constructor].
      * apply W; [lia| |reflexivity]. intros y Y. cbn in Y. repeat destruct Y as [<-|Y]; try lia.
      * change [ax; ax] with (opt_cons (Some ax) (opt_cons (Some ax) (@nil field))).
        change [0x40; 1; 97; 1; x; 0xbe] with (([0x40] ++ [1; 97] ++ [1; x]) ++ [0xbe] ++ []).
        apply (meant_cons _ _ _ _ _ (Table 4096 [ax; ab])); [apply L; exact X|reflexivity|].
        apply (meant_cons _ _ _ _ _ (Table 4096 [ax; ab])); [|reflexivity|constructor].
        apply repr_indexed; [exact (case_int 7 0xbe (or_intror eq_refl) ltac:(lia) ltac:(reflexivity))|].
        do 2 eexists. split; [reflexivity|lia].
  - split; [reflexivity|cbn; lia].
  - reflexivity.
  - constructor.
  - repeat constructor; try (right; discriminate); discriminate.
  - exact E.
  - exact D.
Qed.

Print Assumptions C51_single_partial.
Print Assumptions C51_block_partial.
Print Assumptions C51_history_partial.
