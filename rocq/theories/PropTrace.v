(* Property C130: what a received frame leaves behind. *)
From Coq Require Import String.
From Coq Require Import ZArith NArith List Bool Lia ZifyBool ZifyNat ZifyN.
From Verif Require Import Base Arith Util HeaderType DynTable HeaderDec FrameHeader Frames FrameBuilder Ssl Client
  SpecBits SpecHpack SpecFrame UtilProofs DynTableProofs FrameProofs HeaderProofs BlockProofs PropFrame PropSsl PropClient PropHistory PropPassive.
Import ListNotations.
Local Open Scope string_scope.
Local Open Scope list_scope.
Local Open Scope N_scope.
Ltac Zify.zify_post_hook ::= Z.div_mod_to_equations.

(* ---- specification ---- *)

(* The entries a caller gets from the header block of a frame. *)
Definition entries_of (f : frame) : header_block :=
  match f with
  | HeadersFrame _ _ _ _ b => b
  | PushPromiseFrame _ _ p => pp_block p
  | ContinuationFrame _ _ b => b
  | _ => []
  end.

(* The call threw, or gave a frame in which the caller finds no field that was to be indexed,
   no size update and no SETTINGS_HEADER_TABLE_SIZE (identifier 1). *)
Definition without_trace (r : res frame) : Prop :=
  (exists x, r = Throw x) \/
  exists f, r = Ok f /\
    (forall e, In e (entries_of f) -> e_prefix e <> IncrementalIndexing /\ e_prefix e <> SizeUpdate) /\
    (forall h params v, f = SettingsFrame h params -> ~ In (1, v) params).

(* The entries that leave a trace. *)
Definition tracing (e : hentry) : bool := match e_prefix e with IncrementalIndexing | SizeUpdate => true | _ => false end.

(* ---- proofs ---- *)

Lemma find_in : forall mp k v, sm_find mp k = Some v -> In (k, v) mp.
Proof.
  induction mp as [|[k' v'] mp IH]; intros k v H; cbn [sm_find] in H; [discriminate H|].
  destruct (N.eqb_spec k k') as [->|]; [injection H as ->; left; reflexivity|right; apply IH, H].
Qed.

Lemma block_kept : forall b t, (forall e, In e b -> e_prefix e <> IncrementalIndexing /\ e_prefix e <> SizeUpdate) -> snd (update_block t b) = t.
Proof.
  induction b as [|e b IH]; intros t H; [reflexivity|]. cbn [update_block]. unfold update_entry.
  destruct (H e (or_introl eq_refl)) as [A B]. destruct (e_prefix e); try contradiction; apply IH; intros e' I; apply H; right; exact I.
Qed.

Lemma frame_kept : forall t f, (forall e, In e (entries_of f) -> e_prefix e <> IncrementalIndexing /\ e_prefix e <> SizeUpdate) ->
  (forall h params v, f = SettingsFrame h params -> ~ In (1, v) params) -> snd (update_frame t f) = t.
Proof.
  intros t f B S. unfold update_frame. destruct (fh_type (frame_fh f) =? T_HEADERS); [destruct f; try reflexivity; apply block_kept; exact B|].
  destruct (fh_type (frame_fh f) =? T_PUSH_PROMISE); [destruct f; try reflexivity; apply block_kept; exact B|].
  destruct (fh_type (frame_fh f) =? T_CONTINUATION); [destruct f; try reflexivity; apply block_kept; exact B|].
  destruct (fh_type (frame_fh f) =? T_SETTINGS); [|reflexivity]. destruct f; try reflexivity.
  match goal with |- context [sm_find ?mp 1] => destruct (sm_find mp 1) as [v|] eqn:F end; [|reflexivity].
  exfalso. eapply S; [reflexivity|]. apply find_in. exact F.
Qed.

Lemma handled_kept : forall m t w, wframe_ok w -> without_trace (fst (handled m t w)) -> snd (handled m t w) = t.
Proof.
  intros m t w W [[x E]|(f & E & B & S)]; [exact (proj1 (handled_throw m t w x W E))|].
  unfold handled in *. destruct (build_frame m (header_of w) (w_payload w) t) as [g|y|u|]; try reflexivity.
  destruct (update_frame t g) as [r t'] eqn:U. cbn [fst snd] in *. destruct r as [[]|y|u|]; try discriminate E. injection E as ->.
  pose proof (frame_kept t f B S) as K. rewrite U in K. exact K.
Qed.

Lemma block_traced : forall b t t', update_block t b = (Ok tt, t') -> update_block t (filter tracing b) = (Ok tt, t').
Proof.
  induction b as [|e b IH]; intros t t' H; [exact H|]. cbn [update_block] in H. cbn [filter].
  destruct (update_entry t e) as [t1|x|u|] eqn:U; try discriminate H. destruct (tracing e) eqn:T.
  - cbn [update_block]. rewrite U. apply IH. exact H.
  - apply IH. unfold update_entry in U. unfold tracing in T. destruct (e_prefix e); try discriminate T; injection U as ->; exact H.
Qed.

Lemma handled_block : forall m t w f, In (w_type w) [HEADERS; PUSH_PROMISE; CONTINUATION] -> fst (handled m t w) = Ok f ->
  update_block t (entries_of f) = (Ok tt, snd (handled m t w)).
Proof.
  intros m t w f I E. unfold handled in *. destruct (build_frame m (header_of w) (w_payload w) t) as [g|y|u|] eqn:B; try discriminate E.
  destruct (update_frame t g) as [r t'] eqn:U. cbn [fst snd] in *. destruct r as [[]|y|u|]; try discriminate E. injection E as ->.
  destruct (C46_dispatch _ _ _ _ _ B) as (_ & _ & TY & _). change (fh_type (header_of w)) with (w_type w) in TY. unfold update_frame in U. rewrite TY in U. clear TY B.
  destruct I as [K|[K|[K|[]]]]; rewrite <- K in U.
  - change (HEADERS =? T_HEADERS) with true in U. cbv iota in U. destruct f; try discriminate U; exact U.
  - change (PUSH_PROMISE =? T_HEADERS) with false in U. change (PUSH_PROMISE =? T_PUSH_PROMISE) with true in U. cbv iota in U. destruct f; try discriminate U; exact U.
  - change (CONTINUATION =? T_HEADERS) with false in U. change (CONTINUATION =? T_PUSH_PROMISE) with false in U. change (CONTINUATION =? T_CONTINUATION) with true in U.
    cbv iota in U. destruct f; try discriminate U; exact U.
Qed.

(* ---------------------------------------------------------------- C130 *)

(* Frames that leave no trace may be left out: whatever the types, streams and contents of the
   frames of a connection, if those at some places turn out to be such frames when all are
   received, then the calls for the others have the outcomes they would have without them, and
   the table for responses becomes the same. *)
Theorem C130_left_out : forall m marks ws c c' rest rest', length marks = length ws -> Forall wframe_ok ws -> c_resp c = c_resp c' ->
  tls_in (c_tls c) = concat (map wire ws) ++ rest -> delivers (size (concat (map wire ws))) (c_tls c) ->
  tls_in (c_tls c') = concat (map wire (pick marks ws)) ++ rest' -> delivers (size (concat (map wire (pick marks ws)))) (c_tls c') ->
  let with_them := receive_n m (length ws) c in let without := receive_n m (length (pick marks ws)) c' in
  Forall without_trace (pick (map negb marks) (fst with_them)) ->
  pick marks (fst with_them) = fst without /\ c_resp (snd with_them) = c_resp (snd without).
Proof.
  intros m marks. induction marks as [|b marks IH]; intros [|w ws] c c' rest rest' L F Q E D E' D'; try discriminate L; [cbn; auto|].
  injection L as L. apply Forall_cons_iff in F. destruct F as [W F]. cbn [map concat length receive_n] in *.
  rewrite <- app_assoc in E. rewrite size_app in D. destruct (receive_complete m c w _ _ W E D) as (s1 & I1 & _ & D1 & R1). rewrite R1.
  destruct b; cbn [negb pick map concat length receive_n] in *.
  - rewrite <- app_assoc in E'. rewrite size_app in D'. destruct (receive_complete m c' w _ _ W E' D') as (s2 & I2 & _ & D2 & R2). rewrite R2.
    specialize (IH ws (Client s1 (c_req c) (snd (handled m (c_resp c) w))) (Client s2 (c_req c') (snd (handled m (c_resp c') w))) rest rest' L F
      (f_equal (fun t => snd (handled m t w)) Q) I1 D1 I2 D2). rewrite Q in *.
    destruct (receive_n m (length ws) _) as [rs k], (receive_n m (length (pick marks ws)) _) as [rs' k']. cbn [fst snd pick negb map] in *.
    intros P. destruct (IH P) as (A & B). rewrite A. auto.
  - specialize (IH ws (Client s1 (c_req c) (snd (handled m (c_resp c) w))) c' rest rest' L F).
    destruct (receive_n m (length ws) _) as [rs k]. cbn [fst snd pick negb map] in *.
    intros P. apply Forall_cons_iff in P. destruct P as [PW P].
    assert (K : snd (handled m (c_resp c) w) = c_resp c) by (apply handled_kept; assumption).
    exact (IH (eq_trans K Q) I1 D1 E' D' P).
Qed.

(* And nothing else of a header block counts: two calls that find the same table and return
   frames whose header blocks agree in the fields to be indexed and the size updates leave the
   same table, whatever else the blocks hold and whatever the frames are. *)
Theorem C130_nothing_else : forall m c c' w w' rest rest' f f', wframe_ok w -> wframe_ok w' -> c_resp c = c_resp c' ->
  tls_in (c_tls c) = wire w ++ rest -> delivers (size (wire w)) (c_tls c) -> tls_in (c_tls c') = wire w' ++ rest' -> delivers (size (wire w')) (c_tls c') ->
  In (w_type w) [HEADERS; PUSH_PROMISE; CONTINUATION] -> In (w_type w') [HEADERS; PUSH_PROMISE; CONTINUATION] ->
  fst (receive_frame m c) = Ok f -> fst (receive_frame m c') = Ok f' -> filter tracing (entries_of f) = filter tracing (entries_of f') ->
  c_resp (snd (receive_frame m c)) = c_resp (snd (receive_frame m c')).
Proof.
  intros m c c' w w' rest rest' f f' W W' Q E D E' D' I I' R R' T.
  destruct (receive_complete m c w rest 0 W E) as (s1 & _ & _ & _ & R1); [rewrite N.add_0_r; exact D|].
  destruct (receive_complete m c' w' rest' 0 W' E') as (s2 & _ & _ & _ & R2); [rewrite N.add_0_r; exact D'|].
  rewrite R1 in *. rewrite R2 in *. cbn [fst snd c_resp] in *.
  apply handled_block, block_traced in R; [|exact I]. apply handled_block, block_traced in R'; [|exact I']. rewrite T, Q in R. rewrite R in R'.
  injection R' as X. rewrite <- X, Q. reflexivity.
Qed.

(* A response with a field to be indexed, a response without one, a frame that is refused, a
   SETTINGS frame with another parameter, and a response that refers to the field; leaving out
   the first of them would not do. *)
Example C130_case : forall m,
  let a := WFrame HEADERS 4 0 1 [0x88; 0x40; 1; 97; 1; 98] in let b := WFrame HEADERS 4 0 3 [0x82; 0x00; 1; 99; 1; 100] in
  let x := WFrame PRIORITY 0 0 3 [1; 2] in let s := WFrame SETTINGS 0 0 0 [0; 4; 0; 0; 0; 7] in let e := WFrame HEADERS 4 0 5 [0xbe] in
  let ws := [a; b; x; s; e] in let marks := [true; false; false; false; true] in
  let c := Client (Tls (concat (map wire ws)) [] (repeat (Chunk 100) 80)) default_table default_table in
  let c' := Client (Tls (concat (map wire [a; e])) [] (repeat (Chunk 3) 60)) default_table default_table in
  Forall wframe_ok ws /\ pick marks ws = [a; e] /\ delivers (size (concat (map wire ws))) (c_tls c) /\ delivers (size (concat (map wire [a; e]))) (c_tls c') /\
  Forall without_trace (pick (map negb marks) (fst (receive_n m 5 c))) /\ (exists f g, fst (receive_n m 2 c') = [Ok f; Ok g]) /\
  ~ without_trace (fst (receive_frame m c)) /\ filter tracing (entries_of (match fst (receive_frame m c) with Ok f => f | _ => DataFrame (header_of a) [] end)) <> [] /\
  forall f, fst (handled m default_table e) <> Ok f.
Proof.
  intros m a b x s e ws marks c c'. split; [repeat constructor; apply wframe_check; reflexivity|]. split; [reflexivity|].
  split; [exists (repeat (Chunk 100) 80), []; split; [reflexivity|split; [repeat constructor; discriminate|apply N.leb_le; reflexivity]]|].
  split; [exists (repeat (Chunk 3) 60), []; split; [reflexivity|split; [repeat constructor; discriminate|apply N.leb_le; reflexivity]]|].
  split.
  - destruct m; vm_compute.
    all: apply Forall_cons; [right; eexists; split; [reflexivity|split; [intros q I; repeat (destruct I as [<-|I]; [split; discriminate|]); destruct I|discriminate]]|].
    all: apply Forall_cons; [left; eexists; reflexivity|].
    all: apply Forall_cons; [right; eexists; split; [reflexivity|split; [intros q []|intros h ps v E; injection E as <- <-; cbn; intuition discriminate]]|apply Forall_nil].
  - split; [destruct m; do 2 eexists; vm_compute; reflexivity|]. split; [|destruct m; (split; [vm_compute; discriminate|intros f; vm_compute; discriminate])].
    intros [[y H]|(f & H & B & _)]; [destruct m; vm_compute in H; discriminate H|].
    destruct m; vm_compute in H; injection H as <-; destruct (B (HEntry IncrementalIndexing (EHeader ([97], [98])))) as [N _]; try (cbn; auto); apply N; reflexivity.
Qed.

Print Assumptions C130_left_out.
Print Assumptions C130_nothing_else.
