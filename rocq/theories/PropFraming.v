(* Property C132: what kind of frame carries a header block, and how it is padded. *)
From Coq Require Import String.
From Coq Require Import ZArith NArith List Bool Lia ZifyBool ZifyNat ZifyN.
From Verif Require Import Base Arith Util IntRep Huffman StaticTable HeaderType DynTable HeaderEnc HeaderDec
  FrameHeader Frames FrameBuilder Ssl Client SpecBits SpecHuffman SpecInt SpecHpack SpecFrame SpecValid
  UtilProofs DynTableProofs FrameProofs HeaderProofs HeaderProofs2 BlockProofs PropFrame PropBlock PropSsl PropClient PropEntry PropMore PropTerm
  PropAccept PropValid PropThrow PropBound PropDefined PropDanger PropTrace.
From Verif Require PropHistory.
Import ListNotations.
Local Open Scope string_scope.
Local Open Scope list_scope.
Local Open Scope N_scope.
Ltac Zify.zify_post_hook ::= Z.div_mod_to_equations.

(* ---- specification ---- *)

(* RFC 7540 sections 6.2, 6.6 and 6.10: a frame that carries a piece of a header block.  HEADERS
   with or without priority, PUSH_PROMISE, CONTINUATION; with or without padding; on any stream. *)
Definition holds_fragment (w : wframe) (fragment : list N) : Prop :=
  exists c, layout (w_flags w) (w_type w) (w_payload w) c /\ fragment_of c = Some fragment.

Definition same_fragment (w w' : wframe) : Prop := exists fragment, holds_fragment w fragment /\ holds_fragment w' fragment.

(* The same outcome, or two frames in which the caller finds the same entries. *)
Definition same_entries (r r' : res frame) : Prop :=
  r = r' \/ exists f f', r = Ok f /\ r' = Ok f' /\ entries_of f = entries_of f'.

(* ---- proofs ---- *)

Lemma framed : forall m T w fr, wframe_ok w -> holds_fragment w fr ->
  match decode_block m fr T with
  | Ok b => exists f, entries_of f = b /\ handled m T w = (let* _ := fst (update_block T b) in Ok f, snd (update_block T b))
  | _ => forall f, fst (handled m T w) <> Ok f
  end.
Proof.
  intros m T [ty fl r sid raw] fr WO (c & L & F). cbn [w_type w_flags w_payload] in *. assert (O : is_octets raw) by apply WO.
  pose proof (octets_wf _ O) as W. pose proof (fragment_type _ _ _ _ _ L F) as TY.
  unfold handled, header_of. cbn [w_type w_flags w_reserved w_stream w_payload].
  destruct TY as [<-|[<-|[<-|[]]]].
  - set (h := FH _ HEADERS _ _ _). change (build_frame m h raw T) with (build_headers_frame m h raw T). unfold build_headers_frame, parse_headers, h.
    destruct (headers_cases m T (size raw) fl r sid raw W) as [(c' & fr' & pad & prio & L' & F' & WF & Q)|(N & _)]; [|destruct (N c L)].
    rewrite (fragment_unique _ _ _ _ _ _ _ L' L F' F) in Q. rewrite Q.
    destruct (decode_block m fr T) as [b|x|u|]; cbn [bind]; try (intros f; discriminate).
    eexists. split; [|unfold update_frame; cbn [frame_fh fh_type]; change (HEADERS =? T_HEADERS) with true; cbv iota; destruct (update_block T b); reflexivity]. reflexivity.
  - set (h := FH _ PUSH_PROMISE _ _ _). change (build_frame m h raw T) with (parse_push_promise m h raw T). unfold parse_push_promise, h.
    destruct (push_cases m T (size raw) fl r sid raw W) as [(c' & fr' & rr & pr & pad & L' & F' & WF & Q)|(N & _)]; [|destruct (N c L)].
    rewrite (fragment_unique _ _ _ _ _ _ _ L' L F' F) in Q. rewrite Q.
    destruct (decode_block m fr T) as [b|x|u|]; cbn [bind]; try (intros f; discriminate).
    eexists. split; [|unfold update_frame; cbn [frame_fh fh_type]; change (PUSH_PROMISE =? T_HEADERS) with false; change (PUSH_PROMISE =? T_PUSH_PROMISE) with true; cbv iota; cbn [pp_block]; destruct (update_block T b); reflexivity]. reflexivity.
  - assert (fr = raw) by (inversion L; subst; cbn in F; congruence). subst fr.
    set (h := FH _ CONTINUATION _ _ _). change (build_frame m h raw T) with (parse_continuation m h raw T). unfold parse_continuation, h.
    destruct (decode_block m raw T) as [b|x|u|]; cbn [bind]; try (intros f; discriminate).
    eexists. split; [|unfold update_frame; cbn [frame_fh fh_type]; change (CONTINUATION =? T_HEADERS) with false; change (CONTINUATION =? T_PUSH_PROMISE) with false;
      change (CONTINUATION =? T_CONTINUATION) with true; cbv iota; destruct (update_block T b); reflexivity]. reflexivity.
Qed.

Lemma handled_framed : forall m T w w' f, wframe_ok w -> wframe_ok w' -> same_fragment w w' -> fst (handled m T w) = Ok f ->
  exists f', fst (handled m T w') = Ok f' /\ entries_of f = entries_of f' /\ snd (handled m T w) = snd (handled m T w').
Proof.
  intros m T w w' f W W' (fr & H & H') E. pose proof (framed m T w fr W H) as A. pose proof (framed m T w' fr W' H') as A'.
  destruct (decode_block m fr T) as [b|x|u|]; try (exfalso; apply (A f); exact E).
  destruct A as (g & G & A), A' as (g' & G' & A'). rewrite A in *. rewrite A'. cbn [fst snd] in *.
  destruct (fst (update_block T b)) as [[]|y|u|]; try discriminate E. injection E as ->. exists g'. split; [reflexivity|]. split; [congruence|reflexivity].
Qed.

(* ---------------------------------------------------------------- C132 *)

(* On any connection: if the server carries its header blocks in other kinds of frames, with
   other padding or priorities, then each of them that is returned is returned with the same
   entries, all other frames are received as before, and the table becomes the same. *)
Theorem C132_framing : forall m ws ws' c c' rest rest', length ws = length ws' -> Forall wframe_ok ws -> Forall wframe_ok ws' -> c_resp c = c_resp c' ->
  tls_in (c_tls c) = concat (map wire ws) ++ rest -> delivers (size (concat (map wire ws))) (c_tls c) ->
  tls_in (c_tls c') = concat (map wire ws') ++ rest' -> delivers (size (concat (map wire ws'))) (c_tls c') ->
  let one := receive_n m (length ws) c in let other := receive_n m (length ws') c' in
  Forall (fun x => fst (fst x) = snd (fst x) \/ (same_fragment (fst (fst x)) (snd (fst x)) /\ exists f, snd x = Ok f)) (combine (combine ws ws') (fst one)) ->
  Forall2 same_entries (fst one) (fst other) /\ c_resp (snd one) = c_resp (snd other).
Proof.
  intros m ws. induction ws as [|w ws IH]; intros [|w' ws'] c c' rest rest' LN F F' Q E D E' D'; try discriminate LN; [cbn; auto|].
  injection LN as LN. apply Forall_cons_iff in F. destruct F as [W F]. apply Forall_cons_iff in F'. destruct F' as [W' F']. cbn [map concat length receive_n] in *.
  rewrite <- app_assoc in E, E'. rewrite size_app in D, D'.
  destruct (receive_complete m c w _ _ W E D) as (s1 & I1 & _ & D1 & R1). destruct (receive_complete m c' w' _ _ W' E' D') as (s2 & I2 & _ & D2 & R2). rewrite R1, R2.
  specialize (IH ws' (Client s1 (c_req c) (snd (handled m (c_resp c) w))) (Client s2 (c_req c') (snd (handled m (c_resp c') w'))) rest rest' LN F F').
  destruct (receive_n m (length ws) _) as [rs k], (receive_n m (length ws') _) as [rs' k']. cbn [fst snd combine c_resp c_tls] in *.
  intros H. apply Forall_cons_iff in H. destruct H as [H0 H]. cbn [fst snd] in H0. rewrite <- Q in *.
  assert (G : same_entries (fst (handled m (c_resp c) w)) (fst (handled m (c_resp c) w')) /\ snd (handled m (c_resp c) w) = snd (handled m (c_resp c) w')).
  { destruct H0 as [<-|(S & f & HF)]; [split; [left|]; reflexivity|]. destruct (handled_framed m (c_resp c) w w' f W W' S HF) as (f' & A & B & C).
    split; [right; exists f, f'; auto|exact C]. }
  destruct G as [G1 G2]. destruct (IH G2 I1 D1 I2 D2 H) as [A B]. split; [constructor; assumption|exact B].
Qed.

(* A response in a plain HEADERS frame, or in one with priority and padding, or in a CONTINUATION frame. *)
Example C132_case : forall m,
  let block := [0x88; 0x40; 1; 97; 1; 98] in
  let plain := WFrame HEADERS 4 0 1 block in let full := WFrame HEADERS 44 0 3 ([2; 0; 0; 0; 0; 9] ++ block ++ [7; 7]) in
  let cont := WFrame CONTINUATION 4 0 5 block in let next := WFrame HEADERS 5 0 7 [0xbe] in
  let c ws := Client (Tls (concat (map wire ws)) [] (repeat (Chunk 4) 60)) default_table default_table in
  Forall wframe_ok [plain; full; cont; next] /\ same_fragment plain full /\ same_fragment plain cont /\
  delivers (size (concat (map wire [plain; next]))) (c_tls (c [plain; next])) /\ delivers (size (concat (map wire [full; next]))) (c_tls (c [full; next])) /\
  exists f g, fst (receive_n m 2 (c [plain; next])) = [Ok f; Ok g] /\ entries_of f <> [] /\ entries_of g = [HEntry Indexed (EHeader ([97], [98]))].
Proof.
  intros m block plain full cont next c.
  assert (HP : holds_fragment plain block).
  { exists (CHeaders None block []). split; [|reflexivity]. apply (layout_headers 4 block []); [split; [apply Nat.leb_le; reflexivity|reflexivity]|reflexivity]. }
  split; [repeat constructor; apply PropHistory.wframe_check; reflexivity|].
  split; [exists block; split; [exact HP|]; exists (CHeaders (Some (0, 0, 9)) block [7; 7]); split; [|reflexivity]|].
  { apply (layout_headers_priority 44 0 0 9 block [7; 7]); try reflexivity. split; [apply Nat.leb_le; reflexivity|discriminate]. }
  split; [exists block; split; [exact HP|]; exists (CContinuation block); split; [constructor|reflexivity]|].
  split; [exists (repeat (Chunk 4) 60), []; split; [reflexivity|split; [repeat constructor; discriminate|apply N.leb_le; reflexivity]]|].
  split; [exists (repeat (Chunk 4) 60), []; split; [reflexivity|split; [repeat constructor; discriminate|apply N.leb_le; reflexivity]]|].
  destruct m; do 2 eexists; (split; [vm_compute; reflexivity|split; [discriminate|reflexivity]]).
Qed.

Print Assumptions C132_framing.
