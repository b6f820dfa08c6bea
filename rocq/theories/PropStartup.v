(* Initialisation and destruction of the library's tables (C117). *)
From Coq Require Import String.
From Coq Require Import ZArith NArith List Bool Lia.
From Verif Require Import Base Util IntRep HuffmanTable Huffman StaticTable HeaderType DynTable HeaderEnc HeaderDec
  FrameHeader Frames FrameBuilder Dump Startup.
Import ListNotations.
Local Open Scope string_scope. Local Open Scope list_scope. Local Open Scope N_scope.

(* ---- specification ---- *)

(* What the call does while main runs, by the functions of the model that know
   nothing of tables being built. *)
Definition in_main (c : call) : res value :=
  match c with
  | CallBlock p hs => let* b := make_header_block p hs in Ok (VBlock b)
  | CallEncode b mode t => let* x := encode_block b mode t in Ok (VOctets x)
  | CallReceived m h raw t => let* f := build_frame m h raw t in Ok (VFrame f)
  | CallPrint m hex f => let* x := dump m hex f in Ok (VText (fst x))
  | CallPreface | CallConnect | CallOther => Ok VNothing
  end.
Definition as_in_main (l : list (call * res value)) : Prop := forall c r, In (c, r) l -> r = in_main c.

(* Every unit of the library is linked in. *)
Definition all_units : list lib_unit := [StaticTables; HuffmanTables; BuilderTable; SettingsNames; RstNames; GoawayNames].
Definition linked (p : program) : Prop := forall u, In (Library u) (order p).
(* All of them are initialised before the program's own units. *)
Definition library_first (p : program) : Prop :=
  exists us is, order p = map Library us ++ map Program is /\ forall u, In u us.
(* The part of a program before main, as a program. *)
Definition before_main (p : program) : program := Prog (order p) (constructor p) [] (fun _ => []).

(* The tables a call needs. *)
Definition decodes (ty : N) : Prop := ty = T_HEADERS \/ ty = T_PUSH_PROMISE \/ ty = T_CONTINUATION.
Definition needed (c : call) (u : lib_unit) : Prop :=
  match c, u with
  | CallBlock _ hs, StaticTables => hs <> []
  | CallEncode b _ _, StaticTables => exists e, In e b /\ e_prefix e <> SizeUpdate
  | CallEncode b mode _, HuffmanTables => mode = ModeHuffman /\ exists e, In e b /\ e_prefix e <> SizeUpdate
  | CallReceived _ _ _ _, BuilderTable => True
  | CallReceived _ h _ _, (StaticTables | HuffmanTables) => decodes (fh_type h)
  | CallPrint _ _ (RstStreamFrame _ _), RstNames => True
  | CallPrint _ _ (GoawayFrame _ _), GoawayNames => True
  | CallPrint _ _ (SettingsFrame _ ps), SettingsNames => ps <> []
  | _, _ => False
  end.

(* ---- proofs: the same or undefined ---- *)

Definition below {A} (r1 r2 : res A) : Prop := r1 = UB NullDeref \/ r1 = r2.

Lemma below_refl : forall A (r : res A), below r r.
Proof. right. reflexivity. Qed.
Lemma below_bind : forall A B (r1 r2 : res A) (k1 k2 : A -> res B), below r1 r2 -> (forall a, below (k1 a) (k2 a)) ->
  below (bind r1 k1) (bind r2 k2).
Proof. intros A B r1 r2 k1 k2 [->| ->] K; [left; reflexivity|]. destruct r2; cbn [bind]; [apply K|right; reflexivity..]. Qed.
Lemma bind_ext : forall A B (r1 r2 : res A) (k1 k2 : A -> res B), r1 = r2 -> (forall a, k1 a = k2 a) -> bind r1 k1 = bind r2 k2.
Proof. intros A B r1 r2 k1 k2 -> K. destruct r2; cbn [bind]; [apply K|reflexivity..]. Qed.
Lemma below_alive : forall A (a1 a2 : bool) (r1 r2 : res A), (a1 = true -> a2 = true) -> below r1 r2 ->
  below (while_alive a1 r1) (while_alive a2 r2).
Proof. intros A [] a2 r1 r2 H B; [rewrite (H eq_refl); exact B|left; reflexivity]. Qed.

Definition fewer (f g : lib_unit -> bool) : Prop := forall u, f u = true -> g u = true.

Section Below.
Variables f g : lib_unit -> bool.
Hypothesis F : fewer f g.

Lemma block_below : forall p hs, below (make_header_block_at f p hs) (make_header_block_at g p hs).
Proof.
  intros p hs. induction hs as [|h hs IH]; [apply below_refl|]. cbn [make_header_block_at].
  apply below_bind.
  - unfold correct_prefix_at. apply below_bind; [apply below_refl|intros x]. apply below_alive; [apply F|apply below_refl].
  - intros e. apply below_bind; [exact IH|intros; apply below_refl].
Qed.
Lemma henc_below : forall s, below (huffman_encode_at f s) (huffman_encode_at g s).
Proof. intros [|x s]; [apply below_refl|]. apply below_alive; [apply F|apply below_refl]. Qed.
Lemma hdec_below : forall s, below (huffman_decode_at f s) (huffman_decode_at g s).
Proof. intros [|x s]; [apply below_refl|]. apply below_alive; [apply F|apply below_refl]. Qed.
Lemma string_below : forall s mode, below (encode_string_at f s mode) (encode_string_at g s mode).
Proof.
  intros s mode. unfold encode_string_at. apply below_bind; [destruct mode; [apply below_refl|apply henc_below] || (destruct mode; [apply henc_below|apply below_refl])|].
  intros x. apply below_refl.
Qed.
Lemma header_below : forall e mode t, below (encode_header_at f e mode t) (encode_header_at g e mode t).
Proof.
  intros e mode t. unfold encode_header_at. destruct (hprefix_eqb (e_prefix e) SizeUpdate); [apply below_refl|].
  apply below_bind; [apply below_refl|intros h]. apply below_alive; [apply F|].
  destruct (match reverse_static_find h with Some i => if 0 <? size (snd h) then Some i else None | None => None end); [apply below_refl|].
  destruct (find_index (dt_entries t) h); [apply below_refl|].
  destruct (reverse_static_find (fst h, [])); (apply below_bind; [apply below_refl|intros ix]).
  - apply below_bind; [apply string_below|intros; apply below_refl].
  - apply below_bind; [apply string_below|intros nm]. apply below_bind; [apply string_below|intros; apply below_refl].
Qed.
Lemma blocks_below : forall b mode t, below (encode_block_at f b mode t) (encode_block_at g b mode t).
Proof.
  intros b mode t. induction b as [|e b IH]; [apply below_refl|]. cbn [encode_block_at].
  apply below_bind; [apply header_below|intros x]. apply below_bind; [exact IH|intros; apply below_refl].
Qed.
Lemma dstring_below : forall m v, below (decode_string_at f m v) (decode_string_at g m v).
Proof.
  intros m v. unfold decode_string_at. apply below_bind; [apply below_refl|intros [len consumed]].
  apply below_bind; [apply below_refl|intros b0]. apply below_bind; [|intros; apply below_refl].
  destruct (negb (extract_high_bit 1 8 b0 =? 0)); [|apply below_refl].
  apply below_bind; [apply below_refl|intros enc]. apply below_bind; [apply hdec_below|intros; apply below_refl].
Qed.
Lemma dheader_below : forall m v t, below (decode_header_at f m v t) (decode_header_at g m v t).
Proof.
  intros m v t. unfold decode_header_at. apply below_bind; [apply below_refl|intros b0].
  apply below_bind; [apply below_refl|intros p]. destruct (hprefix_eqb p SizeUpdate); [apply below_refl|].
  apply below_bind; [apply below_refl|intros [index il]]. apply below_bind.
  - destruct (0 <? index); [|apply below_refl]. apply below_alive; [apply F|apply below_refl].
  - intros h. destruct (hprefix_eqb p Indexed); [apply below_refl|].
    apply below_bind; [apply below_refl|intros data]. apply below_bind.
    + destruct (size (fst h) <=? 0); [|apply below_refl]. apply below_bind; [apply dstring_below|intros; apply below_refl].
    + intros [[nm d] k]. apply below_bind; [apply dstring_below|intros; apply below_refl].
Qed.
Lemma dloop_below : forall m t fuel v, below (decode_block_loop_at f m fuel v t) (decode_block_loop_at g m fuel v t).
Proof.
  intros m t fuel. induction fuel as [|n IH]; intros v; cbn [decode_block_loop_at]; (destruct (0 <? size v); [|apply below_refl]); [apply below_refl|].
  apply below_bind; [apply dheader_below|intros [e k]]. apply below_bind; [apply below_refl|intros w].
  apply below_bind; [apply IH|intros; apply below_refl].
Qed.
Lemma headers_below : forall m h raw t, below (parse_headers_at f m h raw t) (parse_headers_at g m h raw t).
Proof.
  intros m h raw t. unfold parse_headers_at. apply below_bind; [apply below_refl|intros [pad d]].
  apply below_bind; [apply below_refl|intros [pr d2]]. apply below_bind; [apply dloop_below|intros; apply below_refl].
Qed.
Lemma build_below : forall m h raw t, below (build_frame_at f m h raw t) (build_frame_at g m h raw t).
Proof.
  intros m h raw t. unfold build_frame_at. apply below_alive; [apply F|]. cbv zeta.
  destruct (fh_type h =? T_DATA); [apply below_refl|].
  destruct (fh_type h =? T_HEADERS).
  { unfold build_headers_frame_at. destruct (headers_below m h raw t) as [-> | ->]; [left; reflexivity|apply below_refl]. }
  destruct (fh_type h =? T_PRIORITY); [apply below_refl|].
  destruct (fh_type h =? T_RST_STREAM); [apply below_refl|].
  destruct (fh_type h =? T_SETTINGS); [apply below_refl|].
  destruct (fh_type h =? T_PUSH_PROMISE).
  { unfold parse_push_promise_at. apply below_bind; [apply below_refl|intros [pad d]].
    do 3 (apply below_bind; [apply below_refl|intros ?]). apply below_bind; [apply dloop_below|intros; apply below_refl]. }
  destruct (fh_type h =? T_PING); [apply below_refl|].
  destruct (fh_type h =? T_GOAWAY); [apply below_refl|].
  destruct (fh_type h =? T_WINDOW_UPDATE); [apply below_refl|].
  destruct (fh_type h =? T_CONTINUATION); [|apply below_refl].
  unfold parse_continuation_at. apply below_bind; [apply dloop_below|intros; apply below_refl].
Qed.
Lemma dump_below : forall m hex x, below (dump_at f m hex x) (dump_at g m hex x).
Proof.
  intros m hex x. destruct x; try apply below_refl; cbn [dump_at]; try (apply below_alive; [apply F|apply below_refl]).
  match goal with |- context [match ?l with [] => _ | _ => _ end] => destruct l end; [apply below_refl|]. apply below_alive; [apply F|apply below_refl].
Qed.
End Below.

(* ---- proofs: the same as in main when the tables are there ---- *)

Section Equal.
Variable f : lib_unit -> bool.

Lemma block_eq : forall p hs, (hs <> [] -> f StaticTables = true) -> make_header_block_at f p hs = make_header_block p hs.
Proof.
  intros p hs. induction hs as [|h hs IH]; intros S; [reflexivity|]. cbn [make_header_block_at make_header_block].
  apply bind_ext.
  - unfold correct_prefix_at, correct_prefix. apply bind_ext; [reflexivity|intros x]. rewrite S by discriminate. reflexivity.
  - intros e. apply bind_ext; [apply IH; intros _; apply S; discriminate|reflexivity].
Qed.
Lemma string_eq : forall s mode, (mode = ModeHuffman -> f HuffmanTables = true) -> encode_string_at f s mode = encode_string s mode.
Proof.
  intros s mode S. unfold encode_string_at, encode_string. apply bind_ext; [|reflexivity].
  destruct mode; [reflexivity|] || (destruct mode; [|reflexivity]). unfold huffman_encode_at. rewrite S by reflexivity. destruct s; reflexivity.
Qed.
Lemma header_eq : forall e mode t, (e_prefix e <> SizeUpdate -> f StaticTables = true) ->
  (mode = ModeHuffman /\ e_prefix e <> SizeUpdate -> f HuffmanTables = true) -> encode_header_at f e mode t = encode_header e mode t.
Proof.
  intros e mode t S H. unfold encode_header_at, encode_header. destruct (hprefix_eqb (e_prefix e) SizeUpdate) eqn:P; [reflexivity|].
  assert (NP : e_prefix e <> SizeUpdate) by (intros X; rewrite X in P; discriminate P).
  apply bind_ext; [reflexivity|intros h]. rewrite (S NP). cbn [while_alive].
  assert (H2 : mode = ModeHuffman -> f HuffmanTables = true) by auto.
  destruct (match reverse_static_find h with Some i => if 0 <? size (snd h) then Some i else None | None => None end); [reflexivity|].
  destruct (find_index (dt_entries t) h); [reflexivity|].
  unfold encode_header_value, encode_header_name. rewrite !string_eq by exact H2. reflexivity.
Qed.
Lemma blocks_eq : forall b mode t, ((exists e, In e b /\ e_prefix e <> SizeUpdate) -> f StaticTables = true) ->
  (mode = ModeHuffman /\ (exists e, In e b /\ e_prefix e <> SizeUpdate) -> f HuffmanTables = true) -> encode_block_at f b mode t = encode_block b mode t.
Proof.
  intros b mode t. induction b as [|e b IH]; intros S H; [reflexivity|]. cbn [encode_block_at encode_block].
  apply bind_ext.
  - apply header_eq; [intros X; apply S|intros [M X]; apply H; split; [exact M|]]; exists e; split; [left; reflexivity|exact X|left; reflexivity|exact X].
  - intros x. apply bind_ext; [|reflexivity]. apply IH.
    + intros (y & I & X). apply S. exists y. split; [right; exact I|exact X].
    + intros (M & y & I & X). apply H. split; [exact M|]. exists y. split; [right; exact I|exact X].
Qed.
Hypothesis S : f StaticTables = true.
Hypothesis H : f HuffmanTables = true.
Lemma dstring_eq : forall m v, decode_string_at f m v = decode_string m v.
Proof.
  intros m v. unfold decode_string_at, decode_string. apply bind_ext; [reflexivity|intros [len consumed]].
  apply bind_ext; [reflexivity|intros b0]. apply bind_ext; [|reflexivity].
  destruct (negb (extract_high_bit 1 8 b0 =? 0)); [|reflexivity].
  apply bind_ext; [reflexivity|intros enc]. apply bind_ext; [|reflexivity].
  unfold huffman_decode_at. rewrite H. destruct enc; reflexivity.
Qed.
Lemma dheader_eq : forall m v t, decode_header_at f m v t = decode_header m v t.
Proof.
  intros m v t. unfold decode_header_at, decode_header. apply bind_ext; [reflexivity|intros b0].
  apply bind_ext; [reflexivity|intros p]. destruct (hprefix_eqb p SizeUpdate); [reflexivity|].
  apply bind_ext; [reflexivity|intros [index il]]. rewrite S. cbn [while_alive]. apply bind_ext; [reflexivity|intros h].
  destruct (hprefix_eqb p Indexed); [reflexivity|]. apply bind_ext; [reflexivity|intros data].
  unfold decode_header_name, decode_header_value. rewrite dstring_eq. apply bind_ext; [reflexivity|intros [[nm d] k]].
  rewrite dstring_eq. reflexivity.
Qed.
Lemma dloop_eq : forall m t fuel v, decode_block_loop_at f m fuel v t = decode_block_loop m fuel v t.
Proof.
  intros m t fuel. induction fuel as [|n IH]; intros v; cbn [decode_block_loop_at decode_block_loop]; [reflexivity|].
  destruct (0 <? size v); [|reflexivity]. rewrite dheader_eq. apply bind_ext; [reflexivity|intros [e k]].
  apply bind_ext; [reflexivity|intros w]. rewrite IH. reflexivity.
Qed.
Lemma headers_eq : forall m h raw t, parse_headers_at f m h raw t = parse_headers m h raw t.
Proof.
  intros m h raw t. unfold parse_headers_at, parse_headers, headers_decode_payload, decode_block.
  destruct (if is_flag_set (fh_flags h) F_PADDED then split_padding raw else Ok ([], raw)) as [[pad d]| | |]; [|reflexivity..]. cbn [bind].
  destruct (if is_flag_set (fh_flags h) F_PRIORITY then headers_split_priority d else Ok (Prio 0 0 0, d)) as [[pr d2]| | |]; [|reflexivity..]. cbn [bind].
  rewrite dloop_eq. destruct (decode_block_loop m (length d2) d2 t); reflexivity.
Qed.
Lemma push_eq : forall m h raw t, parse_push_promise_at f m h raw t = parse_push_promise m h raw t.
Proof.
  intros m h raw t. unfold parse_push_promise_at, parse_push_promise, push_promise_decode_payload, decode_block.
  destruct (if is_flag_set (fh_flags h) F_PADDED then split_padding raw else Ok ([], raw)) as [[pad d]| | |]; [|reflexivity..]. cbn [bind].
  destruct (vget d 0); [|reflexivity..]. cbn [bind]. destruct (bytes2integral 4 d 0); [|reflexivity..]. cbn [bind].
  destruct (verase_front d 4) as [d2| | |]; [|reflexivity..]. cbn [bind]. rewrite dloop_eq.
  destruct (decode_block_loop m (length d2) d2 t); reflexivity.
Qed.
Lemma cont_eq : forall m h raw t, parse_continuation_at f m h raw t = parse_continuation m h raw t.
Proof. intros m h raw t. unfold parse_continuation_at, parse_continuation, decode_block. rewrite dloop_eq. reflexivity. Qed.
End Equal.

Lemma build_eq : forall f m h raw t, f BuilderTable = true -> (decodes (fh_type h) -> f StaticTables = true) ->
  (decodes (fh_type h) -> f HuffmanTables = true) -> build_frame_at f m h raw t = build_frame m h raw t.
Proof.
  intros f m h raw t B S H. unfold build_frame_at, build_frame. rewrite B. cbn [while_alive]. cbv zeta.
  destruct (fh_type h =? T_DATA); [reflexivity|].
  destruct (fh_type h =? T_HEADERS) eqn:E1.
  { apply N.eqb_eq in E1. unfold build_headers_frame_at, build_headers_frame.
    rewrite headers_eq by (first [apply S|apply H]; left; exact E1). reflexivity. }
  destruct (fh_type h =? T_PRIORITY); [reflexivity|].
  destruct (fh_type h =? T_RST_STREAM); [reflexivity|].
  destruct (fh_type h =? T_SETTINGS); [reflexivity|].
  destruct (fh_type h =? T_PUSH_PROMISE) eqn:E2.
  { apply N.eqb_eq in E2. apply push_eq; [apply S|apply H]; right; left; exact E2. }
  destruct (fh_type h =? T_PING); [reflexivity|].
  destruct (fh_type h =? T_GOAWAY); [reflexivity|].
  destruct (fh_type h =? T_WINDOW_UPDATE); [reflexivity|].
  destruct (fh_type h =? T_CONTINUATION) eqn:E3; [|reflexivity].
  apply N.eqb_eq in E3. apply cont_eq; [apply S|apply H]; right; right; exact E3.
Qed.

Lemma needs_run : forall s c, (forall u, needed c u -> has_unit s u = true) -> c <> CallPreface -> c <> CallConnect ->
  run_call s c = (in_main c, s).
Proof.
  intros s c N NP NC. destruct c as [p hs|b mode t|m h raw t|m hex x| | |]; try contradiction; cbn [run_call in_main]; f_equal.
  - rewrite block_eq; [reflexivity|exact (N StaticTables)].
  - rewrite blocks_eq; [reflexivity|exact (N StaticTables)|exact (N HuffmanTables)].
  - rewrite build_eq; [reflexivity|exact (N BuilderTable Coq.Init.Logic.I)|exact (N StaticTables)|exact (N HuffmanTables)].
  - destruct x as [| | | |h c|h ps| | |h p| |]; try reflexivity; cbn [dump_at].
    + rewrite (N RstNames Coq.Init.Logic.I). reflexivity.
    + destruct ps as [|y ps]; [reflexivity|]. rewrite (N SettingsNames); [reflexivity|]. cbn [needed]. discriminate.
    + rewrite (N GoawayNames Coq.Init.Logic.I). reflexivity.
Qed.

Lemma run_below : forall s1 s2 c, fewer (has_unit s1) (has_unit s2) -> c <> CallPreface -> c <> CallConnect ->
  below (fst (run_call s1 c)) (fst (run_call s2 c)).
Proof.
  intros s1 s2 c F NP NC. destruct c as [p hs|b mode t|m h raw t|m hex x| | |]; try contradiction; cbn [run_call fst];
    try (apply below_bind; [|intros; apply below_refl]).
  - apply block_below; exact F.
  - apply blocks_below; exact F.
  - apply build_below; exact F.
  - apply dump_below; exact F.
  - apply below_refl.
Qed.

Definition everything : statics := Statics (map Unit all_units) [].
Lemma everything_has : forall u, has_unit everything u = true.
Proof. destruct u; reflexivity. Qed.
Lemma in_main_run : forall c, c <> CallPreface -> c <> CallConnect -> fst (run_call everything c) = in_main c.
Proof. intros c NP NC. rewrite needs_run; [reflexivity|intros; apply everything_has|assumption..]. Qed.

(* C117: whenever it is made, a call gives what it gives in main or is undefined:
   never another value. *)
Theorem C117_same_or_undefined : forall s c, fst (run_call s c) = in_main c \/ fst (run_call s c) = UB NullDeref.
Proof.
  intros s c.
  assert (D : c = CallPreface \/ c = CallConnect \/ (c <> CallPreface /\ c <> CallConnect)).
  { destruct c; auto; right; right; split; discriminate. }
  destruct D as [-> |[-> |[NP NC]]].
  1,2: cbn [run_call in_main]; unfold use_local; destruct (has_local _ _); [left; reflexivity|];
       destruct (existsb _ _); [right; reflexivity|left; reflexivity].
  destruct (run_below s everything c) as [H|H]; [intros u _; apply everything_has|assumption..|right; exact H|].
  left. rewrite H. apply in_main_run; assumption.
Qed.

Lemma has_unit_in : forall s u, has_unit s u = true <-> In (Unit u) (stack s).
Proof.
  intros s u. unfold has_unit. rewrite existsb_exists. split.
  - intros (x & I & E). destruct x as [v| |]; try discriminate E. replace u with v; [exact I|]. destruct u, v; first [reflexivity|discriminate E].
  - intros I. exists (Unit u). split; [exact I|]. destruct u; reflexivity.
Qed.
Lemma has_unit_not : forall s u, ~ In (Unit u) (stack s) -> has_unit s u = false.
Proof. intros s u H. apply not_true_is_false. intros X. apply H. apply has_unit_in. exact X. Qed.

(* C117: a call that finds the tables it needs does what it does in main. *)
Theorem C117_needs : forall s c, (forall u, needed c u -> In (Unit u) (stack s)) -> c <> CallPreface -> c <> CallConnect ->
  run_call s c = (in_main c, s).
Proof. intros s c H NP NC. apply needs_run; [|assumption..]. intros u X. apply has_unit_in. apply H. exact X. Qed.

(* C117: without its table a call is undefined: making a header block of at least
   one header, encoding a header, handling a received frame of any type, printing a
   frame with an error code or with settings. *)
Theorem C117_needs_exactly : forall s c,
  (exists p h hs, c = CallBlock p (h :: hs) /\ ~ In (Unit StaticTables) (stack s)) \/
  (exists p h b mode t, c = CallEncode (HEntry p (EHeader h) :: b) mode t /\ p <> SizeUpdate /\ ~ In (Unit StaticTables) (stack s)) \/
  (exists m h raw t, c = CallReceived m h raw t /\ ~ In (Unit BuilderTable) (stack s)) \/
  (exists m hex h code, c = CallPrint m hex (RstStreamFrame h code) /\ ~ In (Unit RstNames) (stack s)) \/
  (exists m hex h g, c = CallPrint m hex (GoawayFrame h g) /\ ~ In (Unit GoawayNames) (stack s)) \/
  (exists m hex h x ps, c = CallPrint m hex (SettingsFrame h (x :: ps)) /\ ~ In (Unit SettingsNames) (stack s)) ->
  fst (run_call s c) = UB NullDeref.
Proof.
  intros s c [(p & h & hs & -> & H)|[(p & h & b & mode & t & -> & P & H)|[(m & h & raw & t & -> & H)|
    [(m & hex & h & code & -> & H)|[(m & hex & h & g & -> & H)|(m & hex & h & x & ps & -> & H)]]]]]; apply has_unit_not in H; cbn [run_call fst].
  - cbn [make_header_block_at]. unfold correct_prefix_at. cbn [get_header bind]. rewrite H. reflexivity.
  - cbn [encode_block_at]. unfold encode_header_at. cbn [e_prefix].
    replace (hprefix_eqb p SizeUpdate) with false by (destruct p; try reflexivity; contradiction).
    cbn [get_header bind]. rewrite H. reflexivity.
  - unfold build_frame_at. rewrite H. reflexivity.
  - cbn [dump_at]. rewrite H. reflexivity.
  - cbn [dump_at]. rewrite H. reflexivity.
  - cbn [dump_at]. rewrite H. reflexivity.
Qed.

(* ---- proofs: programs ---- *)

Lemma has_app : forall new st gone gone2 u, has_unit (Statics st gone) u = true -> has_unit (Statics (new ++ st) gone2) u = true.
Proof. intros new st gone gone2 u H. unfold has_unit in *. cbn [stack] in *. rewrite existsb_app, H. apply orb_true_r. Qed.
Lemma hasl_app : forall new st gone gone2 l, has_local (Statics st gone) l = true -> has_local (Statics (new ++ st) gone2) l = true.
Proof. intros new st gone gone2 u H. unfold has_local in *. cbn [stack] in *. rewrite existsb_app, H. apply orb_true_r. Qed.

Lemma call_grows : forall s c, spent (snd (run_call s c)) = spent s /\ exists new, stack (snd (run_call s c)) = new ++ stack s.
Proof.
  intros [st g] c.
  assert (U : forall l, spent (snd (use_local (Statics st g) l)) = g /\ exists new, stack (snd (use_local (Statics st g) l)) = new ++ st).
  { intros l. unfold use_local. destruct (has_local _ _); [split; [reflexivity|exists []; reflexivity]|].
    destruct (existsb _ _); [split; [reflexivity|exists []; reflexivity]|]. split; [reflexivity|]. exists [Local l]. reflexivity. }
  destruct c; cbn [run_call]; try apply U; cbn [snd stack spent]; (split; [reflexivity|exists []; reflexivity]).
Qed.
Lemma calls_grow : forall cs s, spent (snd (run_calls s cs)) = spent s /\ exists new, stack (snd (run_calls s cs)) = new ++ stack s.
Proof.
  induction cs as [|c cs IH]; intros s; [split; [reflexivity|exists []; reflexivity]|]. cbn [run_calls].
  destruct (call_grows s c) as (P & n1 & E1). destruct (run_call s c) as [r s1]. cbn [snd] in P, E1.
  destruct (IH s1) as (P2 & n2 & E2). destruct (run_calls s1 cs) as [l s2]. cbn [snd] in *.
  split; [congruence|]. exists (n2 ++ n1). rewrite <- app_assoc. congruence.
Qed.

(* a call that can be made from now on *)
Definition able (st : list thing) (c : call) : Prop := forall new gone, fst (run_call (Statics (new ++ st) gone) c) = in_main c.

Lemma able_more : forall new st c, able st c -> able (new ++ st) c.
Proof. intros new st c A n g. rewrite app_assoc. apply A. Qed.
Lemma able_run : forall st cs new gone, (forall c, In c cs -> able st c) -> as_in_main (fst (run_calls (Statics (new ++ st) gone) cs)).
Proof.
  intros st. induction cs as [|c cs IH]; intros new gone A; [intros c r []|]. cbn [run_calls].
  pose proof (A c (or_introl eq_refl) new gone) as R. destruct (call_grows (Statics (new ++ st) gone) c) as (P & n1 & E1).
  destruct (run_call (Statics (new ++ st) gone) c) as [r s1]. cbn [fst snd stack spent] in *.
  destruct s1 as [st1 g1]. cbn [stack spent] in *. subst st1 g1. rewrite app_assoc.
  specialize (IH (n1 ++ new) gone (fun d I => A d (or_intror I))).
  destruct (run_calls (Statics ((n1 ++ new) ++ st) gone) cs) as [l s2]. cbn [fst] in *.
  intros d q [X|X]; [|exact (IH _ _ X)]. assert (d = c) by congruence. assert (q = r) by congruence. subst d q. exact R.
Qed.
Lemma able_units : forall st gone c, (forall u, has_unit (Statics st gone) u = true) -> c <> CallPreface -> c <> CallConnect -> able st c.
Proof. intros st gone c U NP NC new g. rewrite needs_run; [reflexivity|intros u _; exact (has_app new st gone g u (U u))|assumption..]. Qed.
Lemma able_local : forall st gone l c, has_local (Statics st gone) l = true -> (forall s, run_call s c = use_local s l) -> in_main c = Ok VNothing -> able st c.
Proof. intros st gone l c H E M new g. rewrite E, M. unfold use_local. rewrite (hasl_app new st gone g l H). reflexivity. Qed.

Lemma local_there : forall s l, spent s = [] -> fst (use_local s l) = Ok VNothing /\ has_local (snd (use_local s l)) l = true.
Proof.
  intros [st g] l E. cbn [spent] in E. subst g. unfold use_local. destruct (has_local (Statics st []) l) eqn:H; [split; [reflexivity|exact H]|].
  cbn [spent existsb fst snd]. split; [reflexivity|]. destruct l; reflexivity.
Qed.
(* a call that went well goes well later *)
Lemma able_again : forall s c, spent s = [] -> fst (run_call s c) = in_main c -> able (stack (snd (run_call s c))) c.
Proof.
  intros s c E R.
  assert (D : c = CallPreface \/ c = CallConnect \/ (c <> CallPreface /\ c <> CallConnect)).
  { destruct c; auto; right; right; split; discriminate. }
  destruct D as [-> |[-> |[NP NC]]].
  - destruct (local_there s Preface E) as [_ H]. cbn [run_call]. destruct (use_local s Preface) as [r [st g]]. cbn [snd stack] in *.
    exact (able_local st g Preface CallPreface H (fun _ => eq_refl) eq_refl).
  - destruct (local_there s Alpn E) as [_ H]. cbn [run_call]. destruct (use_local s Alpn) as [r [st g]]. cbn [snd stack] in *.
    exact (able_local st g Alpn CallConnect H (fun _ => eq_refl) eq_refl).
  - assert (SS : snd (run_call s c) = s) by (destruct c; try reflexivity; contradiction). rewrite SS.
    intros new gone.
    assert (F : fewer (has_unit s) (has_unit (Statics (new ++ stack s) gone))).
    { intros u H. destruct s as [st g]. exact (has_app new st g gone u H). }
    destruct (run_below s _ c F NP NC) as [B|B]; [|congruence].
    destruct (C117_same_or_undefined (Statics (new ++ stack s) gone) c) as [X|X]; congruence.
Qed.
Lemma ctor_able : forall cs s, spent s = [] -> as_in_main (fst (run_calls s cs)) -> forall c, In c cs -> able (stack (snd (run_calls s cs))) c.
Proof.
  induction cs as [|c cs IH]; intros s E A d [].
  - subst d. cbn [run_calls] in *. pose proof (able_again s c E) as X. destruct (call_grows s c) as (P & n1 & E1).
    destruct (run_call s c) as [r s1]. cbn [fst snd] in *. destruct (calls_grow cs s1) as (P2 & n2 & E2).
    destruct (run_calls s1 cs) as [l s2]. cbn [fst snd] in *. rewrite E2. apply able_more. apply X. apply A. left. reflexivity.
  - cbn [run_calls] in *. destruct (call_grows s c) as (P & n1 & E1). destruct (run_call s c) as [r s1]. cbn [fst snd] in *.
    specialize (IH s1 (eq_trans P E)). destruct (run_calls s1 cs) as [l s2]. cbn [fst snd] in *. apply IH; [|assumption].
    intros x q I. apply A. right. exact I.
Qed.

Fixpoint each (P : nat -> list thing -> Prop) (st : list thing) : Prop :=
  match st with
  | [] => True
  | Own i :: rest => P i rest /\ each P rest
  | _ :: rest => each P rest
  end.
Lemma each_locals : forall P new st, each P st -> Forall (fun x => match x with Local _ => True | _ => False end) new -> each P (new ++ st).
Proof. intros P new st E F. induction F as [|x new X F IH]; [exact E|]. destruct x; try contradiction. exact IH. Qed.
Lemma each_imp : forall (P Q : nat -> list thing -> Prop), (forall i r, P i r -> Q i r) -> forall st, each P st -> each Q st.
Proof. intros P Q I. induction st as [|x st IH]; [auto|]. destruct x; cbn [each]; try exact IH. intros [A B]. auto. Qed.

Lemma call_locals : forall s c, exists new, stack (snd (run_call s c)) = new ++ stack s /\ Forall (fun x => match x with Local _ => True | _ => False end) new.
Proof.
  intros [st g] c.
  assert (U : forall l, exists new, stack (snd (use_local (Statics st g) l)) = new ++ st /\ Forall (fun x => match x with Local _ => True | _ => False end) new).
  { intros l. unfold use_local. destruct (has_local _ _); [exists []; split; [reflexivity|constructor]|].
    destruct (existsb _ _); [exists []; split; [reflexivity|constructor]|]. exists [Local l]. split; [reflexivity|]. constructor; [exact Coq.Init.Logic.I|constructor]. }
  destruct c; cbn [run_call]; try apply U; cbn [snd stack spent]; (exists []; split; [reflexivity|constructor]).
Qed.
Lemma calls_locals : forall cs s, exists new, stack (snd (run_calls s cs)) = new ++ stack s /\ Forall (fun x => match x with Local _ => True | _ => False end) new.
Proof.
  induction cs as [|c cs IH]; intros s; [exists []; split; [reflexivity|constructor]|]. cbn [run_calls].
  destruct (call_locals s c) as (n1 & E1 & F1). destruct (run_call s c) as [r s1]. cbn [snd] in E1.
  destruct (IH s1) as (n2 & E2 & F2). destruct (run_calls s1 cs) as [l s2]. cbn [snd] in *.
  exists (n2 ++ n1). split; [rewrite <- app_assoc; congruence|]. apply Forall_app. split; assumption.
Qed.

(* what was there when an object of the program was complete *)
Definition built (ctor : nat -> list call) (l : list (call * res value)) (i : nat) (rest : list thing) : Prop :=
  exists s, spent s = [] /\ rest = stack (snd (run_calls s (ctor i))) /\ incl (fst (run_calls s (ctor i))) l.

Lemma init_built : forall ctor o s l0, spent s = [] -> each (built ctor l0) (stack s) ->
  let z := initialise ctor s o in
  spent (snd z) = [] /\ each (built ctor (l0 ++ fst z)) (stack (snd z)) /\ (exists new, stack (snd z) = new ++ stack s) /\
  forall u, In (Library u) o -> has_unit (snd z) u = true.
Proof.
  intros ctor. induction o as [|x o IH]; intros s l0 E B.
  - cbn [initialise fst snd]. split; [exact E|]. rewrite app_nil_r. split; [exact B|]. split; [exists []; reflexivity|intros u []].
  - cbn [initialise]. destruct x as [v|i].
    + destruct (IH (Statics (Unit v :: stack s) (spent s)) l0 E B) as (E2 & B2 & (new & N) & U). cbv zeta.
      split; [exact E2|]. split; [exact B2|]. cbn [stack] in N. split; [exists (new ++ [Unit v]); rewrite N, <- app_assoc; reflexivity|].
      intros u [X|X]; [|exact (U u X)]. assert (u = v) by congruence. subst u. destruct (snd _) as [st g]. cbn [stack] in N. subst st.
      unfold has_unit. cbn [stack]. rewrite existsb_app. cbn [existsb]. replace (unit_eqb v v) with true by (destruct v; reflexivity). apply orb_true_r.
    + destruct (calls_grow (ctor i) s) as (P & n1 & E1). destruct (calls_locals (ctor i) s) as (n1' & E1' & F1).
      assert (n1 = n1') by (apply app_inv_tail with (stack s); congruence). subst n1'.
      pose proof (fun X Y => IH (Statics (Own i :: stack (snd (run_calls s (ctor i)))) (spent (snd (run_calls s (ctor i))))) (l0 ++ fst (run_calls s (ctor i))) X Y) as Z.
      assert (BI : built ctor (l0 ++ fst (run_calls s (ctor i))) i (stack (snd (run_calls s (ctor i))))).
      { exists s. split; [exact E|]. split; [reflexivity|]. apply incl_appr, incl_refl. }
      destruct (run_calls s (ctor i)) as [l s1]. cbn [fst snd] in *.
      destruct Z as (E2 & B2 & (new & N) & U).
      { cbn [spent]. congruence. }
      { cbn [stack each]. split; [exact BI|]. rewrite E1. apply each_locals; [|exact F1].
        revert B. apply each_imp. intros j r (s0 & S0 & R0 & I0). exists s0. split; [exact S0|]. split; [exact R0|]. apply incl_appl. exact I0. }
      destruct (initialise ctor (Statics (Own i :: stack s1) (spent s1)) o) as [l' s2]. cbn [fst snd stack] in *. cbv zeta.
      split; [exact E2|]. split; [rewrite app_assoc; exact B2|]. split.
      * exists (new ++ Own i :: n1). rewrite N, E1, <- app_assoc. reflexivity.
      * intros u [X|X]; [discriminate X|exact (U u X)].
Qed.

Lemma finish_able : forall dtor st gone, each (fun i rest => forall c, In c (dtor i) -> able rest c) st -> as_in_main (finish dtor st gone).
Proof.
  intros dtor. induction st as [|x st IH]; intros gone E; [intros c r []|]. destruct x as [u|l|i]; cbn [finish each] in *.
  - apply IH. exact E.
  - apply IH. exact E.
  - destruct E as [A E]. pose proof (able_run st (dtor i) [] gone A) as R. cbn [app] in R.
    destruct (run_calls (Statics st gone) (dtor i)) as [l s1]. cbn [fst] in R.
    intros c r I. apply in_app_or in I. destruct I as [I|I]; [exact (R c r I)|]. exact (IH _ E c r I).
Qed.

Lemma main_able : forall cs s, spent s = [] -> (forall u, has_unit s u = true) -> as_in_main (fst (run_calls s cs)).
Proof.
  induction cs as [|c cs IH]; intros s E U; [intros c r []|]. cbn [run_calls].
  assert (R : fst (run_call s c) = in_main c).
  { destruct (C117_same_or_undefined s c) as [X|X]; [exact X|].
    assert (D : c = CallPreface \/ c = CallConnect \/ (c <> CallPreface /\ c <> CallConnect)).
    { destruct c; auto; right; right; split; discriminate. }
    destruct D as [-> |[-> |[NP NC]]]; [cbn [run_call]; apply local_there; exact E..|].
    rewrite needs_run; [reflexivity|intros u _; apply U|assumption..]. }
  destruct (call_grows s c) as (P & n1 & E1). destruct (run_call s c) as [r s1]. cbn [fst snd] in *.
  specialize (IH s1). destruct (run_calls s1 cs) as [l s2]. cbn [fst] in *. intros d q [X|X].
  - assert (d = c) by congruence. assert (q = r) by congruence. subst d q. exact R.
  - apply IH; [congruence| |exact X]. intros u. destruct s1 as [st g], s as [st0 g0]. cbn [stack spent] in *. subst st.
    apply (has_app n1 st0 g0). apply U.
Qed.

Lemma finish_none : forall st gone, finish (fun _ => []) st gone = [].
Proof.
  induction st as [|x st IH]; intros gone; [reflexivity|]. destruct x; cbn [finish]; apply IH || (cbn [run_calls stack]; rewrite Nat.sub_diag; cbn [firstn app locals_of flat_map]; apply IH).
Qed.
Lemma before_main_run : forall p, run (before_main p) = fst (initialise (constructor p) (Statics [] []) (order p)).
Proof.
  intros p. unfold run, before_main. cbn [constructor order main_calls destructor].
  destruct (initialise (constructor p) (Statics [] []) (order p)) as [l s]. cbn [run_calls fst app]. rewrite finish_none. apply app_nil_r.
Qed.

(* C117: if the calls of the constructors before main go well, and every object's
   destructor makes only calls its constructor makes, all calls do what they do in
   main. *)
Theorem C117_symmetric_partial : forall p, linked p -> as_in_main (run (before_main p)) ->
  (forall i c, In c (destructor p i) -> In c (constructor p i)) -> as_in_main (run p).
Proof.
  intros p L G D. rewrite before_main_run in G. unfold run.
  destruct (init_built (constructor p) (order p) (Statics [] []) [] eq_refl Coq.Init.Logic.I) as (E & B & _ & U). cbn [app] in B.
  destruct (initialise (constructor p) (Statics [] []) (order p)) as [l1 s1]. cbn [fst snd] in *.
  pose proof (main_able (main_calls p) s1 E (fun u => U u (L u))) as M.
  destruct (calls_locals (main_calls p) s1) as (new & N & F). destruct (run_calls s1 (main_calls p)) as [l2 s2]. cbn [fst snd] in *.
  intros c r I. apply in_app_or in I. destruct I as [I|I]; [exact (G c r I)|]. apply in_app_or in I. destruct I as [I|I]; [exact (M c r I)|].
  revert c r I. apply finish_able. rewrite N. apply each_locals; [|exact F]. revert B. apply each_imp.
  intros i rest (s & S & -> & IN) c I. apply (ctor_able (constructor p i) s S); [|apply D; exact I].
  intros d q J. exact (G d q (IN _ J)).
Qed.

Lemma init_first : forall ctor us is s, (forall u, In u us \/ has_unit s u = true) -> spent s = [] ->
  as_in_main (fst (initialise ctor s (map Library us ++ map Program is))) /\
  (each (fun _ rest => forall u, has_unit (Statics rest []) u = true) (stack s) ->
   each (fun _ rest => forall u, has_unit (Statics rest []) u = true) (stack (snd (initialise ctor s (map Library us ++ map Program is))))).
Proof.
  intros ctor. induction us as [|v us IH]; intros is s U E.
  - cbn [map app]. assert (U2 : forall u, has_unit s u = true) by (intros u; destruct (U u) as [[]|X]; exact X). clear U.
    revert s E U2. induction is as [|i is IH2]; intros s E U; [split; [intros c r []|auto]|]. cbn [map initialise].
    pose proof (main_able (ctor i) s E U) as M. destruct (calls_grow (ctor i) s) as (P & _). destruct (calls_locals (ctor i) s) as (new & N & F).
    destruct (run_calls s (ctor i)) as [l s1]. cbn [fst snd] in *.
    assert (U1 : forall g u, has_unit (Statics (stack s1) g) u = true).
    { intros g u. rewrite N. destruct s as [st g0]. cbn [stack] in *. apply (has_app new st g0). apply U. }
    destruct (IH2 (Statics (Own i :: stack s1) (spent s1))) as [A B].
    { cbn [spent]. congruence. }
    { intros u. apply (has_app [Own i] (stack s1) []). apply U1. }
    destruct (initialise ctor (Statics (Own i :: stack s1) (spent s1)) (map Program is)) as [l' s2]. cbn [fst snd] in *. split.
    + intros c r I. apply in_app_or in I. destruct I as [I|I]; [exact (M c r I)|exact (A c r I)].
    + intros X. apply B. cbn [stack each]. split; [apply U1|]. rewrite N. apply each_locals; assumption.
  - cbn [map app initialise]. destruct (IH is (Statics (Unit v :: stack s) (spent s))) as [A B]; [|exact E|].
    + intros u. destruct (U u) as [[->|X]|X]; [right|left; exact X|right].
      * unfold has_unit. cbn [stack existsb]. replace (unit_eqb u u) with true by (destruct u; reflexivity). reflexivity.
      * destruct s as [st g]. apply (has_app [Unit v] st g). exact X.
    + split; [exact A|]. intros X. apply B. exact X.
Qed.

Lemma each_and : forall (P Q : nat -> list thing -> Prop) st, each P st -> each Q st -> each (fun i r => P i r /\ Q i r) st.
Proof. intros P Q. induction st as [|x st IH]; [auto|]. destruct x; cbn [each]; try exact IH. intros [A B] [C D]. auto. Qed.

(* C117: if the library's units are initialised before the program's, the library
   can be used in constructors, in main and in destructors alike; a destructor that
   sends the preface or opens a connection must belong to an object whose
   constructor has done so. *)
Theorem C117_library_first_partial : forall p, library_first p ->
  (forall i c, In c (destructor p i) -> c = CallPreface \/ c = CallConnect -> In c (constructor p i)) -> as_in_main (run p).
Proof.
  intros p (us & is & O & US) D. unfold run.
  destruct (init_built (constructor p) (order p) (Statics [] []) [] eq_refl Coq.Init.Logic.I) as (E & B & _ & U). cbn [app] in B.
  destruct (init_first (constructor p) us is (Statics [] []) (fun u => or_introl (US u)) eq_refl) as [G R]. specialize (R Coq.Init.Logic.I).
  rewrite <- O in G, R.
  assert (L : linked p). { intros u. rewrite O. apply in_or_app. left. apply in_map. apply US. }
  destruct (initialise (constructor p) (Statics [] []) (order p)) as [l1 s1]. cbn [fst snd] in *.
  pose proof (main_able (main_calls p) s1 E (fun u => U u (L u))) as M.
  destruct (calls_locals (main_calls p) s1) as (new & N & F). destruct (run_calls s1 (main_calls p)) as [l2 s2]. cbn [fst snd] in *.
  intros c r I. apply in_app_or in I. destruct I as [I|I]; [exact (G c r I)|]. apply in_app_or in I. destruct I as [I|I]; [exact (M c r I)|].
  revert c r I. apply finish_able. rewrite N. apply each_locals; [|exact F]. generalize (each_and _ _ _ B R). apply each_imp.
  intros i rest [(s & S & -> & IN) UU] c I.
  assert (DC : (c = CallPreface \/ c = CallConnect) \/ (c <> CallPreface /\ c <> CallConnect)).
  { destruct c; auto; right; split; discriminate. }
  destruct DC as [C|[NP NC]].
  - apply (ctor_able (constructor p i) s S); [|apply D; assumption]. intros d q J. exact (G d q (IN _ J)).
  - apply able_units with []; assumption.
Qed.

Lemma calls_units : forall cs s u, In (Unit u) (stack (snd (run_calls s cs))) <-> In (Unit u) (stack s).
Proof.
  intros cs s u. destruct (calls_locals cs s) as (new & -> & F). rewrite in_app_iff. split; [|auto]. intros [X|X]; [|exact X].
  rewrite Forall_forall in F. destruct (F _ X).
Qed.
Lemma init_units : forall ctor o s u, In (Unit u) (stack (snd (initialise ctor s o))) <-> In (Unit u) (stack s) \/ In (Library u) o.
Proof.
  intros ctor. induction o as [|x o IH]; intros s u; [cbn; tauto|]. cbn [initialise]. destruct x as [v|i].
  - rewrite IH. cbn [stack In]. split.
    + intros [[X|X]|X]; [right; left|left; exact X|right; right; exact X]. congruence.
    + intros [X|[X|X]]; [left; right; exact X|left; left|right; exact X]. congruence.
  - pose proof (calls_units (ctor i) s u) as C. destruct (run_calls s (ctor i)) as [l s1]. cbn [snd] in C.
    specialize (IH (Statics (Own i :: stack s1) (spent s1)) u). destruct (initialise ctor (Statics (Own i :: stack s1) (spent s1)) o) as [l' s2]. cbn [snd stack In] in *.
    rewrite IH. split.
    + intros [[X|X]|X]; [discriminate X|left; apply C; exact X|right; right; exact X].
    + intros [X|[X|X]]; [left; right; apply C; exact X|discriminate X|right; exact X].
Qed.
Lemma calls_all : forall cs s, (forall c, In c cs -> c <> CallPreface /\ c <> CallConnect /\ forall u, needed c u -> In (Unit u) (stack s)) ->
  run_calls s cs = (map (fun c => (c, in_main c)) cs, s).
Proof.
  induction cs as [|c cs IH]; intros s H; [reflexivity|]. cbn [run_calls map]. destruct (H c (or_introl eq_refl)) as (NP & NC & N).
  rewrite (C117_needs s c N NP NC), IH; [reflexivity|]. intros d I. apply H. right. exact I.
Qed.

(* C117: a constructor can call what needs the tables of the units initialised
   before its own, and these only. *)
Theorem C117_constructor : forall p before i after, order p = before ++ Program i :: after ->
  exists l1 l2 s, run (before_main p) = l1 ++ fst (run_calls s (constructor p i)) ++ l2 /\
    (forall u, In (Unit u) (stack s) <-> In (Library u) before) /\
    ((forall c, In c (constructor p i) -> c <> CallPreface /\ c <> CallConnect /\ forall u, needed c u -> In (Library u) before) ->
     fst (run_calls s (constructor p i)) = map (fun c => (c, in_main c)) (constructor p i)).
Proof.
  intros p before i after O. rewrite before_main_run, O.
  assert (A : forall o s, initialise (constructor p) s (o ++ Program i :: after) =
    let (l1, s1) := initialise (constructor p) s o in
    let (l2, s2) := run_calls s1 (constructor p i) in
    let (l3, s3) := initialise (constructor p) (Statics (Own i :: stack s2) (spent s2)) after in (l1 ++ l2 ++ l3, s3)).
  { induction o as [|x o IH]; intros s; [cbn [app initialise]; reflexivity|]. cbn [app initialise]. destruct x as [v|j]; [apply IH|].
    destruct (run_calls s (constructor p j)) as [l s1]. rewrite IH.
    destruct (initialise (constructor p) (Statics (Own j :: stack s1) (spent s1)) o) as [l1 s2].
    destruct (run_calls s2 (constructor p i)) as [l2 s3]. destruct (initialise (constructor p) (Statics (Own i :: stack s3) (spent s3)) after) as [l3 s4].
    rewrite app_assoc. reflexivity. }
  rewrite A. pose proof (init_units (constructor p) before (Statics [] [])) as U.
  destruct (initialise (constructor p) (Statics [] []) before) as [l1 s1]. cbn [snd stack] in U.
  pose proof (calls_all (constructor p i) s1) as C.
  exists l1. destruct (run_calls s1 (constructor p i)) as [l2 s2] eqn:R.
  destruct (initialise (constructor p) (Statics (Own i :: stack s2) (spent s2)) after) as [l3 s3]. exists l3, s1. rewrite R. cbn [fst].
  split; [reflexivity|]. split. { intros u. rewrite U. cbn [In]. tauto. }
  intros H. assert (E : (l2, s2) = (map (fun c => (c, in_main c)) (constructor p i), s1)); [apply C|congruence]. intros c I. destruct (H c I) as (NP & NC & N). split; [exact NP|]. split; [exact NC|].
  intros u X. apply U. right. exact (N u X).
Qed.

(* C117: in main everything can be used, whatever was done before. *)
Theorem C117_main : forall p c r, linked p ->
  In (c, r) (fst (run_calls (snd (initialise (constructor p) (Statics [] []) (order p))) (main_calls p))) -> r = in_main c.
Proof.
  intros p c r L I. destruct (init_built (constructor p) (order p) (Statics [] []) [] eq_refl Coq.Init.Logic.I) as (E & _ & _ & U).
  exact (main_able _ _ E (fun u => U u (L u)) c r I).
Qed.

(* C117: the order of the units is not fixed by the language.  An object whose
   constructor makes a header block, or takes a frame, in a unit that comes before
   the library's: undefined, although main could do the same. *)
Theorem C117_order_refuted : exists p c1 c2, linked p /\ constructor p 0%nat = [c1; c2] /\ main_calls p = [c1; c2] /\
  (exists b, in_main c1 = Ok (VBlock b)) /\ (exists f, in_main c2 = Ok (VFrame f)) /\
  run p = [(c1, UB NullDeref); (c2, UB NullDeref); (c1, in_main c1); (c2, in_main c2)].
Proof.
  pose (c1 := CallBlock NeverIndexed [(str ":method", str "GET")]). pose (c2 := CallReceived Lenient (FH 0 T_SETTINGS 1 0 0) [] default_table).
  exists (Prog (Program 0 :: map Library all_units) (fun _ => [c1; c2]) [c1; c2] (fun _ => [])), c1, c2.
  split. { intros u. right. apply in_map. destruct u; cbn; auto 10. }
  split; [reflexivity|]. split; [reflexivity|]. split; [eexists; reflexivity|]. split; [eexists; reflexivity|]. vm_compute. reflexivity.
Qed.

(* C117: and even when the library's units come first: main sends the preface; an
   object of the program, older than the library's copy of the preface, sends one
   in its destructor. *)
Theorem C117_preface_refuted : exists p, library_first p /\ main_calls p = [CallPreface] /\ destructor p 0%nat = [CallPreface] /\
  run p = [(CallPreface, Ok VNothing); (CallPreface, UB NullDeref)].
Proof.
  exists (Prog (map Library all_units ++ map Program [0%nat]) (fun _ => []) [CallPreface] (fun _ => [CallPreface])).
  split. { exists all_units, [0%nat]. split; [reflexivity|]. intros u. destruct u; cbn; auto 10. }
  split; [reflexivity|]. split; [reflexivity|]. reflexivity.
Qed.

(* C117: nor can two destructors send the preface, even if nobody else does. *)
Theorem C117_destructors_refuted : exists p, library_first p /\ main_calls p = [] /\ (forall i, constructor p i = []) /\
  order p = map Library all_units ++ [Program 0%nat; Program 1%nat] /\ (forall i, destructor p i = [CallPreface]) /\
  run p = [(CallPreface, Ok VNothing); (CallPreface, UB NullDeref)].
Proof.
  exists (Prog (map Library all_units ++ map Program [0%nat; 1%nat]) (fun _ => []) [] (fun _ => [CallPreface])).
  split. { exists all_units, [0%nat; 1%nat]. split; [reflexivity|]. intros u. destruct u; cbn; auto 10. }
  repeat split.
Qed.

(* C117: an object that makes a request in its constructor, prints the answer and
   says goodbye in its destructor, with the library's units first; and an object in
   a unit between those of the library that uses only what is there. *)
Example C117_case :
  let get := [(str ":method", str "GET"); (str ":path", str "/"); (str "accept", str "x")] in
  let p := Prog (map Library all_units ++ map Program [0%nat])
    (fun _ => [CallConnect; CallPreface; CallBlock NeverIndexed get; CallEncode [HEntry NeverIndexed (EHeader (str "accept", str "x"))] ModeHuffman default_table])
    [CallReceived Lenient (FH 4 T_HEADERS 5 0 1) (0x88 :: 0x0f :: 0x0d :: [0]) default_table]
    (fun _ => [CallPrint Lenient false (GoawayFrame (FH 8 T_GOAWAY 0 0 0) (Goaway 0 0 0 [])); CallPreface]) in
  let q := Prog [Library StaticTables; Program 7%nat; Library HuffmanTables; Library BuilderTable; Library SettingsNames; Library RstNames; Library GoawayNames]
    (fun _ => [CallBlock NeverIndexed get]) [CallPreface] (fun _ => [CallBlock NeverIndexed get]) in
  library_first p /\ (forall i c, In c (destructor p i) -> c = CallPreface \/ c = CallConnect -> In c (constructor p i)) /\
  length (run p) = 7%nat /\ forallb (fun x => match snd x with Ok _ => true | _ => false end) (run p) = true /\
  linked q /\ as_in_main (run (before_main q)) /\ length (run q) = 3%nat /\
  run_call (Statics [Unit StaticTables] []) (CallBlock NeverIndexed get) = (in_main (CallBlock NeverIndexed get), Statics [Unit StaticTables] []) /\
  fst (run_call (Statics [Unit StaticTables] []) (CallEncode [HEntry NeverIndexed (EHeader (str "accept", str "x"))] ModeHuffman default_table)) = UB NullDeref.
Proof.
  cbv zeta. split. { eexists _, _. split; [reflexivity|]. intros u. destruct u; cbn; auto 10. }
  split. { intros i c [<-|[<-|[]]] [X|X]; try discriminate X; cbn; auto. }
  split; [vm_compute; reflexivity|]. split; [vm_compute; reflexivity|].
  split. { intros u. destruct u; cbn; auto 10. }
  split. { intros c r [X|[]]. apply pair_equal_spec in X. destruct X as [<- <-]. vm_compute. reflexivity. }
  split; [vm_compute; reflexivity|]. split; [vm_compute; reflexivity|]. vm_compute. reflexivity.
Qed.

Print Assumptions C117_same_or_undefined.
Print Assumptions C117_needs.
Print Assumptions C117_needs_exactly.
Print Assumptions C117_symmetric_partial.
Print Assumptions C117_library_first_partial.
Print Assumptions C117_constructor.
Print Assumptions C117_main.
Print Assumptions C117_order_refuted.
Print Assumptions C117_preface_refuted.
Print Assumptions C117_destructors_refuted.
