(* Properties C56, C59-C61: the text output. *)
From Coq Require Import String.
From Coq Require Import ZArith NArith List Bool Lia ZifyBool ZifyNat ZifyN.
From Verif Require Import Base Arith Util HeaderType DynTable StaticTable HeaderEnc HeaderDec FrameHeader Frames FrameBuilder Dump
  SpecBits SpecHpack SpecFrame UtilProofs DynTableProofs StaticProofs HeaderProofs FrameProofs BlockProofs PropFrame PropBlock PropClient PropHistory
  DumpProofs.
Import ListNotations.
Local Open Scope string_scope.
Local Open Scope list_scope.
Local Open Scope N_scope.
Ltac Zify.zify_post_hook ::= Z.div_mod_to_equations.

(* ---------------------------------------------------------------- C56 *)

(* The received frames whose printing stays inside the frame's own data:
   - a DATA payload that is padded has a pad length and at least that much
     padding (and, for an implementation that checks v[i], an octet of data or
     padding; an unpadded one an octet of data);
   - the debug data of GOAWAY is empty or contains a zero octet. *)
Definition printable (m : ub_mode) (f : frame) : Prop :=
  match f with
  | DataFrame h p =>
      if has_padded (fh_flags h)
      then exists n rest, p = n :: rest /\ n <= size rest /\ (m = Strict -> rest <> [])
      else m = Strict -> p <> []
  | GoawayFrame _ g => g_debug g = [] \/ In 0 (g_debug g)
  | _ => True
  end.

Lemma size_first : forall (a : N) l, size (a :: l) = 1 + size l.
Proof. intros. unfold size. cbn [length]. lia. Qed.

Definition block_of (f : frame) : header_block :=
  match f with
  | HeadersFrame _ _ _ _ b | ContinuationFrame _ _ b => b
  | PushPromiseFrame _ _ p => pp_block p
  | _ => []
  end.

Lemma built_coherent : forall m h raw t f, is_octets raw -> build_frame m h raw t = Ok f -> Forall coherent (block_of f).
Proof.
  intros m h raw t f O H. unfold build_frame in H.
  destruct (_ =? _); [injection H as <-; constructor|].
  destruct (_ =? _).
  { unfold build_headers_frame in H. destruct (parse_headers m h raw t) as [g|y|u|] eqn:P; try discriminate H; injection H as <-; [|constructor].
    unfold parse_headers, headers_decode_payload in P. apply bind_ok in P. destruct P as ([[pad pr] b] & P & Q). injection Q as <-.
    apply bind_ok in P. destruct P as ([pad1 d1] & E1 & P). cbn beta iota in P.
    apply bind_ok in P. destruct P as ([pr1 d2] & E2 & P). cbn beta iota in P.
    apply bind_ok in P. destruct P as (b1 & E3 & P). injection P as <- <- <-. cbn [block_of].
    assert (O1 : is_octets d1).
    { destruct (is_flag_set (fh_flags h) F_PADDED); [eapply padding_octets; eassumption|]. injection E1 as _ <-. exact O. }
    eapply block_coherent; [|exact E3].
    destruct (is_flag_set (fh_flags h) F_PRIORITY); [eapply priority_octets; eassumption|]. injection E2 as _ <-. exact O1. }
  destruct (_ =? _); [unfold parse_priority in H; open_ok H; injection H as <-; constructor|].
  destruct (_ =? _); [unfold parse_rst_stream in H; destruct (_ <? _); [discriminate H|]; open_ok H; injection H as <-; constructor|].
  destruct (_ =? _); [unfold build_settings_frame in H; open_ok H; injection H as <-; constructor|].
  destruct (_ =? _).
  { unfold parse_push_promise in H. apply bind_ok in H. destruct H as (p & P & H). injection H as <-. cbn [block_of].
    unfold push_promise_decode_payload in P.
    apply bind_ok in P. destruct P as ([pad1 d1] & E1 & P). cbn beta iota in P.
    apply bind_ok in P. destruct P as (b0 & _ & P).
    apply bind_ok in P. destruct P as (z & _ & P).
    apply bind_ok in P. destruct P as (d2 & E2 & P).
    apply bind_ok in P. destruct P as (b & E3 & P). injection P as <-. cbn [pp_block].
    eapply block_coherent; [|exact E3]. eapply octets_erase; [|exact E2].
    destruct (is_flag_set (fh_flags h) F_PADDED); [eapply padding_octets; eassumption|]. injection E1 as _ <-. exact O. }
  destruct (_ =? _); [unfold parse_ping in H; injection H as <-; constructor|].
  destruct (_ =? _); [unfold parse_goaway in H; open_ok H; injection H as <-; constructor|].
  destruct (_ =? _); [unfold parse_window_update in H; open_ok H; injection H as <-; constructor|].
  destruct (_ =? _); [|discriminate H].
  unfold parse_continuation in H. open_ok H. injection H as <-. cbn [block_of]. eapply block_coherent; eassumption.
Qed.

Lemma dump_block_ok : forall b, Forall coherent b -> exists x, dump_block b = Ok x.
Proof.
  intros b F. unfold dump_block. assert (E : exists x, dump_entries b = Ok x).
  { induction F as [|e b C F [y IH]]; [exists []; reflexivity|]. cbn [dump_entries]. rewrite IH.
    destruct e as [p [h|k]]; unfold coherent in C; cbn [e_prefix e_content] in C; destruct p; try contradiction; cbn; eauto. }
  destruct E as [x ->]. cbn [bind]. eauto.
Qed.

Lemma error_code_ok : forall code, exists x, dump_error_code code = Ok x.
Proof.
  intros code. unfold dump_error_code, UNKNOWN_ERROR. destruct (N.ltb_spec code 14).
  - assert (K : In code (map N.of_nat (seq 0 14))) by (rewrite <- (N2Nat.id code); apply in_map, in_seq; lia).
    cbn in K. repeat (destruct K as [<-|K]; [cbn; eauto|]). destruct K.
  - cbn. eauto.
Qed.

Lemma settings_dump_ok : forall hex ps, exists x, dump_settings hex ps = Ok x.
Proof.
  intros hex. induction ps as [|[k v] ps [y IH]]; [cbn; eauto|]. cbn [dump_settings]. rewrite IH. unfold SETTINGS_UNKNOWN.
  destruct (N.ltb_spec k 1); cbn [orb]; [cbn; eauto|]. destruct (N.leb_spec 7 k); [cbn; eauto|].
  assert (K : In k (map N.of_nat (seq 1 6))) by (rewrite <- (N2Nat.id k); apply in_map, in_seq; lia).
  cbn in K. repeat (destruct K as [<-|K]; [cbn; eauto|]). destruct K.
Qed.

Lemma c_string_ok : forall l, In 0 l -> exists x, put_c_string l = Ok x.
Proof.
  induction l as [|b l IH]; intros H; [destruct H|]. cbn [put_c_string]. destruct (N.eqb_spec b 0); [eauto|].
  destruct H as [H|H]; [lia|]. destruct (IH H) as [x ->]. cbn [bind]. eauto.
Qed.

Lemma c_string_ub : forall l, ~ In 0 l -> put_c_string l = UB OobRead.
Proof.
  induction l as [|b l IH]; intros H; [reflexivity|]. cbn [put_c_string]. destruct (N.eqb_spec b 0).
  - destruct H. left. exact e.
  - rewrite IH; [reflexivity|]. intros K. apply H. right. exact K.
Qed.

(* the text of a DATA payload that is well formed *)
Definition data_text (h : frame_header) (padding_length : N) (data padding : list N) : bytes :=
  str "=== DATA FRAME ===" ++ nl ++ dump_fh h ++ str "[PAYLOAD]" ++ nl ++
  str "  Pad Length: " ++ to_string padding_length ++ nl ++
  str "  Data      : " ++ nl ++ str "    " ++ indent data ++ nl ++
  str "  Padding   : " ++ nl ++ dump_hex (nl ++ str "              ") 0 padding ++ nl.

Lemma data_length_padded : forall n rest, n <= size rest -> 1 + size rest < 2 ^ 32 ->
  data_length true (size (n :: rest)) n = size rest - n.
Proof.
  intros n rest N L. unfold data_length, u32. rewrite size_first. change (2 ^ 32) with 4294967296 in *. change (2 ^ 64) with 18446744073709551616.
  generalize dependent (size rest). intros s N L. lia.
Qed.

Lemma dump_data_padded : forall m hex h n data padding, has_padded (fh_flags h) = true ->
  let p := n :: data ++ padding in n = size padding -> fh_length h = size p -> size p < 2 ^ 32 ->
  (m = Strict -> data ++ padding <> []) ->
  dump_data m hex h p = Ok (data_text h n data padding, hex_after hex padding).
Proof.
  intros m hex h n data padding F p E Q L NE. unfold dump_data. rewrite padded_flag, F, Q.
  assert (V : vget p 0 = Ok n).
  { unfold vget, p. rewrite size_first. destruct (N.ltb_spec 0 (1 + size (data ++ padding))); [reflexivity|lia]. }
  rewrite V. cbn [bind].
  assert (A : address_of m p 1 = Ok tt).
  { unfold address_of. destruct m; [|reflexivity]. unfold p. rewrite size_first. destruct (N.ltb_spec 1 (1 + size (data ++ padding))); [reflexivity|].
    destruct (data ++ padding); [destruct NE; reflexivity|]. rewrite size_first in H. lia. }
  rewrite A. cbn [bind]. unfold p in L. rewrite size_first in L.
  unfold p at 2. rewrite data_length_padded by (rewrite ?size_app in *; lia).
  assert (K : size (data ++ padding) - n = size data) by (rewrite size_app; lia). rewrite K.
  assert (R : vrange p 1 (size data) = Ok data).
  { unfold vrange, p. rewrite size_first, size_app. destruct (N.leb_spec (1 + size data) (1 + (size data + size padding))); [|lia].
    change (N.to_nat 1) with 1%nat. cbn [skipn]. unfold size. rewrite Nat2N.id, firstn_app, firstn_all, Nat.sub_diag, firstn_O, app_nil_r. reflexivity. }
  rewrite R. cbn [bind].
  destruct (N.leb_spec n (size p)) as [G|G]; [|unfold p in G; rewrite size_first, size_app in G; lia].
  assert (S : skipn (N.to_nat (size p - n)) p = padding).
  { unfold p. rewrite size_first, size_app. replace (N.to_nat (1 + (size data + size padding) - n)) with (length (n :: data)) by (unfold size in *; cbn [length]; lia).
    rewrite app_comm_cons. rewrite skipn_app, skipn_all, Nat.sub_diag. reflexivity. }
  rewrite S. cbn [bind]. reflexivity.
Qed.

Lemma dump_data_plain : forall m hex h data, has_padded (fh_flags h) = false -> fh_length h = size data ->
  (m = Strict -> data <> []) -> dump_data m hex h data = Ok (data_text h 0 data [], hex).
Proof.
  intros m hex h data F Q NE. unfold dump_data. rewrite padded_flag, F, Q. cbn [bind].
  assert (A : address_of m data 0 = Ok tt).
  { unfold address_of. destruct m; [|reflexivity]. destruct data; [destruct NE; reflexivity|]. rewrite size_first. destruct (N.ltb_spec 0 (1 + size data)); [reflexivity|lia]. }
  rewrite A. cbn [bind data_length]. unfold vrange. rewrite N.add_0_l, N.leb_refl. cbn [N.to_nat skipn]. unfold size. rewrite Nat2N.id, firstn_all.
  reflexivity.
Qed.

(* What is printed for a received DATA frame. *)
Theorem C56_data_text : forall m hex h t contents padding, fh_type h = DATA ->
  let payload := padded_payload (has_padded (fh_flags h)) contents padding in
  size payload < 2 ^ 32 -> (m = Strict -> contents <> []) ->
  exists f, build_frame m h payload t = Ok f /\
    dump m hex f =
    Ok (data_text (FH (size payload) DATA (fh_flags h) 0 (fh_stream_id h))
          (if has_padded (fh_flags h) then size padding else 0)
          contents (if has_padded (fh_flags h) then padding else []),
        hex_after hex (if has_padded (fh_flags h) then padding else [])).
Proof.
  intros m hex [len ty fl r sid] t contents padding T payload L NE. cbn [fh_type fh_flags fh_stream_id] in *. subst ty.
  eexists. split; [reflexivity|]. unfold mk_data, dump, cast_to_fh_length. cbn [fh_flags fh_stream_id]. rewrite (u32_small (size payload)) by exact L.
  destruct (has_padded fl) eqn:F.
  - subst payload. cbn [padded_payload app] in *. apply dump_data_padded; try reflexivity; try assumption.
    intros S K. apply app_eq_nil in K. destruct K as [K _]. destruct (NE S K).
  - subst payload. cbn [padded_payload] in *. apply dump_data_plain; [exact F|reflexivity|exact NE].
Qed.

Lemma printable_data : forall m h p, size p < 2 ^ 32 -> fh_length h = size p ->
  (printable m (DataFrame h p) -> exists r, forall hex, exists b, dump_data m hex h p = Ok (r, b)) /\
  (is_octets p -> ~ printable m (DataFrame h p) -> forall hex, exists u, dump_data m hex h p = UB u).
Proof.
  intros m h p L Q. cbn [printable]. destruct (has_padded (fh_flags h)) eqn:F.
  - split.
    + intros (n & rest & -> & N & NE).
      pose (k := (length rest - N.to_nat n)%nat).
      assert (S : rest = firstn k rest ++ skipn k rest) by (symmetry; apply firstn_skipn).
      assert (Z : size (skipn k rest) = n) by (unfold size in *; rewrite skipn_length; unfold k; lia).
      exists (data_text h n (firstn k rest) (skipn k rest)). intros hex. exists (hex_after hex (skipn k rest)).
      rewrite S at 1. rewrite S in Q, L. apply dump_data_padded; try assumption; [symmetry; exact Z|].
      intros M. rewrite <- S. apply NE, M.
    + intros O NP hex. unfold dump_data. rewrite padded_flag, F, Q. destruct p as [|n rest]; [eexists; reflexivity|].
      assert (V : vget (n :: rest) 0 = Ok n).
      { unfold vget. rewrite size_first. destruct (N.ltb_spec 0 (1 + size rest)); [reflexivity|lia]. }
      rewrite V. cbn [bind]. destruct (address_of m (n :: rest) 1) as [[]|x|u|] eqn:A; unfold address_of in A.
      * cbn [bind].
        assert (G : size rest < n).
        { destruct (N.ltb_spec (size rest) n) as [G|G]; [exact G|]. exfalso. apply NP. exists n, rest. split; [reflexivity|]. split; [exact G|].
          intros ->. intros ->. discriminate A. }
        assert (B : n < 256) by (apply O; left; reflexivity).
        unfold vrange. destruct (N.leb_spec (1 + data_length true (size (n :: rest)) n) (size (n :: rest))) as [K|K]; [|eexists; reflexivity].
        exfalso. revert K. unfold data_length, u32. rewrite size_first in *. change (2 ^ 32) with 4294967296 in *. change (2 ^ 64) with 18446744073709551616.
        clear -L G B. generalize dependent (size rest). intros s L G. lia.
      * exfalso. destruct m; [destruct (_ <? _)|]; discriminate A.
      * eexists. reflexivity.
      * exfalso. destruct m; [destruct (_ <? _)|]; discriminate A.
  - split.
    + intros NE. eexists. intros hex. eexists. apply dump_data_plain; assumption.
    + intros _ NP hex. unfold dump_data. rewrite padded_flag, F. cbn [bind]. destruct m; [|destruct NP; discriminate].
      destruct p; [eexists; reflexivity|]. destruct NP. discriminate.
Qed.

(* Printing is safe for exactly the printable ones among the frames that can be
   received. *)
Theorem C56_dump_safe_partial : forall m hex h raw t f, is_octets raw -> size raw < 2 ^ 32 ->
  build_frame m h raw t = Ok f -> printable m f -> exists text hex', dump m hex f = Ok (text, hex').
Proof.
  intros m hex h raw t f O L H P. pose proof (built_coherent _ _ _ _ _ O H) as C.
  assert (D : forall g p, f = DataFrame g p -> p = raw /\ fh_length g = size raw).
  { intros g p ->. destruct (C46_dispatch _ _ _ _ _ H) as (_ & K & _ & _ & _ & _ & K' & _). cbn [class_code] in K.
    destruct K as [K|(_ & K & _)]; [|discriminate K]. injection K as K. destruct (K' (eq_sym K) L) as [E R]. cbn in E, R. injection R as ->. rewrite E. auto. }
  destruct f as [g p|g p|enc g pad prio b|g p|g c|g ps|enc g p|g d|g p|g r i|enc g b]; cbn [dump block_of] in *.
  - eauto.
  - destruct (D _ _ eq_refl) as [-> Q]. destruct (printable_data m g raw L Q) as [S _]. destruct (S P) as [x S']. destruct (S' hex) as [y E]. eauto.
  - destruct (dump_block_ok b C) as [x ->]. cbn [bind]. eauto.
  - eauto.
  - destruct (error_code_ok c) as [x ->]. cbn [bind]. eauto.
  - destruct (settings_dump_ok hex ps) as [x ->]. cbn [bind]. eauto.
  - destruct (dump_block_ok _ C) as [x ->]. cbn [bind]. eauto.
  - eauto.
  - destruct (error_code_ok (g_error_code p)) as [x ->]. cbn [bind printable] in *. destruct P as [P|P].
    + rewrite P. cbn. eauto.
    + destruct (c_string_ok _ P) as [y ->]. destruct (size (g_debug p) =? 0); cbn [bind]; eauto.
  - eauto.
  - destruct (dump_block_ok _ C) as [x ->]. cbn [bind]. eauto.
Qed.

Theorem C56_unprintable_refuted : forall m hex h raw t f, is_octets raw -> size raw < 2 ^ 32 ->
  build_frame m h raw t = Ok f -> ~ printable m f -> exists u, dump m hex f = UB u.
Proof.
  intros m hex h raw t f O L H P.
  assert (D : forall g p, f = DataFrame g p -> p = raw /\ fh_length g = size raw).
  { intros g p ->. destruct (C46_dispatch _ _ _ _ _ H) as (_ & K & _ & _ & _ & _ & K' & _). cbn [class_code] in K.
    destruct K as [K|(_ & K & _)]; [|discriminate K]. injection K as K. destruct (K' (eq_sym K) L) as [E R]. cbn in E, R. injection R as ->. rewrite E. auto. }
  destruct f as [g p|g p|enc g pad prio b|g p|g c|g ps|enc g p|g d|g p|g r i|enc g b]; cbn [dump] in *; try (destruct P; exact I).
  - destruct (D _ _ eq_refl) as [-> Q]. destruct (printable_data m g raw L Q) as [_ S]. apply S; assumption.
  - cbn [printable] in P. destruct (error_code_ok (g_error_code p)) as [x ->]. cbn [bind].
    destruct (N.eqb_spec (size (g_debug p)) 0) as [Z|Z].
    + destruct P. left. destruct (g_debug p); [reflexivity|]. rewrite size_first in Z. lia.
    + rewrite c_string_ub by (intros K; apply P; right; exact K). eexists. reflexivity.
Qed.

(* Such frames are easy to send: debug data is usually a text without a zero
   octet, the pad length is the sender's choice, and an empty DATA frame is the
   usual end of a response. *)
Theorem C56_goaway_refuted : forall m hex h t r last ec debug, fh_type h = GOAWAY ->
  r < 2 -> last < 2 ^ 31 -> ec < 2 ^ 32 -> debug <> [] -> ~ In 0 debug ->
  exists f, build_frame m h (goaway_octets r last ec debug) t = Ok f /\ dump m hex f = UB OobRead.
Proof.
  intros m hex [len ty fl res sid] t r last ec debug T R L E NE NZ. cbn [fh_type] in T. subst ty.
  assert (S : size (goaway_octets r last ec debug) = 8 + size debug).
  { unfold goaway_octets. rewrite !size_app, !be_octets_size. lia. }
  change (build_frame m _ (goaway_octets r last ec debug) t) with (parse_goaway (FH len GOAWAY fl res sid) (goaway_octets r last ec debug)).
  unfold parse_goaway, goaway_construct_payload. rewrite S. destruct (N.ltb_spec (8 + size debug) 8); [lia|].
  assert (B : forall x pos, pos = 0 \/ pos = 4 -> x = goaway_octets r last ec debug -> exists v, bytes2integral 4 x pos = Ok v).
  { intros x pos P ->. unfold bytes2integral, vrange. rewrite S. change (N.of_nat 4) with 4.
    destruct (N.leb_spec (pos + 4) (8 + size debug)); [|lia]. eexists. reflexivity. }
  destruct (B _ 0 (or_introl eq_refl) eq_refl) as [v0 ->]. destruct (B _ 4 (or_intror eq_refl) eq_refl) as [v1 ->]. cbn [bind].
  eexists. split; [reflexivity|]. cbn [dump g_error_code g_debug].
  destruct (error_code_ok v1) as [x ->]. cbn [bind].
  assert (K : 0 < size debug) by (destruct debug; [destruct NE; reflexivity|rewrite size_first; lia]).
  destruct (N.ltb_spec 8 (8 + size debug)); [|lia].
  assert (Q : skipn 8 (goaway_octets r last ec debug) = debug) by reflexivity.
  rewrite Q. destruct (N.eqb_spec (size debug) 0); [lia|]. rewrite c_string_ub by exact NZ. reflexivity.
Qed.

Theorem C56_padding_refuted : forall m hex h t n rest, fh_type h = DATA -> has_padded (fh_flags h) = true ->
  is_octets (n :: rest) -> size (n :: rest) < 2 ^ 32 -> size rest < n ->
  exists f u, build_frame m h (n :: rest) t = Ok f /\ dump m hex f = UB u.
Proof.
  intros m hex h t n rest T F O L G.
  assert (B : build_frame m h (n :: rest) t = Ok (mk_data (fh_flags h) (fh_stream_id h) (n :: rest))).
  { unfold build_frame. rewrite T. reflexivity. }
  eexists. destruct (C56_unprintable_refuted m hex h (n :: rest) t _ O L B) as [u U].
  - unfold mk_data. cbn [printable fh_flags]. rewrite F. intros (n' & rest' & E & K & _). injection E as <- <-. lia.
  - exists u. split; [exact B|exact U].
Qed.

Theorem C56_empty_data_refuted : forall hex h t, fh_type h = DATA -> has_padded (fh_flags h) = false ->
  exists f, build_frame Strict h [] t = Ok f /\ dump Strict hex f = UB OobRead.
Proof.
  intros hex h t T F. eexists. split; [unfold build_frame; rewrite T; reflexivity|].
  unfold mk_data, dump, dump_data. cbn [fh_flags]. rewrite padded_flag, F. reflexivity.
Qed.

Example C56_case :
  (exists f, build_frame Strict (FH 10 DATA 8 0 1) [3; 104; 10; 105; 33; 33; 33; 1; 2; 255] default_table = Ok f /\
     printable Strict f /\ exists text, dump Strict false f = Ok (text, true)) /\
  (exists f, build_frame Strict (FH 11 GOAWAY 0 0 0) (goaway_octets 0 5 2 [98; 121; 101]) default_table = Ok f /\
     dump Lenient false f = UB OobRead).
Proof.
  split.
  - eexists. split; [reflexivity|]. split; [exists 3, [104; 10; 105; 33; 33; 33; 1; 2; 255]; repeat split; discriminate|].
    eexists. vm_compute. reflexivity.
  - eexists. split; reflexivity.
Qed.

(* ---------------------------------------------------------------- C59 *)

(* Numbers are written so that they can be read back: decimal, no leading zero. *)
Theorem C59_numbers : forall n,
  number_value 10 (to_string n) = n /\ Forall (digit_char 10) (to_string n) /\
  (9 < n -> exists c rest, to_string n = c :: rest /\ digit_value c <> 0).
Proof.
  intros n. destruct (digits_spec 10 n ltac:(lia)) as (V & F & L). split; [exact V|]. split; [exact F|]. intros H.
  unfold to_string in *. destruct (digits 10 n) as [|c [|c' ds]]; [destruct L| |].
  - exfalso. inversion F as [|? ? [_ K] _]; subst. rewrite value_cons in H. cbn in H. lia.
  - eauto.
Qed.

Lemma ok_pair : forall A B (a c : A) (b d : B), Ok (a, b) = Ok (c, d) -> a = c /\ b = d.
Proof. intros A B a c b d H. injection H. auto. Qed.

Definition title (f : frame) : string :=
  match f with
  | RawFrame _ _ => "=== GENERIC FRAME (unimplemented) ===" | DataFrame _ _ => "=== DATA FRAME ==="
  | HeadersFrame _ _ _ _ _ => "=== HEADERS FRAME ===" | PriorityFrame _ _ => "=== PRIORITY FRAME ==="
  | RstStreamFrame _ _ => "=== RST_STREAM FRAME ===" | SettingsFrame _ _ => "=== SETTINGS FRAME ==="
  | PushPromiseFrame _ _ _ => "=== PUSH_PROMISE FRAME ===" | PingFrame _ _ => "=== PING_STREAM FRAME ==="
  | GoawayFrame _ _ => "=== GOAWAY FRAME ===" | WindowUpdateFrame _ _ _ => "=== WINDOW_UPDATE FRAME ==="
  | ContinuationFrame _ _ _ => "=== CONTINUATION FRAME ==="
  end.

Lemma dump_head : forall m hex f x b, dump m hex f = Ok (x, b) ->
  exists body, x = str (title f) ++ nl ++ dump_fh (frame_fh f) ++ str "[PAYLOAD]" ++ nl ++ body.
Proof.
  intros m hex f x b H. destruct f; cbn [dump frame_fh title] in *;
    try (apply ok_pair in H; destruct H as [<- <-]; eexists; rewrite <- ?app_assoc; reflexivity).
  1: unfold dump_data in H.
  all: repeat (apply bind_ok in H; let y := fresh "y" in let E := fresh "E" in destruct H as (y & E & H));
    apply ok_pair in H; destruct H as [<- <-]; eexists; rewrite <- ?app_assoc; reflexivity.
Qed.

Lemma title_class : forall f g, str (title f) = str (title g) -> same_class f g.
Proof.
  intros f g H. unfold same_class. destruct f, g; try reflexivity; exfalso; vm_compute in H; discriminate H.
Qed.

Lemma title_no_nl : forall f, ~ In 10 (str (title f)).
Proof. intros f H. assert (forallb (fun c => negb (c =? 10)) (str (title f)) = true) as A by (destruct f; reflexivity).
  rewrite forallb_forall in A. apply A in H. discriminate H. Qed.

(* The text shows the class of the frame and all fields of its header, whatever
   the payload contains and whatever follows the text. *)
Theorem C59_class_and_header : forall m hex f g x y a b r s,
  dump m hex f = Ok (x, a) -> dump m hex g = Ok (y, b) -> x ++ r = y ++ s ->
  same_class f g /\ frame_fh f = frame_fh g.
Proof.
  intros m hex f g x y a b r s F G E. apply dump_head in F. apply dump_head in G. destruct F as [u ->], G as [v ->].
  rewrite <- !app_assoc in E. apply split_at in E; try apply title_no_nl. destruct E as [T E].
  split; [apply title_class, T|]. apply dump_fh_inj in E. apply E.
Qed.

Lemma error_code_inj : forall c c' x y r s, dump_error_code c = Ok x -> dump_error_code c' = Ok y -> x ++ r = y ++ s -> c = c' /\ r = s.
Proof.
  assert (S : forall c x, dump_error_code c = Ok x ->
    (c < 14 /\ exists n, In (c, n) error_code_names /\ x = str "  Error Code: " ++ str n ++ nl) \/
    (14 <= c /\ x = str "  Error Code: " ++ (str "UNKNOWN_ERROR(" ++ to_string c ++ str ")") ++ nl)).
  { intros c x H. unfold dump_error_code, UNKNOWN_ERROR in H. destruct (N.ltb_spec c 14) as [L|L].
    - left. split; [exact L|]. assert (K : In c (map N.of_nat (seq 0 14))) by (rewrite <- (N2Nat.id c); apply in_map, in_seq; lia).
      cbn in K. repeat (destruct K as [<-|K]; [cbn in H; injection H as <-; eexists; split; [cbn; tauto|reflexivity]|]). destruct K.
    - right. split; [exact L|]. cbn in H. injection H as <-. rewrite <- !app_assoc. reflexivity. }
  assert (NN : forall c n, c < 14 -> In (c, n) error_code_names -> ~ In 10 (str n) /\ ~ In 40 (str n)).
  { intros c n L H.
    assert (A : forallb (fun p => forallb (fun d => negb (d =? 10) && negb (d =? 40)) (str (snd p))) error_code_names = true) by reflexivity.
    rewrite forallb_forall in A. specialize (A _ H). cbn [snd] in A. rewrite forallb_forall in A.
    split; intros K; apply A in K; discriminate K. }
  assert (NU : forall c, ~ In 10 (str "UNKNOWN_ERROR(" ++ to_string c ++ str ")")).
  { intros c H. apply in_app_or in H. destruct H as [H|H]; [revert H; vm_compute; intuition discriminate|].
    apply in_app_or in H. destruct H as [H|H]; [apply to_string_no_nl in H; exact H|revert H; vm_compute; intuition discriminate]. }
  intros c c' x y r s X Y E. apply S in X. apply S in Y.
  destruct X as [(L & n & I & ->)|[L ->]], Y as [(L' & n' & I' & ->)|[L' ->]]; rewrite <- !app_assoc in E; apply app_inv_head in E.
  - destruct (NN c n L I) as [N _]. destruct (NN c' n' L' I') as [N' _]. apply split_at in E; [|exact N|exact N']. destruct E as [E ->].
    split; [|reflexivity]. clear S NN NU N N'. cbn in I, I'.
    repeat (destruct I as [I|I]; [injection I as <- <-; repeat (destruct I' as [I'|I']; [injection I' as <- <-; first [reflexivity|vm_compute in E; discriminate E]|]); destruct I'|]).
    destruct I.
  - exfalso. destruct (NN c n L I) as [N Q]. rewrite (app_assoc (to_string c')), (app_assoc (str "UNKNOWN_ERROR(")) in E. apply split_at in E; [|exact N|apply NU]. destruct E as [E _].
    apply Q. rewrite E. apply in_or_app. left. vm_compute. tauto.
  - exfalso. destruct (NN c' n' L' I') as [N Q]. rewrite (app_assoc (to_string c)), (app_assoc (str "UNKNOWN_ERROR(")) in E. apply split_at in E; [|apply NU|exact N]. destruct E as [E _].
    apply Q. rewrite <- E. apply in_or_app. left. vm_compute. tauto.
  - apply app_inv_head in E. change (to_string c ++ 41 :: (nl ++ r) = to_string c' ++ 41 :: (nl ++ s)) in E.
    apply split_at in E; [|intros H; apply to_string_chars in H; lia|intros H; apply to_string_chars in H; lia].
    destruct E as [E F]. apply to_string_inj in E. apply app_inv_head in F. auto.
Qed.

Lemma settings_line : forall hex k v x, (let* y := dump_settings hex [(k, v)] in Ok y) = Ok x ->
  exists label, x = str "  " ++ label ++ [58] ++ str " " ++ put_unsigned hex v ++ nl /\ ~ In 58 label /\
    ((1 <= k < 7 /\ exists n, In (k, n) parameter_names /\ label = str n /\ ~ In 40 label) \/
     (~ 1 <= k < 7 /\ label = str "UNKNOWN(" ++ to_string k ++ str ")")).
Proof.
  intros hex k v x H. cbn [dump_settings] in H. unfold SETTINGS_UNKNOWN in H.
  assert (U : (let* y := let* x0 := (let* s := name_at parameter_names 7 in
     Ok (str "  " ++ s ++ str "(" ++ to_string k ++ str "): " ++ put_unsigned hex v ++ nl)) in let* y := Ok [] in Ok (x0 ++ y) in Ok y) = Ok x -> ~ 1 <= k < 7 ->
     exists label, x = str "  " ++ label ++ [58] ++ str " " ++ put_unsigned hex v ++ nl /\ ~ In 58 label /\
    ((1 <= k < 7 /\ exists n, In (k, n) parameter_names /\ label = str n /\ ~ In 40 label) \/
     (~ 1 <= k < 7 /\ label = str "UNKNOWN(" ++ to_string k ++ str ")"))).
  { intros Q R. cbn [name_at parameter_names N.eqb Pos.eqb bind] in Q. apply Ok_inj in Q. subst x. exists (str "UNKNOWN(" ++ to_string k ++ str ")").
    split; [rewrite app_nil_r, <- !app_assoc; reflexivity|]. split; [|right; auto].
    intros K. apply in_app_or in K. destruct K as [K|K]; [revert K; vm_compute; intuition discriminate|].
    apply in_app_or in K. destruct K as [K|K]; [apply to_string_chars in K; lia|revert K; vm_compute; intuition discriminate]. }
  destruct (N.ltb_spec k 1) as [L|L]; [apply U; [exact H|lia]|]. destruct (N.leb_spec 7 k) as [M|M]; [apply U; [exact H|lia]|]. clear U.
  cbn [orb] in H. assert (K : In k (map N.of_nat (seq 1 6))) by (rewrite <- (N2Nat.id k); apply in_map, in_seq; lia).
  cbn in K. repeat (destruct K as [<-|K];
    [cbn [name_at parameter_names N.eqb Pos.eqb bind] in H; apply Ok_inj in H; rewrite app_nil_r in H; subst x; eexists;
     split; [reflexivity|];
     split; [vm_compute; intuition discriminate|left; split; [lia|]; eexists; split; [cbn; tauto|split; [reflexivity|vm_compute; intuition discriminate]]]|]).
  destruct K.
Qed.

Lemma dump_settings_cons : forall hex k v ps x, dump_settings hex ((k, v) :: ps) = Ok x ->
  exists a b, dump_settings hex [(k, v)] = Ok a /\ dump_settings hex ps = Ok b /\ x = a ++ b.
Proof.
  intros hex k v ps x H. cbn [dump_settings] in *. apply bind_ok in H. destruct H as (a & A & H).
  apply bind_ok in H. destruct H as (b & B & H). injection H as <-. exists a, b. rewrite A. cbn [bind]. rewrite app_nil_r. auto.
Qed.

Lemma dump_settings_inj : forall hex ps qs x, dump_settings hex ps = Ok x -> dump_settings hex qs = Ok x -> ps = qs.
Proof.
  intros hex. induction ps as [|[k v] ps IH]; intros [|[k' v'] qs] x P Q.
  - reflexivity.
  - exfalso. apply dump_settings_cons in Q. destruct Q as (a & b & A & _ & ->). destruct (settings_line hex k' v' a) as (l & -> & _); [rewrite A; reflexivity|].
    injection P as P. discriminate P.
  - exfalso. apply dump_settings_cons in P. destruct P as (a & b & A & _ & ->). destruct (settings_line hex k v a) as (l & -> & _); [rewrite A; reflexivity|].
    injection Q as Q. discriminate Q.
  - apply dump_settings_cons in P. apply dump_settings_cons in Q. destruct P as (a & b & A & B & ->), Q as (a' & b' & A' & B' & E).
    destruct (settings_line hex k v a) as (l & -> & N & C); [rewrite A; reflexivity|].
    destruct (settings_line hex k' v' a') as (l' & -> & N' & C'); [rewrite A'; reflexivity|]. clear A A'.
    rewrite <- !app_assoc in E. apply app_inv_head in E. apply split_at in E; [|exact N|exact N']. destruct E as [E F].
    apply app_inv_head in F. rewrite <- ?app_assoc in F. apply split_at in F; [|intros K; apply put_unsigned_chars in K; lia|intros K; apply put_unsigned_chars in K; lia].
    destruct F as [V F]. apply put_unsigned_inj in V. cbn [app] in F. subst b'. rewrite (IH qs b B B'). f_equal. f_equal; [|exact V]. clear IH B B' V. subst l'.
    destruct C as [(R & n & I & M & Z)|[R M]], C' as [(R' & n' & I' & M' & Z')|[R' M']].
    + clear Z Z'. rewrite M in M'. cbn in I, I'.
      repeat (destruct I as [I|I]; [injection I as <- <-; repeat (destruct I' as [I'|I']; [injection I' as <- <-; first [reflexivity|vm_compute in M'; discriminate M'|lia]|]); destruct I'|]).
      destruct I.
    + exfalso. apply Z. rewrite M'. apply in_or_app. left. vm_compute. tauto.
    + exfalso. apply Z'. rewrite M. apply in_or_app. left. vm_compute. tauto.
    + rewrite M in M'. apply app_inv_head, app_inv_tail, to_string_inj in M'. exact M'.
Qed.

(* The frames whose text shows everything in them; the conditions hold of every
   frame that was received or built from octets. *)
Definition shown (f : frame) : Prop :=
  match f with
  | RawFrame _ p | PingFrame _ p => is_octets p
  | DataFrame h p => is_octets p /\ fh_length h = size p /\ size p < 2 ^ 32
  | PriorityFrame _ _ | RstStreamFrame _ _ | SettingsFrame _ _ | WindowUpdateFrame _ _ _ => True
  | HeadersFrame _ _ _ _ _ | PushPromiseFrame _ _ _ | GoawayFrame _ _ | ContinuationFrame _ _ _ => False
  end.

Lemma data_text_of : forall m hex h p x b, is_octets p -> fh_length h = size p -> size p < 2 ^ 32 -> dump_data m hex h p = Ok (x, b) ->
  exists contents padding, p = padded_payload (has_padded (fh_flags h)) contents padding /\
    x = data_text h (if has_padded (fh_flags h) then size padding else 0) contents (if has_padded (fh_flags h) then padding else []).
Proof.
  intros m hex h p x b O Q L H.
  assert (D : printable m (DataFrame h p) \/ ~ printable m (DataFrame h p)).
  { cbn [printable]. destruct (has_padded (fh_flags h)).
    - destruct p as [|n rest]; [right; intros (n & r & E & _); discriminate E|].
      destruct (N.leb_spec n (size rest)) as [A|A]; [|right; intros (n' & r & E & K & _); injection E as <- <-; lia].
      destruct m; [destruct rest as [|c rest]|]; [right|left|left].
      + intros (n' & r & E & _ & K). injection E as <- <-. destruct K; reflexivity.
      + exists n, (c :: rest). repeat split; [exact A|discriminate].
      + exists n, rest. repeat split; [exact A|discriminate].
    - destruct m; [|left; discriminate]. destruct p; [right; intros K; destruct K; reflexivity|left; discriminate]. }
  destruct D as [D|D].
  - cbn [printable] in D. destruct (has_padded (fh_flags h)) eqn:F.
    + destruct D as (n & rest & -> & N & NE). pose (k := (length rest - N.to_nat n)%nat).
      assert (S : rest = firstn k rest ++ skipn k rest) by (symmetry; apply firstn_skipn).
      assert (Z : size (skipn k rest) = n) by (unfold size in *; rewrite skipn_length; unfold k; lia).
      exists (firstn k rest), (skipn k rest). split.
      * cbn [padded_payload app]. rewrite <- S. fold (size (skipn k rest)). rewrite Z. reflexivity.
      * rewrite Z. rewrite S in H at 1. rewrite S in Q, L.
        rewrite (dump_data_padded m hex h n (firstn k rest) (skipn k rest) F (eq_sym Z) Q L) in H; [apply ok_pair in H; destruct H as [<- <-]; reflexivity|].
        intros M. rewrite <- S. apply NE, M.
    + exists p, []. split; [reflexivity|]. rewrite dump_data_plain in H by assumption. apply ok_pair in H; destruct H as [<- <-]. reflexivity.
  - destruct (printable_data m h p L Q) as [_ U]. destruct (U O D hex) as [u E]. rewrite E in H. discriminate H.
Qed.

Lemma octets_padding : forall padded c p, is_octets (padded_payload padded c p) -> is_octets (if padded then p else []).
Proof.
  intros [] c p O x X; [|destruct X]. apply O. cbn [padded_payload]. apply in_or_app. right. apply in_or_app. right. exact X.
Qed.

Theorem C59_whole_frame_partial : forall m hex f g x a b, shown f -> shown g ->
  dump m hex f = Ok (x, a) -> dump m hex g = Ok (x, b) -> f = g.
Proof.
  intros m hex f g x a b F G X Y.
  destruct (C59_class_and_header m hex f g x x a b [] [] X Y eq_refl) as [C H].
  destruct f; try (destruct F; fail); destruct g; try (destruct G; fail); try discriminate C; cbn [frame_fh] in H; subst; cbn [dump shown] in *.
  - apply ok_pair in X. destruct X as [<- _]. apply ok_pair in Y. destruct Y as [Y _]. rewrite <- ?app_assoc in Y. do 5 apply app_inv_head in Y.
    apply (dump_hex_inj nl _ _ 0 [] []) in Y; [|assumption|assumption]. destruct Y as [-> _]. reflexivity.
  - destruct F as (O & Q & L), G as (O' & Q' & L').
    apply data_text_of in X; try assumption. apply data_text_of in Y; try assumption.
    destruct X as (c & p & -> & ->), Y as (c' & p' & -> & E). unfold data_text in E.
    do 6 apply app_inv_head in E. apply number_line in E. destruct E as [_ E]. do 3 apply app_inv_head in E.
    apply (indent_inj c c') in E. destruct E as [-> E]. apply (app_inv_head (str "adding   : ")) in E. apply app_inv_head in E.
    apply (dump_hex_inj _ _ _ 0 [] []) in E; [|eapply octets_padding; eassumption|eapply octets_padding; eassumption].
    destruct E as [E _]. destruct (has_padded (fh_flags h0)); [rewrite E; reflexivity|reflexivity].
  - apply ok_pair in X. destruct X as [<- _]. apply ok_pair in Y. destruct Y as [Y _]. rewrite <- ?app_assoc in Y. do 6 apply app_inv_head in Y.
    apply number_line in Y. destruct Y as [A Y]. apply app_inv_head, number_line in Y. destruct Y as [B Y].
    apply app_inv_head, app_inv_tail, to_string_inj in Y. destruct p, p0. cbn in *. congruence.
  - apply bind_ok in X. destruct X as (u & U & X). apply ok_pair in X. destruct X as [<- _]. apply bind_ok in Y. destruct Y as (v & V & Y). apply ok_pair in Y. destruct Y as [Y _].
    rewrite <- ?app_assoc in Y. do 5 apply app_inv_head in Y. f_equal.
    destruct (error_code_inj _ _ _ _ [] [] U V) as [K _]; [rewrite !app_nil_r; symmetry; exact Y|exact K].
  - apply bind_ok in X. destruct X as (u & U & X). apply ok_pair in X. destruct X as [<- _]. apply bind_ok in Y. destruct Y as (v & V & Y). apply ok_pair in Y. destruct Y as [Y _].
    rewrite <- ?app_assoc in Y. do 5 apply app_inv_head in Y. f_equal. subst v. eapply dump_settings_inj; eassumption.
  - apply ok_pair in X. destruct X as [<- _]. apply ok_pair in Y. destruct Y as [Y _]. rewrite <- ?app_assoc in Y. do 5 apply app_inv_head in Y.
    apply (dump_hex_inj nl _ _ 0 [] []) in Y; [|assumption|assumption]. destruct Y as [-> _]. reflexivity.
  - apply ok_pair in X. destruct X as [<- _]. apply ok_pair in Y. destruct Y as [Y _]. rewrite <- ?app_assoc in Y. do 6 apply app_inv_head in Y.
    apply number_line in Y. destruct Y as [-> Y].
    apply app_inv_head, app_inv_tail, to_string_inj in Y. rewrite Y. reflexivity.
Qed.

(* GOAWAY: the debug data is cut at its first zero octet; the rest is shown. *)
Definition c_string (l : list N) : list N := 
  (fix go l := match l with [] => [] | b :: l' => if b =? 0 then [] else b :: go l' end) l.

Lemma put_c_string_text : forall l x, put_c_string l = Ok x -> x = c_string l.
Proof.
  induction l as [|b l IH]; intros x H; [discriminate H|]. cbn [put_c_string] in H. cbn. destruct (b =? 0); [injection H as <-; reflexivity|].
  apply bind_ok in H. destruct H as (y & Y & H). injection H as <-. rewrite (IH y Y). reflexivity.
Qed.

Theorem C59_goaway_partial : forall m hex h p g q x a b,
  dump m hex (GoawayFrame h p) = Ok (x, a) -> dump m hex (GoawayFrame g q) = Ok (x, b) ->
  h = g /\ g_reserved p = g_reserved q /\ g_last_stream_id p = g_last_stream_id q /\ g_error_code p = g_error_code q /\
  c_string (g_debug p) = c_string (g_debug q).
Proof.
  intros m hex h p g q x a b X Y. destruct (C59_class_and_header _ _ _ _ _ _ _ _ [] [] X Y eq_refl) as [_ H]. cbn in H. subst g.
  split; [reflexivity|]. cbn [dump] in X, Y.
  apply bind_ok in X. destruct X as (e & E & X). apply bind_ok in X. destruct X as (d & D & X). apply ok_pair in X. destruct X as [X _].
  apply bind_ok in Y. destruct Y as (e' & E' & Y). apply bind_ok in Y. destruct Y as (d' & D' & Y). apply ok_pair in Y. destruct Y as [Y _].
  assert (S : forall l d, (if size l =? 0 then Ok [] else put_c_string l) = Ok d -> d = c_string l).
  { intros l z Z. destruct l; [injection Z as <-; reflexivity|]. apply put_c_string_text. exact Z. }
  apply S in D. apply S in D'. subst d d'.
  rewrite <- X in Y. clear X. rewrite <- ?app_assoc in Y. do 6 apply app_inv_head in Y.
  apply number_line in Y. destruct Y as [R Y]. apply app_inv_head, number_line in Y. destruct Y as [L Y].
  apply (error_code_inj _ _ _ _ _ _ E' E) in Y. destruct Y as [C Y]. apply app_inv_head, app_inv_tail in Y. auto.
Qed.

Theorem C59_goaway_refuted :
  ~ (forall m hex h p q x a b, dump m hex (GoawayFrame h p) = Ok (x, a) -> dump m hex (GoawayFrame h q) = Ok (x, b) -> p = q).
Proof.
  intros H. specialize (H Strict false (FH 9 GOAWAY 0 0 0) (Goaway 0 1 0 [0; 98]) (Goaway 0 1 0 [0; 99]) _ _ _ eq_refl eq_refl). discriminate H.
Qed.

(* Header blocks: one line per entry.  The entries can be told apart as long as
   no name or value contains a line feed and no name a colon after its first
   octet (RFC 7540 section 8.1.2 and RFC 7230 section 3.2 forbid both). *)
Definition clean_field (h : header) : Prop :=
  exists c n, fst h = c :: n /\ c <> 10 /\ ~ In 10 n /\ ~ In 58 n /\ ~ In 10 (snd h).
Definition clean_entry (e : hentry) : Prop :=
  match e_content e with EHeader h => clean_field h | ESize _ => True end.

Definition entry_text (e : hentry) : bytes :=
  match e_content e with
  | EHeader h => fst h ++ 58 :: 32 :: snd h
  | ESize n => to_string n ++ str " (dynamic table size update)"
  end.

Lemma dump_entry_text : forall e, coherent e -> dump_entry e = Ok (str "    " ++ entry_text e ++ nl).
Proof.
  intros [p [h|k]] C; unfold coherent in C; cbn [e_prefix e_content] in C; destruct p; try contradiction; unfold dump_entry, entry_text;
    cbn [e_prefix e_content hprefix_eqb get_header get_max_size bind]; rewrite <- ?app_assoc; reflexivity.
Qed.

Lemma entry_text_inj : forall e f, clean_entry e -> clean_entry f -> entry_text e = entry_text f -> e_content e = e_content f.
Proof.
  intros [p [h|k]] [q [g|l]] E F T; unfold entry_text, clean_entry in *; cbn [e_content] in *.
  - destruct E as (c & n & A & _ & _ & E & _), F as (c' & n' & A' & _ & _ & F & _). destruct h as [hn hv], g as [gn gv]. cbn [fst snd] in *. subst.
    rewrite <- !app_comm_cons in T. injection T as <- T. apply split_at in T; [|exact E|exact F]. destruct T as [-> T]. injection T as ->. reflexivity.
  - exfalso. assert (K : In 58 (to_string l ++ str " (dynamic table size update)")) by (rewrite <- T; apply in_or_app; right; left; reflexivity).
    apply in_app_or in K. destruct K as [K|K]; [apply to_string_chars in K; lia|revert K; vm_compute; intuition discriminate].
  - exfalso. assert (K : In 58 (to_string k ++ str " (dynamic table size update)")) by (rewrite T; apply in_or_app; right; left; reflexivity).
    apply in_app_or in K. destruct K as [K|K]; [apply to_string_chars in K; lia|revert K; vm_compute; intuition discriminate].
  - apply app_inv_tail, to_string_inj in T. rewrite T. reflexivity.
Qed.

Lemma entry_text_line : forall e, clean_entry e -> ~ In 10 (entry_text e).
Proof.
  intros [p [h|k]] E; unfold entry_text, clean_entry in *; cbn [e_content] in *.
  - destruct E as (c & n & A & B & C & _ & D). rewrite A. intros K. destruct K as [K|K]; [congruence|].
    apply in_app_or in K. destruct K as [K|[K|[K|K]]]; [exact (C K)|discriminate K|discriminate K|exact (D K)].
  - intros K. apply in_app_or in K. destruct K as [K|K]; [apply to_string_chars in K; lia|revert K; vm_compute; intuition discriminate].
Qed.

(* r, s: what follows; not another entry *)
Lemma dump_entries_inj : forall b c r s x y, Forall coherent b -> Forall coherent c -> Forall clean_entry b -> Forall clean_entry c ->
  (forall z, r <> str "    " ++ z) -> (forall z, s <> str "    " ++ z) ->
  dump_entries b = Ok x -> dump_entries c = Ok y -> x ++ r = y ++ s -> map e_content b = map e_content c /\ r = s.
Proof.
  induction b as [|e b IH]; intros [|f c] r s x y B C CB CC R S X Y E; cbn [dump_entries] in X, Y.
  - injection X as <-. injection Y as <-. auto.
  - exfalso. injection X as <-. rewrite (dump_entry_text f (Forall_inv C)) in Y. cbn [bind] in Y. apply bind_ok in Y. destruct Y as (y' & _ & Y). apply Ok_inj in Y. subst y.
    rewrite <- !app_assoc in E. exact (R _ E).
  - exfalso. injection Y as <-. rewrite (dump_entry_text e (Forall_inv B)) in X. cbn [bind] in X. apply bind_ok in X. destruct X as (x' & _ & X). apply Ok_inj in X. subst x.
    rewrite <- !app_assoc in E. exact (S _ (eq_sym E)).
  - rewrite (dump_entry_text e (Forall_inv B)) in X. rewrite (dump_entry_text f (Forall_inv C)) in Y. cbn [bind] in X, Y.
    apply bind_ok in X. destruct X as (x' & X' & X). apply Ok_inj in X. subst x. apply bind_ok in Y. destruct Y as (y' & Y' & Y). apply Ok_inj in Y. subst y.
    rewrite <- !app_assoc in E. apply app_inv_head in E.
    apply split_at in E; [|apply entry_text_line, (Forall_inv CB)|apply entry_text_line, (Forall_inv CC)]. destruct E as [T E]. 
    apply entry_text_inj in T; [|exact (Forall_inv CB)|exact (Forall_inv CC)].
    apply (IH c r s x' y') in E; try assumption; try (eapply Forall_inv_tail; eassumption). destruct E as [E ->]. cbn [map]. rewrite T, E. auto.
Qed.

Lemma dump_padding_start : forall fl p z, dump_padding fl p <> str "    " ++ z.
Proof. intros fl p z H. cbn in H. discriminate H. Qed.

(* What a HEADERS, PUSH_PROMISE or CONTINUATION frame holds, as far as it is
   shown: everything but the encoded octets and the literal form of the entries. *)
Definition shown_contents (f : frame) :=
  match f with
  | HeadersFrame _ h pad prio b =>
      Some (if has_priority (fh_flags h) then Some prio else None, None,
            map e_content b, if has_padded (fh_flags h) then pad else [])
  | PushPromiseFrame _ h p =>
      Some (None, Some (pp_reserved p, pp_promised p), map e_content (pp_block p), if has_padded (fh_flags h) then pp_padding p else [])
  | ContinuationFrame _ _ b => Some (None, None, map e_content b, [])
  | _ => None
  end.

Definition padding_of (f : frame) : list N :=
  match f with HeadersFrame _ _ pad _ _ => pad | PushPromiseFrame _ _ p => pp_padding p | _ => [] end.

Lemma dump_padding_inj : forall fl p q, is_octets p -> is_octets q -> dump_padding fl p = dump_padding fl q ->
  (if has_padded fl then p else []) = (if has_padded fl then q else []).
Proof.
  intros fl p q P Q E. unfold dump_padding in E. do 2 apply app_inv_head in E. rewrite padded_flag in E. destruct (has_padded fl); [|reflexivity].
  apply app_inv_head in E. apply (dump_hex_inj _ _ _ 0 [] []) in E; [|exact P|exact Q]. apply E.
Qed.

Lemma dump_priority_inj : forall fl p q r s, dump_priority_option fl p ++ r = dump_priority_option fl q ++ s ->
  (if has_priority fl then Some p else None) = (if has_priority fl then Some q else None) /\ r = s.
Proof.
  intros fl p q r s E. unfold dump_priority_option in E. rewrite priority_flag in E. destruct (has_priority fl); rewrite <- ?app_assoc in E.
  - apply app_inv_head, number_line in E. destruct E as [A E]. apply app_inv_head, number_line in E. destruct E as [B E].
    apply app_inv_head, number_line in E. destruct E as [C E]. destruct p, q. cbn in *. subst. auto.
  - do 9 apply app_inv_head in E. auto.
Qed.

Theorem C59_block_partial : forall m hex f g x a b, Forall coherent (block_of f) -> Forall coherent (block_of g) ->
  Forall clean_entry (block_of f) -> Forall clean_entry (block_of g) -> is_octets (padding_of f) -> is_octets (padding_of g) ->
  dump m hex f = Ok (x, a) -> dump m hex g = Ok (x, b) -> shown_contents f = shown_contents g.
Proof.
  intros m hex f g x a b F G CF CG PF PG X Y.
  destruct (C59_class_and_header m hex f g x x a b [] [] X Y eq_refl) as [C H].
  destruct f; destruct g; try discriminate C; cbn [shown_contents]; try reflexivity;
    cbn [frame_fh block_of padding_of] in *; subst; cbn [dump] in X, Y; unfold dump_block in X, Y.
  - apply bind_ok in X. destruct X as (u & U & X). apply bind_ok in U. destruct U as (u' & U & U'). apply Ok_inj in U'. subst u. apply ok_pair in X. destruct X as [X _].
    apply bind_ok in Y. destruct Y as (v & V & Y). apply bind_ok in V. destruct V as (v' & V & V'). apply Ok_inj in V'. subst v. apply ok_pair in Y. destruct Y as [Y _].
    rewrite <- Y in X. clear Y. rewrite <- ?app_assoc in X. do 5 apply app_inv_head in X.
    apply dump_priority_inj in X. destruct X as [-> X]. rewrite <- ?app_assoc in X. do 2 apply app_inv_head in X.
    apply (dump_entries_inj _ _ _ _ _ _ F G CF CG) in X; try assumption; try (intros z; apply dump_padding_start). destruct X as [-> X].
    apply dump_padding_inj in X; [|assumption|assumption]. rewrite X. reflexivity.
  - apply bind_ok in X. destruct X as (u & U & X). apply bind_ok in U. destruct U as (u' & U & U'). apply Ok_inj in U'. subst u. apply ok_pair in X. destruct X as [X _].
    apply bind_ok in Y. destruct Y as (v & V & Y). apply bind_ok in V. destruct V as (v' & V & V'). apply Ok_inj in V'. subst v. apply ok_pair in Y. destruct Y as [Y _].
    rewrite <- Y in X. clear Y. rewrite <- ?app_assoc in X. do 6 apply app_inv_head in X.
    apply number_line in X. destruct X as [-> X]. apply app_inv_head, number_line in X. destruct X as [-> X]. do 2 apply app_inv_head in X.
    apply (dump_entries_inj _ _ _ _ _ _ F G CF CG) in X; try assumption; try (intros z; apply dump_padding_start). destruct X as [-> X].
    apply dump_padding_inj in X; [|assumption|assumption]. rewrite X. reflexivity.
  - apply bind_ok in X. destruct X as (u & U & X). apply bind_ok in U. destruct U as (u' & U & U'). apply Ok_inj in U'. subst u. apply ok_pair in X. destruct X as [X _].
    apply bind_ok in Y. destruct Y as (v & V & Y). apply bind_ok in V. destruct V as (v' & V & V'). apply Ok_inj in V'. subst v. apply ok_pair in Y. destruct Y as [Y _].
    rewrite <- Y in X. clear Y. rewrite <- ?app_assoc in X. do 7 apply app_inv_head in X.
    rewrite <- (app_nil_r u'), <- (app_nil_r v') in X.
    apply (dump_entries_inj _ _ _ _ _ _ F G CF CG) in X; try assumption; try (intros z; discriminate). destruct X as [-> _]. reflexivity.
Qed.

(* A line feed in a value forges lines: the text of one field is the text of two. *)
Theorem C59_forged_refuted : exists m t h raw1 raw2 f g x a b,
  build_frame m h raw1 t = Ok f /\ build_frame m h raw2 t = Ok g /\ is_octets raw1 /\ is_octets raw2 /\
  dump m false f = Ok (x, a) /\ dump m false g = Ok (x, b) /\ shown_contents f <> shown_contents g.
Proof.
  pose (line := [97; 10; 32; 32; 32; 32; 98; 58; 32; 99]).
  exists Strict, default_table, (FH 14 CONTINUATION 4 0 1), ([0; 1; 98; 10] ++ line), [0; 1; 98; 1; 97; 0; 1; 98; 1; 99].
  do 5 eexists. split; [reflexivity|]. split; [reflexivity|]. split; [apply octets_dec; reflexivity|]. split; [apply octets_dec; reflexivity|].
  split; [vm_compute; reflexivity|]. split; [vm_compute; reflexivity|]. discriminate.
Qed.

Example C59_case :
  let f := SettingsFrame (FH 12 4 0 0 0) [(1, 4096); (77, 5)] in
  let g := SettingsFrame (FH 12 4 0 0 0) [(1, 4096); (78, 5)] in
  let h := HeadersFrame [] (FH 14 1 12 0 1) [9] (Prio 0 0 0)
             [HEntry WithoutIndexing (EHeader (bytes_of_string ":path", bytes_of_string "/a:b")); HEntry SizeUpdate (ESize 100)] in
  shown f /\ shown g /\ (exists x, dump Strict false f = Ok (x, false)) /\
  (exists x y, dump Strict false f = Ok (x, false) /\ dump Strict false g = Ok (y, false) /\ x <> y) /\
  Forall coherent (block_of h) /\ Forall clean_entry (block_of h) /\
  exists x, dump Strict false h = Ok (x, true).
Proof.
  cbn zeta. split; [exact I|]. split; [exact I|]. split; [eexists; reflexivity|].
  split; [do 2 eexists; split; [reflexivity|]; split; [reflexivity|discriminate]|].
  split; [repeat constructor|]. split.
  - constructor; [|constructor; [exact I|constructor]]. exists 58, (bytes_of_string "path").
    repeat split; try reflexivity; try discriminate; vm_compute; intuition discriminate.
  - eexists. reflexivity.
Qed.

(* ---------------------------------------------------------------- C60 *)

(* Printing frames one after the other on one stream; the texts. *)
Fixpoint print_all (m : ub_mode) (hex : bool) (fs : list frame) : res (list bytes * bool) :=
  match fs with
  | [] => Ok ([], hex)
  | f :: fs' =>
      let* (x, hex) := dump m hex f in
      let* (xs, hex) := print_all m hex fs' in
      Ok (x :: xs, hex)
  end.

(* The text of a frame does not depend on what was printed before, unless it is a
   SETTINGS frame with a value of ten or more and a hexadecimal dump came first. *)
Definition small_settings (f : frame) : Prop :=
  match f with SettingsFrame _ ps => Forall (fun p => snd p < 10) ps | _ => True end.
Definition no_hex (f : frame) : Prop :=
  match f with
  | RawFrame _ p | PingFrame _ p => p = []
  | DataFrame h _ => has_padded (fh_flags h) = false
  | HeadersFrame _ h _ _ _ | PushPromiseFrame _ h _ => has_padded (fh_flags h) = false
  | _ => True
  end.

Lemma settings_small_same : forall ps a b, Forall (fun p : N * N => snd p < 10) ps -> dump_settings a ps = dump_settings b ps.
Proof.
  intros ps a b F. assert (N : forall v, v < 10 -> put_unsigned a v = put_unsigned b v).
  { intros v V. unfold put_unsigned. destruct a, b; try reflexivity; [symmetry|]; apply decimal_hex_same, V. }
  induction F as [|[k v] ps V F IH]; [reflexivity|]. cbn [dump_settings snd] in *. rewrite IH, (N v V). reflexivity.
Qed.

Definition text_of {A B} (r : res (A * B)) : res A := let* (x, _) := r in Ok x.

Lemma dump_small_same : forall m a b f, small_settings f -> text_of (dump m a f) = text_of (dump m b f).
Proof.
  intros m a b f S. unfold text_of. destruct f; cbn [dump]; try reflexivity.
  - unfold dump_data. repeat match goal with |- context [bind ?r _] =>
      lazymatch r with Ok _ => fail | context [bind] => fail | _ => destruct r; cbn [bind]; try reflexivity end end.
  - destruct (dump_block block); reflexivity.
  - destruct (dump_error_code error_code); reflexivity.
  - rewrite (settings_small_same m0 a b S). destruct (dump_settings b m0); reflexivity.
  - destruct (dump_block _); reflexivity.
  - destruct (dump_error_code _); cbn [bind]; try reflexivity. destruct (if size (g_debug p) =? 0 then _ else _); reflexivity.
  - destruct (dump_block block); reflexivity.
Qed.

Lemma no_hex_keeps : forall m f x b, no_hex f -> dump m false f = Ok (x, b) -> b = false.
Proof.
  intros m f x b S H. destruct f; cbn [dump no_hex] in *.
  - apply ok_pair in H. destruct H as [_ <-]. rewrite S. reflexivity.
  - unfold dump_data in H. rewrite padded_flag, S in H. cbn [bind] in H. apply bind_ok in H. destruct H as (u & _ & H). apply bind_ok in H. destruct H as (v & _ & H).
    apply ok_pair in H. destruct H as [_ <-]. reflexivity.
  - apply bind_ok in H. destruct H as (u & _ & H). apply ok_pair in H. destruct H as [_ <-]. unfold hex_padding. rewrite padded_flag, S. reflexivity.
  - apply ok_pair in H. destruct H as [_ <-]. reflexivity.
  - apply bind_ok in H. destruct H as (u & _ & H). apply ok_pair in H. destruct H as [_ <-]. reflexivity.
  - apply bind_ok in H. destruct H as (u & _ & H). apply ok_pair in H. destruct H as [_ <-]. reflexivity.
  - apply bind_ok in H. destruct H as (u & _ & H). apply ok_pair in H. destruct H as [_ <-]. unfold hex_padding. rewrite padded_flag, S. reflexivity.
  - apply ok_pair in H. destruct H as [_ <-]. rewrite S. reflexivity.
  - apply bind_ok in H. destruct H as (u & _ & H). apply bind_ok in H. destruct H as (v & _ & H). apply ok_pair in H. destruct H as [_ <-]. reflexivity.
  - apply ok_pair in H. destruct H as [_ <-]. reflexivity.
  - apply bind_ok in H. destruct H as (u & _ & H). apply ok_pair in H. destruct H as [_ <-]. reflexivity.
Qed.

Theorem C60_independent_partial : forall m before f xs hex,
  print_all m false before = Ok (xs, hex) -> Forall no_hex before \/ small_settings f ->
  text_of (dump m hex f) = text_of (dump m false f).
Proof.
  intros m before f xs hex P [N|S]; [|apply dump_small_same, S].
  assert (E : hex = false); [|rewrite E; reflexivity].
  revert xs hex P. induction N as [|g before G N IH]; intros xs hex P; cbn [print_all] in P.
  - apply ok_pair in P. destruct P as [_ <-]. reflexivity.
  - apply bind_ok in P. destruct P as ([x h1] & D & P). cbn beta iota in P. apply no_hex_keeps in D; [|exact G]. subst h1.
    apply bind_ok in P. destruct P as ([ys h2] & Q & P). cbn beta iota in P. apply ok_pair in P. destruct P as [_ <-]. eapply IH, Q.
Qed.

(* After a PING every SETTINGS value of ten or more is printed in hexadecimal. *)
Theorem C60_after_ping_refuted : forall m h g o k v, o <> [] -> 10 <= v ->
  exists x y, print_all m false [PingFrame h o; SettingsFrame g [(k, v)]] = Ok ([fst x; snd x], true) /\
    dump m false (SettingsFrame g [(k, v)]) = Ok (y, false) /\ snd x <> y.
Proof.
  intros m h g o k v O V. cbn [print_all dump bind]. destruct o as [|c o]; [destruct O; reflexivity|]. cbn [hex_after].
  destruct (settings_dump_ok true [(k, v)]) as [a A]. destruct (settings_dump_ok false [(k, v)]) as [b B]. rewrite A, B. cbn [bind].
  eexists (_, _). eexists. cbn [fst snd]. split; [reflexivity|]. split; [reflexivity|].
  intros E. apply app_inv_head in E.
  destruct (settings_line true k v a) as (l & -> & N & _); [rewrite A; reflexivity|].
  destruct (settings_line false k v b) as (l' & -> & N' & _); [rewrite B; reflexivity|].
  apply app_inv_head in E. apply split_at in E; [|exact N|exact N']. destruct E as [_ E]. apply app_inv_head in E.
  apply app_inv_tail in E. apply (decimal_hex_differ v V). symmetry. exact E.
Qed.

Example C60_case :
  let s := SettingsFrame (FH 6 4 0 0 0) [(1, 4096)] in
  (exists xs, print_all Strict false [WindowUpdateFrame (FH 4 8 0 0 0) 0 15; s] = Ok (xs, false)) /\ no_hex s /\
  (exists xs, print_all Strict false [PingFrame (FH 8 6 0 0 0) [1; 2; 3; 4; 5; 6; 7; 8]; s] = Ok (xs, true)) /\
  dump Strict true s <> dump Strict false s.
Proof. cbn zeta. split; [eexists; reflexivity|]. split; [exact I|]. split; [eexists; reflexivity|]. vm_compute. discriminate. Qed.

(* ---------------------------------------------------------------- C61 *)

(* The dynamic table is printed with the index under which a peer refers to each
   entry. *)
Definition table_line (i : N) (h : header) : bytes :=
  str "[" ++ to_string i ++ str "] -> " ++ fst h ++ str ": " ++ snd h ++ nl.

Theorem C61_table_text : forall T, exists lines : list bytes,
  dump_table T = str "=== DYNAMIC_TABLE ===" ++ nl ++ concat lines /\
  length lines = length (dt_entries T) /\
  forall i h, 61 < i -> resolve (rfc_table T) i = Some h ->
    nth_error lines (N.to_nat (i - 62)) = Some (table_line i h).
Proof.
  intros T.
  assert (G : forall es k, exists lines, dump_table_entries k es = concat lines /\ length lines = length es /\
    forall j h, nth_error es j = Some h -> nth_error lines j = Some (table_line (k + N.of_nat j) h)).
  { induction es as [|e es IH]; intros k.
    - exists []. split; [reflexivity|]. split; [reflexivity|]. intros [|j] h H; discriminate H.
    - destruct (IH (k + 1)) as (ls & E & L & F). exists (table_line k e :: ls). split; [|split].
      + cbn [dump_table_entries concat]. rewrite E. unfold table_line. rewrite <- !app_assoc. reflexivity.
      + cbn [length]. rewrite L. reflexivity.
      + intros [|j] h H; cbn [nth_error] in *.
        * injection H as <-. rewrite N.add_0_r. reflexivity.
        * rewrite (F j h H). do 2 f_equal. lia. }
  destruct (G (dt_entries T) FIRST_INDEX) as (ls & E & L & F). exists ls. split; [unfold dump_table; rewrite E; reflexivity|]. split; [exact L|].
  intros i h I R. unfold resolve, resolve_in in R. change (N.of_nat (length rfc_static)) with 61 in R.
  destruct (N.eqb_spec i 0); [lia|]. destruct (N.leb_spec i 61); [lia|]. cbn [t_entries rfc_table] in R.
  replace (i - 1 - 61) with (i - 62) in R by lia. rewrite (F _ h R). do 2 f_equal. unfold FIRST_INDEX. lia.
Qed.

Example C61_case : exists T,
  dt_push default_table (bytes_of_string "a", bytes_of_string "b") = Ok T /\
  resolve (rfc_table T) 62 = Some (bytes_of_string "a", bytes_of_string "b") /\
  dump_table T = str "=== DYNAMIC_TABLE ===" ++ nl ++ str "[62] -> a: b" ++ nl.
Proof. eexists. split; [reflexivity|]. split; [vm_compute; reflexivity|vm_compute; reflexivity]. Qed.

Print Assumptions C56_data_text.
Print Assumptions C56_dump_safe_partial.
Print Assumptions C56_unprintable_refuted.
Print Assumptions C56_goaway_refuted.
Print Assumptions C56_padding_refuted.
Print Assumptions C56_empty_data_refuted.
Print Assumptions C59_numbers.
Print Assumptions C59_class_and_header.
Print Assumptions C59_whole_frame_partial.
Print Assumptions C59_goaway_partial.
Print Assumptions C59_goaway_refuted.
Print Assumptions C59_block_partial.
Print Assumptions C59_forged_refuted.
Print Assumptions C60_independent_partial.
Print Assumptions C60_after_ping_refuted.
Print Assumptions C61_table_text.
