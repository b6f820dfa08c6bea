(* Property C79: how large a header list a few octets can become. *)
From Coq Require Import String.
From Coq Require Import ZArith NArith List Bool Lia ZifyBool ZifyNat ZifyN.
From Verif Require Import Base Arith Util IntRep Huffman StaticTable HeaderType DynTable HeaderEnc HeaderDec FrameHeader Frames FrameBuilder
  Ssl Client SpecBits SpecHpack SpecFrame SpecHuffman UtilProofs BitsProofs HuffmanProofs HuffmanDecProofs DynTableProofs StaticProofs
  HeaderProofs HeaderProofs2 PropHeader FrameProofs PropFrame PropSsl PropClient PropHistory PropBound.
Import ListNotations.
Local Open Scope string_scope.
Local Open Scope list_scope.
Local Open Scope N_scope.
Ltac Zify.zify_post_hook ::= Z.div_mod_to_equations.

(* No code word is shorter than 5 bits. *)
Lemma code_bits : forall syms, Forall (fun s => s <= 256) syms -> (5 * length syms <= length (flat_map rfc_code syms))%nat.
Proof.
  induction 1 as [|s syms H F IH]; [cbn; lia|]. cbn [flat_map length]. rewrite app_length, code_len.
  destruct (encode_table_at_ok s H) as (_ & _ & L). lia.
Qed.

Lemma huffman_expansion : forall e d, wf_bytes e -> huffman_decode e = Ok d -> 5 * size d <= 8 * size e.
Proof.
  intros e d W H. destruct (huffman_decode_spec e W) as [(syms & pad & (E & F & _) & D)|[_ D]]; rewrite D in H; [|discriminate H].
  apply Ok_inj in H. subst d. apply (f_equal (@length bool)) in E. rewrite octets_bits_len, app_length in E.
  pose proof (code_bits syms F) as B. unfold size. rewrite map_length. lia.
Qed.

Lemma string_expansion : forall m v s n, wf_bytes v -> decode_string m v = Ok (s, n) -> 1 <= n /\ 5 * size s <= 8 * (n - 1).
Proof.
  intros m v s n W H. unfold decode_string in H. apply bind_ok in H. destruct H as ((len, c) & I & H).
  pose proof (int_len_bounds 7 v len c pok7 W I) as B.
  apply bind_ok in H. destruct H as (b0 & V & H). apply bind_ok in H. destruct H as (s' & S & H).
  apply Ok_inj in H. injection H as <- <-.
  destruct (negb (extract_high_bit 1 8 b0 =? 0)).
  - apply bind_ok in S. destruct S as (enc & R & S). apply bind_ok in S. destruct S as (dec & D & S).
    apply bind_ok in S. destruct S as (u & _ & S). apply Ok_inj in S. subst s'.
    apply huffman_expansion in D; [|eapply wf_range; eassumption].
    pose proof (vrange_ok _ _ _ _ R) as [L ->]. rewrite size_firstn in D. split; [lia|]. clear -D B. lia.
  - apply bind_ok in S. destruct S as (u & _ & S). destruct (vrange v c len) as [r|x|y|] eqn:R; try discriminate S.
    apply Ok_inj in S. subst s'. pose proof (vrange_ok _ _ _ _ R) as [L ->]. rewrite size_firstn. split; [lia|]. clear -L B. lia.
Qed.

(* The largest row of the static table takes 60 octets. *)
Lemma static_sizes : forallb (fun r => field_size (snd r) <=? 60) static_table_entries = true.
Proof. vm_compute. reflexivity. Qed.

Lemma in_total : forall l f, In f l -> field_size f <= total_size l.
Proof.
  induction l as [|g l IH]; intros f I; [destruct I|]. rewrite total_cons. destruct I as [->|I]; [lia|]. specialize (IH f I). lia.
Qed.

Lemma indexed_size : forall i t h, dt_ok t -> make_indexed_header i t = Ok h -> field_size h <= N.max 60 (dt_max t).
Proof.
  intros i t h [S M] H. unfold make_indexed_header in H. destruct (static_table_size <? i).
  - rewrite dt_at_spec in H. destruct (nth_error (dt_entries t) _) as [g|] eqn:E; [|discriminate H]. apply Ok_inj in H. subst g.
    apply nth_error_In in E. apply in_total in E. lia.
  - unfold static_table_at in H. destruct (map_find static_table_entries i) as [g|] eqn:E; [|discriminate H]. apply Ok_inj in H. subst g.
    apply map_find_in in E. pose proof (proj1 (forallb_forall _ _) static_sizes _ E) as L. cbn [snd] in L. lia.
Qed.

Definition entry_fields (e : hentry) : list field := match e_content e with EHeader h => [h] | ESize _ => [] end.

Lemma entry_expansion : forall m v t e n, wf_bytes v -> dt_ok t -> decode_header m v t = Ok (e, n) ->
  1 <= n /\ 5 * total_size (entry_fields e) <= 5 * N.max 60 (dt_max t) + 8 * (n - 1).
Proof.
  intros m v t e n W K H. pose proof (decode_header_bounds m v t e n W H) as [[N1 _] _]. split; [exact N1|].
  unfold decode_header in H. apply bind_ok in H. destruct H as (b & V & H).
  rewrite check_prefix_spec in H by (eapply vget_wf; eassumption). cbn [bind] in H.
  destruct (hprefix_eqb (class_of b) SizeUpdate).
  { apply bind_ok in H. destruct H as ([x k] & I & H). apply Ok_inj in H. injection H as <- <-. cbn. lia. }
  apply bind_ok in H. destruct H as ([i il] & I & H). pose proof (index_bounds _ _ _ _ W I) as B.
  apply bind_ok in H. destruct H as (h & Hh & H).
  assert (Wh : field_size h <= N.max 60 (dt_max t)).
  { destruct (0 <? i); [eapply indexed_size; eassumption|]. apply Ok_inj in Hh. subst h. unfold field_size. cbn [fst snd length]. lia. }
  destruct (hprefix_eqb (class_of b) Indexed).
  { apply Ok_inj in H. injection H as <- <-. unfold entry_fields. cbn [e_content]. rewrite total_cons, total_nil. lia. }
  apply bind_ok in H. destruct H as (data & E & H). pose proof (erase_wf _ _ _ W E) as Wd.
  apply bind_ok in H. destruct H as ([[nm d'] c] & NM & H).
  assert (X : wf_bytes d' /\ 1 <= c /\ 5 * (32 + size nm) <= 5 * N.max 60 (dt_max t) + 8 * (c - 1)).
  { destruct (size (fst h) <=? 0).
    - apply bind_ok in NM. destruct NM as ([nm' k] & S & NM). apply bind_ok in NM. destruct NM as (d'' & E' & NM).
      apply string_expansion in S; [|exact Wd]. apply Ok_inj in NM. injection NM as <- <- <-.
      split; [eapply erase_wf; eassumption|]. lia.
    - apply Ok_inj in NM. injection NM as <- <- <-. split; [exact Wd|]. unfold field_size in Wh. fold (size (fst h)) in Wh. lia. }
  destruct X as (Wd' & C1 & X). apply bind_ok in H. destruct H as ([vv k] & S & H).
  apply string_expansion in S; [|exact Wd']. apply bind_ok in H. destruct H as (dd & _ & H).
  apply Ok_inj in H. injection H as <- <-. unfold entry_fields. cbn [e_content]. rewrite total_cons, total_nil.
  unfold field_size. cbn [fst snd]. fold (size nm). fold (size vv). lia.
Qed.

Lemma block_expansion : forall m t input b, wf_bytes input -> dt_ok t -> covers m t input b ->
  size b <= size input /\ 5 * total_size (fields_of b) <= 5 * N.max 60 (dt_max t) * size b + 8 * (size input - size b).
Proof.
  intros m t input b W K C. induction C as [|l rest e b NE D C IH]; [cbn; lia|].
  pose proof (entry_expansion m _ t e _ W K D) as [L X].
  assert (WR : wf_bytes rest) by (unfold wf_bytes in *; rewrite Forall_app in W; tauto).
  destruct (IH WR) as [L2 Y]. rewrite size_app, size_cons.
  change (fields_of (e :: b)) with (entry_fields e ++ fields_of b). rewrite total_app. set (M := N.max 60 (dt_max t)) in *.
  clear - L X L2 Y. nia.
Qed.

(* The fragment a frame's fields come from. *)
Lemma frame_fragment : forall m h raw t f, is_octets raw -> build_frame m h raw t = Ok f ->
  frame_fields f = [] \/ exists fragment b, is_octets fragment /\ size fragment <= size raw /\
    decode_block m fragment t = Ok b /\ frame_fields f = fields_of b.
Proof.
  assert (PS : forall raw p d, split_padding raw = Ok (p, d) -> size d <= size raw).
  { intros raw p d H. unfold split_padding in H. destruct raw as [|n raw]; [discriminate|].
    destruct (_ <? _); [discriminate|]. set (k := N.to_nat _) in H. destruct (firstn k (n :: raw)) as [|y l] eqn:F; [discriminate|].
    apply Ok_inj in H. injection H as _ <-. apply (f_equal (@length N)) in F. rewrite firstn_length in F. cbn [length] in F.
    unfold size. cbn [length]. lia. }
  assert (RS : forall raw p d, headers_split_priority raw = Ok (p, d) -> size d <= size raw).
  { intros raw p d H. unfold headers_split_priority in H. apply bind_ok in H. destruct H as (dep & _ & H).
    apply bind_ok in H. destruct H as (b0 & _ & H). apply bind_ok in H. destruct H as (x & _ & H).
    apply bind_ok in H. destruct H as (raw' & E & H). apply verase_front_ok in E. destruct E as [_ ->].
    destruct (skipn _ raw) as [|w l] eqn:S; [discriminate H|]. apply Ok_inj in H. injection H as _ <-.
    apply (f_equal (@length N)) in S. rewrite skipn_length in S. cbn [length] in S. unfold size. lia. }
  intros m h raw t f O B. unfold build_frame in B.
  destruct (fh_type h =? T_DATA). { apply Ok_inj in B. subst f. left. reflexivity. }
  destruct (fh_type h =? T_HEADERS).
  { unfold build_headers_frame in B. destruct (parse_headers m h raw t) as [g|x|u|] eqn:P; try discriminate B.
    - apply Ok_inj in B. subst g. unfold parse_headers, headers_decode_payload in P.
      apply bind_ok in P. destruct P as ([[pad prio] b] & P & Q). apply Ok_inj in Q. subst f. right.
      apply bind_ok in P. destruct P as ([pad' data] & D & P).
      apply bind_ok in P. destruct P as ([prio' data'] & D' & P). apply bind_ok in P. destruct P as (b' & DB & P).
      apply Ok_inj in P. injection P as _ _ <-.
      assert (A1 : is_octets data /\ size data <= size raw).
      { destruct (is_flag_set (fh_flags h) F_PADDED).
        - split; [eapply padding_octets; eassumption|exact (PS _ _ _ D)].
        - apply Ok_inj in D. injection D as _ <-. split; [exact O|lia]. }
      assert (A2 : is_octets data' /\ size data' <= size data).
      { destruct (is_flag_set (fh_flags h) F_PRIORITY).
        - split; [eapply priority_octets; [apply A1|exact D']|exact (RS _ _ _ D')].
        - apply Ok_inj in D'. injection D' as _ <-. split; [apply A1|lia]. }
      exists data', b'. split; [apply A2|]. split; [lia|]. split; [exact DB|reflexivity].
    - apply Ok_inj in B. subst f. left. reflexivity. }
  destruct (fh_type h =? T_PRIORITY). { left. unfold parse_priority in B. repeat (apply bind_ok in B; destruct B as (? & ? & B)). apply Ok_inj in B. subst f. reflexivity. }
  destruct (fh_type h =? T_RST_STREAM).
  { left. unfold parse_rst_stream in B. destruct (_ <? _); [discriminate B|]. repeat (apply bind_ok in B; destruct B as (? & ? & B)). apply Ok_inj in B. subst f. reflexivity. }
  destruct (fh_type h =? T_SETTINGS). { left. unfold build_settings_frame in B. apply bind_ok in B. destruct B as (? & ? & B). apply Ok_inj in B. subst f. reflexivity. }
  destruct (fh_type h =? T_PUSH_PROMISE).
  { right. unfold parse_push_promise in B. apply bind_ok in B. destruct B as (p & P & B). apply Ok_inj in B. subst f.
    unfold push_promise_decode_payload in P. apply bind_ok in P. destruct P as ([pad data] & D & P).
    apply bind_ok in P. destruct P as (b0 & _ & P). apply bind_ok in P. destruct P as (x & _ & P).
    apply bind_ok in P. destruct P as (data' & E & P). apply bind_ok in P. destruct P as (b & DB & P). apply Ok_inj in P. subst p.
    assert (A1 : is_octets data /\ size data <= size raw).
    { destruct (is_flag_set (fh_flags h) F_PADDED).
      - split; [eapply padding_octets; eassumption|exact (PS _ _ _ D)].
      - apply Ok_inj in D. injection D as _ <-. split; [exact O|lia]. }
    apply verase_front_ok in E. destruct E as [_ ->]. exists (skipn (N.to_nat 4) data), b.
    split. { intros y Y. apply A1. rewrite <- (firstn_skipn (N.to_nat 4) data). apply in_or_app. right. exact Y. }
    split; [rewrite size_skipn; lia|]. split; [exact DB|reflexivity]. }
  destruct (fh_type h =? T_PING). { left. unfold parse_ping in B. destruct f; try reflexivity; repeat (apply bind_ok in B; destruct B as (? & ? & B)); discriminate B. }
  destruct (fh_type h =? T_GOAWAY). { left. unfold parse_goaway in B. apply bind_ok in B. destruct B as (? & ? & B). apply Ok_inj in B. subst f. reflexivity. }
  destruct (fh_type h =? T_WINDOW_UPDATE). { left. unfold parse_window_update in B. repeat (apply bind_ok in B; destruct B as (? & ? & B)). destruct f; try reflexivity; discriminate B. }
  destruct (fh_type h =? T_CONTINUATION); [|discriminate B].
  right. unfold parse_continuation in B. apply bind_ok in B. destruct B as (b & DB & B). apply Ok_inj in B. subst f.
  exists raw, b. split; [exact O|]. split; [lia|]. split; [exact DB|reflexivity].
Qed.

(* Any block that decodes, hostile or not. *)
Theorem C79_block : forall m t input b, is_octets input -> dt_size t = total_size (dt_entries t) -> dt_size t <= dt_max t ->
  decode_block m input t = Ok b ->
  size b <= size input /\
  fold_right (fun h n => size (fst h) + size (snd h) + 32 + n) 0 (fields_of b) <= N.max 60 (dt_max t) * size input.
Proof.
  intros m t input b O S L D. pose proof (C24_block_covers m t input b O D) as C. apply octets_wf in O.
  destruct (block_expansion m t input b O (conj S L) C) as [A B]. split; [exact A|].
  change (fold_right (fun h n => size (fst h) + size (snd h) + 32 + n) 0 (fields_of b)) with (total_size (fields_of b)).
  set (M := N.max 60 (dt_max t)) in *. assert (60 <= M) by (unfold M; lia). clearbody M. clear - A B H.
  set (X := total_size (fields_of b)) in *. clearbody X. nia.
Qed.

(* Any frame received from any server: its header list takes at most
   max(60, table size) times the octets of its payload. *)
Theorem C79_received : forall m c f c', is_octets (tls_in (c_tls c)) ->
  dt_size (c_resp c) = total_size (dt_entries (c_resp c)) -> dt_size (c_resp c) <= dt_max (c_resp c) ->
  receive_frame m c = (Ok f, c') ->
  exists head payload, tls_in (c_tls c) = head ++ payload ++ tls_in (c_tls c') /\ length head = 9%nat /\ size payload < 2 ^ 24 /\
    fold_right (fun h n => size (fst h) + size (snd h) + 32 + n) 0 (frame_fields f) <=
    N.max 60 (dt_max (c_resp c)) * size payload.
Proof.
  intros m c f c' O S L H. destruct (receive_cases m c (Ok f) c' H) as (used & U & Z & _ & _ & K).
  destruct K as [[_ K]|(h & head & raw & g & r3 & UE & HS & HB & HL & B & _ & R)]; [exfalso; exact (K f eq_refl)|].
  exists head, raw. split; [rewrite U, UE, <- app_assoc; reflexivity|]. split; [unfold size in HS; lia|].
  split. { rewrite UE, size_app, HS in Z. clear -Z. lia. }
  assert (g = f). { destruct r3 as [u|x|u|]; cbn [bind] in R; try discriminate R. apply Ok_inj in R. congruence. }
  subst g. assert (OR : is_octets raw).
  { intros x X. apply O. rewrite U, UE. apply in_or_app. left. apply in_or_app. right. exact X. }
  destruct (frame_fragment m h raw (c_resp c) f OR B) as [->|(fr & b & OF & LF & D & ->)]; [cbn; lia|].
  destruct (C79_block m (c_resp c) fr b OF S L D) as [_ X]. eapply N.le_trans; [exact X|]. apply N.mul_le_mono_l. exact LF.
Qed.

(* The octets that the header lists of the returned frames take. *)
Definition lists_size (rs : list (res frame)) : N :=
  fold_right (fun r n => match r with Ok f => total_size (frame_fields f) | _ => 0 end + n) 0 rs.

(* A whole session with any server, from a new connection: if no frame of it asks
   for a table larger than M, all header lists together take at most M times the
   octets received. *)
Theorem C79_session : forall m n s M rs c', is_octets (tls_in s) ->
  receive_n m n (Client s default_table default_table) = (rs, c') -> (forall u, ~ In (UB u) rs) ->
  4096 <= M -> (forall f k, In (Ok f) rs -> asks_size f k -> k <= M) ->
  exists used, tls_in s = used ++ tls_in (c_tls c') /\ lists_size rs <= M * size used.
Proof.
  intros m n s M rs c' O R NU LM AM.
  assert (G : forall c, is_octets (tls_in (c_tls c)) -> dt_ok (c_resp c) -> dt_max (c_resp c) <= M -> receive_n m n c = (rs, c') ->
    exists used, tls_in (c_tls c) = used ++ tls_in (c_tls c') /\ lists_size rs <= M * size used).
  { clear s O R. revert rs c' NU AM. induction n as [|n IH]; intros rs c' NU AM c O OK LC R.
    - cbn in R. injection R as <- <-. exists []. split; [reflexivity|]. cbn. lia.
    - pose proof (receive_keeps m 1 c) as K1. cbn [receive_n] in R, K1.
      destruct (receive_frame m c) as [r c1] eqn:R1. destruct (receive_n m n c1) as [rs2 c2] eqn:R2. injection R as <- <-.
      destruct (K1 [r] c1 O OK eq_refl) as (OK1 & M1).
      { intros u [I|[]]. apply (NU u). left. exact I. }
      assert (LC1 : dt_max (c_resp c1) <= M).
      { destruct M1 as [->|(f & [I|[]] & A)]; [exact LC|]. apply (AM f); [left; exact I|exact A]. }
      destruct (receive_cases _ _ _ _ R1) as (used & U & _).
      assert (O1 : is_octets (tls_in (c_tls c1))) by (rewrite U in O; eapply in_skip; exact O).
      destruct (IH rs2 c2) with (c := c1) as (used2 & U2 & B2); auto.
      { intros u I. apply (NU u). right. exact I. }
      { intros f k I. apply AM. right. exact I. }
      exists (used ++ used2). rewrite U, U2, <- app_assoc. split; [reflexivity|]. rewrite size_app.
      cbn [lists_size fold_right]. fold (lists_size rs2).
      assert (B1 : match r with Ok f => total_size (frame_fields f) | _ => 0 end <= M * size used).
      { destruct r as [f|x|u|]; try lia. destruct (C79_received m c f c1 O (proj1 OK) (proj2 OK) R1) as (head & payload & UE & _ & _ & B).
        change (fold_right (fun h n => size (fst h) + size (snd h) + 32 + n) 0 (frame_fields f)) with (total_size (frame_fields f)) in B.
        assert (EU : used = head ++ payload) by (rewrite U, app_assoc in UE; apply app_inv_tail in UE; exact UE).
        rewrite EU, size_app. assert (X : N.max 60 (dt_max (c_resp c)) <= M) by lia. clear - B X. nia. }
      clear - B1 B2. lia. }
  apply (G (Client s default_table default_table)); [exact O|split; [reflexivity|discriminate]|exact LM|exact R].
Qed.

(* The bound is reached: a table with one field that fills it, referred to n
   times, one octet each. *)
Theorem C79_reached : forall m t h n, dt_entries t = [h] -> field_size h = dt_max t ->
  exists b, decode_block m (repeat 190 n) t = Ok b /\
    fold_right (fun h n => size (fst h) + size (snd h) + 32 + n) 0 (fields_of b) = dt_max t * size (repeat 190 n).
Proof.
  intros m t h n E F. induction n as [|n (b & D & X)]; [exists []; split; [reflexivity|cbn; lia]|].
  exists (HEntry Indexed (EHeader h) :: b). split.
  - rewrite decode_block_step; [|apply Forall_forall; intros x I; apply repeat_spec in I; subst x; reflexivity|discriminate].
    assert (H : decode_header m (repeat 190 (S n)) t = Ok (HEntry Indexed (EHeader h), 1)).
    { unfold decode_header. assert (V : vget (repeat 190 (S n)) 0 = Ok 190).
      { unfold vget. destruct (N.ltb_spec 0 (size (repeat 190 (S n)))) as [_|Y]; [reflexivity|unfold size in Y; cbn in Y; lia]. }
      rewrite V. cbn [bind]. change (check_prefix 190) with (Ok Indexed : res hprefix). cbn [bind hprefix_eqb].
      unfold decode_index, decode_int_and_length.
      assert (I : decode_integer_value 7 (repeat 190 (S n)) = Ok 62) by reflexivity.
      rewrite I. cbn [bind]. unfold make_indexed_header. change (0 <? 62) with true. change (static_table_size <? 62) with true. cbv iota.
      change (62 - static_table_size - 1) with 0. rewrite dt_at_spec, E. reflexivity. }
    rewrite H. cbn [bind]. change (skipn (N.to_nat 1) (repeat 190 (S n))) with (repeat 190 n). rewrite D. reflexivity.
  - change (fields_of (HEntry Indexed (EHeader h) :: b)) with (h :: fields_of b).
    cbn [repeat]. rewrite size_cons. unfold field_size in F. cbn [fold_right]. rewrite X. unfold size at 1 2. lia.
Qed.

Example C79_case :
  let h := (octets "cookie", repeat 97 62) in
  let t := DynTable [h] 100 100 in
  field_size h = dt_max t /\ dt_size t = total_size (dt_entries t) /\
  exists f c', receive_frame Strict (Client (Tls (wire (WFrame HEADERS 4 0 1 (repeat 190 20))) [] (repeat (Chunk 3) 60)) default_table t) = (Ok f, c') /\
    total_size (frame_fields f) = 2000.
Proof. cbv zeta. split; [reflexivity|]. split; [reflexivity|]. eexists _, _. split; vm_compute; reflexivity. Qed.

(* Two frames: a field with indexing, then three references to it. *)
Example C79_session_case :
  let s := Tls (wire (WFrame HEADERS 4 0 1 [0x40; 1; 97; 1; 98]) ++ wire (WFrame HEADERS 4 0 3 [0xbe; 0xbe; 0xbe])) [] (repeat (Chunk 3) 60) in
  exists f g c', receive_n Strict 2 (Client s default_table default_table) = ([Ok f; Ok g], c') /\ lists_size [Ok f; Ok g] = 136 /\
    forall h k, In (Ok h) [Ok f; Ok g] -> ~ asks_size h k.
Proof.
  cbv zeta. eexists _, _, _. split; [vm_compute; reflexivity|]. split; [vm_compute; reflexivity|].
  intros h k [I|[I|[]]]; apply Ok_inj in I; subst h; cbn [asks_size asks_in In]; intuition discriminate.
Qed.

Print Assumptions C79_block.
Print Assumptions C79_received.
Print Assumptions C79_session.
Print Assumptions C79_reached.
