(* Property C108: what the exceptions say. *)
From Coq Require Import Ascii String.
From Coq Require Import ZArith NArith List Bool Lia ZifyBool ZifyNat ZifyN.
From Verif Require Import Base Arith Util IntRep HuffmanTable Huffman StaticTable HeaderType DynTable HeaderEnc HeaderDec
  FrameHeader Frames FrameBuilder Ssl Client Dump Connect Messages SpecBits SpecHuffman SpecInt SpecHpack SpecFrame SpecValid
  BitsProofs IntRepProofs IntSpecProofs UtilProofs HuffmanProofs HuffmanDecProofs DynTableProofs StaticProofs FrameProofs
  HeaderProofs HeaderProofs2 BlockProofs DumpProofs PropHuffman PropHeader PropFrame PropBlock PropSsl PropClient PropEntry PropTerm
  PropAccept PropValid PropDump PropName PropThrow PropConnect PropHistory.
Import ListNotations.
Local Open Scope string_scope.
Local Open Scope list_scope.
Local Open Scope N_scope.
Ltac Zify.zify_post_hook ::= Z.div_mod_to_equations.

(* ---- specification ---- *)

(* A text made of fixed words and numbers in decimal. *)
Inductive piece := Words (s : string) | Number (z : Z).
Inductive reads_as : list N -> list piece -> Prop :=
| reads_nothing : reads_as [] []
| reads_words : forall s rest text, reads_as text rest -> reads_as (octets s ++ text) (Words s :: rest)
| reads_number : forall n ds rest text, decimal n ds -> reads_as text rest -> reads_as (ds ++ text) (Number (Z.of_N n) :: rest)
| reads_negative : forall n ds rest text, decimal n ds -> n <> 0 -> reads_as text rest ->
    reads_as (45 :: ds ++ text) (Number (- Z.of_N n) :: rest).

(* Nothing in it that a terminal or a log file would take for more than a
   character. *)
Definition printable (text : list N) : Prop := Forall (fun c => 32 <= c < 127) text.

(* The frame types whose constructors check the size of the payload, and the
   sizes they take. *)
Definition wrong_size (type n : N) : Prop :=
  (type = PRIORITY /\ n < 5) \/ (type = RST_STREAM /\ n < 4) \/ (type = GOAWAY /\ n < 8) \/ (type = WINDOW_UPDATE /\ n <> 4).

(* The bits of a Huffman coded string up to the last complete code word, and
   whole octets after it that do not begin with one: n is their number. *)
Definition stuck (e : list N) (n : N) : Prop :=
  exists syms left, octets_bits e = flat_map rfc_code syms ++ left /\ (forall s, In s syms -> s <= EOS) /\
    (forall s, s <= EOS -> ~ is_prefix (rfc_code s) left) /\ n = N.of_nat (length left) / 8 /\ n <> 0.

(* What is said of a header block: that some string in it is stuck, or nothing
   that the library decides (an index is in no table). *)
Definition coding_pieces (n : Z) : list piece :=
  [Words "invalid argument: encoded_data.size()="; Number n; Words ", required_byte="; Number (n + 1)].
Inductive block_message : exn -> what -> Prop :=
| about_coding : forall e n text, stuck e n -> n <= 3 -> reads_as text (coding_pieces (Z.of_N n)) ->
    block_message InvalidArgument (Text text)
| about_index : block_message OutOfRange StdText.

(* What is said of a frame. *)
Inductive frame_message (type : N) (payload : list N) : exn -> what -> Prop :=
| about_size : forall text, wrong_size type (N.of_nat (length payload)) ->
    reads_as text [Words "invalid payload size: "; Number (Z.of_nat (length payload))] ->
    frame_message type payload InvalidArgument (Text text)
| about_type : 9 < type -> frame_message type payload OutOfRange StdText
| about_block : forall x w, type = PUSH_PROMISE \/ type = CONTINUATION -> block_message x w -> frame_message type payload x w.

(* What is said when the connection fails: the result of the failing call, and
   the number of octets that were asked for. *)
Definition io_message (call : string) (result : Z) (asked : N) (w : what) : Prop :=
  exists text, w = Text text /\
    reads_as text [Words call; Words " failed: result="; Number result; Words ", length="; Number (Z.of_N asked)].

(* ---- proofs: texts ---- *)

Lemma reads_cons : forall s n text rest, reads_as text rest -> reads_as (str s ++ to_string n ++ text) (Words s :: Number (Z.of_N n) :: rest).
Proof. intros. rewrite str_octets. constructor. constructor; [apply decimal_digits|assumption]. Qed.

Lemma reads_last : forall s n, reads_as (str s ++ to_string n) [Words s; Number (Z.of_N n)].
Proof. intros. rewrite <- (app_nil_r (to_string n)). apply reads_cons. constructor. Qed.

Lemma reads_int : forall z text rest, reads_as text rest -> reads_as (int_to_string z ++ text) (Number z :: rest).
Proof.
  intros z text rest R. unfold int_to_string. destruct (Z.ltb_spec z 0) as [L|L].
  - replace (Number z) with (Number (- Z.of_N (Z.to_N (- z)))) by (f_equal; lia). rewrite <- app_assoc.
    change (str "-" ++ to_string (Z.to_N (- z)) ++ text) with (45 :: to_string (Z.to_N (- z)) ++ text).
    constructor; [apply decimal_digits|lia|exact R].
  - replace (Number z) with (Number (Z.of_N (Z.to_N z))) by (f_equal; lia). constructor; [apply decimal_digits|exact R].
Qed.

Fixpoint fixed_printable (ps : list piece) : bool :=
  match ps with
  | [] => true
  | Words s :: ps' => forallb (fun c => (32 <=? c) && (c <? 127)) (octets s) && fixed_printable ps'
  | Number _ :: ps' => fixed_printable ps'
  end.

Lemma decimal_printable : forall n ds, decimal n ds -> printable ds.
Proof. intros n ds (_ & _ & F & _). eapply Forall_impl; [|exact F]. cbn beta. intros; lia. Qed.

Lemma reads_printable : forall text ps, reads_as text ps -> fixed_printable ps = true -> printable text.
Proof.
  induction 1 as [|s rest text R IH|n ds rest text D R IH|n ds rest text D NZ R IH]; cbn [fixed_printable]; intros F; [constructor| | |].
  - apply andb_true_iff in F. destruct F as [F1 F2]. apply Forall_app. split; [|exact (IH F2)]. apply Forall_forall. intros c I.
    rewrite forallb_forall in F1. apply F1 in I. lia.
  - apply Forall_app. split; [eapply decimal_printable; eassumption|exact (IH F)].
  - constructor; [lia|]. apply Forall_app. split; [eapply decimal_printable; eassumption|exact (IH F)].
Qed.

(* ---- proofs: the functions are those of the model ---- *)

Lemma forget_bind : forall A B (r : told A) (k : A -> told B) q f, forget r = q -> (forall a, forget (k a) = f a) ->
  forget (tbind r k) = bind q f.
Proof. intros A B [a|x w|u|] k q f <- H; cbn; auto. Qed.

Lemma forget_standard : forall A (r : res A), forget (standard r) = r.
Proof. intros A []; reflexivity. Qed.

Lemma forget_ping : forall flags d, forget (mk_ping_told flags d) = mk_ping flags d.
Proof. intros. unfold mk_ping_told, mk_ping, construct_opaque_data. destruct (8 <? size d); [reflexivity|]. apply forget_standard. Qed.

Lemma forget_goaway : forall h raw, forget (parse_goaway_told h raw) = parse_goaway h raw.
Proof.
  intros. unfold parse_goaway_told. destruct (size raw <? 8) eqn:E; [|apply forget_standard].
  unfold parse_goaway, goaway_construct_payload. rewrite E. reflexivity.
Qed.

Lemma forget_rst : forall h raw, forget (parse_rst_stream_told h raw) = parse_rst_stream h raw.
Proof.
  intros. unfold parse_rst_stream_told. destruct (size raw <? 4) eqn:E; [|apply forget_standard].
  unfold parse_rst_stream. rewrite E. reflexivity.
Qed.

Lemma forget_validate : forall p, forget (validate_priority_told p) = validate_priority p.
Proof. intros. unfold validate_priority_told, validate_priority. destruct (_ <? _); [reflexivity|]. destruct (_ <? _); reflexivity. Qed.

Lemma forget_mk_priority : forall sid p, forget (mk_priority_told sid p) = mk_priority sid p.
Proof. intros. apply forget_bind; [apply forget_validate|reflexivity]. Qed.

Lemma forget_parse_priority : forall h raw, forget (parse_priority_told h raw) = parse_priority h raw.
Proof.
  intros. apply forget_bind; [|intros p; apply forget_bind; [apply forget_validate|reflexivity]].
  unfold priority_construct_payload_told. destruct (size raw <? 5) eqn:E; [|apply forget_standard].
  unfold priority_construct_payload. rewrite E. reflexivity.
Qed.

Lemma forget_window : forall w, forget (validate_window_size_told w) = validate_window_size w.
Proof. intros. unfold validate_window_size_told, validate_window_size. destruct (_ <? _); reflexivity. Qed.

Lemma forget_mk_window : forall sid r i, forget (mk_window_update_told sid r i) = mk_window_update sid r i.
Proof. intros. apply forget_bind; [apply forget_window|reflexivity]. Qed.

Lemma forget_parse_window : forall h raw, forget (parse_window_update_told h raw) = parse_window_update h raw.
Proof.
  intros. apply forget_bind; [destruct raw; reflexivity|]. intros r. apply forget_bind.
  - destruct (negb _); [reflexivity|apply forget_standard].
  - intros w. apply forget_bind; [apply forget_window|reflexivity].
Qed.

Lemma forget_get_header : forall e, forget (get_header_told e) = get_header e.
Proof. intros [p []]; reflexivity. Qed.
Lemma forget_get_max : forall e, forget (get_max_size_told e) = get_max_size e.
Proof. intros [p []]; reflexivity. Qed.

Lemma forget_encode_index : forall i p, forget (encode_index_told i p) = encode_index i p.
Proof. intros i []; try apply forget_standard. reflexivity. Qed.

Lemma forget_construct : forall v n, forget (construct_integer_told v n) = construct_integer v n.
Proof.
  intros. unfold construct_integer_told. destruct (size v <? n) eqn:E; [|apply forget_standard].
  unfold construct_integer. rewrite E. reflexivity.
Qed.

Lemma forget_pass : forall table temp carry, forget (decode_pass_told table temp carry) = decode_pass table temp carry.
Proof.
  induction table as [|[bl dm] table IH]; intros temp carry; [reflexivity|]. cbn [decode_pass_told decode_pass].
  destruct (_ && _); [reflexivity|]. apply forget_bind.
  - destruct (_ <? _); [|reflexivity]. apply forget_bind; [apply forget_construct|reflexivity].
  - intros [[key tc] el]. destruct (map_find dm key); [|apply IH]. apply forget_bind; [apply forget_standard|reflexivity].
Qed.

Lemma forget_while : forall f d total temp carry, forget (decode_while_told f d total temp carry) = decode_while f d total temp carry.
Proof.
  induction f as [|f IH]; intros d total temp carry; cbn [decode_while_told decode_while]; (destruct (d <? total); [|reflexivity]); [reflexivity|].
  apply forget_bind; [apply forget_pass|]. intros [|sym bl temp' carry'|]; [apply IH|apply forget_bind; [apply IH|reflexivity]|].
  destruct temp as [|a [|b [|c [|e temp]]]]; try reflexivity. rewrite !size_cons.
  destruct (N.ltb_spec (size temp + 1 + 1 + 1 + 1) 4) as [L|_]; [lia|reflexivity].
Qed.

Lemma forget_huffman : forall e, forget (huffman_decode_told e) = huffman_decode e.
Proof. intros. apply forget_while. Qed.

Lemma forget_prefix : forall b, forget (check_prefix_told b) = check_prefix b.
Proof.
  intros. unfold check_prefix_told. destruct (check_prefix b) as [a|x|u|] eqn:E; try reflexivity. unfold check_prefix in E.
  cbn [forget invalid]. f_equal. revert E. generalize [Indexed; IncrementalIndexing; SizeUpdate; NeverIndexed; WithoutIndexing]. intros l.
  induction l as [|p l IH]; cbn [check_prefix_loop]; [congruence|]. destruct (is_flag_set _ _); [discriminate|exact IH].
Qed.

Lemma forget_index : forall v p, forget (decode_index_told v p) = decode_index v p.
Proof. intros v []; try apply forget_standard. reflexivity. Qed.

Lemma forget_string : forall m v, forget (decode_string_told m v) = decode_string m v.
Proof.
  intros. apply forget_bind; [apply forget_standard|]. intros [len k]. apply forget_bind; [apply forget_standard|]. intros b0.
  apply forget_bind; [|reflexivity]. destruct (negb _).
  - apply forget_bind; [apply forget_standard|]. intros enc. apply forget_bind; [apply forget_huffman|]. intros dec.
    apply forget_bind; [apply forget_standard|reflexivity].
  - apply forget_bind; [apply forget_standard|]. intros _. destruct (vrange v k len); reflexivity.
Qed.

Lemma forget_header : forall m v t, forget (decode_header_told m v t) = decode_header m v t.
Proof.
  intros. apply forget_bind; [apply forget_standard|]. intros b0. apply forget_bind; [apply forget_prefix|]. intros p.
  destruct (hprefix_eqb p SizeUpdate); [apply forget_bind; [apply forget_standard|intros [mx n]; reflexivity]|].
  apply forget_bind; [apply forget_index|]. intros [i il]. apply forget_bind; [apply forget_standard|]. intros h.
  destruct (hprefix_eqb p Indexed); [reflexivity|]. apply forget_bind; [apply forget_standard|]. intros data. apply forget_bind.
  - destruct (_ <=? _); [|reflexivity]. apply forget_bind; [apply forget_string|]. intros [nm n]. apply forget_bind; [apply forget_standard|reflexivity].
  - intros [[nm data'] k]. apply forget_bind; [apply forget_string|]. intros [vl n]. apply forget_bind; [apply forget_standard|reflexivity].
Qed.

Lemma forget_block : forall m raw t, forget (decode_block_told m raw t) = decode_block m raw t.
Proof.
  intros m raw t. unfold decode_block_told, decode_block. generalize (length raw). intros f. revert raw.
  induction f as [|f IH]; intros raw; cbn [decode_block_loop_told decode_block_loop]; (destruct (0 <? size raw); [|reflexivity]); [reflexivity|].
  apply forget_bind; [apply forget_header|]. intros [e n]. apply forget_bind; [apply forget_standard|]. intros raw'.
  apply forget_bind; [apply IH|reflexivity].
Qed.

Lemma bind_assoc : forall A B C (r : res A) (k : A -> res B) (j : B -> res C), bind (bind r k) j = bind r (fun a => bind (k a) j).
Proof. intros A B C [] k j; reflexivity. Qed.

Lemma forget_parse_headers : forall m h raw t, forget (parse_headers_told m h raw t) = parse_headers m h raw t.
Proof.
  intros. unfold parse_headers, headers_decode_payload. rewrite bind_assoc. apply forget_bind; [apply forget_standard|]. intros [pd d].
  rewrite bind_assoc. apply forget_bind; [apply forget_standard|]. intros [pr d']. rewrite bind_assoc.
  apply forget_bind; [apply forget_block|reflexivity].
Qed.

Lemma forget_parse_push : forall m h raw t, forget (parse_push_promise_told m h raw t) = parse_push_promise m h raw t.
Proof.
  intros. unfold parse_push_promise, push_promise_decode_payload. rewrite bind_assoc. apply forget_bind; [apply forget_standard|]. intros [pd d].
  rewrite bind_assoc. apply forget_bind; [apply forget_standard|]. intros b0. rewrite bind_assoc. apply forget_bind; [apply forget_standard|]. intros x.
  rewrite bind_assoc. apply forget_bind; [apply forget_standard|]. intros d'. rewrite bind_assoc. apply forget_bind; [apply forget_block|reflexivity].
Qed.

Lemma forget_build : forall m h raw t, forget (fst (build_frame_told m h raw t)) = build_frame m h raw t.
Proof.
  intros. unfold build_frame_told, build_frame.
  destruct (_ =? T_DATA); [apply forget_standard|]. destruct (_ =? T_HEADERS).
  { unfold build_headers_frame_told, build_headers_frame. rewrite <- forget_parse_headers. destruct (parse_headers_told m h raw t); reflexivity. }
  destruct (_ =? T_PRIORITY); [apply forget_parse_priority|]. destruct (_ =? T_RST_STREAM); [apply forget_rst|].
  destruct (_ =? T_SETTINGS); [apply forget_standard|]. destruct (_ =? T_PUSH_PROMISE); [apply forget_parse_push|].
  destruct (_ =? T_PING); [apply forget_standard|]. destruct (_ =? T_GOAWAY); [apply forget_goaway|].
  destruct (_ =? T_WINDOW_UPDATE); [apply forget_parse_window|]. destruct (_ =? T_CONTINUATION); [|reflexivity].
  apply forget_bind; [apply forget_block|reflexivity].
Qed.

Lemma forget_write : forall result s d,
  (forget (fst (ssl_write_told result s d)), snd (ssl_write_told result s d)) = ssl_write s d.
Proof.
  intros. unfold ssl_write_told, ssl_write. generalize (size d). intros n. generalize (length d). intros f. revert s d.
  induction f as [|f IH]; intros s d; destruct d as [|b d]; try reflexivity. cbn [write_loop_told write_loop].
  destruct (bio_write s (b :: d)) as [[j|] s']; [apply IH|reflexivity].
Qed.

Lemma forget_read_loop : forall result n f s remain,
  (forget (fst (read_loop_told result n f s remain)), snd (read_loop_told result n f s remain)) = read_loop f s remain.
Proof.
  induction f as [|f IH]; intros s remain; cbn [read_loop_told read_loop]; (destruct (0 <? remain); [|reflexivity]); [reflexivity|].
  destruct (bio_read s remain) as [[d|] s']; [|reflexivity]. rewrite <- IH. destruct (read_loop_told result n f s' (remain - size d)) as [r s''].
  cbn [fst snd]. f_equal. apply forget_bind; reflexivity.
Qed.

Lemma forget_read : forall result s n,
  (forget (fst (ssl_read_told result s n)), snd (ssl_read_told result s n)) = ssl_read s n.
Proof. intros. apply forget_read_loop. Qed.

Lemma forget_entry : forall t e, forget (update_entry_told t e) = update_entry t e.
Proof.
  intros t e. unfold update_entry_told, update_entry. destruct (e_prefix e); try reflexivity;
    (apply forget_bind; [|intros; apply forget_standard]); [apply forget_get_max|apply forget_get_header].
Qed.

Lemma forget_update_block : forall b t,
  (forget (fst (update_block_told t b)), snd (update_block_told t b)) = update_block t b.
Proof.
  induction b as [|e b IH]; intros t; [reflexivity|]. cbn [update_block_told update_block]. rewrite <- forget_entry.
  destruct (update_entry_told t e); cbn [forget]; try reflexivity. apply IH.
Qed.

Lemma forget_update_frame : forall t f,
  (forget (fst (update_frame_told t f)), snd (update_frame_told t f)) = update_frame t f.
Proof.
  intros t f. unfold update_frame_told.
  assert (REST : forall q : res unit * dyn_table, (forget (fst (let '(r, t') := q in (standard r, t'))), snd (let '(r, t') := q in (standard r, t'))) = q).
  { intros [r t']. cbn [fst snd]. rewrite forget_standard. reflexivity. }
  destruct (_ =? T_HEADERS) eqn:E1; [unfold update_frame; rewrite E1; destruct f; try reflexivity; apply forget_update_block|].
  destruct (_ =? T_PUSH_PROMISE) eqn:E2; [unfold update_frame; rewrite E1, E2; destruct f; try reflexivity; apply forget_update_block|].
  destruct (_ =? T_CONTINUATION) eqn:E3; [unfold update_frame; rewrite E1, E2, E3; destruct f; try reflexivity; apply forget_update_block|].
  apply REST.
Qed.

Lemma forget_receive : forall result m c,
  (forget (fst (fst (receive_frame_told result m c))), snd (receive_frame_told result m c)) = receive_frame m c.
Proof.
  intros result m c. unfold receive_frame_told, receive_frame, receive_raw_data. rewrite <- (forget_read result (c_tls c)).
  destruct (ssl_read_told result (c_tls c) FRAME_HEADER_BYTES) as [r s1]. cbn [fst snd].
  replace (let* raw_fh := forget r in build_frame_header raw_fh) with (forget (let+ raw_fh := r in standard (build_frame_header raw_fh)))
    by (apply forget_bind; [reflexivity|intros; apply forget_standard]).
  destruct (let+ raw_fh := r in standard (build_frame_header raw_fh)) as [fh|x w|u|]; cbn [forget]; try reflexivity.
  assert (Q : exists r2 c2, (if 0 <? fh_length fh
                then let '(r2, s2) := ssl_read_told result (c_tls (set_tls c s1)) (fh_length fh) in (r2, set_tls (set_tls c s1) s2)
                else (Done [], set_tls c s1)) = (r2, c2) /\
              (if 0 <? fh_length fh then let '(r0, s) := ssl_read (c_tls (set_tls c s1)) (fh_length fh) in (r0, set_tls (set_tls c s1) s)
               else (Ok [], set_tls c s1)) = (forget r2, c2)).
  { destruct (0 <? fh_length fh); [|eexists _, _; split; reflexivity]. rewrite <- (forget_read result).
    destruct (ssl_read_told result _ _) as [r2 s2]. eexists _, _. split; reflexivity. }
  destruct Q as (r2 & c2 & -> & ->). destruct r2 as [raw|x w|u|]; cbn [forget bind]; try reflexivity.
  pose proof (forget_build m fh raw (c_resp c2)) as FB. destruct (build_frame_told m fh raw (c_resp c2)) as [r3 p]. cbn [fst] in FB.
  rewrite <- FB. destruct r3 as [f|x w|u|]; cbn [forget]; try reflexivity. rewrite <- (forget_update_frame (c_resp c2) f).
  destruct (update_frame_told (c_resp c2) f) as [r4 t]. cbn [fst snd]. f_equal. apply forget_bind; reflexivity.
Qed.

Lemma forget_connect : forall env k mode first host port, forget (ssl_connect_told env k mode) = snd (ssl_connect env mode first host port).
Proof.
  intros env k mode first host port. unfold ssl_connect_told, connect_checks.
  destruct env as [ctx bio get alpn paths conn hand verify proto mh]. cbn [env_ctx_new env_bio_new env_get_ssl env_set_alpn
    env_verify_paths env_connect env_handshake env_verify_ok env_alpn].
  destruct ctx; [|reflexivity]. destruct bio; [|reflexivity]. destruct get; [|reflexivity]. destruct alpn; [|reflexivity]. destruct paths; [|reflexivity].
  destruct conn; [|reflexivity]. destruct hand; [|reflexivity].
  destruct mode; [|destruct verify; [|reflexivity]]; reduce_calls; cbn [first_failure]; destruct (is_expected_alpn proto); reflexivity.
Qed.

(* ---- proofs: Huffman coded strings ---- *)

Lemma forget_done : forall A (r : told A) a, forget r = Ok a -> r = Done a.
Proof. intros A [b|x w|u|] a E; try discriminate E. cbn in E. congruence. Qed.

Definition coding_text (n : N) : bytes :=
  str "invalid argument: encoded_data.size()=" ++ to_string n ++ str ", required_byte=" ++ to_string (n + 1).

Lemma coding_reads : forall n, reads_as (coding_text n) (coding_pieces (Z.of_N n)).
Proof.
  intros n. unfold coding_text, coding_pieces. apply reads_cons. replace (Z.of_N n + 1)%Z with (Z.of_N (n + 1)) by lia. apply reads_last.
Qed.

Definition required (L r : N) : N := if (L - r) mod 8 =? 0 then (L - r) / 8 else (L - r) / 8 + 1.

(* The first row that needs more bits than there are. *)
Definition too_long (bits : N) (tbl : list (N * list (N * N))) : option N :=
  option_map fst (find (fun row => bits <? fst row) tbl).

Lemma required_sweep : forallb (fun n => forallb (fun r =>
    if r + 8 * n <? 30 then match too_long (r + 8 * n) decode_table with Some L => required L r =? n + 1 | None => false end else true)
    [0; 1; 2; 3; 4; 5; 6; 7]) [1; 2; 3] = true.
Proof. vm_compute. reflexivity. Qed.

Lemma pass_told_none : forall tbl temp v r L, Forall row_sound tbl -> temp <> [] ->
  too_long (r + 8 * size temp) tbl = Some L ->
  st_ok temp (v, r) -> ~ has_code (pending temp (v, r)) ->
  decode_pass_told tbl temp (v, r) =
  Says InvalidArgument (Text (str "invalid argument: encoded_data.size()=" ++ to_string (size temp) ++
                              str ", required_byte=" ++ to_string (required L r))).
Proof.
  induction tbl as [|[L0 m] tbl IH]; intros temp v r L RS NE TL ST NH; [discriminate TL|].
  inversion RS as [|? ? R0 RS']; subst. cbn [decode_pass_told]. cbn [fst snd].
  assert (NZ : (size temp =? 0) = false) by (destruct temp; [congruence|rewrite size_cons; lia]). rewrite NZ. cbn [andb].
  pose proof (proj1 R0) as RL. cbn [fst] in RL. unfold too_long in TL. cbn [find fst] in TL.
  destruct (row_key_spec L0 temp v r ST RL) as [[C E]|(LB & key & c' & k & E & K & KS & ST' & EB)].
  - destruct (N.ltb_spec (r + 8 * size temp) L0) as [_|X]; [|lia]. cbn [option_map fst] in TL. injection TL as <-.
    destruct (N.ltb_spec r L0) as [_|X]; [|lia]. unfold construct_integer_told. fold (required L0 r).
    assert (RQ : size temp < required L0 r).
    { unfold required. destruct (ceil8 (L0 - r)) as [K1 _]. lia. }
    destruct (N.ltb_spec (size temp) (required L0 r)); [reflexivity|lia].
  - destruct (N.ltb_spec (r + 8 * size temp) L0) as [X|_]; [lia|].
    assert (F : map_find m key = None).
    { destruct (map_find m key) as [s'|] eqn:F'; [|reflexivity]. exfalso.
      destruct (found_is_code (L0, m) temp (v, r) key c' k s' _ R0 E EB F') as (H' & EC & EL). cbn [fst] in *.
      apply NH. exists s'. split; [assumption|]. eexists. rewrite EC. exact EB. }
    match goal with |- tbind ?R _ = _ => assert (RK : forget R = row_key L0 temp (v, r)) end.
    { unfold row_key. cbn [fst snd]. destruct (r <? L0); [|reflexivity]. apply forget_bind; [apply forget_construct|reflexivity]. }
    rewrite E in RK. apply forget_done in RK. rewrite RK. cbn [tbind]. rewrite F. apply IH; auto.
Qed.

Lemma pass_told_stuck : forall temp v r, temp <> [] -> r + 8 * size temp < 30 -> st_ok temp (v, r) -> ~ has_code (pending temp (v, r)) ->
  decode_pass_told decode_table temp (v, r) = Says InvalidArgument (Text (coding_text (size temp))).
Proof.
  intros temp v r NE B ST NH.
  assert (R8 : r < 8) by apply ST.
  assert (N1 : In (size temp) [1; 2; 3]).
  { destruct temp as [|b temp]; [congruence|]. rewrite size_cons in *. assert (size temp < 3) by lia.
    destruct (N.eq_dec (size temp) 0) as [->|]; [left; reflexivity|]. destruct (N.eq_dec (size temp) 1) as [->|]; [right; left; reflexivity|].
    replace (size temp) with 2 by lia. right. right. left. reflexivity. }
  assert (N2 : In r [0; 1; 2; 3; 4; 5; 6; 7]) by (cbn [In]; lia).
  pose proof required_sweep as Q. rewrite forallb_forall in Q. apply Q in N1. rewrite forallb_forall in N1. apply N1 in N2.
  destruct (N.ltb_spec (r + 8 * size temp) 30) as [_|X]; [|lia].
  destruct (too_long (r + 8 * size temp) decode_table) as [L|] eqn:TL; [|discriminate N2]. apply N.eqb_eq in N2.
  rewrite (pass_told_none decode_table temp v r L decode_table_sound NE TL ST NH), N2. reflexivity.
Qed.

(* The bits left after the last complete code word. *)
Definition leaves (B : list bool) (n : N) : Prop :=
  exists syms left, B = flat_map rfc_code syms ++ left /\ Forall (fun s => s <= 256) syms /\ ~ has_code left /\
    n = N.of_nat (length left) / 8.

Lemma while_told_spec : forall fuel temp v r decoded total,
  st_ok temp (v, r) -> decoded + (r + 8 * size temp) = total -> (N.to_nat (r + 8 * size temp) < fuel)%nat ->
  exists n, leaves (pending temp (v, r)) n /\ n <= 3 /\
    (n = 0 -> exists out, decode_while_told fuel decoded total temp (v, r) = Done out) /\
    (n <> 0 -> decode_while_told fuel decoded total temp (v, r) = Says InvalidArgument (Text (coding_text n))).
Proof.
  induction fuel as [|fuel IH]; intros temp v r decoded total ST T HF; [lia|].
  destruct (N.eq_dec (r + 8 * size temp) 0) as [Z|NZ].
  - exists 0. split; [|split; [lia|split]].
    + exists [], (pending temp (v, r)). split; [reflexivity|]. split; [constructor|]. pose proof (pending_len temp v r) as PL. rewrite Z in PL.
      destruct (pending temp (v, r)); [|cbn in PL; lia]. split; [apply no_code_nil|reflexivity].
    + intros _. exists []. cbn [decode_while_told]. destruct (N.ltb_spec decoded total); [lia|reflexivity].
    + congruence.
  - cbn [decode_while_told]. destruct (N.ltb_spec decoded total) as [_|C]; [|lia].
    destruct (has_code_dec (pending temp (v, r))) as [(s & Hs & P)|NC].
    + destruct (decode_table_split s Hs) as (pre & m & post & ET & F & Hpre).
      pose proof decode_table_sound as RS. rewrite ET in RS.
      destruct (pass_found s Hs pre m post temp v r RS F Hpre ST P) as (temp' & [v' r'] & E & ST' & EB). rewrite <- ET, <- forget_pass in E.
      apply forget_done in E. rewrite E. cbn [tbind]. destruct (encode_table_at_ok s Hs) as (_ & _ & Ls).
      assert (LB : r + 8 * size temp = rfc_code_length s + (r' + 8 * size temp')).
      { rewrite <- (pending_len temp v r), <- (pending_len temp' v' r'), EB, app_length, code_len. lia. }
      destruct (IH temp' v' r' (decoded + rfc_code_length s) total ST') as (n & (syms & left & EL & FS & NH & EN) & N3 & D0 & DN); [lia|lia|].
      exists n. split; [|split; [exact N3|split]].
      * exists (s :: syms), left. split; [rewrite EB, EL; cbn [flat_map]; apply app_assoc|]. split; [constructor; assumption|]. split; assumption.
      * intros N0. destruct (D0 N0) as [out ->]. eexists. reflexivity.
      * intros N0. rewrite (DN N0). reflexivity.
    + assert (B30 : r + 8 * size temp < 30).
      { destruct (N.lt_ge_cases (r + 8 * size temp) 30) as [|G]; [assumption|].
        exfalso. apply NC. apply complete. pose proof (pending_len temp v r). lia. }
      assert (R8 : r < 8) by apply ST.
      assert (LV : leaves (pending temp (v, r)) (size temp)).
      { exists [], (pending temp (v, r)). split; [reflexivity|]. split; [constructor|]. split; [exact NC|]. rewrite pending_len. lia. }
      exists (size temp). split; [exact LV|]. split; [lia|]. destruct temp as [|b temp].
      * split; [|rewrite size_nil; congruence]. intros _. rewrite size_nil in *. destruct longest_row as (row & Ir & Er).
        assert (E : decode_pass decode_table [] (v, r) = Ok Padding).
        { rewrite (pass_none decode_table [] v r decode_table_sound); auto. exists row. split; [assumption|]. rewrite size_nil. lia. }
        rewrite <- forget_pass in E. apply forget_done in E. rewrite E. cbn [tbind snd]. replace (decoded + r) with total by lia.
        exists []. destruct fuel; cbn [decode_while_told]; rewrite N.ltb_irrefl; reflexivity.
      * split; [rewrite size_cons; lia|]. intros _. rewrite (pass_told_stuck (b :: temp) v r) by (auto; discriminate). reflexivity.
Qed.

(* The number of octets left is determined by the string. *)
Lemma leaves_unique : forall syms syms' left left', Forall (fun s => s <= 256) syms -> Forall (fun s => s <= 256) syms' ->
  ~ has_code left -> ~ has_code left' -> flat_map rfc_code syms ++ left = flat_map rfc_code syms' ++ left' -> left = left'.
Proof.
  induction syms as [|s syms IH]; intros [|s' syms'] left left' F F' NH NH' E.
  - exact E.
  - exfalso. apply NH. inversion F'; subst. exists s'. split; [assumption|]. cbn [flat_map app] in E. rewrite E, <- app_assoc. eexists. reflexivity.
  - exfalso. apply NH'. inversion F; subst. exists s. split; [assumption|]. cbn [flat_map app] in E. rewrite <- E, <- app_assoc. eexists. reflexivity.
  - inversion F; inversion F'; subst.
    assert (s = s').
    { apply (same_code s s' (flat_map rfc_code (s :: syms) ++ left)); auto; [|rewrite E]; cbn [flat_map]; rewrite <- app_assoc; eexists; reflexivity. }
    subst s'. cbn [flat_map] in E. rewrite <- !app_assoc in E. apply app_inv_head in E. eapply IH; eassumption.
Qed.

Lemma stuck_leaves : forall e n, stuck e n <-> leaves (octets_bits e) n /\ n <> 0.
Proof.
  intros e n. unfold stuck, leaves. split.
  - intros (syms & left & E & F & NH & EN & NZ). split; [|exact NZ]. exists syms, left. split; [exact E|]. split; [apply Forall_forall; exact F|].
    split; [|exact EN]. intros (s & Hs & P). exact (NH s Hs P).
  - intros ((syms & left & E & F & NH & EN) & NZ). exists syms, left. split; [exact E|]. split; [apply Forall_forall; exact F|].
    split; [|split; assumption]. intros s Hs P. apply NH. exists s. split; assumption.
Qed.

(* ---------------------------------------------------------------- C108 *)

(* A Huffman coded string is refused exactly when whole octets are left that
   begin with no code word, and the message counts them. *)
Theorem C108_huffman : forall e, is_octets e ->
  (forall n, stuck e n ->
     exists text, huffman_decode_told e = Says InvalidArgument (Text text) /\ n <= 3 /\ reads_as text (coding_pieces (Z.of_N n))) /\
  ((forall n, ~ stuck e n) -> exists s, huffman_decode_told e = Done s) /\
  forget (huffman_decode_told e) = huffman_decode e.
Proof.
  intros e W. apply is_octets_wf in W.
  destruct (while_told_spec (Datatypes.S (N.to_nat (size e * 8))) e 0 0 0 (size e * 8)) as (n & LV & N3 & D0 & DN); [repeat split; auto|lia|lia|].
  assert (PE : pending e (0, 0) = octets_bits e) by reflexivity. rewrite PE in LV.
  split; [|split; [|apply forget_huffman]].
  - intros n' S. apply stuck_leaves in S. destruct S as [(syms' & left' & E' & F' & NH' & ->) NZ]. destruct LV as (syms & left & E & F & NH & ->).
    rewrite E in E'. rewrite <- (leaves_unique _ _ _ _ F F' NH NH' E') in *.
    exists (coding_text (N.of_nat (length left) / 8)). split; [exact (DN NZ)|]. split; [exact N3|apply coding_reads].
  - intros NS. apply D0. destruct (N.eq_dec n 0) as [|NZ]; [assumption|]. exfalso. apply (NS n). apply stuck_leaves. split; assumption.
Qed.

(* ---- proofs: header blocks ---- *)

Lemma tbind_says : forall A B (r : told A) (k : A -> told B) x w, tbind r k = Says x w ->
  r = Says x w \/ exists a, r = Done a /\ k a = Says x w.
Proof. intros A B [a|y v|u|] k x w E; cbn [tbind] in E; try discriminate E; [right; eauto|left; congruence]. Qed.

Lemma standard_says : forall A (r : res A) x w, standard r = Says x w -> r = Throw x /\ w = StdText.
Proof. intros A [a|y|u|] x w E; try discriminate E. cbn in E. injection E as -> <-. split; reflexivity. Qed.

Lemma standard_done : forall A (r : res A) a, standard r = Done a -> r = Ok a.
Proof. intros A [b|y|u|] a E; try discriminate E. cbn in E. injection E as ->. reflexivity. Qed.

Lemma vget_no_throw : forall v i x, vget v i <> Throw x.
Proof. intros. unfold vget. destruct (_ <? _); discriminate. Qed.

Lemma b2i_no_throw : forall n v i x, bytes2integral n v i <> Throw x.
Proof.
  intros n v i x E. unfold bytes2integral in E. apply bind_throw in E. destruct E as [E|(a & _ & E)]; [exact (vrange_no_throw _ _ _ _ E)|discriminate E].
Qed.

(* std::out_of_range apart, nothing is thrown by the standard library. *)
Ltac quiet E := exfalso; apply standard_says in E; destruct E as [E _];
  first [exact (vget_no_throw _ _ _ E)|exact (int_no_throw _ _ _ E)|exact (vrange_no_throw _ _ _ _ E)|exact (erase_no_throw _ _ _ E)
        |exact (address_no_throw _ _ _ _ E)|exact (b2i_no_throw _ _ _ _ E)].

Lemma huffman_says : forall e x w, wf_bytes e -> huffman_decode_told e = Says x w -> block_message x w.
Proof.
  intros e x w W E. apply is_octets_wf in W. destruct (C108_huffman e W) as (S & D & _).
  apply is_octets_wf in W. destruct (while_told_spec (Datatypes.S (N.to_nat (size e * 8))) e 0 0 0 (size e * 8)) as (n & LV & N3 & D0 & DN); [repeat split; auto|lia|lia|].
  destruct (N.eq_dec n 0) as [Z|NZ].
  - exfalso. destruct (D0 Z) as [out O]. unfold huffman_decode_told in E. rewrite O in E. discriminate E.
  - unfold huffman_decode_told in E. rewrite (DN NZ) in E. injection E as <- <-. apply about_coding with (e := e) (n := n); [|exact N3|apply coding_reads].
    apply stuck_leaves. split; [exact LV|exact NZ].
Qed.

Lemma string_says : forall m v x w, wf_bytes v -> decode_string_told m v = Says x w -> block_message x w.
Proof.
  intros m v x w W E. unfold decode_string_told in E. apply tbind_says in E. destruct E as [E|([len k] & I & E)]; [quiet E|].
  apply tbind_says in E. destruct E as [E|(b0 & _ & E)]; [quiet E|].
  apply tbind_says in E. destruct E as [E|(s & _ & E)]; [|discriminate E]. destruct (negb _).
  - apply tbind_says in E. destruct E as [E|(enc & R & E)]; [quiet E|].
    apply tbind_says in E. destruct E as [E|(dec & _ & E)].
    + apply huffman_says in E; [exact E|]. apply standard_done in R. apply vrange_ok in R. destruct R as [_ ->]. apply part_wf. exact W.
    + apply tbind_says in E. destruct E as [E|(u & _ & E)]; [quiet E|discriminate E].
  - apply tbind_says in E. destruct E as [E|(u & _ & E)]; [quiet E|].
    destruct (vrange v k len) as [a|y|y|] eqn:R; try discriminate E. exfalso. exact (vrange_no_throw _ _ _ _ R).
Qed.

Lemma erase_wf : forall v n d, wf_bytes v -> verase_front v n = Ok d -> wf_bytes d.
Proof. intros v n d W E. unfold verase_front in E. destruct (_ <=? _); [|discriminate E]. injection E as <-. apply wf_bytes_skipn. exact W. Qed.

Lemma indexed_throws : forall i t x, (if 0 <? i then make_indexed_header i t else Ok ([], [])) = Throw x -> x = OutOfRange.
Proof. intros i t x E. destruct (N.ltb_spec 0 i) as [P|P]; [|discriminate E]. apply resolve_throws in E; [apply E|lia]. Qed.

Lemma header_says : forall m v t x w, wf_bytes v -> decode_header_told m v t = Says x w -> block_message x w.
Proof.
  intros m v t x w W E. unfold decode_header_told in E. apply tbind_says in E. destruct E as [E|(b0 & B0 & E)]; [quiet E|].
  apply standard_done in B0. assert (B : b0 < 256).
  { unfold vget in B0. destruct (N.ltb_spec 0 (size v)) as [L|_]; [|discriminate B0]. injection B0 as <-. destruct v; [rewrite size_nil in L; lia|].
    inversion W; assumption. }
  apply tbind_says in E. destruct E as [E|(p & P & E)].
  { exfalso. unfold check_prefix_told in E. rewrite check_prefix_spec in E by exact B. discriminate E. }
  destruct (hprefix_eqb p SizeUpdate) eqn:SU.
  { apply tbind_says in E. destruct E as [E|([mx n] & _ & E)]; [quiet E|discriminate E]. }
  apply tbind_says in E. destruct E as [E|([i il] & _ & E)].
  { exfalso. destruct p; try discriminate SU; cbn [decode_index_told decode_index] in E; apply standard_says in E; destruct E as [E _];
      exact (int_no_throw _ _ _ E). }
  apply tbind_says in E. destruct E as [E|(h & _ & E)].
  { apply standard_says in E. destruct E as [E ->]. apply indexed_throws in E. subst x. constructor. }
  destruct (hprefix_eqb p Indexed); [discriminate E|].
  apply tbind_says in E. destruct E as [E|(data & D & E)]; [quiet E|]. apply standard_done in D.
  assert (WD : wf_bytes data) by (eapply erase_wf; eassumption).
  apply tbind_says in E. destruct E as [E|([[nm data'] k] & N & E)].
  - destruct (_ <=? _); [|discriminate E]. apply tbind_says in E. destruct E as [E|([nm n] & _ & E)]; [eapply string_says; eassumption|].
    apply tbind_says in E. destruct E as [E|(d' & _ & E)]; [quiet E|discriminate E].
  - assert (WD' : wf_bytes data').
    { destruct (_ <=? _); [|injection N as <- <- <-; exact WD]. destruct (decode_string_told m data) as [[nm' n']| | |]; try discriminate N. cbn [tbind] in N.
      destruct (verase_front data n') as [d''| | |] eqn:V; try discriminate N. cbn [standard tbind] in N. injection N as <- <- <-. eapply erase_wf; eassumption. }
    apply tbind_says in E. destruct E as [E|([vl n] & _ & E)]; [eapply string_says; eassumption|].
    apply tbind_says in E. destruct E as [E|(d' & _ & E)]; [quiet E|discriminate E].
Qed.

Lemma block_says : forall m raw t x w, wf_bytes raw -> decode_block_told m raw t = Says x w -> block_message x w.
Proof.
  intros m raw t x w. unfold decode_block_told. generalize (length raw). intros f. revert raw.
  induction f as [|f IH]; intros raw W E; cbn [decode_block_loop_told] in E; (destruct (0 <? size raw); [|discriminate E]); [discriminate E|].
  apply tbind_says in E. destruct E as [E|([e n] & _ & E)]; [eapply header_says; eassumption|].
  apply tbind_says in E. destruct E as [E|(raw' & R & E)]; [quiet E|]. apply standard_done in R.
  apply tbind_says in E. destruct E as [E|(b & _ & E)]; [|discriminate E]. eapply IH; [eapply erase_wf; eassumption|exact E].
Qed.

(* ---- proofs: frames ---- *)

Lemma padding_wf : forall raw p d, wf_bytes raw -> split_padding raw = Ok (p, d) -> wf_bytes d.
Proof.
  intros raw p d W E. unfold split_padding in E. destruct raw as [|b raw]; [discriminate E|]. destruct (_ <? _); [discriminate E|].
  destruct (firstn _ (b :: raw)) as [|c l] eqn:F; [discriminate E|]. injection E as _ <-.
  assert (WF : wf_bytes (c :: l)) by (rewrite <- F; apply wf_bytes_firstn; exact W). inversion WF; assumption.
Qed.

Lemma padding_no_throw : forall (b : bool) raw x, (if b then split_padding raw else Ok ([], raw)) <> Throw x.
Proof.
  intros [] raw x; [|discriminate]. unfold split_padding. destruct raw as [|c raw]; [discriminate|]. destruct (_ <? _); [discriminate|].
  destruct (firstn _ _); discriminate.
Qed.

Lemma size_says : forall A s (n : N) x w, @invalid A s n = Says x w -> x = InvalidArgument /\ exists text, w = Text text /\ reads_as text [Words s; Number (Z.of_N n)].
Proof. intros A s n x w E. injection E as <- <-. split; [reflexivity|]. eexists. split; [reflexivity|]. apply reads_last. Qed.

Lemma pair_says : forall s n w p, (@invalid frame s n, @None what) = (Says InvalidArgument w, p) -> w = Text (str s ++ to_string n) /\ p = None.
Proof. intros s n w p E. unfold invalid in E. split; congruence. Qed.

Lemma frame_says : forall m h raw t x w p, is_octets raw -> build_frame_told m h raw t = (Says x w, p) ->
  p = None /\ frame_message (fh_type h) raw x w.
Proof.
  intros m h raw t x w p O E. pose proof (octets_wf _ O) as W. pose proof (forget_build m h raw t) as FB. rewrite E in FB. cbn [fst forget] in FB. symmetry in FB.
  apply C89_frame in FB; [|exact O]. destruct h as [len ty fl r sid]. cbn [fh_type fh_flags] in *.
  destruct FB as [T|T L|T L|T L|T L|promised fragment padding y T LY B|y T B].
  - assert (Q : build_frame_told m (FH len ty fl r sid) raw t = (Says OutOfRange StdText, None)).
    { unfold build_frame_told. cbn [fh_type]. unfold T_DATA, T_HEADERS, T_PRIORITY, T_RST_STREAM, T_SETTINGS, T_PUSH_PROMISE, T_PING, T_GOAWAY, T_WINDOW_UPDATE, T_CONTINUATION.
      repeat match goal with |- context[ty =? ?k] => destruct (N.eqb_spec ty k); [lia|] end. reflexivity. }
    rewrite Q in E. inversion E; subst. split; [reflexivity|]. apply about_type. exact T.
  - subst ty. change (build_frame_told m (FH len PRIORITY fl r sid) raw t) with (parse_priority_told (FH len PRIORITY fl r sid) raw, @None what) in E.
    unfold parse_priority_told, priority_construct_payload_told in E. assert (L' : size raw < 5) by (unfold size; lia).
    destruct (N.ltb_spec (size raw) 5); [|lia]. change (tbind (invalid _ _) _) with (@invalid frame "invalid payload size: " (size raw)) in E. apply pair_says in E. destruct E as (-> & ->). split; [reflexivity|].
    apply about_size; [left; split; [reflexivity|lia]|]. replace (Z.of_nat (length raw)) with (Z.of_N (size raw)) by (unfold size; lia). apply reads_last.
  - subst ty. change (build_frame_told m (FH len RST_STREAM fl r sid) raw t) with (parse_rst_stream_told (FH len RST_STREAM fl r sid) raw, @None what) in E.
    unfold parse_rst_stream_told in E. assert (L' : size raw < 4) by (unfold size; lia).
    destruct (N.ltb_spec (size raw) 4); [|lia]. apply pair_says in E. destruct E as (-> & ->). split; [reflexivity|].
    apply about_size; [right; left; split; [reflexivity|lia]|]. replace (Z.of_nat (length raw)) with (Z.of_N (size raw)) by (unfold size; lia). apply reads_last.
  - subst ty. change (build_frame_told m (FH len GOAWAY fl r sid) raw t) with (parse_goaway_told (FH len GOAWAY fl r sid) raw, @None what) in E.
    unfold parse_goaway_told in E. assert (L' : size raw < 8) by (unfold size; lia).
    destruct (N.ltb_spec (size raw) 8); [|lia]. apply pair_says in E. destruct E as (-> & ->). split; [reflexivity|].
    apply about_size; [right; right; left; split; [reflexivity|lia]|]. replace (Z.of_nat (length raw)) with (Z.of_N (size raw)) by (unfold size; lia). apply reads_last.
  - subst ty. change (build_frame_told m (FH len WINDOW_UPDATE fl r sid) raw t) with (parse_window_update_told (FH len WINDOW_UPDATE fl r sid) raw, @None what) in E.
    assert (Q : parse_window_update_told (FH len WINDOW_UPDATE fl r sid) raw = invalid "invalid payload size: " (size raw)).
    { unfold parse_window_update_told. destruct raw as [|b raw]; [reflexivity|]. cbn [tbind]. assert (L' : size (b :: raw) <> 4) by (unfold size; lia).
      destruct (N.eqb_spec (size (b :: raw)) 4); [congruence|]. reflexivity. }
    rewrite Q in E. apply pair_says in E. destruct E as (-> & ->). split; [reflexivity|].
    apply about_size; [right; right; right; split; [reflexivity|lia]|]. replace (Z.of_nat (length raw)) with (Z.of_N (size raw)) by (unfold size; lia). apply reads_last.
  - subst ty. change (build_frame_told m (FH len PUSH_PROMISE fl r sid) raw t) with (parse_push_promise_told m (FH len PUSH_PROMISE fl r sid) raw t, @None what) in E.
    injection E as E <-. split; [reflexivity|]. apply about_block; [left; reflexivity|]. unfold parse_push_promise_told in E. cbn [fh_flags] in E.
    apply tbind_says in E. destruct E as [E|([pd d] & D & E)]; [exfalso; apply standard_says in E; exact (padding_no_throw _ _ _ (proj1 E))|].
    assert (WD : wf_bytes d).
    { apply standard_done in D. destruct (is_flag_set fl F_PADDED); [eapply padding_wf; eassumption|]. injection D as _ <-. exact W. }
    apply tbind_says in E. destruct E as [E|(b0 & _ & E)]; [quiet E|]. apply tbind_says in E. destruct E as [E|(z & _ & E)]; [quiet E|].
    apply tbind_says in E. destruct E as [E|(d' & D' & E)]; [quiet E|]. apply standard_done in D'.
    apply tbind_says in E. destruct E as [E|(b & _ & E)]; [|discriminate E]. eapply block_says; [eapply erase_wf; eassumption|exact E].
  - subst ty. change (build_frame_told m (FH len CONTINUATION fl r sid) raw t) with (parse_continuation_told m (FH len CONTINUATION fl r sid) raw t, @None what) in E.
    injection E as E <-. split; [reflexivity|]. apply about_block; [right; reflexivity|]. unfold parse_continuation_told in E.
    apply tbind_says in E. destruct E as [E|(b & _ & E)]; [|discriminate E]. eapply block_says; eassumption.
Qed.

(* What build_frame prints. *)
Lemma frame_prints : forall m h raw t r w, is_octets raw -> build_frame_told m h raw t = (r, Some w) ->
  fh_type h = HEADERS /\ r = Done (RawFrame h raw) /\ exists x, block_message x w.
Proof.
  intros m h raw t r w O E. pose proof (octets_wf _ O) as W. unfold build_frame_told in E.
  destruct (_ =? T_DATA); [discriminate E|]. destruct (N.eqb_spec (fh_type h) T_HEADERS) as [T|_].
  - split; [exact T|]. unfold build_headers_frame_told in E. destruct (parse_headers_told m h raw t) as [f|x v|u|] eqn:P; try discriminate E.
    injection E as <- <-. split; [reflexivity|]. exists x. unfold parse_headers_told in P.
    apply tbind_says in P. destruct P as [P|([pd d] & D & P)]; [exfalso; apply standard_says in P; exact (padding_no_throw _ _ _ (proj1 P))|].
    assert (WD : wf_bytes d).
    { apply standard_done in D. destruct (is_flag_set _ F_PADDED); [eapply padding_wf; eassumption|]. injection D as _ <-. exact W. }
    apply tbind_says in P. destruct P as [P|([pr d'] & D' & P)].
    { exfalso. apply standard_says in P. destruct P as [P _]. destruct (is_flag_set _ F_PRIORITY); [|discriminate P]. unfold headers_split_priority in P.
      apply bind_throw in P. destruct P as [P|(dep & _ & P)]; [exact (vrange_no_throw _ _ _ _ P)|].
      apply bind_throw in P. destruct P as [P|(b0 & _ & P)]; [exact (vget_no_throw _ _ _ P)|].
      apply bind_throw in P. destruct P as [P|(z & _ & P)]; [exact (b2i_no_throw _ _ _ _ P)|].
      apply bind_throw in P. destruct P as [P|(raw' & _ & P)]; [exact (erase_no_throw _ _ _ P)|]. destruct raw'; discriminate P. }
    assert (WD' : wf_bytes d').
    { apply standard_done in D'. destruct (is_flag_set _ F_PRIORITY); [|injection D' as _ <-; exact WD]. unfold headers_split_priority in D'.
      apply bind_ok in D'. destruct D' as (dep & _ & D'). apply bind_ok in D'. destruct D' as (b0 & _ & D'). apply bind_ok in D'. destruct D' as (z & _ & D').
      apply bind_ok in D'. destruct D' as (raw' & ER & D'). destruct raw' as [|c l]; [discriminate D'|]. injection D' as _ <-.
      assert (WR : wf_bytes (c :: l)) by (eapply erase_wf; eassumption). inversion WR; assumption. }
    apply tbind_says in P. destruct P as [P|(b & _ & P)]; [|discriminate P]. eapply block_says; eassumption.
  - repeat match type of E with (if ?b then _ else _) = _ => destruct b; [discriminate E|] end. discriminate E.
Qed.

(* ---- proofs: receiving ---- *)

Lemma io_reads : forall call result n,
  reads_as (str call ++ str " failed: result=" ++ int_to_string result ++ str ", length=" ++ to_string n)
    [Words call; Words " failed: result="; Number result; Words ", length="; Number (Z.of_N n)].
Proof.
  intros. rewrite !(str_octets call), (str_octets " failed: result="). constructor. constructor. apply reads_int. apply reads_last.
Qed.

Lemma read_says : forall result s n x w s', ssl_read_told result s n = (Says x w, s') -> x = RuntimeError /\ io_message "BIO_read" result n w.
Proof.
  intros result s n x w s'. unfold ssl_read_told. generalize n at 1 4. intros asked. generalize (N.to_nat n). intros f. revert s n x w s'.
  induction f as [|f IH]; intros s n x w s' E; cbn [read_loop_told] in E; (destruct (0 <? n); [|discriminate E]); [discriminate E|].
  destruct (bio_read s n) as [[d|] s1].
  - destruct (read_loop_told result asked f s1 (n - size d)) as [r s2] eqn:R. assert (E1 : (let+ rest := r in Done (d ++ rest)) = Says x w) by congruence.
    apply tbind_says in E1. destruct E1 as [->|(a & _ & E1)]; [|discriminate E1]. eapply IH; exact R.
  - assert (E1 : @Says bytes RuntimeError (Text (str "BIO_read failed: result=" ++ int_to_string result ++ str ", length=" ++ to_string asked)) = Says x w) by congruence.
    split; [congruence|]. eexists. split; [|apply io_reads].
    change (str "BIO_read" ++ str " failed: result=" ++ int_to_string result ++ str ", length=" ++ to_string asked)
      with (str "BIO_read failed: result=" ++ int_to_string result ++ str ", length=" ++ to_string asked). congruence.
Qed.

(* Reading: all the octets asked for, or an exception and fewer. *)
Lemma read_cases : forall result s n r s', ssl_read_told result s n = (r, s') ->
  exists got, tls_in s = got ++ tls_in s' /\
    ((r = Done got /\ size got = n) \/ (exists w, r = Says RuntimeError w /\ io_message "BIO_read" result n w /\ size got < n)).
Proof.
  intros result s n r s' E. destruct (C48_read_exact s n) as (k & H). pose proof (forget_read result s n) as F. rewrite E in F. cbn [fst snd] in F. rewrite <- F in H.
  destruct H as (K & I & _ & R). exists (firstn k (tls_in s)). split; [rewrite I; symmetry; apply firstn_skipn|].
  assert (SZ : size (firstn k (tls_in s)) = N.of_nat k) by (unfold size in *; rewrite firstn_length; lia). rewrite SZ.
  destruct R as [[R L]|[R L]].
  - left. split; [apply forget_done; exact R|exact L].
  - right. destruct r as [a|x w|u|]; try discriminate R. cbn [forget] in R. destruct (read_says _ _ _ _ _ _ E) as [-> IO]. exists w. auto.
Qed.

Definition rest_of {A} (c : client) (q : told frame) (k : frame -> A) (z : told frame -> A) : A :=
  match q with Done f => k f | Says x w => z (Says x w) | Undefined u => z (Undefined u) | OutOfFuel => z OutOfFuel end.

Lemma receive_told_cases : forall result m c r p c', is_octets (tls_in (c_tls c)) -> receive_frame_told result m c = (r, p, c') ->
  exists taken, tls_in (c_tls c) = taken ++ tls_in (c_tls c') /\
  ((exists w asked, r = Says RuntimeError w /\ p = None /\ io_message "BIO_read" result asked w /\
      ((asked = 9 /\ size taken < 9) \/
       (exists more body, taken = be_octets 3 asked ++ more ++ body /\ length more = 6%nat /\ size body < asked))) \/
   (exists wf q, wframe_ok wf /\ taken = wire wf /\ build_frame_told m (header_of wf) (w_payload wf) (c_resp c) = (q, p) /\
      r = rest_of c q (fun f => let+ _ := fst (update_frame_told (c_resp c) f) in Done f) (fun q' => q'))).
Proof.
  intros result m c r p c' O E. pose proof (octets_wf _ O) as W. unfold receive_frame_told in E.
  destruct (ssl_read_told result (c_tls c) FRAME_HEADER_BYTES) as [r1 s1] eqn:R1. destruct (read_cases _ _ _ _ _ R1) as (head & I1 & [[-> L1]|(w & -> & IO & L1)]).
  2:{ cbn [tbind] in E. injection E as <- <- <-. exists head. split; [exact I1|]. left. exists w, 9. split; [reflexivity|]. split; [reflexivity|].
      split; [exact IO|]. left. split; [reflexivity|exact L1]. }
  rewrite I1 in W. apply wf_bytes_app in W. destruct W as [WH W1]. change FRAME_HEADER_BYTES with 9 in L1.
  destruct (build_fh_total head WH L1) as (h & B). cbn [tbind] in E. rewrite B in E. cbn [standard] in E.
  destruct (header_octets_frame head h WH L1 B) as [L24 FR].
  assert (HL : exists more, head = be_octets 3 (fh_length h) ++ more /\ length more = 6%nat).
  { assert (Z : size (repeat 0 (N.to_nat (fh_length h))) = fh_length h) by (unfold size; rewrite repeat_length; lia).
    assert (ZO : is_octets (repeat 0 (N.to_nat (fh_length h)))) by (apply wf_octets; apply Forall_forall; intros y Y; apply repeat_spec in Y; subst y; unfold wf_byte; lia).
    destruct (FR _ ZO Z) as (_ & WE & _). unfold wire, wire_frame, wire_header in WE. cbn [w_type w_flags w_reserved w_stream w_payload] in WE.
    change (N.of_nat (length (repeat 0 (N.to_nat (fh_length h))))) with (size (repeat 0 (N.to_nat (fh_length h)))) in WE. rewrite Z in WE.
    apply app_inv_tail in WE. eexists. split; [symmetry; exact WE|]. pose proof (be_octets_size 4 (fh_reserved h * 2 ^ 31 + fh_stream_id h)) as SZ. unfold size in SZ. rewrite app_length. change (length [fh_type h; fh_flags h]) with 2%nat. lia. }
  destruct HL as (more & HE & ML). cbn [set_tls c_tls c_req c_resp] in E.
  assert (G : exists body r2 c2, (if 0 <? fh_length h
      then let '(r2, s2) := ssl_read_told result s1 (fh_length h) in (r2, Client s2 (c_req c) (c_resp c))
      else (Done [], Client s1 (c_req c) (c_resp c))) = (r2, c2) /\ c_resp c2 = c_resp c /\ tls_in s1 = body ++ tls_in (c_tls c2) /\
      ((r2 = Done body /\ size body = fh_length h) \/
       (exists w, r2 = Says RuntimeError w /\ io_message "BIO_read" result (fh_length h) w /\ size body < fh_length h))).
  { destruct (N.ltb_spec 0 (fh_length h)) as [P|P].
    - destruct (ssl_read_told result s1 (fh_length h)) as [r2 s2] eqn:R2. destruct (read_cases _ _ _ _ _ R2) as (body & I2 & X).
      exists body, r2, (Client s2 (c_req c) (c_resp c)). split; [reflexivity|]. split; [reflexivity|]. split; [exact I2|exact X].
    - exists [], (Done []), (Client s1 (c_req c) (c_resp c)). split; [reflexivity|]. split; [reflexivity|]. split; [reflexivity|]. left. split; [reflexivity|rewrite size_nil; lia]. }
  destruct G as (body & r2 & c2 & G & CR & I2 & X). unfold set_tls in E. cbn [c_tls c_req c_resp] in E. rewrite G in E.
  exists (head ++ body). destruct X as [[-> SB]|(w & -> & IO & SB)].
  - assert (OB : is_octets body) by (apply wf_octets; rewrite I2 in W1; apply wf_bytes_app in W1; apply W1).
    destruct (FR body OB SB) as (WO & WE & HW).
    set (wf := WFrame (fh_type h) (fh_flags h) (fh_reserved h) (fh_stream_id h) body) in *. rewrite CR in E.
    destruct (build_frame_told m h body (c_resp c)) as [q p'] eqn:BF.
    assert (Q : p' = p /\ c_tls c' = c_tls c2 /\ r = rest_of c q (fun f => let+ _ := fst (update_frame_told (c_resp c) f) in Done f) (fun q' => q')).
    { destruct q as [f|x w|u|]; cbn [rest_of]; try (injection E as <- <- <-; auto; fail).
      destruct (update_frame_told (c_resp c) f) as [r4 t4]. cbn [fst]. injection E as <- <- <-. auto. }
    destruct Q as (-> & CT & RE). rewrite CT. split; [rewrite I1, I2; apply app_assoc|]. right. exists wf, q. split; [exact WO|]. split; [symmetry; exact WE|].
    split; [|exact RE]. rewrite HW. exact BF.
  - injection E as <- <- <-. split; [rewrite I1, I2; apply app_assoc|]. left. exists w, (fh_length h). split; [reflexivity|]. split; [reflexivity|]. split; [exact IO|].
    right. exists more, body. split; [rewrite HE; symmetry; apply app_assoc|]. split; assumption.
Qed.

(* Every exception of receive_frame: the connection failed, and the message tells
   the result and how many octets were asked for; or a complete frame was taken
   from the connection, and the message is about that frame. *)
Theorem C108_receive_partial : forall result m c x w p c', is_octets (tls_in (c_tls c)) ->
  receive_frame_told result m c = (Says x w, p, c') ->
  p = None /\ exists taken, tls_in (c_tls c) = taken ++ tls_in (c_tls c') /\
  ((exists wf, wframe_ok wf /\ taken = wire wf /\ frame_message (w_type wf) (w_payload wf) x w) \/
   (exists asked, x = RuntimeError /\ io_message "BIO_read" result asked w /\
      ((asked = 9 /\ size taken < 9) \/
       (exists more body, taken = be_octets 3 asked ++ more ++ body /\ length more = 6%nat /\ size body < asked)))).
Proof.
  intros result m c x w p c' O E.
  destruct (receive_told_cases _ _ _ _ _ _ O E) as (taken & T & [(w' & asked & RE & P & IO & L)|(wf & q & WO & TW & B & RE)]).
  - injection RE as -> ->. split; [exact P|]. exists taken. split; [exact T|]. right. exists asked. auto.
  - assert (OP : is_octets (w_payload wf)) by apply WO.
    assert (Q : q = Says x w).
    { destruct q as [f|y v|u|]; cbn [rest_of] in RE; try discriminate RE; [|symmetry; exact RE]. exfalso.
      pose proof (forget_build m (header_of wf) (w_payload wf) (c_resp c)) as FB. rewrite B in FB. cbn [fst forget] in FB. symmetry in FB.
      pose proof (built_no_throw _ _ _ _ _ (c_resp c) OP FB) as NT. rewrite <- forget_update_frame in NT. cbn [fst] in NT.
      symmetry in RE. apply tbind_says in RE. destruct RE as [RE|(u & _ & RE)]; [|discriminate RE]. rewrite RE in NT. exact (NT x eq_refl). }
    subst q. destruct (frame_says _ _ _ _ _ _ _ OP B) as [-> F]. split; [reflexivity|]. exists taken. split; [exact T|]. left. exists wf. auto.
Qed.

(* What receive_frame prints to std::cout it prints about a HEADERS frame, and
   its behaviour is undefined afterwards. *)
Theorem C108_printed : forall result m c r w c', is_octets (tls_in (c_tls c)) ->
  receive_frame_told result m c = (r, Some w, c') ->
  r = Undefined NullDeref /\ (exists x, block_message x w) /\
  exists wf, wframe_ok wf /\ w_type wf = HEADERS /\ tls_in (c_tls c) = wire wf ++ tls_in (c_tls c').
Proof.
  intros result m c r w c' O E.
  destruct (receive_told_cases _ _ _ _ _ _ O E) as (taken & T & [(w' & asked & RE & P & IO & L)|(wf & q & WO & TW & B & RE)]); [discriminate P|].
  assert (OP : is_octets (w_payload wf)) by apply WO.
  destruct (frame_prints _ _ _ _ _ _ OP B) as (TY & -> & BM). cbn [rest_of] in RE. split; [|split; [exact BM|]].
  - rewrite RE. unfold update_frame_told. cbn [frame_fh]. rewrite TY. reflexivity.
  - exists wf. split; [exact WO|]. split; [exact TY|]. rewrite <- TW. exact T.
Qed.

(* ---- proofs: sending ---- *)

Lemma write_says : forall result s d x w s', ssl_write_told result s d = (Says x w, s') -> x = RuntimeError /\ io_message "BIO_write" result (size d) w.
Proof.
  intros result s d x w s'. unfold ssl_write_told. generalize (size d). intros asked. generalize (length d). intros f. revert s d x w s'.
  induction f as [|f IH]; intros s [|b d] x w s' E; cbn [write_loop_told] in E; try discriminate E.
  destruct (bio_write s (b :: d)) as [[j|] s1]; [eapply IH; exact E|].
  assert (E1 : @Says unit RuntimeError (Text (str "BIO_write failed: result=" ++ int_to_string result ++ str ", length=" ++ to_string asked)) = Says x w) by congruence.
  split; [congruence|]. eexists. split; [|apply io_reads].
  change (str "BIO_write" ++ str " failed: result=" ++ int_to_string result ++ str ", length=" ++ to_string asked)
    with (str "BIO_write failed: result=" ++ int_to_string result ++ str ", length=" ++ to_string asked). congruence.
Qed.

(* Writing: everything was taken, or the message tells the result and the number
   of octets that were to be written. *)
Theorem C108_write : forall result s d r s', ssl_write_told result s d = (r, s') ->
  ssl_write s d = (forget r, s') /\
  (r = Done tt \/ exists w, r = Says RuntimeError w /\ io_message "BIO_write" result (size d) w).
Proof.
  intros result s d r s' E. pose proof (forget_write result s d) as F. rewrite E in F. cbn [fst snd] in F. split; [symmetry; exact F|].
  destruct (C48_write_exact s d) as (k & H). rewrite <- F in H. destruct H as (_ & _ & [[R _]|[R _]]).
  - left. apply forget_done. exact R.
  - right. destruct r as [a|x w|u|]; try discriminate R. destruct (write_says _ _ _ _ _ _ E) as [-> IO]. eauto.
Qed.

(* ---- proofs: constructors and entries ---- *)

Lemma invalid_reads : forall A s n, exists text, @invalid A s n = Says InvalidArgument (Text text) /\ reads_as text [Words s; Number (Z.of_N n)].
Proof. intros. eexists. split; [reflexivity|apply reads_last]. Qed.

(* The frames an application makes: refused exactly for a value out of range,
   and the message names it. *)
Theorem C108_constructors :
  (forall flags d,
     (size d <= 8 -> exists f, mk_ping_told flags d = Done f) /\
     (8 < size d -> exists text, mk_ping_told flags d = Says InvalidArgument (Text text) /\
        reads_as text [Words "invalid opaque data size: "; Number (Z.of_N (size d))])) /\
  (forall sid e dep w,
     (e <= 1 -> dep < 2 ^ 31 -> exists f, mk_priority_told sid (Prio e dep w) = Done f) /\
     (1 < e -> exists text, mk_priority_told sid (Prio e dep w) = Says InvalidArgument (Text text) /\
        reads_as text [Words "invalid exclusive: "; Number (Z.of_N e)]) /\
     (e <= 1 -> 2 ^ 31 <= dep -> exists text, mk_priority_told sid (Prio e dep w) = Says InvalidArgument (Text text) /\
        reads_as text [Words "invalid stream dependency: "; Number (Z.of_N dep)])) /\
  (forall sid r inc,
     (inc < 2 ^ 31 -> exists f, mk_window_update_told sid r inc = Done f) /\
     (2 ^ 31 <= inc -> exists text, mk_window_update_told sid r inc = Says InvalidArgument (Text text) /\
        reads_as text [Words "invalid window size: "; Number (Z.of_N inc)])).
Proof.
  split; [|split].
  - intros flags d. unfold mk_ping_told, mk_ping, construct_opaque_data. destruct (N.ltb_spec 8 (size d)) as [L|L]; split; intros H; try lia.
    + apply invalid_reads.
    + eexists. reflexivity.
  - intros sid e dep w. unfold mk_priority_told, validate_priority_told. cbn [p_exclusive p_dependency]. change (2 ^ 31) with 2147483648. unfold MAX_STREAM_ID.
    destruct (N.ltb_spec 1 e) as [L|L]; [|destruct (N.ltb_spec 0x7fffffff dep) as [L'|L']]; (split; [|split]); intros; try lia;
      try (eexists; reflexivity); apply invalid_reads.
  - intros sid r inc. unfold mk_window_update_told, validate_window_size_told. change (2 ^ 31) with 2147483648.
    destruct (N.ltb_spec 0x7fffffff inc) as [L|L]; split; intros; try lia; [apply invalid_reads|eexists; reflexivity].
Qed.

(* An entry of a block that does not hold what its prefix says: the message
   tells what is missing, and nothing else of a block is refused. *)
Theorem C108_entries : forall T b x w T', update_block_told T b = (Says x w, T') ->
  x = RuntimeError /\ exists before e after, b = before ++ e :: after /\
  ((e_prefix e = IncrementalIndexing /\ (exists n, e_content e = ESize n) /\ w = Text (octets "m_entry doesn't hold header_t")) \/
   (e_prefix e = SizeUpdate /\ (exists h, e_content e = EHeader h) /\ w = Text (octets "m_entry doesn't hold size_t"))).
Proof.
  intros T b. revert T. induction b as [|e b IH]; intros T x w T' E; cbn [update_block_told] in E; [discriminate E|].
  destruct (update_entry_told T e) as [T1|y v|u|] eqn:U; try discriminate E.
  - destruct (IH _ _ _ _ E) as (X & before & e' & after & -> & H). split; [exact X|]. exists (e :: before), e', after. split; [reflexivity|exact H].
  - injection E as -> -> _. unfold update_entry_told in U. destruct e as [pf ct]. cbn [e_prefix] in U.
    assert (R : forall r, standard (r : res dyn_table) = Says x w -> (forall y, r <> Throw y) -> False).
    { intros r S NT. apply standard_says in S. exact (NT _ (proj1 S)). }
    assert (RT : forall es sz mx y, resize_table es sz mx <> Throw y).
    { intros es sz mx y. unfold resize_table. generalize (rev es). intros l. revert sz. induction l as [|a l IHl]; intros sz; cbn [resize_loop].
      - destruct (_ <? _); discriminate.
      - destruct (_ <? _); [apply IHl|discriminate]. }
    destruct pf; try discriminate U; destruct ct as [h|n]; cbn [get_header_told get_max_size_told e_content tbind] in U.
    + injection U as <- <-. split; [reflexivity|]. exists [], (HEntry SizeUpdate (EHeader h)), b. split; [reflexivity|]. right. cbn [e_prefix e_content]. eauto.
    + exfalso. apply (R _ U). intros y. unfold dt_update_size. intros X. apply bind_throw in X. destruct X as [X|([es' sz'] & _ & X)]; [exact (RT _ _ _ _ X)|discriminate X].
    + exfalso. apply (R _ U). intros y. unfold dt_push. intros X. apply bind_throw in X. destruct X as [X|([es' sz'] & _ & X)]; [exact (RT _ _ _ _ X)|discriminate X].
    + injection U as <- <-. split; [reflexivity|]. exists [], (HEntry IncrementalIndexing (ESize n)), b. split; [reflexivity|]. left. cbn [e_prefix e_content]. eauto.
Qed.

(* ---- the constructor of the connection ---- *)

(* Its steps in the order in which they are taken, when each is passed, and what
   is said of one that is not. *)
Inductive step := MakeContext | MakeBio | GetSsl | OfferH2 | LoadPaths | ConnectHost | Handshake | CheckCertificate | CheckProtocol.
Definition steps : list step := [MakeContext; MakeBio; GetSsl; OfferH2; LoadPaths; ConnectHost; Handshake; CheckCertificate; CheckProtocol].
Definition passed (env : tls_env) (mode : verify_mode) (s : step) : Prop :=
  match s with
  | MakeContext => env_ctx_new env = true
  | MakeBio => env_bio_new env = true
  | GetSsl => env_get_ssl env = true
  | OfferH2 => env_set_alpn env = true
  | LoadPaths => env_verify_paths env = true
  | ConnectHost => env_connect env = true
  | Handshake => env_handshake env = true
  | CheckCertificate => mode = VERIFY_SERVER_CERT -> env_verify_ok env = true
  | CheckProtocol => env_alpn env = octets "h2"
  end.
Definition said_of (env : tls_env) (k : tls_codes) (s : step) (text : list N) : Prop :=
  match s with
  | MakeContext => text = octets "SSL_CTX_new failed"
  | MakeBio => text = octets "BIO_new_ssl_connect failed"
  | GetSsl => text = octets "BIO_get_ssl failed"
  | OfferH2 => reads_as text [Words "SSL_set_alpn_protos failed: err="; Number (code_alpn k)]
  | LoadPaths => reads_as text [Words "SSL_CTX_set_default_verify_paths failed: err="; Number (code_paths k)]
  | ConnectHost => reads_as text [Words "BIO_do_connect failed: err_code="; Number (errno_connect k)]
  | Handshake => reads_as text [Words "BIO_do_handshake failed: err_code="; Number (errno_handshake k)]
  | CheckCertificate => reads_as text [Words "SSL_get_verify_result failed: verify_result="; Number (code_verify k)]
  | CheckProtocol => text = octets "unexpected alpn result: alpn_result=" ++ env_alpn env
  end.

Lemma reads_code : forall s z, reads_as (failed_code s z) [Words s; Number z].
Proof.
  intros s z. unfold failed_code. rewrite str_octets. constructor. rewrite <- (app_nil_r (int_to_string z)). apply reads_int. constructor.
Qed.

Lemma first_failure_spec : forall env k mode ss cs,
  Forall2 (fun s c => (fst c = true <-> passed env mode s) /\ said_of env k s (snd c)) ss cs ->
  ((forall s, In s ss -> passed env mode s) -> first_failure cs = Done tt) /\
  (forall before s after, ss = before ++ s :: after -> (forall s', In s' before -> passed env mode s') -> ~ passed env mode s ->
     exists text, first_failure cs = Says RuntimeError (Text text) /\ said_of env k s text).
Proof.
  intros env k mode ss cs F. induction F as [|s [ok msg] ss cs [P S] F [IH1 IH2]]; cbn [fst snd] in *.
  - split; [reflexivity|]. intros before s after E. destruct before; discriminate E.
  - cbn [first_failure]. split.
    + intros A. rewrite (proj2 P (A s (or_introl eq_refl))). apply IH1. intros s' I. apply A. right. exact I.
    + intros before s' after E A NP. destruct before as [|s0 before]; cbn [app] in E.
      * injection E as -> ->. destruct ok; [destruct NP; apply P; reflexivity|]. eauto.
      * injection E as -> ->. rewrite (proj2 P (A s0 (or_introl eq_refl))). apply (IH2 before s' after eq_refl); [|exact NP].
        intros s I. apply A. right. exact I.
Qed.

(* The constructor of the connection throws exactly when a step is not passed,
   and the message is about the first of them. *)
Theorem C108_connect : forall env k mode,
  ((forall s, In s steps -> passed env mode s) -> ssl_connect_told env k mode = Done tt) /\
  (forall before s after, steps = before ++ s :: after -> (forall s', In s' before -> passed env mode s') -> ~ passed env mode s ->
     exists text, ssl_connect_told env k mode = Says RuntimeError (Text text) /\ said_of env k s text) /\
  (forall first host port, forget (ssl_connect_told env k mode) = snd (ssl_connect env mode first host port)).
Proof.
  intros env k mode.
  assert (F : Forall2 (fun s c => (fst c = true <-> passed env mode s) /\ said_of env k s (snd c)) steps (connect_checks env k mode)).
  { unfold steps, connect_checks. repeat (apply Forall2_cons); [| | | | | | | | |apply Forall2_nil]; cbn [fst snd passed said_of]; (split; [|]);
      try reflexivity; try apply reads_code.
    - destruct mode; (split; [intros H X|intros H]); try discriminate X; try reflexivity; try exact H; exact (H eq_refl).
    - apply expected_alpn. }
  destruct (first_failure_spec _ _ _ _ _ F) as [A B]. split; [exact A|]. split; [exact B|]. intros. apply forget_connect.
Qed.

Fixpoint clash (a b : list N) : bool :=
  match a, b with
  | x :: a', y :: b' => negb (x =? y) || clash a' b'
  | _, _ => false
  end.
Lemma clash_differ : forall a b x y, clash a b = true -> a ++ x <> b ++ y.
Proof.
  induction a as [|u a IH]; intros [|v b] x y C E; try discriminate C. cbn [clash app] in *. injection E as -> E.
  rewrite N.eqb_refl in C. cbn [negb orb] in C. exact (IH _ _ _ C E).
Qed.

Definition opening (s : step) : string :=
  match s with
  | MakeContext => "SSL_CTX_new failed" | MakeBio => "BIO_new_ssl_connect failed" | GetSsl => "BIO_get_ssl failed"
  | OfferH2 => "SSL_set_alpn_protos failed: err=" | LoadPaths => "SSL_CTX_set_default_verify_paths failed: err="
  | ConnectHost => "BIO_do_connect failed: err_code=" | Handshake => "BIO_do_handshake failed: err_code="
  | CheckCertificate => "SSL_get_verify_result failed: verify_result=" | CheckProtocol => "unexpected alpn result: alpn_result="
  end.
Lemma opens : forall env k s text, said_of env k s text -> exists more, text = octets (opening s) ++ more.
Proof.
  intros env k s text S.
  assert (R : forall a b, reads_as text (Words a :: b) -> exists more, text = octets a ++ more) by (intros a b R; inversion R; subst; eauto).
  destruct s; cbn [said_of opening] in *; try (eapply R; exact S); try (exists []; rewrite app_nil_r; exact S). eauto.
Qed.

(* The message tells which step it was. *)
Theorem C108_connect_step : forall env k s env' k' s' text, said_of env k s text -> said_of env' k' s' text -> s = s'.
Proof.
  intros env k s env' k' s' text S S'. apply opens in S, S'. destruct S as [a A], S' as [b B]. rewrite A in B.
  destruct s, s'; try reflexivity; exfalso; revert B; apply clash_differ; vm_compute; reflexivity.
Qed.

(* ---- what the peer can put into a message ---- *)

Lemma block_printable : forall x text, block_message x (Text text) -> printable text.
Proof. intros x text B. inversion B as [e n text' S N R|]; subst. eapply reads_printable; [exact R|]. vm_compute. reflexivity. Qed.

Lemma io_printable : forall call result asked text, forallb (fun c => (32 <=? c) && (c <? 127)) (octets call) = true ->
  io_message call result asked (Text text) -> printable text.
Proof.
  intros call result asked text C (t & E & R). injection E as <-. eapply reads_printable; [exact R|]. cbn [fixed_printable]. rewrite C. vm_compute. reflexivity.
Qed.

(* Whatever the peer sends, what is thrown or printed on receiving it, and what
   is thrown on sending, is plain text. *)
Theorem C108_printable_partial :
  (forall result m c x text p c', is_octets (tls_in (c_tls c)) -> receive_frame_told result m c = (Says x (Text text), p, c') -> printable text) /\
  (forall result m c r text c', is_octets (tls_in (c_tls c)) -> receive_frame_told result m c = (r, Some (Text text), c') -> printable text) /\
  (forall result s d x text s', ssl_write_told result s d = (Says x (Text text), s') -> printable text) /\
  (forall env k mode x text, ssl_connect_told env k mode = Says x (Text text) -> printable (env_alpn env) -> printable text).
Proof.
  split; [|split; [|split]].
  - intros result m c x text p c' O E. destruct (C108_receive_partial _ _ _ _ _ _ _ O E) as (_ & taken & _ & [(wf & _ & _ & F)|(asked & _ & IO & _)]).
    + inversion F as [t W R|T|x' w' T B]; subst; [eapply reads_printable; [exact R|vm_compute; reflexivity]|]. eapply block_printable; eassumption.
    + eapply io_printable; [|exact IO]. vm_compute. reflexivity.
  - intros result m c r text c' O E. destruct (C108_printed _ _ _ _ _ _ O E) as (_ & (x & B) & _). eapply block_printable; exact B.
  - intros result s d x text s' E. apply write_says in E. destruct E as [_ IO]. eapply io_printable; [|exact IO]. vm_compute. reflexivity.
  - intros env k mode x text E A. unfold ssl_connect_told in E.
    assert (F : Forall (fun c => printable (snd c)) (connect_checks env k mode)).
    { assert (R : forall s z, fixed_printable [Words s; Number z] = true -> printable (failed_code s z)) by (intros s z; apply reads_printable, reads_code).
      assert (Q : forall s, fixed_printable [Words s] = true -> printable (failed s)).
      { intros s. apply reads_printable. unfold failed. rewrite str_octets, <- (app_nil_r (octets s)). constructor. constructor. }
      unfold connect_checks.
      do 9 (apply Forall_cons; [cbn [snd]; try (apply R; vm_compute; reflexivity); try (apply Q; vm_compute; reflexivity)|]); [|apply Forall_nil].
      apply Forall_app. split; [|exact A]. apply (Q "unexpected alpn result: alpn_result="). vm_compute. reflexivity. }
    revert F E. generalize (connect_checks env k mode). intros l F. induction F as [|[[] msg] l P F IH]; cbn [first_failure]; intros E; [discriminate E|exact (IH E)|].
    injection E as _ <-. exact P.
Qed.

(* But in the last case the peer chooses: the name of the protocol it selects is
   put into the message as it is, escape sequences and line ends included. *)
Theorem C108_alpn_refuted :
  (forall k mode chosen, chosen <> octets "h2" ->
     ssl_connect_told (TlsEnv true true true true true true true true chosen true) k mode =
     Says RuntimeError (Text (octets "unexpected alpn result: alpn_result=" ++ chosen))) /\
  ~ (forall env k mode x text, ssl_connect_told env k mode = Says x (Text text) -> printable text).
Proof.
  assert (A : forall k mode chosen, chosen <> octets "h2" ->
     ssl_connect_told (TlsEnv true true true true true true true true chosen true) k mode =
     Says RuntimeError (Text (octets "unexpected alpn result: alpn_result=" ++ chosen))).
  { intros k mode chosen N. rewrite <- str_octets. unfold ssl_connect_told, connect_checks. destruct mode; cbn [first_failure env_ctx_new env_bio_new env_get_ssl env_set_alpn env_verify_paths
      env_connect env_handshake env_verify_ok env_alpn]; (destruct (is_expected_alpn chosen) eqn:E; [apply expected_alpn in E; contradiction|reflexivity]). }
  split; [exact A|]. intros H. specialize (H _ _ _ _ _ (A (TlsCodes 0 0 0 0 0) VERIFY_NONE [27; 91; 50; 74] ltac:(discriminate))).
  apply Forall_app in H. destruct H as [_ H]. inversion H; subst. lia.
Qed.

(* A message does not tell the type of the frame it is about; nor, when the
   connection fails, how much was sent or received before. *)
Definition waiting (l : list N) (sched : list io_event) : client := Client (Tls l [] sched) (new_table 4096) (new_table 4096).
Theorem C108_type_refuted :
  ~ (forall result m c1 c2 x w p1 p2 c1' c2' wf1 wf2, wframe_ok wf1 -> wframe_ok wf2 ->
     tls_in (c_tls c1) = wire wf1 -> tls_in (c_tls c2) = wire wf2 ->
     receive_frame_told result m c1 = (Says x w, p1, c1') -> receive_frame_told result m c2 = (Says x w, p2, c2') ->
     tls_in (c_tls c1') = [] -> tls_in (c_tls c2') = [] -> w_type wf1 = w_type wf2).
Proof.
  intros H.
  assert (W1 : wframe_ok (WFrame RST_STREAM 0 0 1 [1; 2; 3])) by (apply PropHistory.wframe_check; vm_compute; reflexivity).
  assert (W2 : wframe_ok (WFrame GOAWAY 0 0 0 [1; 2; 3])) by (apply PropHistory.wframe_check; vm_compute; reflexivity).
  set (c1 := waiting (wire (WFrame RST_STREAM 0 0 1 [1; 2; 3])) [Chunk 99; Chunk 99]).
  set (c2 := waiting (wire (WFrame GOAWAY 0 0 0 [1; 2; 3])) [Chunk 99; Chunk 99]).
  assert (E1 : exists c', receive_frame_told 0 Strict c1 = (Says InvalidArgument (Text (str "invalid payload size: 3")), None, c') /\ tls_in (c_tls c') = [])
    by (eexists; vm_compute; split; reflexivity).
  assert (E2 : exists c', receive_frame_told 0 Strict c2 = (Says InvalidArgument (Text (str "invalid payload size: 3")), None, c') /\ tls_in (c_tls c') = [])
    by (eexists; vm_compute; split; reflexivity).
  destruct E1 as (c1' & E1 & D1), E2 as (c2' & E2 & D2).
  pose proof (H 0%Z Strict c1 c2 _ _ _ _ _ _ _ _ W1 W2 eq_refl eq_refl E1 E2 D1 D2) as X. discriminate X.
Qed.

Theorem C108_progress_refuted :
  ~ (forall result s1 s2 d x w s1' s2', ssl_write_told result s1 d = (Says x w, s1') -> ssl_write_told result s2 d = (Says x w, s2') ->
     tls_out s1 = tls_out s2 -> length (tls_out s1') = length (tls_out s2')).
Proof.
  intros H.
  assert (E1 : ssl_write_told (-1) (Tls [] [] [Fail]) [1; 2] = (Says RuntimeError (Text (str "BIO_write failed: result=-1, length=2")), Tls [] [] []))
    by (vm_compute; reflexivity).
  assert (E2 : ssl_write_told (-1) (Tls [] [] [Chunk 0; Fail]) [1; 2] = (Says RuntimeError (Text (str "BIO_write failed: result=-1, length=2")), Tls [] [1] []))
    by (vm_compute; reflexivity).
  specialize (H _ _ _ _ _ _ _ _ E1 E2 eq_refl). discriminate H.
Qed.

(* The functions of this file behave as those of the rest of the model. *)
Theorem C108_agrees :
  (forall result m c, (forget (fst (fst (receive_frame_told result m c))), snd (receive_frame_told result m c)) = receive_frame m c) /\
  (forall m h raw t, forget (fst (build_frame_told m h raw t)) = build_frame m h raw t) /\
  (forall T b, (forget (fst (update_block_told T b)), snd (update_block_told T b)) = update_block T b) /\
  (forall flags d, forget (mk_ping_told flags d) = mk_ping flags d) /\
  (forall sid p, forget (mk_priority_told sid p) = mk_priority sid p) /\
  (forall sid r inc, forget (mk_window_update_told sid r inc) = mk_window_update sid r inc) /\
  (forall i p, forget (encode_index_told i p) = encode_index i p).
Proof.
  split; [apply forget_receive|]. split; [apply forget_build|]. split; [intros; apply forget_update_block|]. split; [apply forget_ping|].
  split; [apply forget_mk_priority|]. split; [apply forget_mk_window|apply forget_encode_index].
Qed.

Example C108_case :
  (exists c', receive_frame_told 0 Strict (waiting (wire (WFrame WINDOW_UPDATE 0 0 1 [1; 2; 3; 4; 5])) [Chunk 99; Chunk 99]) =
     (Says InvalidArgument (Text (octets "invalid payload size: 5")), None, c')) /\
  (exists c', receive_frame_told (-1) Strict (waiting [0; 0; 4; 8] [Chunk 99; Fail]) =
     (Says RuntimeError (Text (octets "BIO_read failed: result=-1, length=9")), None, c')) /\
  (stuck [0xff; 0xff] 2 /\ huffman_decode_told [0xff; 0xff] =
     Says InvalidArgument (Text (octets "invalid argument: encoded_data.size()=2, required_byte=3"))) /\
  mk_window_update_told 1 0 (2 ^ 31) = Says InvalidArgument (Text (octets "invalid window size: 2147483648")).
Proof.
  split; [eexists; vm_compute; reflexivity|]. split; [eexists; vm_compute; reflexivity|]. split; [split|]; [|vm_compute; reflexivity|vm_compute; reflexivity].
  destruct (has_code_dec (octets_bits [0xff; 0xff])) as [C|C].
  - exfalso. revert C. assert (Q : existsb (fun x => is_prefixb (snd x) (octets_bits [0xff; 0xff])) codes = false) by (vm_compute; reflexivity).
    intros (s & Hs & P). apply is_prefixb_spec in P.
    assert (X : existsb (fun x => is_prefixb (snd x) (octets_bits [0xff; 0xff])) codes = true).
    { apply existsb_exists. exists (s, rfc_code s). split; [apply in_codes; assumption|assumption]. }
    congruence.
  - apply stuck_leaves. split; [|discriminate]. exists [], (octets_bits [0xff; 0xff]). split; [reflexivity|]. split; [constructor|]. split; [exact C|reflexivity].
Qed.

Print Assumptions C108_huffman.
Print Assumptions C108_receive_partial.
Print Assumptions C108_printed.
Print Assumptions C108_write.
Print Assumptions C108_constructors.
Print Assumptions C108_entries.
Print Assumptions C108_connect.
Print Assumptions C108_connect_step.
Print Assumptions C108_printable_partial.
Print Assumptions C108_alpn_refuted.
Print Assumptions C108_type_refuted.
Print Assumptions C108_progress_refuted.
Print Assumptions C108_agrees.
