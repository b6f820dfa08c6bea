(* Property C121: the encoder writes a header as shortly as the tables allow. *)
From Coq Require Import String Ascii.
From Coq Require Import ZArith NArith List Bool Lia ZifyBool ZifyNat ZifyN.
From Verif Require Import Base Arith Util IntRep Huffman StaticTable HeaderType DynTable HeaderEnc FrameHeader Frames FrameBuilder Ssl Client
  SpecBits SpecHuffman SpecInt SpecHpack SpecFrame BitsProofs UtilProofs IntRepProofs IntSpecProofs DynTableProofs StaticProofs HeaderProofs HeaderProofs2 FrameProofs BlockProofs HistoryProofs
  HuffmanProofs PropCostSend PropHuffman PropHeader PropFrame PropBlock PropSsl PropClient PropHistory PropRequest PropReqHistory PropSize PropCoding PropBound DumpProofs PropDump PropLength.
Import ListNotations.
Local Open Scope string_scope.
Local Open Scope list_scope.
Local Open Scope N_scope.
Ltac Zify.zify_post_hook ::= Z.div_mod_to_equations.

(* ---- specification ---- *)

(* The octets RFC 7541 lets an encoder write for the header h in the representation k,
   with strings coded as asked: an index of the header (6.1), an index of its name and
   the value (6.2), name and value (6.2).  Indices refer to the library's static table
   and the table t. *)
Inductive could_write (mode : encode_mode) (t : table) (k : indexing) (h : field) : list N -> Prop :=
| could_index : forall i l, resolve_in lib_static t i = Some h -> rfc_int 7 l i -> first_in 128 256 l -> could_write mode t k h l
| could_name : forall i value l vs, resolve_in lib_static t i = Some (fst h, value) -> rfc_int (literal_prefix k) l i -> literal_pattern k l ->
    literal_coded (asks_huffman mode) vs (snd h) -> could_write mode t k h (l ++ vs)
| could_literal : forall l ns vs, rfc_int (literal_prefix k) l 0 -> literal_pattern k l ->
    literal_coded (asks_huffman mode) ns (fst h) -> literal_coded (asks_huffman mode) vs (snd h) -> could_write mode t k h (l ++ ns ++ vs).

(* The name is in a table. *)
Definition name_known (t : table) (name : list N) : Prop := exists i value, resolve_in lib_static t i = Some (name, value).

(* The headers for which the encoder does its best: those in a table, those whose name
   has an entry with an empty value in the static table, and those whose name is in no
   table; but not those with an empty value in the static table. *)
Definition well_served (t : dyn_table) (h : field) : Prop :=
  ~ (snd h = [] /\ In h lib_static) /\
  (in_tables t h \/ In (fst h, []) lib_static \/ ~ name_known (rfc_table t) (fst h)).

(* ---- sizes ---- *)

Definition string_room (mode : encode_mode) (s : list N) : N := size (encode_integer_value 7 (room mode s)) + room mode s.

Lemma string_room_pos : forall mode s, 1 <= string_room mode s.
Proof. intros mode s. unfold string_room. pose proof (encode_integer_pos 7 (room mode s)). lia. Qed.

Lemma literal_size : forall mode l s, literal_coded (asks_huffman mode) l s -> size l = string_room mode s.
Proof.
  intros mode l s (len & body & -> & S & B). unfold string_room. rewrite size_app, (shortest_size 7 len _ pok7 S).
  assert (E : N.of_nat (length body) = room mode s); [|unfold size at 2; rewrite E; reflexivity].
  destruct mode; cbn [asks_huffman room] in *.
  - destruct B as [_ ->]. reflexivity.
  - destruct B as [_ (_ & pad & E & P)]. rewrite <- bits_total. apply (f_equal (@length bool)) in E. rewrite app_length, repeat_length, octets_bits_len in E.
    unfold size. lia.
Qed.

Lemma int_size : forall n l v, prefix_ok n -> rfc_int n l v -> size (encode_integer_value n v) <= size l.
Proof. intros n l v P H. pose proof (encode_integer_shortest n v l P H). unfold size. lia. Qed.

Lemma int_zero : forall k, size (encode_integer_value (literal_prefix k) 0) = 1.
Proof. intros [| |]; reflexivity. Qed.

Lemma small_index : forall i, i < 255 -> size (encode_integer_value 7 i) <= 2.
Proof. intros i L. pose proof (encode_integer_mono 7 i 254 ltac:(lia)) as M. change (size (encode_integer_value 7 254)) with 2 in M. exact M. Qed.

Lemma static_name_size : forall k i, i <= 61 -> size (encode_integer_value (literal_prefix k) i) <= 2.
Proof.
  intros k i L. pose proof (encode_integer_mono (literal_prefix k) i 61 L) as M.
  assert (S : size (encode_integer_value (literal_prefix k) 61) <= 2) by (destruct k; vm_compute; discriminate). lia.
Qed.

Lemma could_literal_size : forall mode t k h l, could_write mode t k h l -> forall n, (forall i v, resolve_in lib_static t i = Some (fst h, v) -> n <= size (encode_integer_value (literal_prefix k) i)) ->
  n <= 1 + string_room mode (fst h) -> (forall i, resolve_in lib_static t i = Some h -> n + string_room mode (snd h) <= size (encode_integer_value 7 i)) ->
  n + string_room mode (snd h) <= size l.
Proof.
  intros mode t k h l W n I L X. destruct W as [i l R S _|i v l vs R S _ V|l ns vs S _ NM V].
  - apply N.le_trans with (size (encode_integer_value 7 i)); [apply X; exact R|apply int_size; [exact pok7|exact S]].
  - rewrite size_app, (literal_size _ _ _ V). pose proof (int_size _ _ _ (literal_prefix_ok k) S). specialize (I i v R). lia.
  - rewrite !size_app, (literal_size _ _ _ V), (literal_size _ _ _ NM). pose proof (int_size _ _ _ (literal_prefix_ok k) S). rewrite int_zero in *. lia.
Qed.

Lemma could_pos : forall mode t k h l, could_write mode t k h l -> 1 <= size l.
Proof.
  intros mode t k h l [i l' R S _|i v l' vs R S _ V|l' ns vs S _ NM V]; try rewrite !size_app.
  - apply N.le_trans with (size (encode_integer_value 7 i)); [apply encode_integer_pos|apply int_size; [exact pok7|exact S]].
  - rewrite (literal_size _ _ _ V). pose proof (string_room_pos mode (snd h)). lia.
  - rewrite (literal_size _ _ _ V). pose proof (string_room_pos mode (snd h)). lia.
Qed.

(* ---- what the encoder writes ---- *)

Lemma resolve_cases : forall t i h, resolve_in lib_static (rfc_table t) i = Some h ->
  (1 <= i <= 61 /\ reverse_static_find h = Some i) \/ (exists j, i = 62 + j /\ nth_error (dt_entries t) (N.to_nat j) = Some h).
Proof.
  intros t i h R. unfold resolve_in in R. rewrite lib_static_len in R. change (N.of_nat 61) with 61 in R.
  destruct (N.eqb_spec i 0); [discriminate R|]. destruct (N.leb_spec i 61).
  - left. split; [lia|]. apply static_inverse. rewrite lib_static_nth by lia. exact R.
  - right. exists (i - 62). split; [lia|]. replace (N.to_nat (i - 62)) with (N.to_nat (i - 1 - 61)) by lia. exact R.
Qed.

Lemma find_index_first : forall es h i, find_index es h = Some i -> forall j, nth_error es (N.to_nat j) = Some h -> i <= j.
Proof.
  induction es as [|e es IH]; intros h i F j N; cbn [find_index] in F; [discriminate F|].
  destruct (header_eqb e h) eqn:E; [injection F as <-; lia|]. destruct (find_index es h) as [i'|] eqn:F'; [|discriminate F]. injection F as <-.
  destruct (N.eq_dec j 0) as [->|Z]; [cbn in N; injection N as ->; rewrite header_eqb_refl in E; discriminate E|].
  replace (N.to_nat j) with (S (N.to_nat (j - 1))) in N by lia. cbn [nth_error] in N. specialize (IH h i' F' (j - 1) N). lia.
Qed.

(* names that have an entry with an empty value have no other entry *)
Lemma empty_sweep : forallb (fun p => forallb (fun q => match snd (snd q) with [] => negb (bytes_eqb (fst (snd p)) (fst (snd q))) || (fst p =? fst q) | _ => true end)
  static_table_entries) static_table_entries = true.
Proof. vm_compute. reflexivity. Qed.

Lemma empty_unique : forall name v i j, reverse_static_find (name, v) = Some i -> reverse_static_find (name, []) = Some j -> i = j.
Proof.
  intros name v i j I J. apply static_inverse, map_find_in in I. apply static_inverse, map_find_in in J.
  pose proof (proj1 (forallb_forall _ _) empty_sweep _ I) as Q. cbv beta in Q. pose proof (proj1 (forallb_forall _ _) Q _ J) as Q'. cbn [fst snd] in Q'.
  rewrite bytes_eqb_refl in Q'. cbn [negb orb] in Q'. apply N.eqb_eq. exact Q'.
Qed.

Lemma encode_string_size : forall s mode out, is_octets s -> encode_string s mode = Ok out -> size out = string_room mode s.
Proof. intros s mode out W E. apply literal_size. exact (encode_string_coded s mode out W E). Qed.

Lemma encoder_cases : forall k h mode t out, is_octets (fst h) -> is_octets (snd h) -> encode_header (HEntry (lib_prefix k) (EHeader h)) mode t = Ok out ->
  (exists i, reverse_static_find h = Some i /\ snd h <> [] /\ size out = size (encode_integer_value 7 i)) \/
  (~ (In h lib_static /\ snd h <> []) /\ exists i, find_index (dt_entries t) h = Some i /\ size out = size (encode_integer_value 7 (62 + i))) \/
  (~ in_tables t h /\ exists i, reverse_static_find (fst h, []) = Some i /\ size out = size (encode_integer_value (literal_prefix k) i) + string_room mode (snd h)) \/
  (~ in_tables t h /\ reverse_static_find (fst h, []) = None /\ size out = 1 + string_room mode (fst h) + string_room mode (snd h)).
Proof.
  intros k h mode t out WN WV E. unfold encode_header in E. cbn [e_prefix get_header e_content bind] in E. rewrite lib_prefix_not_update in E. unfold static_table_size in E.
  destruct (match reverse_static_find h with Some i => if 0 <? size (snd h) then Some i else None | None => None end) as [i|] eqn:F.
  - left. exists i. destruct (reverse_static_find h) as [i'|]; [|discriminate F]. destruct (N.ltb_spec 0 (size (snd h))) as [L|L]; [|discriminate F]. injection F as ->.
    split; [reflexivity|]. split; [intros Z; rewrite Z in L; cbn in L; lia|]. exact (or_first_size _ _ _ E).
  - right. assert (NS : ~ (In h lib_static /\ snd h <> [])).
    { intros [I Z]. apply in_static in I. destruct I as [i I]. rewrite I in F. destruct (N.ltb_spec 0 (size (snd h))) as [L|L]; [discriminate F|].
      destruct (snd h); [congruence|]. unfold size in L. cbn [length] in L. lia. }
    destruct (find_index (dt_entries t) h) as [i|] eqn:D.
    + left. split; [exact NS|]. exists i. split; [reflexivity|]. exact (or_first_size _ _ _ E).
    + right. assert (NT : ~ in_tables t h) by (intros [I|I]; [exact (NS I)|exact (find_index_none _ _ D I)]).
      destruct (reverse_static_find (fst h, [])) as [i|] eqn:S.
      * left. split; [exact NT|]. exists i. split; [reflexivity|].
        destruct (encode_index_literal k i) as (l & EI & SI & _). rewrite EI in E. cbn [bind] in E. apply bind_ok in E. destruct E as (v & EV & E). apply Ok_inj in E. subst out.
        rewrite size_app, (encode_string_size _ _ _ WV EV), (shortest_size _ _ _ (literal_prefix_ok k) SI). reflexivity.
      * right. split; [exact NT|]. split; [reflexivity|].
        destruct (encode_index_literal k 0) as (l & EI & SI & _). rewrite EI in E. cbn [bind] in E. apply bind_ok in E. destruct E as (n & EN & E).
        apply bind_ok in E. destruct E as (v & EV & E). apply Ok_inj in E. subst out.
        rewrite !size_app, (encode_string_size _ _ _ WV EV), (encode_string_size _ _ _ WN EN), (shortest_size _ _ _ (literal_prefix_ok k) SI), int_zero. lia.
Qed.

Lemma table_index : forall t h i, dt_ok t -> dt_max t <= 4096 -> find_index (dt_entries t) h = Some i -> size (encode_integer_value 7 (62 + i)) <= 2.
Proof. intros t h i O M F. apply small_index. apply find_bound in F. destruct O as [O1 O2]. lia. Qed.

(* Of all the ways to write a header, the encoder takes a shortest one. *)
Theorem C121_shortest_partial : forall k h mode t out, dt_ok t -> dt_max t <= 4096 -> is_octets (fst h) -> is_octets (snd h) -> well_served t h ->
  encode_header (HEntry (lib_prefix k) (EHeader h)) mode t = Ok out ->
  forall other, could_write mode (rfc_table t) k h other -> size out <= size other.
Proof.
  intros k h mode t out O M WN WV [NE WS] E other W. destruct (encoder_cases k h mode t out WN WV E) as [(i & F & Z & S)|[(NS & i & F & S)|[(NT & i & F & S)|(NT & F & S)]]]; rewrite S.
  - apply chosen_index_pos in F. pose proof (encode_integer_mono 7 i 61 ltac:(lia)) as P. change (size (encode_integer_value 7 61)) with 1 in P.
    pose proof (could_pos _ _ _ _ _ W). lia.
  - pose proof (table_index t h i O M F) as T. destruct W as [j l R SI _|j v l vs R SI _ V|l ns vs SI _ NM V].
    + apply N.le_trans with (size (encode_integer_value 7 j)); [|apply int_size; [exact pok7|exact SI]].
      destruct (resolve_cases t j h R) as [[_ X]|(j' & -> & X)].
      * exfalso. assert (IS : In h lib_static) by (apply in_static; exists j; exact X). destruct (snd h) eqn:Z; [apply NE; split; [reflexivity|exact IS]|apply NS; split; [exact IS|congruence]].
      * apply encode_integer_mono. pose proof (find_index_first _ _ _ F j' X). lia.
    + rewrite size_app, (literal_size _ _ _ V). pose proof (string_room_pos mode (snd h)). pose proof (int_size _ _ _ (literal_prefix_ok k) SI).
      pose proof (encode_integer_pos (literal_prefix k) j). lia.
    + rewrite !size_app, (literal_size _ _ _ V), (literal_size _ _ _ NM). pose proof (string_room_pos mode (snd h)). pose proof (string_room_pos mode (fst h)). lia.
  - apply (could_literal_size _ _ _ _ _ W).
    + intros j v R. apply encode_integer_mono. destruct (resolve_cases t j _ R) as [[_ X]|(j' & -> & X)].
      * pose proof (empty_unique _ _ _ _ X F). lia.
      * apply chosen_index_pos in F. lia.
    + apply chosen_index_pos in F. pose proof (static_name_size k i ltac:(lia)). pose proof (string_room_pos mode (fst h)). lia.
    + intros j R. exfalso. destruct (resolve_cases t j h R) as [[_ X]|(j' & -> & X)].
      * assert (IS : In h lib_static) by (apply in_static; exists j; exact X). destruct (snd h) eqn:Z; [apply NE; split; [reflexivity|exact IS]|apply NT; left; split; [exact IS|congruence]].
      * apply NT. right. exact (nth_error_In _ _ X).
  - assert (NK : ~ name_known (rfc_table t) (fst h)).
    { destruct WS as [X|[X|X]]; [contradiction (NT X)| |exact X]. exfalso. apply in_static in X. destruct X as [i X]. congruence. }
    apply (could_literal_size _ _ _ _ _ W).
    + intros j v R. exfalso. apply NK. exists j, v. exact R.
    + lia.
    + intros j R. exfalso. apply NK. exists j, (snd h). rewrite <- surjective_pairing. exact R.
Qed.

(* It is never longer than name and value in full. *)
Theorem C121_not_longer : forall k h mode t out l ns vs, dt_ok t -> dt_max t <= 4096 -> is_octets (fst h) -> is_octets (snd h) ->
  encode_header (HEntry (lib_prefix k) (EHeader h)) mode t = Ok out ->
  rfc_int (literal_prefix k) l 0 -> literal_coded (asks_huffman mode) ns (fst h) -> literal_coded (asks_huffman mode) vs (snd h) ->
  size out <= size (l ++ ns ++ vs).
Proof.
  intros k h mode t out l ns vs O M WN WV E SI NM V. rewrite !size_app, (literal_size _ _ _ V), (literal_size _ _ _ NM).
  pose proof (int_size _ _ _ (literal_prefix_ok k) SI) as Z. rewrite int_zero in Z. pose proof (string_room_pos mode (snd h)). pose proof (string_room_pos mode (fst h)).
  destruct (encoder_cases k h mode t out WN WV E) as [(i & F & _ & S)|[(_ & i & F & S)|[(_ & i & F & S)|(_ & F & S)]]]; rewrite S; [| | |lia].
  - apply chosen_index_pos in F. pose proof (small_index i ltac:(lia)). lia.
  - pose proof (table_index t h i O M F). lia.
  - apply chosen_index_pos in F. pose proof (static_name_size k i ltac:(lia)). lia.
Qed.

Lemma resolve_static : forall t h i, reverse_static_find h = Some i -> resolve_in lib_static (rfc_table t) i = Some h.
Proof.
  intros t h i F. pose proof (chosen_index_pos _ _ F). apply static_inverse in F. rewrite lib_static_nth in F by lia. unfold resolve_in.
  destruct (N.eqb_spec i 0); [lia|]. rewrite lib_static_len. change (N.of_nat 61) with 61. destruct (N.leb_spec i 61); [exact F|lia].
Qed.

(* A header of the static table with an empty value is not sent as its index. *)
Theorem C121_empty_refuted : forall k h mode t out, is_octets (fst h) -> snd h = [] -> In h lib_static -> ~ In h (dt_entries t) ->
  encode_header (HEntry (lib_prefix k) (EHeader h)) mode t = Ok out ->
  exists other, could_write mode (rfc_table t) k h other /\ size other = 1 /\ 1 < size out.
Proof.
  intros k h mode t out WN Z I ND E. apply in_static in I. destruct I as [i I].
  destruct (encode_index_indexed i) as (l & _ & SI & FI). exists l. split.
  { apply (could_index mode (rfc_table t) k h i); [apply resolve_static; exact I|exact (proj1 SI)|exact FI]. }
  split.
  { rewrite (shortest_size _ _ _ pok7 SI). apply chosen_index_pos in I. pose proof (encode_integer_mono 7 i 61 ltac:(lia)) as P. change (size (encode_integer_value 7 61)) with 1 in P.
    pose proof (encode_integer_pos 7 i). lia. }
  assert (WV : is_octets (snd h)) by (rewrite Z; intros b []).
  destruct (encoder_cases k h mode t out WN WV E) as [(j & _ & X & _)|[(_ & j & F & _)|[(_ & j & F & S)|(_ & F & _)]]].
  - contradiction (X Z).
  - exfalso. apply ND. exact (nth_error_In _ _ (find_index_some _ _ _ F)).
  - rewrite S. pose proof (string_room_pos mode (snd h)). pose proof (encode_integer_pos (literal_prefix k) j). lia.
  - exfalso. rewrite (surjective_pairing h), Z in I. congruence.
Qed.

Lemma room_three : forall mode s, is_octets s -> 3 <= size s -> 3 <= string_room mode s.
Proof.
  intros mode s W L. assert (R : 2 <= room mode s).
  { destruct mode; cbn [room]; [lia|]. rewrite <- bits_total.
    pose proof (bits_above s 5 (fun b I => proj1 (proj2 (proj2 (encode_table_at_ok b (N.lt_le_incl _ _ (W b I))))))). lia. }
  unfold string_room. pose proof (encode_integer_pos 7 (room mode s)). lia.
Qed.

Lemma known_index : forall t i f, dt_ok t -> dt_max t <= 4096 -> resolve_in lib_static (rfc_table t) i = Some f -> i <= 189.
Proof.
  intros t i f [O1 O2] M R. destruct (resolve_cases t i f R) as [[X _]|(j & -> & X)]; [lia|].
  assert (L : (N.to_nat j < length (dt_entries t))%nat) by (apply nth_error_Some; congruence).
  pose proof (total_entries (dt_entries t)) as T. unfold size in T. lia.
Qed.

Lemma known_size : forall k i, i <= 189 -> size (encode_integer_value (literal_prefix k) i) <= 3.
Proof.
  intros k i L. pose proof (encode_integer_mono (literal_prefix k) i 189 L) as M.
  assert (S : size (encode_integer_value (literal_prefix k) 189) <= 3) by (destruct k; vm_compute; discriminate). lia.
Qed.

(* A name that is known only together with other values is written in full all the same. *)
Theorem C121_name_refuted : forall k h mode t out, dt_ok t -> dt_max t <= 4096 -> is_octets (fst h) -> is_octets (snd h) -> 3 <= size (fst h) ->
  ~ in_tables t h -> ~ In (fst h, []) lib_static -> name_known (rfc_table t) (fst h) ->
  encode_header (HEntry (lib_prefix k) (EHeader h)) mode t = Ok out ->
  exists other, could_write mode (rfc_table t) k h other /\ size other < size out.
Proof.
  intros k h mode t out O M WN WV L NT NE (i & v & R) E.
  destruct (encode_index_literal k i) as (l & _ & SI & PI). destruct (encode_string_spec (snd h) mode (octets_wf _ WV)) as (vs & EV & _).
  exists (l ++ vs). split.
  { apply (could_name mode (rfc_table t) k h i v); [exact R|exact (proj1 SI)|exact PI|exact (encode_string_coded _ _ _ WV EV)]. }
  rewrite size_app, (shortest_size _ _ _ (literal_prefix_ok k) SI), (encode_string_size _ _ _ WV EV).
  pose proof (known_size k i (known_index t i _ O M R)). pose proof (room_three mode (fst h) WN L).
  destruct (encoder_cases k h mode t out WN WV E) as [(j & F & X & _)|[(_ & j & F & _)|[(_ & j & F & S)|(_ & F & S)]]].
  - exfalso. apply NT. left. split; [apply in_static; exists j; exact F|exact X].
  - exfalso. apply NT. right. exact (nth_error_In _ _ (find_index_some _ _ _ F)).
  - exfalso. apply NE. apply in_static. exists j. exact F.
  - rewrite S. lia.
Qed.

Lemma unknown_name : forall t name, existsb (fun h => bytes_eqb name (fst h)) (lib_static ++ t_entries t) = false -> ~ name_known t name.
Proof.
  intros t name X (i & v & R). assert (I : In (name, v) (lib_static ++ t_entries t)).
  { unfold resolve_in in R. destruct (i =? 0); [discriminate R|]. apply in_or_app. destruct (i <=? _); [left|right]; exact (nth_error_In _ _ R). }
  assert (Y : existsb (fun h => bytes_eqb name (fst h)) (lib_static ++ t_entries t) = true); [|congruence].
  apply existsb_exists. exists (name, v). split; [exact I|apply bytes_eqb_refl].
Qed.

Example C121_case :
  let t := DynTable [(octets "x-key", octets "first")] 42 4096 in
  let length_of h := match encode_header (HEntry IncrementalIndexing (EHeader h)) ModeNone t with Ok out => size out | _ => 0 end in
  dt_ok t /\ dt_max t <= 4096 /\
  (* best: a static entry, an entry of the table, a static name, a new name *)
  (well_served t (octets ":method", octets "GET") /\ length_of (octets ":method", octets "GET") = 1) /\
  (well_served t (octets "x-key", octets "first") /\ length_of (octets "x-key", octets "first") = 1) /\
  (well_served t (octets "accept", octets "*/*") /\ length_of (octets "accept", octets "*/*") = 5) /\
  (well_served t (octets "x-new", octets "1") /\ length_of (octets "x-new", octets "1") = 9) /\
  (* not best: 1, 5 and 8 octets would do *)
  length_of (octets ":authority", []) = 2 /\
  (name_known (rfc_table t) (octets ":method") /\ ~ In (octets ":method", []) lib_static /\ length_of (octets ":method", octets "PUT") = 13) /\
  (name_known (rfc_table t) (octets "x-key") /\ ~ In (octets "x-key", []) lib_static /\ length_of (octets "x-key", octets "second") = 14).
Proof.
  cbv zeta. split; [split; vm_compute; [reflexivity|discriminate]|]. split; [vm_compute; discriminate|].
  split; [split; [split; [intros [X _]; discriminate X|left; left; split; [vm_compute; tauto|discriminate]]|vm_compute; reflexivity]|].
  split; [split; [split; [intros [X _]; discriminate X|left; right; left; reflexivity]|vm_compute; reflexivity]|].
  split; [split; [split; [intros [X _]; discriminate X|right; left; vm_compute; tauto]|vm_compute; reflexivity]|].
  split; [split; [split; [intros [X _]; discriminate X|right; right; apply unknown_name; vm_compute; reflexivity]|vm_compute; reflexivity]|].
  split; [vm_compute; reflexivity|].
  split; [split; [exists 2, (octets "GET"); vm_compute; reflexivity|split; [intros I; revert I; vm_compute; intuition discriminate|vm_compute; reflexivity]]|].
  split; [exists 62, (octets "first"); vm_compute; reflexivity|split; [intros I; revert I; vm_compute; intuition discriminate|vm_compute; reflexivity]].
Qed.

Print Assumptions C121_shortest_partial.
Print Assumptions C121_not_longer.
Print Assumptions C121_empty_refuted.
Print Assumptions C121_name_refuted.
