(* Property C106: the work of encoding a header block. *)
From Coq Require Import String.
From Coq Require Import ZArith NArith List Bool Lia ZifyBool ZifyNat ZifyN.
From Verif Require Import Base Arith Util IntRep HuffmanTable Huffman StaticTable HeaderType DynTable HeaderEnc HeaderDec FrameHeader Frames FrameBuilder
  Ssl Client SpecBits SpecHpack SpecFrame SpecHuffman IntRepProofs IntSpecProofs UtilProofs BitsProofs HuffmanProofs HuffmanDecProofs DynTableProofs StaticProofs
  HeaderProofs HeaderProofs2 PropHeader FrameProofs PropFrame PropSsl PropClient PropHistory PropBound PropAmplify Cost PropCost CostSend.
Import ListNotations.
Local Open Scope string_scope.
Local Open Scope list_scope.
Local Open Scope N_scope.
Ltac Zify.zify_post_hook ::= Z.div_mod_to_equations.

(* ---------------------------------------------------------------- the specification *)

(* The octets of the names and values of a header block. *)
Definition field_octets (e : hentry) : N :=
  match e_content e with EHeader h => size (fst h) + size (snd h) | ESize _ => 0 end.
Definition block_octets (b : header_block) : N := fold_right (fun e n => field_octets e + n) 0 b.

(* What the types of the C++ interface ensure: characters are octets, a table
   size has 32 bits. *)
Definition entry_typed (e : hentry) : Prop :=
  match e_content e with EHeader h => is_octets (fst h) /\ is_octets (snd h) | ESize n => n < 2 ^ 32 end.

(* ---------------------------------------------------------------- without the counter *)

Lemma func_same : forall c d, fst (encode_func_c c d) = encode_func c d.
Proof. intros c d. unfold encode_func_c. rewrite work_fst. destruct (encode_func c d) as [[? ?]|?|?|]; reflexivity. Qed.

Lemma each_same : forall raw c, fst (encode_each_c c raw) = encode_each c raw.
Proof.
  induction raw as [|b raw IH]; intros c; [reflexivity|]. cbn [encode_each_c encode_each]. apply cbind_fst; [apply func_same|].
  intros [c' out]. apply cbind_fst; [apply IH|]. intros [c'' out']. reflexivity.
Qed.

Lemma hencode_same : forall raw, fst (huffman_encode_c raw) = huffman_encode raw.
Proof.
  intros raw. unfold huffman_encode_c, huffman_encode. apply cbind_fst; [apply each_same|]. intros [c out]. destruct (0 <? snd c); [|reflexivity].
  rewrite work_fst. apply cbind_fst; reflexivity.
Qed.

Lemma eindex_same : forall i p, fst (encode_index_c i p) = encode_index i p.
Proof.
  intros i p. unfold encode_index_c, encode_index, encode_integer_value_c.
  destruct p; try reflexivity; (destruct (or_first _ _) eqn:E; cbn; rewrite E; reflexivity).
Qed.

Lemma emax_same : forall i p, fst (encode_max_size_c i p) = encode_max_size i p.
Proof.
  intros i p. unfold encode_max_size_c, encode_max_size, encode_integer_value_c. cbn. reflexivity.
Qed.

Lemma estring_same : forall s mode, fst (encode_string_c s mode) = encode_string s mode.
Proof.
  intros s mode. unfold encode_string_c, encode_string. rewrite work_fst. apply cbind_fst.
  - destruct mode; [reflexivity|apply hencode_same] || (destruct mode; [apply hencode_same|reflexivity]).
  - intros e. unfold encode_integer_value_c.
    destruct (or_first (encode_integer_value 7 (size e)) (mode_val mode)) eqn:E; cbn; rewrite E; reflexivity.
Qed.

Lemma find_same : forall l h, fst (find_index_c l h) = Ok (find_index l h).
Proof.
  induction l as [|e l IH]; intros h; [reflexivity|]. cbn [find_index_c find_index]. rewrite work_fst.
  destruct (header_eqb e h); [reflexivity|]. specialize (IH h). unfold cbind. rewrite IH. cbn. reflexivity.
Qed.

Lemma eheader_same : forall e mode t, fst (encode_header_c e mode t) = encode_header e mode t.
Proof.
  intros e mode t. unfold encode_header_c, encode_header. destruct (hprefix_eqb _ _).
  - apply cbind_fst; [reflexivity|]. intros n. apply emax_same.
  - apply cbind_fst; [reflexivity|]. intros h. rewrite work_fst.
    destruct (match reverse_static_find h with
       | Some i => if 0 <? size (snd h) then Some i else None | None => None end); [apply eindex_same|].
    unfold cbind at 1. rewrite find_same. cbn [fst]. destruct (find_index (dt_entries t) h); [apply eindex_same|].
    cbn zeta. rewrite work_fst. destruct (reverse_static_find (fst h, [])).
    + apply cbind_fst; [apply eindex_same|]. intros ix. apply cbind_fst; [apply estring_same|]. intros v. reflexivity.
    + apply cbind_fst; [apply eindex_same|]. intros ix. apply cbind_fst; [apply estring_same|]. intros n. rewrite work_fst.
      apply cbind_fst; [apply estring_same|]. intros v. reflexivity.
Qed.

(* The counter changes nothing else. *)
Theorem C106_same_encoder : forall b mode t, fst (encode_block_c b mode t) = encode_block b mode t.
Proof.
  induction b as [|e b IH]; intros mode t; [reflexivity|]. cbn [encode_block_c encode_block]. apply cbind_fst; [apply eheader_same|].
  intros x. rewrite work_fst. apply cbind_fst; [apply IH|reflexivity].
Qed.

(* ---------------------------------------------------------------- integers *)

Lemma cont_size : forall f v, (N.size_nat v < f)%nat -> size (enc_loop f v) <= 1 + v / 128.
Proof.
  induction f as [|f IH]; intros v F; [lia|]. cbn [enc_loop]. destruct (N.leb_spec 128 v).
  - rewrite size_cons. assert (N.size_nat (v / 128) < f)%nat by (pose proof (size_nat_div128 v H); lia).
    specialize (IH _ H0). assert (1 <= v / 128) by lia. assert (v / 128 / 128 + 1 <= v / 128) by lia. lia.
  - rewrite size_cons, size_nil. lia.
Qed.

Lemma int_size : forall n v, size (encode_integer_value n v) <= 2 + v / 128.
Proof.
  intros n v. unfold encode_integer_value. destruct (N.ltb_spec v (2 ^ n - 1)); rewrite size_cons; [rewrite size_nil; lia|].
  unfold enc_cont. pose proof (cont_size (S (N.size_nat (v - (2 ^ n - 1)))) (v - (2 ^ n - 1)) ltac:(lia)).
  assert ((v - (2 ^ n - 1)) / 128 <= v / 128) by (apply N.div_le_mono; lia). lia.
Qed.

Lemma int_size32 : forall n v, v < 2 ^ 32 -> size (encode_integer_value n v) <= 6.
Proof.
  intros n v L. unfold encode_integer_value. destruct (N.ltb_spec v (2 ^ n - 1)); rewrite size_cons; [rewrite size_nil; lia|].
  pose proof (enc_cont_length 5 (v - (2 ^ n - 1))) as E. change (128 ^ N.of_nat 5) with (2 ^ 35) in E.
  specialize (E ltac:(eapply N.le_lt_trans; [apply N.le_sub_l|]; eapply N.lt_trans; [exact L|reflexivity]) ltac:(lia)). unfold size. lia.
Qed.

Lemma or_size : forall v b r, or_first v b = Ok r -> size r = size v.
Proof. intros [|x v] b r H; [discriminate H|]. apply Ok_inj in H. subst r. rewrite !size_cons. reflexivity. Qed.

Lemma int_work : forall A n v (k : bytes -> res A), snd (cbind (encode_integer_value_c n v) (fun x => free (k x))) = size (encode_integer_value n v).
Proof. intros A n v k. unfold encode_integer_value_c, cbind, work, free. cbn [fst snd]. cbn zeta. cbn [fst snd]. rewrite !N.add_0_r. reflexivity. Qed.

Lemma index_work : forall i p, snd (encode_index_c i p) <= 2 + i / 128 /\
  (forall r, encode_index i p = Ok r -> size r <= 2 + i / 128).
Proof.
  intros i p. assert (Z : forall n b, snd (cbind (encode_integer_value_c n i) (fun v => free (or_first v b))) <= 2 + i / 128).
  { intros n b. rewrite int_work. apply int_size. }
  split.
  - destruct p; try apply Z. apply N.le_0_l.
  - intros r H. destruct p; try discriminate H; cbn [encode_index] in H; apply or_size in H; rewrite H; apply int_size.
Qed.

Lemma max_work : forall n p, n < 2 ^ 32 -> snd (encode_max_size_c n p) <= 6 /\
  (forall r, encode_max_size n p = Ok r -> size r <= 6).
Proof.
  intros n p L. split.
  - unfold encode_max_size_c. rewrite int_work. apply int_size32. exact L.
  - intros r H. apply or_size in H. rewrite H. apply int_size32. exact L.
Qed.

(* ---------------------------------------------------------------- strings *)

Lemma code_most : forall syms, Forall (fun s => s <= 256) syms -> (length (flat_map rfc_code syms) <= 30 * length syms)%nat.
Proof.
  induction 1 as [|s syms H F IH]; [cbn; lia|]. cbn [flat_map length]. rewrite app_length, code_len.
  destruct (encode_table_at_ok s H) as (_ & _ & L). lia.
Qed.

Lemma huffman_size : forall raw, wf_bytes raw -> exists e, huffman_encode raw = Ok e /\ size e <= 4 * size raw.
Proof.
  intros raw W. destruct (huffman_encode_spec raw W) as (e & pad & E & _ & P & B). exists e. split; [exact E|].
  assert (F : Forall (fun s => s <= 256) raw) by (eapply Forall_impl; [|exact W]; intros a Ha; red in Ha; clear -Ha; lia).
  pose proof (code_most raw F) as C. apply (f_equal (@length bool)) in B. rewrite octets_bits_len, app_length, repeat_length in B.
  unfold size. lia.
Qed.

Lemma cbind_ok : forall A B (r : counted A) a (k : A -> counted B), fst r = Ok a -> snd (cbind r k) = snd r + snd (k a).
Proof. intros A B r a k H. unfold cbind. rewrite H. reflexivity. Qed.

Lemma free_ok : forall A B (r : res A) a (k : A -> counted B), r = Ok a -> snd (cbind (free r) k) = snd (k a).
Proof. intros A B r a k ->. reflexivity. Qed.

Lemma func_work : forall c d c' out, encode_func c d = Ok (c', out) -> snd (encode_func_c c d) = 1 + size out.
Proof. intros c d c' out F. unfold encode_func_c. rewrite work_snd, (free_ok _ _ _ _ _ F), work_snd. cbn [snd free]. apply N.add_assoc || rewrite N.add_0_r; reflexivity. Qed.

Lemma each_work : forall raw c c' out, encode_each c raw = Ok (c', out) -> snd (encode_each_c c raw) = size raw + size out.
Proof.
  induction raw as [|b raw IH]; intros c c' out H; cbn [encode_each] in H.
  - apply Ok_inj in H. injection H as <- <-. reflexivity.
  - apply bind_ok in H. destruct H as ((c1 & o1) & F & H). apply bind_ok in H. destruct H as ((c2 & o2) & G & H). apply Ok_inj in H.
    injection H as <- <-. specialize (IH _ _ _ G). cbn [encode_each_c].
    rewrite (cbind_ok _ _ _ (c1, o1) _ (eq_trans (func_same _ _) F)), (func_work _ _ _ _ F).
    rewrite (cbind_ok _ _ _ (c2, o2) _ (eq_trans (each_same _ _) G)), IH. cbn [snd free]. rewrite size_cons, size_app. clear. lia.
Qed.

Lemma hencode_work : forall raw e, huffman_encode raw = Ok e -> snd (huffman_encode_c raw) = size raw + size e.
Proof.
  intros raw e H. unfold huffman_encode in H. apply bind_ok in H. destruct H as ((c & out) & F & H).
  unfold huffman_encode_c. rewrite (cbind_ok _ _ _ (c, out) _ (eq_trans (each_same _ _) F)), (each_work _ _ _ _ F).
  destruct (0 <? snd c).
  - apply bind_ok in H. destruct H as (eos & A & H). apply Ok_inj in H. subst e. rewrite work_snd, (free_ok _ _ _ _ _ A). cbn [snd free].
    rewrite size_app, size_cons, size_nil. clear. lia.
  - apply Ok_inj in H. subst e. cbn [snd free]. clear. lia.
Qed.

Lemma string_work : forall s mode, wf_bytes s -> exists r, encode_string s mode = Ok r /\ size r <= 5 * size s + 2 /\
  snd (encode_string_c s mode) <= 2 * (size s + size r).
Proof.
  intros s mode W. pose proof (encode_string_spec s mode W) as (r & E & _). exists r. split; [exact E|]. pose proof E as E0.
  unfold encode_string in E. apply bind_ok in E. destruct E as (e & M & E). apply bind_ok in E. destruct E as (len & O & E).
  apply Ok_inj in E. pose proof (or_size _ _ _ O) as L. pose proof (int_size 7 (size e)) as LI.
  destruct (huffman_size s W) as (h & Hh & Lh).
  assert (Le : size e <= 4 * size s /\ snd (match mode with
      | ModeHuffman => huffman_encode_c s
      | ModeNone => let$ _ := work (size s) in free (Ok s) end) <= size s + size e /\ fst (match mode with
      | ModeHuffman => huffman_encode_c s
      | ModeNone => let$ _ := work (size s) in free (Ok s) end) = Ok e).
  { destruct mode.
    all: try (rewrite Hh in M; apply Ok_inj in M; subst h; rewrite (hencode_work _ _ Hh), hencode_same; repeat split; [exact Lh|lia|exact Hh]).
    all: apply Ok_inj in M; subst e; rewrite work_snd; cbn [snd free]; repeat split; clear; lia. }
  destruct Le as (Le & Lw & Ls). subst r. rewrite size_app. split; [lia|].
  unfold encode_string_c. rewrite work_snd, (cbind_ok _ _ _ e _ Ls).
  rewrite (cbind_ok _ _ (encode_integer_value_c 7 (size e)) (encode_integer_value 7 (size e)) _ eq_refl).
  rewrite (free_ok _ _ _ _ _ O), work_snd. cbn [snd free]. unfold encode_integer_value_c. rewrite work_snd. cbn [snd free].
  clear -L Lw. lia.
Qed.

(* ---------------------------------------------------------------- the table *)

Lemma find_work : forall l h, snd (find_index_c l h) <= total_size l.
Proof.
  induction l as [|e l IH]; intros h; [cbn; lia|]. cbn [find_index_c]. rewrite total_cons.
  assert (Q : equal_work e h <= field_size e).
  { unfold equal_work, field_size. fold (size (fst e)) (size (snd e)). destruct (_ =? _); destruct (_ && _); lia. }
  rewrite work_snd. destruct (header_eqb e h); [cbn [snd free]; lia|]. rewrite (cbind_ok _ _ _ _ _ (find_same l h)). cbn [snd free].
  specialize (IH h). lia.
Qed.

Lemma find_bound : forall l h i, find_index l h = Some i -> 32 * i <= total_size l.
Proof.
  induction l as [|e l IH]; intros h i F; [discriminate F|]. cbn [find_index] in F. rewrite total_cons. unfold field_size.
  destruct (header_eqb e h); [injection F as <-; lia|]. destruct (find_index l h) as [j|] eqn:G; [|discriminate F].
  injection F as <-. specialize (IH h j G). lia.
Qed.

(* ---------------------------------------------------------------- entries and blocks *)

Lemma size_of_index : static_table_size = 61.
Proof. vm_compute. reflexivity. Qed.

Lemma static_small : forall h i, reverse_static_find h = Some i -> i / 128 = 0.
Proof. intros h i F. apply chosen_index_pos in F. apply N.div_small. lia. Qed.

Lemma entry_cost : forall e mode t, entry_typed e -> dt_ok t ->
  snd (encode_header_c e mode t) <= 19 * field_octets e + dt_max t + dt_max t / 4096 + 16 /\
  (forall r, encode_header e mode t = Ok r -> size r <= 5 * field_octets e + dt_max t / 4096 + 6).
Proof.
  intros [p [h|n]] mode t T [K1 K2]; unfold encode_header_c, encode_header, field_octets, get_header, get_max_size; cbn [e_prefix e_content entry_typed] in *.
  - destruct (hprefix_eqb p SizeUpdate); [split; [cbn [snd free cbind fst]; apply N.le_0_l|discriminate]|].
    rewrite (free_ok _ _ _ h _ eq_refl). cbn [bind]. rewrite work_snd. unfold header_octets.
    assert (DT : snd (find_index_c (dt_entries t) h) <= dt_max t) by (pose proof (find_work (dt_entries t) h); lia).
    destruct (match reverse_static_find h with
       | Some i => if 0 <? size (snd h) then Some i else None | None => None end) as [i|] eqn:S1.
    + assert (i / 128 = 0).
      { destruct (reverse_static_find h) eqn:R; [|discriminate S1]. destruct (0 <? _); [|discriminate S1]. injection S1 as <-.
        eapply static_small. exact R. }
      destruct (index_work i Indexed) as [A B]. rewrite H in A, B. split; [lia|]. intros r E. apply B in E. lia.
    + rewrite (cbind_ok _ _ _ _ _ (find_same _ h)).
      destruct (find_index (dt_entries t) h) as [i|] eqn:F.
      * destruct (index_work (static_table_size + 1 + i) Indexed) as [A B].
        pose proof (find_bound _ _ _ F) as FB. rewrite size_of_index in *.
        assert ((61 + 1 + i) / 128 <= 1 + dt_max t / 4096).
        { clear - FB K1 K2. lia. }
        split; [lia|]. intros r E. apply B in E. lia.
      * rewrite work_snd. destruct T as [Wn Wv]. apply octets_wf in Wn. apply octets_wf in Wv.
        destruct (string_work (fst h) mode Wn) as (rn & En & Ln & Cn). destruct (string_work (snd h) mode Wv) as (rv & Ev & Lv & Cv).
        unfold encode_header_value, encode_header_name.
        destruct (reverse_static_find (fst h, [])) as [i|] eqn:R.
        -- destruct (index_work i p) as [A B]. rewrite (static_small _ _ R) in A, B. split.
           ++ assert (Z : snd (let$ ix := encode_index_c i p in
                let$ v := encode_string_c (snd h) mode in let$ _ := work (size v) in free (Ok (ix ++ v))) <=
                2 + (2 * (size (snd h) + size rv) + size rv)).
              { apply cbind_snd; [lia|]. intros ix _. rewrite (cbind_ok _ _ _ rv _ (eq_trans (estring_same _ _) Ev)), work_snd.
                cbn [snd free]. clear -Cv. lia. }
              lia.
           ++ intros r E. apply bind_ok in E. destruct E as (ix & EI & E). rewrite Ev in E. apply Ok_inj in E. subst r.
              apply B in EI. rewrite size_app. lia.
        -- destruct (index_work 0 p) as [A B]. change (2 + 0 / 128) with 2 in A, B. split.
           ++ assert (Z : snd (let$ ix := encode_index_c 0 p in
                let$ n := encode_string_c (fst h) mode in let$ _ := work (size n) in
                let$ v := encode_string_c (snd h) mode in let$ _ := work (size v) in free (Ok (ix ++ n ++ v))) <=
                2 + (2 * (size (fst h) + size rn) + size rn + (2 * (size (snd h) + size rv) + size rv))).
              { apply cbind_snd; [lia|]. intros ix _. rewrite (cbind_ok _ _ _ rn _ (eq_trans (estring_same _ _) En)), work_snd.
                rewrite (cbind_ok _ _ _ rv _ (eq_trans (estring_same _ _) Ev)), work_snd.
                cbn [snd free]. clear -Cn Cv. lia. }
              lia.
           ++ intros r E. apply bind_ok in E. destruct E as (ix & EI & E). rewrite En, Ev in E. apply Ok_inj in E. subst r.
              apply B in EI. rewrite !size_app. lia.
  - destruct (hprefix_eqb p SizeUpdate).
    + rewrite (free_ok _ _ _ n _ eq_refl). cbn [bind]. destruct (max_work n p T) as [A B]. split; [lia|]. intros r E. apply B in E. lia.
    + split; [cbn [snd free cbind fst]; apply N.le_0_l|discriminate].
Qed.

(* Encoding takes work in proportion to the octets of the fields, and for every
   field once through the table. *)
Theorem C106_linear : forall b mode t, Forall entry_typed b -> dt_ok t ->
  snd (encode_block_c b mode t) <= 24 * block_octets b + size b * (2 * dt_max t + 22).
Proof.
  intros b mode t F K. induction F as [|e b T F IH]; [cbn; lia|].
  destruct (entry_cost e mode t T K) as [A B]. cbn [encode_block_c block_octets fold_right]. fold (block_octets b). rewrite size_cons.
  assert (D : dt_max t / 4096 + dt_max t / 4096 <= dt_max t) by (clear; lia).
  assert (Z : snd (let$ x := encode_header_c e mode t in let$ _ := work (size x) in
      let$ y := encode_block_c b mode t in free (Ok (x ++ y))) <=
    19 * field_octets e + dt_max t + dt_max t / 4096 + 16 +
    (5 * field_octets e + dt_max t / 4096 + 6 + snd (encode_block_c b mode t))).
  { apply cbind_snd; [exact A|]. intros x X. rewrite eheader_same in X. apply B in X. rewrite work_snd.
    pose proof (cbind_snd _ _ (encode_block_c b mode t) (fun y => free (Ok (x ++ y))) _ 0 (N.le_refl _) ltac:(intros; cbn; lia)). lia. }
  rewrite N.mul_add_distr_r. lia.
Qed.

(* Huffman coding: the octets given and the octets made, exactly. *)
Theorem C106_huffman_exact : forall raw, is_octets raw -> exists e, huffman_encode raw = Ok e /\
  snd (huffman_encode_c raw) = size raw + size e.
Proof.
  intros raw W. apply octets_wf in W. destruct (huffman_size raw W) as (e & E & _). exists e. split; [exact E|]. apply hencode_work. exact E.
Qed.

(* Exactly, for n times ":method: GET": 12 n here, while reading the n octets
   that come out takes n * (n + 23) (C105_exact). *)
Definition get_field : hentry := HEntry IncrementalIndexing (EHeader (bytes_of_string ":method", bytes_of_string "GET")).
Theorem C106_exact : forall n mode t,
  encode_block (repeat get_field n) mode t = Ok (repeat 0x82 n) /\
  snd (encode_block_c (repeat get_field n) mode t) = 12 * N.of_nat n.
Proof.
  intros n mode t. assert (G : encode_header_c get_field mode t = (Ok [0x82], 11)) by (vm_compute; reflexivity).
  induction n as [|n [IH1 IH2]]; [split; reflexivity|]. split.
  - cbn [repeat encode_block]. rewrite <- eheader_same, G. cbn [fst bind]. rewrite IH1. reflexivity.
  - cbn [repeat encode_block_c]. rewrite (cbind_ok _ _ _ [0x82] _ (f_equal fst G : fst (encode_header_c get_field mode t) = Ok [0x82])), G, work_snd.
    rewrite (cbind_ok _ _ _ (repeat 0x82 n) _ (eq_trans (C106_same_encoder _ _ _) IH1)), IH2. cbn [snd free]. rewrite size_cons, size_nil. clear. lia.
Qed.

(* A request as the sample program sends it, and one with a table of two
   entries, whose octets are compared and found. *)
Example C106_case :
  let get := [HEntry IncrementalIndexing (EHeader (bytes_of_string ":method", bytes_of_string "GET"));
              HEntry NeverIndexed (EHeader (bytes_of_string "cookie", bytes_of_string "abcde"));
              HEntry NeverIndexed (EHeader (bytes_of_string "x-a", bytes_of_string "yyyy"))] in
  let t := DynTable [(bytes_of_string "x-b", bytes_of_string "z"); (bytes_of_string "x-a", bytes_of_string "yyyy")] 75 4096 in
  Forall entry_typed get /\ dt_ok default_table /\
  block_octets get = 28 /\
  snd (encode_block_c get ModeNone default_table) = 117 /\
  snd (encode_block_c get ModeHuffman default_table) = 125 /\
  snd (encode_block_c get ModeNone t) = 85.
Proof.
  cbv zeta. split; [|split; [split; vm_compute; [reflexivity|discriminate]|vm_compute; repeat split]].
  repeat constructor; cbn; intros b I; repeat (destruct I as [<-|I]; [reflexivity|]); destruct I.
Qed.

Print Assumptions C106_same_encoder.
Print Assumptions C106_linear.
Print Assumptions C106_huffman_exact.
Print Assumptions C106_exact.
