From Coq Require Import ZArith NArith List Bool Lia ZifyBool ZifyNat ZifyN.
From Verif Require Import Base Arith SpecBits SpecHuffman HuffmanTable Huffman UtilProofs
  BitsProofs HuffmanProofs.
Import ListNotations.
Open Scope N_scope.
Ltac Zify.zify_post_hook ::= Z.div_mod_to_equations.

(* The bits not yet decoded. *)
Definition pending (temp : bytes) (carry : N * N) : list bool := rbits carry ++ octets_bits temp.

Definition st_ok (temp : bytes) (carry : N * N) : Prop :=
  wf_bytes temp /\ snd carry < 8 /\ rec_ok carry.

Lemma pending_len : forall temp v r,
  N.of_nat (length (pending temp (v, r))) = r + 8 * size temp.
Proof.
  intros. unfold pending, rbits. rewrite app_length, bits_len, octets_bits_len. cbn [snd].
  unfold size. lia.
Qed.

Lemma construct_loop_spec : forall l required i A, wf_bytes l ->
  required = i + size l -> required <= 4 -> A * 256 ^ size l + be_value l < 2 ^ 32 ->
  construct_loop l required i (A * 256 ^ size l) = A * 256 ^ size l + be_value l.
Proof.
  induction l as [|b l IH]; intros required i A W R R4 B; cbn [construct_loop].
  - change (be_value []) with 0. lia.
  - apply wf_bytes_cons in W. destruct W as [Wb W]. rewrite size_cons in *.
    replace ((required - i - 1) * 8) with (8 * size l) by lia.
    rewrite N.shiftl_mul_pow2, pow256, be_cons in *.
    rewrite N.pow_add_r, N.pow_1_r in *.
    set (p := 256 ^ size l) in *.
    assert (P : 0 < p) by apply pow256_pos.
    rewrite u32_small.
    2:{ eapply N.le_lt_trans; [|exact B]. rewrite N.add_assoc.
        apply N.le_trans with (A * (p * 256) + b * p); [|apply N.le_add_r].
        rewrite N.add_comm. apply N.le_add_r. }
    replace (A * (p * 256)) with (A * 2 ^ (8 * (size l + 1))).
    2:{ rewrite pow256, N.pow_add_r, N.pow_1_r. reflexivity. }
    rewrite lor_add.
    2:{ rewrite pow256, N.pow_add_r, N.pow_1_r. fold p. clear - Wb P. nia. }
    rewrite pow256, N.pow_add_r, N.pow_1_r. fold p.
    replace (A * (p * 256) + b * p) with ((A * 256 + b) * p) by ring.
    unfold p. rewrite IH; auto; try lia.
Qed.

Lemma construct_integer_spec : forall temp k, wf_bytes temp -> k <= 4 ->
  construct_integer temp k =
  if size temp <? k then Throw InvalidArgument
  else Ok (be_value (firstn (N.to_nat k) temp)).
Proof.
  intros temp k W K. unfold construct_integer.
  destruct (N.ltb_spec (size temp) k) as [S|S]; [reflexivity|]. f_equal.
  assert (WF : wf_bytes (firstn (N.to_nat k) temp)) by (apply wf_bytes_firstn; assumption).
  assert (SF : size (firstn (N.to_nat k) temp) = k) by (rewrite size_firstn; lia).
  pose proof (be_lt _ WF) as L. rewrite SF in L.
  assert (L4 : 256 ^ k <= 256 ^ 4) by (apply N.pow_le_mono_r; lia).
  change 0 with (0 * 256 ^ size (firstn (N.to_nat k) temp)) at 2.
  rewrite construct_loop_spec.
  - rewrite N.mul_0_l, N.add_0_l. reflexivity.
  - assumption.
  - lia.
  - assumption.
  - rewrite N.mul_0_l, N.add_0_l.
    eapply N.lt_le_trans; [exact L|]. eapply N.le_trans; [exact L4|]. discriminate.
Qed.

(* One table row: which bits are looked at. *)
Definition row_key (bit_length : N) (temp : bytes) (carry : N * N) : res (N * (N * N) * N) :=
          if snd carry <? bit_length then
            let required_bit := bit_length - snd carry in
            let required_byte :=
              if required_bit mod 8 =? 0 then required_bit / 8
              else required_bit / 8 + 1 in
            let* target := construct_integer temp required_byte in
            let shift_bit := (required_byte * 8 + snd carry) - bit_length in
            let shifted_target := N.shiftr target shift_bit in
            let shifted_value :=
              N.lxor target (u32 (N.shiftl shifted_target shift_bit)) in
            let key :=
              N.lor (u32 (N.shiftl (fst carry) (bit_length - snd carry)))
                    shifted_target in
            Ok (key, (shifted_value, shift_bit), required_byte)
          else
            let target := fst carry in
            let shift_bit := snd carry - bit_length in
            let shifted_target := N.shiftr target shift_bit in
            let shifted_value :=
              N.lxor target (u32 (N.shiftl shifted_target shift_bit)) in
            Ok (shifted_target, (shifted_value, shift_bit), 0).

Lemma decode_pass_cons : forall L m tbl temp carry,
  decode_pass ((L, m) :: tbl) temp carry =
  if (size temp =? 0) && (snd carry <? L) then Ok Padding
  else let* (key, temp_carry, erase_length) := row_key L temp carry in
       match map_find m key with
       | Some sym => let* temp' := verase_front temp erase_length in
                     Ok (Symbol sym L temp' temp_carry)
       | None => decode_pass tbl temp carry
       end.
Proof. reflexivity. Qed.

Lemma ceil8 : forall x, let k := if x mod 8 =? 0 then x / 8 else x / 8 + 1 in
  x <= 8 * k /\ 8 * k < x + 8.
Proof. intros x k. unfold k. destruct (N.eqb_spec (x mod 8) 0); lia. Qed.

Lemma row_key_spec : forall L temp v r, st_ok temp (v, r) -> 5 <= L <= 30 ->
  (r + 8 * size temp < L /\ row_key L temp (v, r) = Throw InvalidArgument) \/
  (L <= r + 8 * size temp /\
   exists key carry' k, row_key L temp (v, r) = Ok (key, carry', k) /\
     key < 2 ^ L /\ k <= size temp /\ st_ok (skipn (N.to_nat k) temp) carry' /\
     pending temp (v, r) =
     bits_of (N.to_nat L) key ++ pending (skipn (N.to_nat k) temp) carry').
Proof.
  intros L temp v r (W & R8 & RO) HL. unfold rec_ok in RO. cbn [fst snd] in *.
  unfold row_key. cbn [fst snd].
  destruct (N.ltb_spec r L) as [RL|RL].
  - destruct (ceil8 (L - r)) as [K1 K2].
    set (k := if (L - r) mod 8 =? 0 then (L - r) / 8 else (L - r) / 8 + 1) in *.
    clearbody k.
    rewrite construct_integer_spec by (auto; lia).
    destruct (N.ltb_spec (size temp) k) as [S|S]; cbn [bind].
    + left. split; [lia|reflexivity].
    + right. split; [lia|].
      set (t := be_value (firstn (N.to_nat k) temp)).
      set (s := k * 8 + r - L).
      assert (WF : wf_bytes (firstn (N.to_nat k) temp)) by (apply wf_bytes_firstn; assumption).
      assert (SF : size (firstn (N.to_nat k) temp) = k) by (rewrite size_firstn; lia).
      assert (TL : t < 2 ^ (8 * k)).
      { rewrite pow256. rewrite <- SF. apply be_lt. assumption. }
      assert (E8 : 8 * k = (L - r) + s) by lia.
      assert (S7 : s < 8) by lia.
      assert (Et : be_value (firstn (N.to_nat k) temp) = t) by reflexivity.
      clearbody t s.
      rewrite N.shiftr_div_pow2, !N.shiftl_mul_pow2.
      assert (Ps : 2 ^ s <> 0) by (apply N.pow_nonzero; lia).
      assert (T32 : 2 ^ (8 * k) <= 2 ^ 32) by (apply N.pow_le_mono_r; lia).
      rewrite (u32_small (t / 2 ^ s * 2 ^ s)).
      2:{ eapply N.le_lt_trans; [rewrite N.mul_comm; apply N.mul_div_le; assumption|].
          eapply N.lt_le_trans; eassumption. }
      rewrite lxor_shift'.
      assert (Td : t / 2 ^ s < 2 ^ (L - r)).
      { apply N.div_lt_upper_bound; [assumption|]. rewrite <- N.pow_add_r.
        replace (s + (L - r)) with (8 * k) by lia. assumption. }
      assert (KL : v * 2 ^ (L - r) + t / 2 ^ s < 2 ^ L).
      { replace (2 ^ L) with (2 ^ r * 2 ^ (L - r))
          by (rewrite <- N.pow_add_r; f_equal; lia). clear - Td RO. nia. }
      rewrite (u32_small (v * 2 ^ (L - r))).
      2:{ eapply N.le_lt_trans; [apply N.le_add_r|]. eapply N.lt_le_trans; [exact KL|].
          apply N.pow_le_mono_r; lia. }
      rewrite lor_add by assumption.
      exists (v * 2 ^ (L - r) + t / 2 ^ s), (t mod 2 ^ s, s), k.
      split; [reflexivity|]. split; [assumption|]. split; [assumption|]. split.
      * split; [apply wf_bytes_skipn; assumption|]. split; [cbn; assumption|].
        unfold rec_ok. cbn [fst snd]. apply N.mod_lt. assumption.
      * unfold pending, rbits. cbn [fst snd].
        rewrite <- (firstn_skipn (N.to_nat k) temp) at 1. rewrite octets_bits_app.
        rewrite (octets_bits_be (firstn _ _)) by assumption.
        replace (8 * length (firstn (N.to_nat k) temp))%nat
          with (N.to_nat (L - r) + N.to_nat s)%nat by (unfold size in *; lia).
        rewrite Et, bits_split.
        replace (N.of_nat (N.to_nat s)) with s by lia.
        replace (N.to_nat L) with (N.to_nat r + N.to_nat (L - r))%nat by lia.
        replace (2 ^ (L - r)) with (2 ^ N.of_nat (N.to_nat (L - r))) by (f_equal; lia).
        rewrite bits_join by (replace (N.of_nat (N.to_nat (L - r))) with (L - r) by lia; assumption).
        rewrite <- !app_assoc. do 2 f_equal.
        replace (2 ^ s) with (2 ^ N.of_nat (N.to_nat s)) by (f_equal; lia).
        rewrite bits_mod by lia. reflexivity.
  - right. split; [lia|].
    set (s := r - L). assert (E : r = L + s) by lia. assert (S8 : s < 8) by lia. clearbody s.
    rewrite N.shiftr_div_pow2, !N.shiftl_mul_pow2.
    assert (Ps : 2 ^ s <> 0) by (apply N.pow_nonzero; lia).
    assert (V32 : v < 2 ^ 32).
    { eapply N.lt_le_trans; [exact RO|]. apply N.pow_le_mono_r; lia. }
    rewrite u32_small.
    2:{ eapply N.le_lt_trans; [rewrite N.mul_comm; apply N.mul_div_le; assumption|assumption]. }
    rewrite lxor_shift'.
    exists (v / 2 ^ s), (v mod 2 ^ s, s), 0.
    split; [reflexivity|]. split.
    { apply N.div_lt_upper_bound; [assumption|]. rewrite <- N.pow_add_r.
      replace (s + L) with r by lia. assumption. }
    split; [apply N.le_0_l|]. split.
    + split; [apply wf_bytes_skipn; assumption|]. split; [cbn; assumption|].
      unfold rec_ok. cbn [fst snd]. apply N.mod_lt. assumption.
    + unfold pending, rbits. cbn [fst snd]. change (N.to_nat 0) with 0%nat. cbn [skipn].
      rewrite app_assoc. f_equal.
      replace (N.to_nat r) with (N.to_nat L + N.to_nat s)%nat by lia.
      rewrite bits_split. replace (N.of_nat (N.to_nat s)) with s by lia. f_equal.
      replace (2 ^ s) with (2 ^ N.of_nat (N.to_nat s)) by (f_equal; lia).
      rewrite bits_mod by lia. reflexivity.
Qed.

Definition has_code (B : list bool) : Prop := exists s, s <= 256 /\ is_prefix (rfc_code s) B.

Lemma found_is_code : forall row temp carry key carry' k s rest, row_sound row ->
  row_key (fst row) temp carry = Ok (key, carry', k) ->
  pending temp carry = bits_of (N.to_nat (fst row)) key ++ rest ->
  map_find (snd row) key = Some s ->
  s <= 256 /\ rfc_code s = bits_of (N.to_nat (fst row)) key /\ rfc_code_length s = fst row.
Proof.
  intros row temp carry key carry' k s rest [_ RS] E P F.
  apply RS in F. destruct F as (H & HL & HV). split; [assumption|]. split; [|assumption].
  unfold rfc_code. rewrite HL, HV. reflexivity.
Qed.

Lemma same_code : forall s s' B, s <= 256 -> s' <= 256 ->
  is_prefix (rfc_code s) B -> is_prefix (rfc_code s') B -> s = s'.
Proof.
  intros s s' B H H' [r E] [r' E'].
  destruct (prefix_total _ (rfc_code s) (rfc_code s') r r') as [P|P]; [congruence| |].
  - apply prefix_free; assumption.
  - symmetry. apply prefix_free; assumption.
Qed.

Lemma size0 : forall A (l : list A), (size l =? 0) = true -> l = [].
Proof. intros A l H. apply N.eqb_eq in H. apply size_0. assumption. Qed.

(* A code word is pending: the pass finds it. *)
Lemma pass_found : forall s, s <= 256 -> forall pre m post temp v r,
  Forall row_sound (pre ++ (rfc_code_length s, m) :: post) ->
  map_find m (rfc_code_value s) = Some s ->
  (forall row, In row pre -> fst row < rfc_code_length s) ->
  st_ok temp (v, r) -> is_prefix (rfc_code s) (pending temp (v, r)) ->
  exists temp' carry',
    decode_pass (pre ++ (rfc_code_length s, m) :: post) temp (v, r)
      = Ok (Symbol s (rfc_code_length s) temp' carry') /\
    st_ok temp' carry' /\
    pending temp (v, r) = rfc_code s ++ pending temp' carry'.
Proof.
  intros s Hs. destruct (encode_table_at_ok s Hs) as (_ & Vs & Ls).
  assert (LenB : forall temp v r, is_prefix (rfc_code s) (pending temp (v, r)) ->
            rfc_code_length s <= r + 8 * size temp).
  { intros temp v r [q Q]. rewrite <- (pending_len temp v r), Q, app_length, code_len. lia. }
  induction pre as [|[L' m'] pre IH]; intros m post temp v r RS F Hpre ST P.
  - cbn [app] in *. inversion RS as [|? ? R0 _]; subst.
    rewrite decode_pass_cons. cbn [snd].
    pose proof (LenB _ _ _ P) as LB.
    assert (NP : (size temp =? 0) && (r <? rfc_code_length s) = false).
    { apply not_true_is_false. intros T. apply andb_true_iff in T. lia. }
    rewrite NP.
    destruct (row_key_spec (rfc_code_length s) temp v r ST) as [[C _]|(_ & key & c' & k & E & K & KS & ST' & EB)]; [lia|lia|].
    rewrite E. cbn [bind].
    assert (key = rfc_code_value s).
    { destruct P as [q Q]. rewrite Q in EB.
      apply (f_equal (firstn (N.to_nat (rfc_code_length s)))) in EB.
      rewrite !firstn_len_app in EB by (rewrite ?code_len, ?bits_len; reflexivity).
      unfold rfc_code in EB. symmetry in EB.
      apply bits_inj in EB; [assumption| |]; rewrite Nnat.N2Nat.id; assumption. }
    subst key. rewrite F. unfold verase_front.
    destruct (N.leb_spec k (size temp)); [|lia]. cbn [bind].
    do 2 eexists. split; [reflexivity|]. split; [assumption|]. assumption.
  - cbn [app] in *. inversion RS as [|? ? R0 RS']; subst.
    rewrite decode_pass_cons. cbn [snd].
    pose proof (LenB _ _ _ P) as LB.
    pose proof (Hpre (L', m') (or_introl eq_refl)) as LL. cbn [fst] in LL.
    assert (NP : (size temp =? 0) && (r <? L') = false).
    { apply not_true_is_false. intros T. apply andb_true_iff in T. lia. }
    rewrite NP. pose proof (proj1 R0) as RL. cbn [fst] in RL.
    destruct (row_key_spec L' temp v r ST) as [[C _]|(_ & key & c' & k & E & K & KS & ST' & EB)]; [lia|lia|].
    rewrite E. cbn [bind].
    destruct (map_find m' key) as [s'|] eqn:F'.
    + exfalso. destruct (found_is_code (L', m') temp (v, r) key c' k s' _ R0 E EB F')
        as (H' & EC & EL). cbn [fst] in *.
      assert (s = s'); [|subst; lia].
      apply (same_code _ _ (pending temp (v, r))); auto.
      eexists. rewrite EC. exact EB.
    + apply IH; auto. intros row I. apply Hpre. right. assumption.
Qed.

(* No code word is pending. *)
Lemma pass_none : forall tbl temp v r, Forall row_sound tbl ->
  (exists row, In row tbl /\ r + 8 * size temp < fst row) ->
  st_ok temp (v, r) -> ~ has_code (pending temp (v, r)) ->
  decode_pass tbl temp (v, r) =
  match temp with [] => Ok Padding | _ => Throw InvalidArgument end.
Proof.
  induction tbl as [|[L m] tbl IH]; intros temp v r RS (row & I & LR) ST NH; [destruct I|].
  inversion RS as [|? ? R0 RS']; subst. rewrite decode_pass_cons. cbn [snd].
  destruct ((size temp =? 0) && (r <? L)) eqn:NP.
  { apply andb_true_iff in NP. destruct NP as [NP _]. apply size0 in NP. subst. reflexivity. }
  pose proof (proj1 R0) as RL. cbn [fst] in RL.
  destruct (row_key_spec L temp v r ST RL) as [[C E]|(LB & key & c' & k & E & K & KS & ST' & EB)].
  - rewrite E. cbn [bind]. destruct temp as [|b temp]; [|reflexivity].
    exfalso. rewrite size_nil in C. cbn in NP. destruct (N.ltb_spec r L); [discriminate|lia].
  - rewrite E. cbn [bind]. destruct (map_find m key) as [s'|] eqn:F'.
    + exfalso. destruct (found_is_code (L, m) temp (v, r) key c' k s' _ R0 E EB F')
        as (H' & EC & EL). cbn [fst] in *. apply NH. exists s'. split; [assumption|].
      eexists. rewrite EC. exact EB.
    + apply IH; auto. exists row. split; [|assumption].
      destruct I as [<-|I]; [|assumption]. cbn [fst] in LR. lia.
Qed.

Lemma has_code_dec : forall B, has_code B \/ ~ has_code B.
Proof.
  intros B. destruct (existsb (fun x => is_prefixb (snd x) B) codes) eqn:E.
  - left. apply existsb_exists in E. destruct E as ([s c] & I & P).
    apply codes_in in I. destruct I as [H ->]. exists s. split; [assumption|].
    apply is_prefixb_spec. assumption.
  - right. intros (s & H & P). apply is_prefixb_spec in P.
    assert (X : existsb (fun x => is_prefixb (snd x) B) codes = true).
    { apply existsb_exists. exists (s, rfc_code s). split; [apply in_codes; assumption|assumption]. }
    congruence.
Qed.

Lemma longest_row : exists row, In row decode_table /\ fst row = 30.
Proof.
  assert (H : existsb (fun row => fst row =? 30) decode_table = true) by (vm_compute; reflexivity).
  apply existsb_exists in H. destruct H as (row & I & E). apply N.eqb_eq in E. eauto.
Qed.

(* The parse the decoder looks for. *)
Definition parses (B : list bool) (syms : list N) (pad : list bool) : Prop :=
  B = flat_map rfc_code syms ++ pad /\ Forall (fun s => s <= 256) syms /\
  (length pad < 8)%nat /\ ~ has_code pad.

Lemma while_step : forall f decoded total temp carry,
  decode_while (S f) decoded total temp carry =
  if decoded <? total then
    let* p := decode_pass decode_table temp carry in
    match p with
    | Padding => decode_while f (decoded + snd carry) total temp carry
    | Symbol sym bit_length temp' carry' =>
        let* out := decode_while f (decoded + bit_length) total temp' carry' in
        Ok (u8 sym :: out)
    | NotFound => if size temp <? 4 then UB OobRead else Throw RuntimeError
    end
  else Ok [].
Proof. reflexivity. Qed.

Lemma while_done : forall f total temp carry, decode_while f total total temp carry = Ok [].
Proof. intros. destruct f; cbn [decode_while]; rewrite N.ltb_irrefl; reflexivity. Qed.

Lemma no_code_nil : ~ has_code [].
Proof.
  intros (s & H & r & E). destruct (encode_table_at_ok s H) as (_ & _ & L).
  apply (f_equal (@length bool)) in E. rewrite app_length, code_len in E. cbn [length] in E. lia.
Qed.

Lemma while_spec : forall fuel temp v r decoded total,
  st_ok temp (v, r) -> decoded + (r + 8 * size temp) = total ->
  (N.to_nat (r + 8 * size temp) < fuel)%nat ->
  (exists syms pad, parses (pending temp (v, r)) syms pad /\
     decode_while fuel decoded total temp (v, r) = Ok (map u8 syms)) \/
  (~ (exists syms pad, parses (pending temp (v, r)) syms pad) /\
   decode_while fuel decoded total temp (v, r) = Throw InvalidArgument).
Proof.
  induction fuel as [|fuel IH]; intros temp v r decoded total ST T HF; [lia|].
  destruct (N.eq_dec (r + 8 * size temp) 0) as [Z|NZ].
  - left. exists [], []. split.
    + repeat split.
      * apply length_zero_iff_nil. pose proof (pending_len temp v r). lia.
      * constructor.
      * cbn. lia.
      * apply no_code_nil.
    + replace total with decoded by lia. apply while_done.
  - rewrite while_step. destruct (N.ltb_spec decoded total) as [_|C]; [|lia].
    destruct (has_code_dec (pending temp (v, r))) as [(s & Hs & P)|NC].
    + destruct (decode_table_split s Hs) as (pre & m & post & ET & F & Hpre).
      pose proof decode_table_sound as RS. rewrite ET in RS |- *.
      destruct (pass_found s Hs pre m post temp v r RS F Hpre ST P)
        as (temp' & [v' r'] & E & ST' & EB).
      rewrite E. cbn [bind]. destruct (encode_table_at_ok s Hs) as (_ & _ & Ls).
      assert (LB : r + 8 * size temp = rfc_code_length s + (r' + 8 * size temp')).
      { rewrite <- (pending_len temp v r), <- (pending_len temp' v' r'), EB, app_length, code_len. lia. }
      destruct (IH temp' v' r' (decoded + rfc_code_length s) total ST')
        as [(syms & pad & (PB & PS & PL & PN) & ED)|(NP & ED)]; [lia|lia| |].
      * left. exists (s :: syms), pad. rewrite ED. split; [|reflexivity].
        repeat split; auto. rewrite EB, PB. cbn [flat_map]. rewrite app_assoc. reflexivity.
      * right. rewrite ED. split; [|reflexivity]. intros (syms & pad & PB & PS & PL & PN).
        apply NP. destruct syms as [|s' syms].
        -- exfalso. apply PN. cbn in PB. rewrite <- PB. exists s. auto.
        -- inversion PS as [|? ? Hs' PS']; subst.
           assert (s = s').
           { apply (same_code s s' (pending temp (v, r))); auto.
             rewrite PB. cbn [flat_map]. rewrite <- app_assoc. eexists. reflexivity. }
           subst s'. exists syms, pad. repeat split; auto.
           rewrite EB in PB. cbn [flat_map] in PB. rewrite <- app_assoc in PB.
           apply app_inv_head in PB. assumption.
    + assert (B30 : r + 8 * size temp < 30).
      { destruct (N.lt_ge_cases (r + 8 * size temp) 30) as [|G]; [assumption|].
        exfalso. apply NC. apply complete. pose proof (pending_len temp v r). lia. }
      destruct longest_row as (row & Ir & Er).
      rewrite (pass_none decode_table temp v r decode_table_sound); auto.
      2:{ exists row. split; [assumption|]. lia. }
      destruct temp as [|b temp].
      * cbn [bind snd]. rewrite size_nil in *.
        replace (decoded + r) with total by lia. rewrite while_done.
        left. exists [], (pending [] (v, r)). split; [|reflexivity].
        repeat split; auto.
        pose proof (pending_len [] v r) as PLn. rewrite size_nil in PLn.
        destruct ST as (_ & R8 & _). cbn [snd] in R8. lia.
      * cbn [bind]. right. split; [|reflexivity]. intros (syms & pad & PB & PS & PL & PN).
        destruct syms as [|s syms].
        -- cbn in PB. pose proof (pending_len (b :: temp) v r) as PLn.
           rewrite PB, size_cons in PLn. lia.
        -- inversion PS; subst. apply NC. exists s. split; [assumption|].
           rewrite PB. cbn [flat_map]. rewrite <- app_assoc. eexists. reflexivity.
Qed.

Lemma huffman_decode_spec : forall e, wf_bytes e ->
  (exists syms pad, parses (octets_bits e) syms pad /\ huffman_decode e = Ok (map u8 syms)) \/
  (~ (exists syms pad, parses (octets_bits e) syms pad) /\
   huffman_decode e = Throw InvalidArgument).
Proof.
  intros e W. unfold huffman_decode.
  destruct (while_spec (S (N.to_nat (size e * 8))) e 0 0 0 (size e * 8)) as [H|H].
  - repeat split; auto.
  - lia.
  - lia.
  - left. exact H.
  - right. exact H.
Qed.

(* The parse is unique. *)
Lemma parses_unique : forall syms pad syms' pad' B, parses B syms pad -> parses B syms' pad' ->
  syms = syms' /\ pad = pad'.
Proof.
  induction syms as [|s syms IH]; intros pad [|s' syms'] pad' B (E & S & L & N) (E' & S' & L' & N').
  - cbn in *. split; congruence.
  - exfalso. apply N. inversion S'; subst. exists s'. split; [assumption|].
    cbn in E'. rewrite E'. rewrite <- app_assoc. eexists. reflexivity.
  - exfalso. apply N'. inversion S; subst. exists s. split; [assumption|].
    cbn in E'. rewrite <- E'. cbn [flat_map]. rewrite <- app_assoc. eexists. reflexivity.
  - inversion S; inversion S'; subst. cbn [flat_map] in *. rewrite <- app_assoc in *.
    assert (s = s').
    { apply (same_code s s' (rfc_code s ++ flat_map rfc_code syms ++ pad)); auto.
      - eexists. reflexivity.
      - rewrite E'. rewrite <- app_assoc. eexists. reflexivity. }
    subst s'. rewrite <- app_assoc in E'. apply app_inv_head in E'.
    destruct (IH pad syms' pad' (flat_map rfc_code syms ++ pad)) as [-> ->]; try split; auto; split; auto.
Qed.

Lemma ones_not_code_sweep : forallb (fun x =>
   forallb (fun n => negb (is_prefixb (snd x) (repeat true n))) (seq 0 8)) codes = true.
Proof. vm_compute. reflexivity. Qed.

Lemma ones_no_code : forall n, (n < 8)%nat -> ~ has_code (repeat true n).
Proof.
  intros n H (s & Hs & P). apply is_prefixb_spec in P.
  pose proof (proj1 (forallb_forall _ _) ones_not_code_sweep _ (in_codes s Hs)) as R.
  cbv beta in R. pose proof (proj1 (forallb_forall _ _) R n) as R'. cbn [snd] in R'.
  rewrite P in R'. assert (In n (seq 0 8)) by (apply in_seq; lia). apply R' in H0. discriminate.
Qed.

Lemma map_u8_id : forall l, wf_bytes l -> map u8 l = l.
Proof.
  induction 1 as [|b l H W IH]; [reflexivity|]. cbn. rewrite IH, u8_small by assumption. reflexivity.
Qed.

(* Decoding what RFC 7541 calls an encoding of s. *)
Lemma huffman_decode_valid : forall s e, wf_bytes s -> rfc_huffman_encodes s e ->
  huffman_decode e = Ok s.
Proof.
  intros s e Ws (We & pad & E & L).
  assert (W : wf_bytes e) by (apply Forall_forall; exact We).
  assert (P : parses (octets_bits e) s (repeat true pad)).
  { repeat split; auto.
    - eapply Forall_impl; [|exact Ws]. unfold wf_byte. intros. lia.
    - rewrite repeat_length. assumption.
    - apply ones_no_code. assumption. }
  destruct (huffman_decode_spec e W) as [(syms & pad' & P' & ->)|(N & _)].
  - destruct (parses_unique _ _ _ _ _ P P') as [<- _]. rewrite map_u8_id by assumption. reflexivity.
  - exfalso. apply N. eauto.
Qed.

Lemma huffman_roundtrip : forall s, wf_bytes s ->
  exists e, huffman_encode s = Ok e /\ wf_bytes e /\ rfc_huffman_encodes s e /\
            huffman_decode e = Ok s.
Proof.
  intros s W. destruct (huffman_encode_spec s W) as (e & pad & E & We & L & B).
  assert (R : rfc_huffman_encodes s e).
  { split; [intros x I; exact (proj1 (Forall_forall _ _) We x I)|]. eauto. }
  exists e. repeat split; auto.
  - apply R.
  - apply R.
  - apply huffman_decode_valid; assumption.
Qed.

Lemma huffman_decode_wf : forall e s, wf_bytes e -> huffman_decode e = Ok s -> wf_bytes s.
Proof.
  intros e s W H. destruct (huffman_decode_spec e W) as [(syms & pad & _ & E)|(_ & E)];
    rewrite E in H; inversion H; subst.
  apply Forall_forall. intros x I. apply in_map_iff in I. destruct I as (y & <- & _).
  red. unfold u8. apply N.mod_lt. discriminate.
Qed.
