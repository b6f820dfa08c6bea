(* C110, C111, C112: printing to a stream in any formatting state. *)
From Coq Require Import String.
From Coq Require Import ZArith NArith List Bool Lia ZifyBool ZifyNat ZifyN.
From Verif Require PropBlock.
From Verif Require Import Base Util Arith UtilProofs HeaderType DynTable HeaderDec FrameHeader Frames Dump DumpProofs SpecHpack Ostream.
Import ListNotations.
Local Open Scope string_scope.
Local Open Scope list_scope.
Local Open Scope N_scope.
Ltac Zify.zify_post_hook ::= Z.div_mod_to_equations.

(* ---- Specification ---- *)

(* The octets a frame shows in hexadecimal: an unknown payload, the opaque data of
   PING, padding. *)
Definition octets_shown (f : frame) : bytes :=
  match f with
  | RawFrame _ p => p
  | PingFrame _ d => d
  | DataFrame h (n :: p) => if N.testbit (fh_flags h) 3 then skipn (length p + 1 - N.to_nat n) (n :: p) else []
  | HeadersFrame _ h padding _ _ => if N.testbit (fh_flags h) 3 then padding else []
  | PushPromiseFrame _ h p => if N.testbit (fh_flags h) 3 then pp_padding p else []
  | _ => []
  end.

(* The settings a frame shows. *)
Definition settings_shown (f : frame) : list (N * N) :=
  match f with SettingsFrame _ ps => ps | _ => [] end.

(* The first line of the text of a frame. *)
Definition banner (f : frame) : bytes :=
  octets (match f with
  | RawFrame _ _ => "=== GENERIC FRAME (unimplemented) ==="
  | DataFrame _ _ => "=== DATA FRAME ==="
  | HeadersFrame _ _ _ _ _ => "=== HEADERS FRAME ==="
  | PriorityFrame _ _ => "=== PRIORITY FRAME ==="
  | RstStreamFrame _ _ => "=== RST_STREAM FRAME ==="
  | SettingsFrame _ _ => "=== SETTINGS FRAME ==="
  | PushPromiseFrame _ _ _ => "=== PUSH_PROMISE FRAME ==="
  | PingFrame _ _ => "=== PING_STREAM FRAME ==="
  | GoawayFrame _ _ => "=== GOAWAY FRAME ==="
  | WindowUpdateFrame _ _ _ => "=== WINDOW_UPDATE FRAME ==="
  | ContinuationFrame _ _ _ => "=== CONTINUATION FRAME ==="
  end) ++ [10].

(* The formatting under which an octet is shown as two lower-case hexadecimal
   digits: no 0x in front (not shown for zero), no letters in upper case, no
   padding behind the digit, no separator between the digits. *)
Definition plain_octet (s : ios) (b : N) : Prop :=
  (showbase s = true -> b = 0) /\
  (uppercase s = true -> b mod 16 < 10 /\ b / 16 < 10) /\
  (adjust s = AdjLeft -> b = 0 \/ 16 <= b) /\
  (forall sep ks, grouping s = Some (sep, 1, ks) -> b < 16).

(* Digits in groups: the last group has k digits, the groups before it have the sizes ks,
   the last of which is repeated; a size of 0 ends the grouping. *)
Inductive grouped (sep : N) : N -> list N -> bytes -> bytes -> Prop :=
| grouped_rest : forall k ks d, k = 0 \/ size d <= k -> grouped sep k ks d d
| grouped_next : forall k k' ks d1 d2 t, 0 < k -> size d2 = k -> d1 <> [] -> grouped sep k' ks d1 t -> grouped sep k (k' :: ks) (d1 ++ d2) (t ++ [sep] ++ d2)
| grouped_again : forall k d1 d2 t, 0 < k -> size d2 = k -> d1 <> [] -> grouped sep k [] d1 t -> grouped sep k [] (d1 ++ d2) (t ++ [sep] ++ d2).

(* The formatting under which a number is shown as its decimal digits. *)
Definition plain_number (s : ios) (v : N) : Prop :=
  match base s with
  | Dec => forall sep k ks, grouping s = Some (sep, k, ks) -> k = 0 \/ v < 10 ^ k
  | Hex => v < 10 /\ (showbase s = true -> v = 0)
  | Oct => v < 8 /\ (showbase s = true -> v = 0)
  end.

(* ---- Proofs ---- *)

Lemma ok_inj : forall A (x y : A), Ok x = Ok y -> x = y.
Proof. intros A x y E. injection E as E. exact E. Qed.

Lemma pair_inj : forall A B (a c : A) (b d : B), (a, b) = (c, d) -> a = c /\ b = d.
Proof. intros A B a c b d E. injection E as -> ->. split; reflexivity. Qed.

Definition inserts (ops : list op) := Forall (fun o => exists t, o = Insert t) ops.
Definition said (ops : list op) : bytes := flat_map (fun o => match o with Insert t => t | _ => [] end) ops.

Lemma run_app : forall a b s, run s (a ++ b) = let (x, s1) := run s a in let (y, s2) := run s1 b in (x ++ y, s2).
Proof.
  induction a as [|o a IH]; intros b s; cbn [app run].
  - destruct (run s b); reflexivity.
  - destruct (exec s o) as [x s1]. rewrite IH. destruct (run s1 a) as [y s2]. destruct (run s2 b) as [z s3]. rewrite app_assoc. reflexivity.
Qed.

Lemma pad_zero : forall s n, width s = 0 -> pad_of s n = [].
Proof. intros s n E. unfold pad_of. rewrite E. reflexivity. Qed.
Lemma pad_string_zero : forall s t, width s = 0 -> pad_string s t = t.
Proof. intros s t E. unfold pad_string. rewrite pad_zero by exact E. destruct (adjust s); [apply app_nil_r|reflexivity|reflexivity]. Qed.
Lemma width_zero : forall s, width s = 0 -> set_width 0 s = s.
Proof. intros [] E. cbn in E. rewrite E. reflexivity. Qed.

Lemma run_inserts : forall ops s, inserts ops -> width s = 0 -> run s ops = (said ops, s).
Proof.
  intros ops s I W. induction I as [|o ops (t & ->) I IH]; [reflexivity|].
  cbn [run exec said flat_map]. rewrite pad_string_zero, width_zero, IH by exact W. reflexivity.
Qed.
Lemma said_app : forall a b, said (a ++ b) = said a ++ said b.
Proof. intros a b. apply flat_map_app. Qed.

Definition octet_text (s : ios) (b : N) : bytes := pad_number (set_fill 48 (set_width 2 (set_base Hex s))) b.
Fixpoint octets_text (o : N -> bytes) (brk : bytes) (counter : N) (l : bytes) : bytes :=
  match l with
  | [] => []
  | b :: l' => o b ++ (if (counter + 1) mod 8 =? 0 then brk else str " ") ++ octets_text o brk (counter + 1) l'
  end.
Definition after (l : bytes) (s : ios) : ios := match l with [] => s | _ => set_fill 48 (set_base Hex s) end.

Lemma octet_text_after : forall l s, octet_text (after l s) = octet_text s.
Proof. intros [|b l] s; reflexivity. Qed.

Lemma run_octets : forall brk l c s, inserts brk -> width s = 0 ->
  run s (octet_ops brk c l) = (octets_text (octet_text s) (said brk) c l, after l s).
Proof.
  intros brk. induction l as [|b l IH]; intros c s I W; [reflexivity|].
  assert (W' : width (set_fill 48 (set_base Hex s)) = 0) by exact W.
  assert (I' : inserts (if (c + 1) mod 8 =? 0 then brk else [ins " "])).
  { destruct ((c + 1) mod 8 =? 0); [exact I|]. constructor; [eexists; reflexivity|constructor]. }
  cbn [octet_ops]. rewrite !run_app. cbn [run exec app].
  replace (set_width 0 (set_fill 48 (set_width 2 (set_base Hex s)))) with (set_fill 48 (set_base Hex s)).
  2:{ destruct s; cbn in *. rewrite W. reflexivity. }
  rewrite run_app, (run_inserts _ _ I' W'), (IH _ _ I W'). cbn [octets_text after]. f_equal.
  - rewrite app_nil_r. fold (octet_text s b). destruct ((c + 1) mod 8 =? 0); reflexivity.
  - destruct l; reflexivity.
Qed.

Ltac ins_tac := repeat first
  [ apply Forall_nil | apply Forall_cons; [eexists; reflexivity|] | apply Forall_app; split ].
Lemma inserts_fh : forall h, inserts (fh_ops h).
Proof. intros h. unfold fh_ops. ins_tac. Qed.
Lemma inserts_error : forall c l, error_code_ops c = Ok l -> inserts l.
Proof.
  intros c l E. unfold error_code_ops in E. destruct (c <? UNKNOWN_ERROR); apply bind_ok in E; destruct E as (x & _ & E);
    injection E as <-; ins_tac.
Qed.
Lemma inserts_entries : forall b l, entries_ops b = Ok l -> inserts l.
Proof.
  induction b as [|e b IH]; intros l E; cbn [entries_ops] in E; [injection E as <-; constructor|].
  apply bind_ok in E. destruct E as (x & X & E). apply bind_ok in E. destruct E as (y & Y & E). injection E as <-.
  apply Forall_app. split; [|exact (IH _ Y)]. unfold entry_ops in X.
  destruct (hprefix_eqb (e_prefix e) SizeUpdate); apply bind_ok in X; destruct X as (z & _ & X); injection X as <-; ins_tac.
Qed.
Lemma inserts_block : forall b l, block_ops b = Ok l -> inserts l.
Proof.
  intros b l E. apply bind_ok in E. destruct E as (x & X & E). injection E as <-. constructor; [eexists; reflexivity|exact (inserts_entries _ _ X)].
Qed.
Lemma inserts_indent : forall l, inserts (indent_ops l).
Proof.
  induction l as [|b l IH]; [constructor|]. cbn [indent_ops]. constructor; [eexists; reflexivity|]. apply Forall_app. split; [|exact IH].
  destruct (b =? 10); ins_tac.
Qed.

Lemma flag_padded : forall flags, is_flag_set flags F_PADDED = N.testbit flags 3.
Proof. exact PropBlock.padded_flag. Qed.

Ltac shape t a b z := exists a, b, z; split; [repeat (progress (rewrite <- ?app_assoc; cbn [app octet_ops])); rewrite ?app_nil_r; reflexivity|
  split; [|split]].
Ltac shape_ins := unfold inserts; repeat first [assumption | apply inserts_fh | apply inserts_indent | apply Forall_nil
  | apply Forall_cons; [eexists; reflexivity|] | apply Forall_app; split].

Lemma dump_shape : forall m f ops, settings_shown f = [] -> dump_ops m f = Ok ops -> exists a brk z,
  ops = Insert (banner f) :: a ++ octet_ops brk 0 (octets_shown f) ++ z /\ inserts a /\ inserts brk /\ inserts z.
Proof.
  intros m f ops S E. destruct f as [h p|h p|e h padding prio b|h p|h c|h ps|e h p|h d|h p|h r i|e h b]; cbn [dump_ops octets_shown] in *.
  - apply ok_inj in E. subst ops. shape (str "=== GENERIC FRAME (unimplemented) ===" ++ nl) (fh_ops h ++ [line "[PAYLOAD]"]) [newline] [newline]; shape_ins.
  - unfold data_ops in E. rewrite flag_padded in E. apply bind_ok in E. destruct E as (pad & P & E). apply bind_ok in E. destruct E as (u & _ & E).
    apply bind_ok in E. destruct E as (data & _ & E). apply bind_ok in E. destruct E as (padding & D & E). apply ok_inj in E. subst ops.
    assert (X : padding = match p with n :: p0 => if N.testbit (fh_flags h) 3 then skipn (length p0 + 1 - N.to_nat n) (n :: p0) else [] | [] => [] end).
    { destruct (N.testbit (fh_flags h) 3).
      - destruct p as [|n p]; [discriminate P|]. injection P as ->. destruct (pad <=? size (pad :: p)); [|discriminate D]. apply ok_inj in D. subst padding.
        f_equal. unfold size. cbn [length]. lia.
      - apply ok_inj in D. subst padding. destruct p; reflexivity. }
    rewrite <- X.
    shape (str "=== DATA FRAME ===" ++ nl)
      (fh_ops h ++ [line "[PAYLOAD]"] ++ [ins "  Pad Length: "; decimal pad; newline; line "  Data      : "; ins "    "] ++
       indent_ops data ++ [newline; line "  Padding   : "]) [Insert (nl ++ str "              ")] [newline]; shape_ins.
  - apply bind_ok in E. destruct E as (blk & B & E). apply inserts_block in B. apply ok_inj in E. subst ops. unfold padding_ops. rewrite flag_padded.
    destruct (N.testbit (fh_flags h) 3).
    + shape (str "=== HEADERS FRAME ===" ++ nl)
        (fh_ops h ++ [line "[PAYLOAD]"] ++ priority_option_ops (fh_flags h) prio ++ blk ++ [line "  Padding:"; ins "    "]) [newline; ins "    "] [newline]; shape_ins.
    + shape (str "=== HEADERS FRAME ===" ++ nl)
        (fh_ops h ++ [line "[PAYLOAD]"] ++ priority_option_ops (fh_flags h) prio ++ blk ++ [line "  Padding:"]) (@nil op) (@nil op); shape_ins.
  - apply ok_inj in E. subst ops. eexists _, [], []. split; [cbn [app octet_ops]; rewrite app_nil_r; reflexivity|]. split; [|split]; shape_ins.
  - apply bind_ok in E. destruct E as (l & L & E). apply inserts_error in L. apply ok_inj in E. subst ops.
    eexists _, [], []. split; [cbn [app octet_ops]; rewrite app_nil_r; reflexivity|]. split; [|split]; shape_ins.
  - cbn in S. subst ps. cbn [settings_ops bind] in E. apply ok_inj in E. subst ops.
    shape (str "=== SETTINGS FRAME ===" ++ nl) (fh_ops h ++ [line "[PAYLOAD]"]) (@nil op) (@nil op); shape_ins.
  - apply bind_ok in E. destruct E as (blk & B & E). apply inserts_block in B. apply ok_inj in E. subst ops. unfold padding_ops. rewrite flag_padded.
    destruct (N.testbit (fh_flags h) 3).
    + shape (str "=== PUSH_PROMISE FRAME ===" ++ nl)
        (fh_ops h ++ [line "[PAYLOAD]"] ++ [ins "  R: "; decimal (pp_reserved p); newline; ins "  Promised Stream ID: "; decimal (pp_promised p); newline]
         ++ blk ++ [line "  Padding:"; ins "    "]) [newline; ins "    "] [newline]; shape_ins.
    + shape (str "=== PUSH_PROMISE FRAME ===" ++ nl)
        (fh_ops h ++ [line "[PAYLOAD]"] ++ [ins "  R: "; decimal (pp_reserved p); newline; ins "  Promised Stream ID: "; decimal (pp_promised p); newline]
         ++ blk ++ [line "  Padding:"]) (@nil op) (@nil op); shape_ins.
  - apply ok_inj in E. subst ops. shape (str "=== PING_STREAM FRAME ===" ++ nl) (fh_ops h ++ [line "[PAYLOAD]"]) [newline] [newline]; shape_ins.
  - apply bind_ok in E. destruct E as (l & L & E). apply inserts_error in L. apply bind_ok in E. destruct E as (d & D & E). apply ok_inj in E. subst ops.
    assert (inserts d).
    { destruct (size (g_debug p) =? 0); [apply ok_inj in D; subst d; constructor|]. apply bind_ok in D. destruct D as (c & _ & D). apply ok_inj in D. subst d. shape_ins. }
    eexists _, [], []. split; [cbn [app octet_ops]; rewrite app_nil_r; reflexivity|]. split; [|split]; shape_ins.
  - apply ok_inj in E. subst ops. eexists _, [], []. split; [cbn [app octet_ops]; rewrite app_nil_r; reflexivity|]. split; [|split]; shape_ins.
  - apply bind_ok in E. destruct E as (blk & B & E). apply inserts_block in B. apply ok_inj in E. subst ops.
    eexists _, [], []. split; [cbn [app octet_ops]; rewrite app_nil_r; reflexivity|]. split; [|split]; shape_ins.
Qed.

Lemma run_shape : forall s t a brk l z, inserts a -> inserts brk -> inserts z -> width s = 0 ->
  run s (Insert t :: a ++ octet_ops brk 0 l ++ z) = (t ++ said a ++ octets_text (octet_text s) (said brk) 0 l ++ said z, after l s).
Proof.
  intros s t a brk l z A B Z W. cbn [run exec]. rewrite width_zero, pad_string_zero by exact W.
  rewrite run_app, (run_inserts _ _ A W), run_app, (run_octets _ _ _ _ B W), (run_inserts _ _ Z) by (destruct l; exact W). reflexivity.
Qed.

Lemma octets_text_ext : forall o o' brk l c, (forall b, In b l -> o b = o' b) -> octets_text o brk c l = octets_text o' brk c l.
Proof.
  intros o o' brk. induction l as [|b l IH]; intros c H; [reflexivity|]. cbn [octets_text].
  rewrite (H b (or_introl eq_refl)), IH; [reflexivity|]. intros x I. apply H. right. exact I.
Qed.

(* Equal texts mean equal texts of every octet, if one of the two is always two
   characters long and the other never shorter. *)
Lemma octets_text_size : forall o o' brk l c, (forall b, In b l -> length (o' b) = 2%nat /\ (2 <= length (o b))%nat) ->
  (length (octets_text o' brk c l) <= length (octets_text o brk c l))%nat.
Proof.
  intros o o' brk. induction l as [|b l IH]; intros c H; [reflexivity|]. cbn [octets_text]. rewrite !app_length.
  destruct (H b (or_introl eq_refl)) as [X Y]. specialize (IH (c + 1) (fun x I => H x (or_intror I))). lia.
Qed.
Lemma octets_text_inj : forall o o' brk l c, (forall b, In b l -> length (o' b) = 2%nat /\ (2 <= length (o b))%nat) ->
  octets_text o brk c l = octets_text o' brk c l -> forall b, In b l -> o b = o' b.
Proof.
  intros o o' brk. induction l as [|b l IH]; intros c H E x I; [destruct I|]. cbn [octets_text] in E.
  assert (H' : forall b, In b l -> length (o' b) = 2%nat /\ (2 <= length (o b))%nat) by (intros y J; apply H; right; exact J).
  assert (L : length (o b) = length (o' b)).
  { destruct (H b (or_introl eq_refl)) as [X Y]. pose proof (octets_text_size o o' brk l (c + 1) H') as Q.
    apply (f_equal (@length N)) in E. rewrite !app_length in E. lia. }
  apply app_len in E; [|exact L]. destruct E as [E1 E2]. apply app_inv_head in E2.
  destruct I as [<-|I]; [exact E1|]. exact (IH _ H' E2 x I).
Qed.

Lemma group_rev_short : forall sep k ks l i, k = 0 \/ i + N.of_nat (length l) <= k -> group_rev sep k ks i l = l.
Proof.
  intros sep k ks. induction l as [|d l IH]; intros i H; [reflexivity|]. cbn [group_rev length] in *.
  destruct (N.eqb_spec k 0); [reflexivity|]. destruct (N.eqb_spec i k); [lia|]. rewrite IH by lia. reflexivity.
Qed.
Lemma group_rev_size : forall sep l k ks i, (length l <= length (group_rev sep k ks i l))%nat.
Proof.
  intros sep. induction l as [|d l IH]; intros k ks i; [reflexivity|]. cbn [group_rev].
  destruct (k =? 0); [reflexivity|]. destruct (i =? k); cbn [length]; [|specialize (IH k ks (i + 1)); lia].
  destruct ks as [|k' ks]; [specialize (IH k [] 1)|specialize (IH k' ks 1)]; lia.
Qed.
Lemma group_rev_long : forall sep k ks l i, 0 < k -> i <= k -> k < i + N.of_nat (length l) -> (length l < length (group_rev sep k ks i l))%nat.
Proof.
  intros sep k ks. induction l as [|d l IH]; intros i P H K; cbn [group_rev length] in *; [lia|].
  destruct (N.eqb_spec k 0); [lia|]. destruct (N.eqb_spec i k); cbn [length].
  - destruct ks as [|k' ks]; [pose proof (group_rev_size sep l k [] 1)|pose proof (group_rev_size sep l k' ks 1)]; lia.
  - specialize (IH (i + 1) P ltac:(lia) ltac:(lia)). lia.
Qed.
Lemma group_short : forall g l, (forall sep k ks, g = Some (sep, k, ks) -> k = 0 \/ N.of_nat (length l) <= k) -> group g l = l.
Proof.
  intros [[[sep k] ks]|] l H; [|reflexivity]. cbn [group].
  rewrite group_rev_short, rev_involutive; [reflexivity|]. rewrite rev_length. destruct (H sep k ks eq_refl); lia.
Qed.
Lemma group_size : forall g l, (length l <= length (group g l))%nat.
Proof.
  intros [[[sep k] ks]|] l; [|reflexivity]. cbn [group]. rewrite rev_length.
  pose proof (group_rev_size sep (rev l) k ks 0) as G. rewrite rev_length in G. exact G.
Qed.
Lemma group_long : forall sep k ks l, 0 < k -> k < N.of_nat (length l) -> (length l < length (group (Some (sep, k, ks)) l))%nat.
Proof.
  intros sep k ks l K L. cbn [group]. rewrite rev_length.
  pose proof (group_rev_long sep k ks (rev l) 0 K ltac:(lia)) as G. rewrite rev_length in G. apply G. lia.
Qed.

Definition octet_in (sb up : bool) (ad : adjustfield) (g : option (N * N * list N)) (b : N) : bytes := pad_number (Ios Hex sb up ad 2 48 g) b.
Lemma octet_text_in : forall s b, octet_text s b = octet_in (showbase s) (uppercase s) (adjust s) (grouping s) b.
Proof. intros [] b. reflexivity. Qed.

Definition plain_none (sb up : bool) (ad : adjustfield) (b : N) : bool :=
  (negb sb || (b =? 0)) && (negb up || ((b mod 16 <? 10) && (b / 16 <? 10))) &&
  (match ad with AdjLeft => (b =? 0) || (16 <=? b) | _ => true end).
Definition octet_check (sb up : bool) (ad : adjustfield) (b : N) : bool :=
  (2 <=? length (octet_in sb up ad None b))%nat && (length (octet_in false false AdjRight None b) =? 2)%nat &&
  Bool.eqb (if list_eq_dec N.eq_dec (octet_in sb up ad None b) (octet_in false false AdjRight None b) then true else false) (plain_none sb up ad b) &&
  Nat.eqb (length (digits 16 b)) (if b <? 16 then 1%nat else 2%nat).

Lemma below_256 : forall P : N -> bool, forallb P (map N.of_nat (seq 0 256)) = true -> forall b, b < 256 -> P b = true.
Proof.
  intros P H b B. rewrite forallb_forall in H. apply H. apply in_map_iff. exists (N.to_nat b). split; [lia|]. apply in_seq. lia.
Qed.
Lemma octet_checked : forall sb up ad b, b < 256 -> octet_check sb up ad b = true.
Proof. intros [] [] [] b; revert b; apply below_256; vm_compute; reflexivity. Qed.

Lemma plain_none_spec : forall sb up ad b, plain_none sb up ad b = true <->
  (sb = true -> b = 0) /\ (up = true -> b mod 16 < 10 /\ b / 16 < 10) /\ (ad = AdjLeft -> b = 0 \/ 16 <= b).
Proof.
  intros sb up ad b. unfold plain_none. rewrite !andb_true_iff. split.
  - intros ((A & B) & C). split; [intros ->; cbn in A; lia|]. split; [intros ->; cbn in B; lia|intros ->; lia].
  - intros (A & B & C). split; [split|].
    + destruct sb; [rewrite A by reflexivity|]; reflexivity.
    + destruct up; [destruct (B eq_refl)|]; cbn; lia.
    + destruct ad; [specialize (C eq_refl); lia|reflexivity|reflexivity].
Qed.

Lemma octet_none : forall sb up ad b, b < 256 ->
  (2 <= length (octet_in sb up ad None b))%nat /\ length (octet_in false false AdjRight None b) = 2%nat /\
  length (digits 16 b) = (if b <? 16 then 1%nat else 2%nat) /\
  (octet_in sb up ad None b = octet_in false false AdjRight None b <->
   (sb = true -> b = 0) /\ (up = true -> b mod 16 < 10 /\ b / 16 < 10) /\ (ad = AdjLeft -> b = 0 \/ 16 <= b)).
Proof.
  intros sb up ad b B. pose proof (octet_checked sb up ad b B) as C. unfold octet_check in C. rewrite !andb_true_iff in C.
  destruct C as (((C1 & C2) & C3) & C4). split; [lia|]. split; [lia|]. split; [apply Nat.eqb_eq in C4; exact C4|].
  rewrite <- plain_none_spec. apply Bool.eqb_prop in C3. rewrite <- C3.
  destruct (list_eq_dec N.eq_dec _ _); split; intros; try assumption; try reflexivity; try discriminate; contradiction.
Qed.

Lemma digits_of_size : forall s n, length (digits_of s n) = length (digits (radix (base s)) n).
Proof. intros s n. unfold digits_of. destruct (uppercase s); [apply map_length|reflexivity]. Qed.

Lemma octet_grouped : forall sb up ad g b, b < 256 ->
  (2 <= length (octet_in sb up ad g b))%nat /\
  (octet_in sb up ad g b = octet_in false false AdjRight None b <->
   ((sb = true -> b = 0) /\ (up = true -> b mod 16 < 10 /\ b / 16 < 10) /\ (ad = AdjLeft -> b = 0 \/ 16 <= b)) /\
   (forall sep ks, g = Some (sep, 1, ks) -> b < 16)).
Proof.
  intros sb up ad g b B. destruct (octet_none sb up ad b B) as (L & L2 & D & E).
  set (st := Ios Hex sb up ad 2 48 g).
  assert (D' : length (digits_of st b) = (if b <? 16 then 1%nat else 2%nat)) by (rewrite digits_of_size; exact D).
  assert (S : (forall sep ks, g = Some (sep, 1, ks) -> b < 16) -> octet_in sb up ad g b = octet_in sb up ad None b).
  { intros H. unfold octet_in, pad_number. cbn [grouping group adjust base].
    change (digits_of (Ios Hex sb up ad 2 48 g) b) with (digits_of st b). change (digits_of (Ios Hex sb up ad 2 48 None) b) with (digits_of st b).
    rewrite group_short; [reflexivity|]. intros sep k ks G. rewrite D'.
    destruct (N.ltb_spec b 16); [lia|]. destruct (N.eq_dec k 1) as [->|]; [specialize (H sep ks G); lia|lia]. }
  destruct (N.ltb_spec b 16) as [B16|B16].
  - rewrite S by (intros; exact B16). split; [exact L|]. rewrite E. split; [intros X; split; [exact X|intros; exact B16]|tauto].
  - assert (G1 : (exists sep ks, g = Some (sep, 1, ks)) \/ ~ exists sep ks, g = Some (sep, 1, ks)).
    { destruct g as [[[sep k] ks]|]; [|right; intros (? & ? & ?); discriminate]. destruct (N.eq_dec k 1) as [->|K]; [left; eauto|right; intros (? & ? & Q); injection Q; intros; contradiction]. }
    destruct G1 as [(sep & ks & ->)|NG].
    + assert (L3 : (3 <= length (octet_in sb up ad (Some (sep, 1%N, ks)) b))%nat).
      { pose proof (group_long sep 1 ks (digits_of st b) ltac:(lia)) as GL. rewrite D' in GL. specialize (GL ltac:(lia)).
        unfold octet_in, pad_number. cbn [grouping adjust base]. fold st. destruct ad; rewrite !app_length; lia. }
      split; [lia|]. split.
      * intros Q. rewrite Q in L3. lia.
      * intros (_ & Q). specialize (Q sep ks eq_refl). lia.
    + rewrite S by (intros sep ks ->; destruct NG; eauto). split; [exact L|]. rewrite E. split; [intros X; split; [exact X|intros sep ks ->; destruct NG; eauto]|tauto].
Qed.

Lemma octet_plain : forall s b, b < 256 ->
  (2 <= length (octet_text s b))%nat /\ length (octet_text fresh b) = 2%nat /\ (octet_text s b = octet_text fresh b <-> plain_octet s b).
Proof.
  intros s b B. rewrite !octet_text_in. destruct (octet_grouped (showbase s) (uppercase s) (adjust s) (grouping s) b B) as [L E].
  destruct (octet_none false false AdjRight b B) as (_ & L2 & _). split; [exact L|]. split; [exact L2|]. change (octet_in (showbase fresh) _ _ _ b) with (octet_in false false AdjRight None b).
  rewrite E. unfold plain_octet. tauto.
Qed.

Definition values (s : ios) (parts : list (bytes * N)) : bytes := flat_map (fun p => fst p ++ pad_number s (snd p) ++ nl) parts.
Lemma run_settings : forall ps x, settings_ops ps = Ok x -> exists parts, map snd parts = map snd ps /\
  forall s, width s = 0 -> run s x = (values s parts, s).
Proof.
  induction ps as [|[k v] ps IH]; intros x E; cbn [settings_ops] in E.
  - apply ok_inj in E. subst x. exists []. split; [reflexivity|]. intros s _. reflexivity.
  - apply bind_ok in E. destruct E as (y & Y & E). apply bind_ok in E. destruct E as (z & Z & E). apply ok_inj in E. subst x.
    destruct (IH z Z) as (parts & P & R).
    assert (Q : exists a, inserts a /\ y = a ++ [Number v; newline]).
    { destruct ((k <? 1) || (SETTINGS_UNKNOWN <=? k)); apply bind_ok in Y; destruct Y as (n & _ & Y); apply ok_inj in Y; subst y.
      - exists [ins "  "; Insert n; ins "("; decimal k; ins "): "]. split; [shape_ins|reflexivity].
      - exists [ins "  "; Insert n; ins ": "]. split; [shape_ins|reflexivity]. }
    destruct Q as (a & A & ->). exists ((said a, v) :: parts). split; [cbn [map snd]; rewrite P; reflexivity|].
    intros s W. rewrite !run_app, (run_inserts _ _ A W). cbn [run exec newline]. rewrite !(width_zero s W).
    rewrite (R s W), pad_string_zero by exact W. unfold values. cbn [flat_map fst snd]. rewrite app_nil_r, <- !app_assoc. reflexivity.
Qed.

Lemma print_form : forall m f ops, dump_ops m f = Ok ops -> exists rest a brk z parts,
  ops = Insert (banner f) :: rest /\ map snd parts = map snd (settings_shown f) /\
  forall s, width s = 0 ->
    run s rest = (a ++ octets_text (octet_text s) brk 0 (octets_shown f) ++ z ++ values s parts, after (octets_shown f) s).
Proof.
  intros m f ops E.
  assert (D : settings_shown f = [] \/ exists h ps, f = SettingsFrame h ps) by (destruct f; eauto).
  destruct D as [S|(h & ps & ->)].
  - destruct (dump_shape m f ops S E) as (a & brk & z & -> & A & B & Z).
    exists (a ++ octet_ops brk 0 (octets_shown f) ++ z), (said a), (said brk), (said z), []. split; [reflexivity|]. split; [rewrite S; reflexivity|].
    intros s W. rewrite run_app, (run_inserts _ _ A W), run_app, (run_octets _ _ _ _ B W), (run_inserts _ _ Z) by (destruct (octets_shown f); exact W).
    cbn [values flat_map]. rewrite app_nil_r. reflexivity.
  - cbn [dump_ops] in E. apply bind_ok in E. destruct E as (x & X & E). apply ok_inj in E. subst ops. destruct (run_settings ps x X) as (parts & P & R).
    exists ((fh_ops h ++ [line "[PAYLOAD]"]) ++ x), (said (fh_ops h ++ [line "[PAYLOAD]"])), [], [], parts. split; [reflexivity|]. split; [exact P|].
    intros s W. rewrite run_app, (run_inserts (fh_ops h ++ [line "[PAYLOAD]"])) by (try exact W; shape_ins). rewrite (R s W). reflexivity.
Qed.

Lemma print_ops : forall m s f x s', print m s f = Ok (x, s') -> exists ops, dump_ops m f = Ok ops /\ run s ops = (x, s').
Proof. intros m s f x s' H. apply bind_ok in H. destruct H as (ops & O & H). apply ok_inj in H. eauto. Qed.

(* ---- C110 ---- *)

(* A frame that shows no octets in hexadecimal leaves the stream as it was, but
   for the width, which every insertion uses up. *)
Theorem C110_kept_partial : forall m s f x s', print m s f = Ok (x, s') -> octets_shown f = [] ->
  s' = Ios (base s) (showbase s) (uppercase s) (adjust s) 0 (fill s) (grouping s).
Proof.
  intros m s f x s' H N. apply print_ops in H. destruct H as (ops & O & R). destruct (print_form m f ops O) as (rest & a & brk & z & parts & -> & _ & F).
  cbn [run exec] in R. rewrite (F (set_width 0 s) eq_refl) in R. apply pair_inj in R; destruct R as [_ <-]. rewrite N. reflexivity.
Qed.

(* Every other frame leaves it with std::hex and the fill character 0. *)
Theorem C110_octets_refuted : forall m s f x s', print m s f = Ok (x, s') -> octets_shown f <> [] ->
  s' = Ios Hex (showbase s) (uppercase s) (adjust s) 0 48 (grouping s).
Proof.
  intros m s f x s' H N. apply print_ops in H. destruct H as (ops & O & R). destruct (print_form m f ops O) as (rest & a & brk & z & parts & -> & _ & F).
  cbn [run exec] in R. rewrite (F (set_width 0 s) eq_refl) in R. apply pair_inj in R; destruct R as [_ <-]. destruct (octets_shown f); [destruct N; reflexivity|]. reflexivity.
Qed.

Lemma run_number : forall s n, fst (run s [Number n]) = pad_number s n.
Proof. intros s n. cbn. apply app_nil_r. Qed.

(* The numbers the caller prints afterwards are then shown in hexadecimal. *)
Theorem C110_later_refuted : forall m f x s' n, print m fresh f = Ok (x, s') -> octets_shown f <> [] ->
  (fst (run s' [Number n]) = fst (run fresh [Number n]) <-> n < 10).
Proof.
  intros m f x s' n H N. rewrite (C110_octets_refuted _ _ _ _ _ H N). rewrite !run_number.
  assert (X : pad_number (Ios Hex false false AdjRight 0 48 None) n = digits 16 n) by reflexivity.
  assert (Y : pad_number fresh n = digits 10 n) by reflexivity.
  cbn [showbase uppercase adjust grouping fresh]. rewrite X, Y. split.
  - intros E. destruct (N.lt_ge_cases n 10) as [L|L]; [exact L|]. destruct (decimal_hex_differ n L). symmetry. exact E.
  - intros L. symmetry. apply decimal_hex_same. exact L.
Qed.

Lemma inserts_table : forall es i, inserts (table_entries_ops i es).
Proof. induction es as [|e es IH]; intros i; [constructor|]. cbn [table_entries_ops]. apply Forall_app. split; [shape_ins|apply IH]. Qed.

(* A dynamic table leaves every stream as it was. *)
Theorem C110_table : forall s T x s', run s (table_ops T) = (x, s') ->
  s' = Ios (base s) (showbase s) (uppercase s) (adjust s) 0 (fill s) (grouping s).
Proof.
  intros s T x s' H. unfold table_ops in H. cbn [run exec line] in H.
  rewrite (run_inserts _ _ (inserts_table (dt_entries T) FIRST_INDEX)) in H by reflexivity. injection H as _ <-. reflexivity.
Qed.

(* ---- C111 ---- *)

Lemma values_ext : forall s s' parts, (forall v, In v (map snd parts) -> pad_number s v = pad_number s' v) -> values s parts = values s' parts.
Proof.
  intros s s'. induction parts as [|p parts IH]; intros H; [reflexivity|]. unfold values in *. cbn [flat_map map] in *.
  rewrite (H (snd p) (or_introl eq_refl)), IH; [reflexivity|]. intros v I. apply H. right. exact I.
Qed.

(* Without a width, a frame other than SETTINGS has its usual text exactly if
   every octet it shows is shown as two hexadecimal digits. *)
Theorem C111_octets_partial : forall m s f x s1 y s2, width s = 0 -> settings_shown f = [] ->
  Forall (fun b => b < 256) (octets_shown f) -> print m s f = Ok (x, s1) -> print m fresh f = Ok (y, s2) ->
  (x = y <-> Forall (plain_octet s) (octets_shown f)).
Proof.
  intros m s f x s1 y s2 W S B H K. apply print_ops in H. destruct H as (ops & O & R). apply print_ops in K. destruct K as (ops' & O' & R').
  rewrite O in O'. apply ok_inj in O'. subst ops'. destruct (print_form m f ops O) as (rest & a & brk & z & parts & -> & P & F).
  cbn [run exec] in R, R'. rewrite (F (set_width 0 s) eq_refl) in R. rewrite (F (set_width 0 fresh) eq_refl) in R'.
  rewrite pad_string_zero in R by exact W. rewrite pad_string_zero in R' by reflexivity. rewrite width_zero in R by exact W. change (set_width 0 fresh) with fresh in R'.
  apply pair_inj in R; destruct R as [<- _]. apply pair_inj in R'; destruct R' as [<- _]. rewrite S in P. destruct parts; [|discriminate P]. cbn [values flat_map]. rewrite !app_nil_r.
  rewrite Forall_forall in B. split.
  - intros E. do 2 apply app_inv_head in E. apply app_inv_tail in E. apply Forall_forall. intros b I.
    apply octet_plain; [exact (B b I)|]. revert b I. apply (octets_text_inj (octet_text s) (octet_text fresh) brk (octets_shown f) 0); [|exact E].
    intros b I. destruct (octet_plain s b (B b I)) as (L & L2 & _). split; assumption.
  - intros A. rewrite Forall_forall in A. do 2 f_equal. f_equal. apply octets_text_ext. intros b I. apply octet_plain; [exact (B b I)|exact (A b I)].
Qed.

Lemma value_below : forall b ds, 2 <= b -> Forall (digit_char b) ds -> number_value b ds < b ^ N.of_nat (length ds).
Proof.
  intros b ds B F. induction F as [|c ds [_ C] F IH]; [cbn; lia|]. rewrite value_cons. cbn [length].
  replace (N.of_nat (S (length ds))) with (N.succ (N.of_nat (length ds))) by lia. rewrite N.pow_succ_r'. nia.
Qed.
Lemma decimal_length : forall v k, 0 < k -> (v < 10 ^ k <-> N.of_nat (length (digits 10 v)) <= k).
Proof.
  intros v k K. destruct (digits_spec 10 v ltac:(lia)) as (V & C & L). split.
  - intros H. destruct (digits 10 v) as [|c [|c' ds]]; [cbn; lia|cbn; lia|]. rewrite value_cons in V.
    destruct (N.lt_ge_cases k (N.of_nat (length (c :: c' :: ds)))) as [G|G]; [|exact G].
    assert (P : 10 ^ k <= 10 ^ N.of_nat (length (c' :: ds))) by (apply N.pow_le_mono_r; [lia|cbn [length] in *; lia]). nia.
  - intros H. rewrite <- V. eapply N.lt_le_trans; [apply value_below; [lia|exact C]|]. apply N.pow_le_mono_r; [lia|exact H].
Qed.

Lemma small_digit : forall b v, v < b -> digits b v = [digit v].
Proof. intros b v H. unfold digits. cbn [digits_loop]. rewrite N.div_small, N.mod_small by lia. reflexivity. Qed.
Lemma upper_small : forall v, v < 10 -> upper (digit v) = digit v.
Proof. intros v H. unfold upper, digit. destruct (N.ltb_spec v 10); [|lia]. destruct (N.leb_spec 97 (48 + v)); [lia|reflexivity]. Qed.
Lemma number_zero : forall s v, width s = 0 -> pad_number s v = prefix_of s v ++ group (grouping s) (digits_of s v).
Proof.
  intros s v W. unfold pad_number. rewrite pad_zero by exact W. rewrite app_nil_r.
  destruct (adjust s); [reflexivity|reflexivity|destruct (base s); reflexivity].
Qed.

Lemma plain_number_same : forall s v, width s = 0 -> plain_number s v -> pad_number s v = digits 10 v.
Proof.
  intros s v W P. rewrite number_zero by exact W. unfold plain_number in P. unfold prefix_of, digits_of. destruct (base s) eqn:B; cbn [radix].
  - assert (X : (if uppercase s then map upper (digits 10 v) else digits 10 v) = digits 10 v).
    { destruct (uppercase s); [|reflexivity]. destruct (digits_spec 10 v ltac:(lia)) as (_ & C & _). induction C as [|c ds [C1 C2] C IH]; [reflexivity|].
      cbn [map]. rewrite IH. f_equal. unfold upper. unfold digit_value in C2. destruct (N.leb_spec 97 c); [|reflexivity].
      destruct (N.ltb_spec c 58); lia. }
    rewrite X, group_short; [destruct (showbase s && negb (v =? 0)); reflexivity|]. intros sep k ks G. destruct (P sep k ks G) as [|L]; [left; assumption|].
    destruct (N.eq_dec k 0); [left; assumption|right]. apply decimal_length; [lia|exact L].
  - destruct P as [L SB]. rewrite !small_digit by lia. cbn [map]. rewrite upper_small by exact L.
    rewrite group_short; [|intros sep k ks G; cbn [length]; destruct (uppercase s); cbn [length]; lia].
    destruct (showbase s); [rewrite SB by reflexivity|]; cbn [andb negb N.eqb app]; destruct (uppercase s); reflexivity.
  - destruct P as [L SB]. rewrite !small_digit by lia. cbn [map]. rewrite upper_small by lia.
    rewrite group_short; [|intros sep k ks G; destruct (uppercase s); cbn [length]; lia].
    destruct (showbase s); [rewrite SB by reflexivity|]; cbn [andb negb N.eqb app]; destruct (uppercase s); reflexivity.
Qed.

(* A SETTINGS frame has its usual text if every value is shown in decimal. *)
Theorem C111_settings_partial : forall m s h ps x s1 y s2, width s = 0 ->
  print m s (SettingsFrame h ps) = Ok (x, s1) -> print m fresh (SettingsFrame h ps) = Ok (y, s2) ->
  Forall (fun p => plain_number s (snd p)) ps -> x = y.
Proof.
  intros m s h ps x s1 y s2 W H K A. apply print_ops in H. destruct H as (ops & O & R). apply print_ops in K. destruct K as (ops' & O' & R').
  rewrite O in O'. apply ok_inj in O'. subst ops'. destruct (print_form m _ ops O) as (rest & a & brk & z & parts & -> & P & F). cbn [settings_shown octets_shown] in *.
  cbn [run exec] in R, R'. rewrite (F (set_width 0 s) eq_refl) in R. rewrite (F (set_width 0 fresh) eq_refl) in R'.
  rewrite pad_string_zero in R by exact W. rewrite pad_string_zero in R' by reflexivity. rewrite width_zero in R by exact W. change (set_width 0 fresh) with fresh in R'.
  apply pair_inj in R; destruct R as [<- _]. apply pair_inj in R'; destruct R' as [<- _]. do 4 f_equal. apply values_ext. rewrite P. intros v I. apply in_map_iff in I. destruct I as (p & <- & I).
  rewrite Forall_forall in A. rewrite (plain_number_same s _ W (A p I)). reflexivity.
Qed.

Lemma value_lt : forall b b' c c' ds, 2 <= b < b' -> digit_value c <> 0 -> number_value b (c :: c' :: ds) < number_value b' (c :: c' :: ds).
Proof.
  intros b b' c c' ds B Z. rewrite !(value_cons _ c).
  assert (M : forall l, number_value b l <= number_value b' l).
  { induction l as [|x l IH]; [cbn; lia|]. rewrite !value_cons. assert (b ^ N.of_nat (length l) <= b' ^ N.of_nat (length l)) by (apply N.pow_le_mono_l; lia). nia. }
  specialize (M (c' :: ds)).
  assert (b ^ N.of_nat (length (c' :: ds)) < b' ^ N.of_nat (length (c' :: ds))) by (apply N.pow_lt_mono_l; [cbn [length]; lia|lia]). nia.
Qed.
Lemma decimal_octal_differ : forall n, 8 <= n -> digits 8 n <> digits 10 n.
Proof.
  intros n H E. destruct (digits_spec 10 n ltac:(lia)) as (V & _ & _). destruct (digits_spec 8 n ltac:(lia)) as (U & C & L).
  rewrite <- E in V. destruct (digits 8 n) as [|c [|c' ds]]; [destruct L| |].
  - inversion C as [|? ? [_ K] _]; subst. rewrite value_cons in H. cbn in H. lia.
  - pose proof (value_lt 8 10 c c' ds ltac:(lia) L). lia.
Qed.

(* A value with the digits of another base, or with a prefix, is not the decimal
   one. *)
Lemma plain_number_only : forall s v, width s = 0 -> grouping s = None -> pad_number s v = digits 10 v -> plain_number s v.
Proof.
  intros s v W G E. rewrite number_zero, G in E by exact W. cbn [group] in E. unfold plain_number. unfold prefix_of, digits_of in E.
  destruct (digits_spec 10 v ltac:(lia)) as (_ & C & L). destruct (base s) eqn:B; cbn [radix] in E.
  - intros sep k K. congruence.
  - assert (P : showbase s = true -> v = 0).
    { intros SB. rewrite SB in E. destruct (N.eqb_spec v 0) as [Z|Z]; [exact Z|]. cbn [andb negb app] in E. rewrite <- E in C.
      inversion C as [|? ? _ C']; subst. inversion C' as [|? ? [C1 C2] _]; subst. unfold digit_value in C2. destruct (uppercase s); cbn in C2; lia. }
    split; [|exact P].
    assert (E' : (if uppercase s then map upper (digits 16 v) else digits 16 v) = digits 10 v).
    { destruct (showbase s); [rewrite (P eq_refl) in *|]; exact E. }
    assert (E2 : digits 16 v = digits 10 v).
    { destruct (uppercase s); [|exact E']. rewrite <- E'. rewrite <- E' in C. clear -C. induction (digits 16 v) as [|c ds IH]; [reflexivity|].
      cbn [map] in *. inversion C as [|? ? [C1 C2] C3]; subst. rewrite <- (IH C3). f_equal. unfold upper in *. unfold digit_value in C2.
      destruct (N.leb_spec 97 c); cbn [andb] in *; [|reflexivity]. destruct (N.leb_spec c 122); [|reflexivity].
      destruct (N.ltb_spec (c - 32) 58); lia. }
    destruct (N.lt_ge_cases v 10) as [|H]; [assumption|]. destruct (decimal_hex_differ v H). symmetry. exact E2.
  - assert (UP : (if uppercase s then map upper (digits 8 v) else digits 8 v) = digits 8 v).
    { destruct (uppercase s); [|reflexivity]. destruct (digits_spec 8 v ltac:(lia)) as (_ & D & _). clear -D. induction D as [|c ds [C1 C2] D IH]; [reflexivity|].
      cbn [map]. rewrite IH. f_equal. unfold upper. unfold digit_value in C2. destruct (N.leb_spec 97 c); [|reflexivity]. destruct (N.ltb_spec c 58); lia. }
    rewrite UP in E.
    assert (P : showbase s = true -> v = 0).
    { intros SB. rewrite SB in E. destruct (N.eqb_spec v 0) as [Z|Z]; [exact Z|]. cbn [andb negb app] in E. rewrite <- E in L.
      destruct (digits_spec 8 v ltac:(lia)) as (_ & _ & D). destruct (digits 8 v); [destruct D|]. destruct L. reflexivity. }
    split; [|exact P]. destruct (N.lt_ge_cases v 8) as [|H]; [assumption|]. destruct (decimal_octal_differ v H).
    destruct (showbase s); [rewrite (P eq_refl) in *|]; exact E.
Qed.

Lemma one_value : forall m s h k v x s1 y s2, width s = 0 ->
  print m s (SettingsFrame h [(k, v)]) = Ok (x, s1) -> print m fresh (SettingsFrame h [(k, v)]) = Ok (y, s2) ->
  (x = y <-> pad_number s v = digits 10 v).
Proof.
  intros m s h k v x s1 y s2 W H K. apply print_ops in H. destruct H as (ops & O & R). apply print_ops in K. destruct K as (ops' & O' & R').
  rewrite O in O'. apply ok_inj in O'. subst ops'. destruct (print_form m _ ops O) as (rest & a & brk & z & parts & -> & P & F). cbn [settings_shown octets_shown] in *.
  cbn [run exec] in R, R'. rewrite (F (set_width 0 s) eq_refl) in R. rewrite (F (set_width 0 fresh) eq_refl) in R'.
  rewrite pad_string_zero in R by exact W. rewrite pad_string_zero in R' by reflexivity. rewrite width_zero in R by exact W. change (set_width 0 fresh) with fresh in R'.
  apply pair_inj in R; destruct R as [<- _]. apply pair_inj in R'; destruct R' as [<- _]. destruct parts as [|[lab w] [|]]; try discriminate P. cbn [map snd] in P. injection P as ->.
  unfold values. cbn [flat_map fst snd octets_text app]. change (pad_number fresh v) with (digits 10 v). rewrite !app_nil_r. split.
  - intros E. do 4 apply app_inv_head in E. apply app_inv_tail in E. exact E.
  - intros ->. reflexivity.
Qed.

(* In a locale without digit grouping one setting has its usual text exactly if
   its value is shown in decimal. *)
Theorem C111_value_refuted : forall m s h k v x s1 y s2, width s = 0 -> grouping s = None ->
  print m s (SettingsFrame h [(k, v)]) = Ok (x, s1) -> print m fresh (SettingsFrame h [(k, v)]) = Ok (y, s2) ->
  (x = y <-> plain_number s v).
Proof.
  intros m s h k v x s1 y s2 W G H K. rewrite (one_value _ _ _ _ _ _ _ _ _ W H K). split; [apply plain_number_only; assumption|apply plain_number_same; exact W].
Qed.

(* In a locale that groups digits, every longer value has separators. *)
Theorem C111_grouping_refuted : forall m s h k v x s1 y s2 sep n ns, width s = 0 -> base s = Dec -> grouping s = Some (sep, n, ns) -> 0 < n -> 10 ^ n <= v ->
  print m s (SettingsFrame h [(k, v)]) = Ok (x, s1) -> print m fresh (SettingsFrame h [(k, v)]) = Ok (y, s2) -> x <> y.
Proof.
  intros m s h k v x s1 y s2 sep n ns W B G P V H K E. apply (one_value _ _ _ _ _ _ _ _ _ W H K) in E. rewrite number_zero, G in E by exact W.
  assert (L : length (digits_of s v) = length (digits 10 v)) by (rewrite digits_of_size, B; reflexivity).
  assert (Q : n < N.of_nat (length (digits_of s v))).
  { rewrite L. pose proof (decimal_length v n P) as D. lia. }
  pose proof (group_long sep n ns (digits_of s v) P Q) as GL. apply (f_equal (@length N)) in E. rewrite app_length in E. lia.
Qed.

Lemma group_rev_cut : forall sep k ks l i, 0 < k -> i <= k -> k < i + N.of_nat (length l) ->
  group_rev sep k ks i l = firstn (N.to_nat (k - i)) l ++ sep ::
    (match ks with [] => group_rev sep k [] 0 (skipn (N.to_nat (k - i)) l) | k' :: ks' => group_rev sep k' ks' 0 (skipn (N.to_nat (k - i)) l) end).
Proof.
  intros sep k ks. induction l as [|d l IH]; intros i P L G; cbn [length] in G; [lia|]. cbn [group_rev].
  destruct (N.eqb_spec k 0); [lia|]. destruct (N.eqb_spec i k) as [->|N].
  - replace (N.to_nat (k - k)) with 0%nat by lia. cbn [firstn skipn app]. do 1 f_equal. destruct ks as [|k' ks]; cbn [group_rev].
    + destruct (N.eqb_spec k 0); [lia|]. destruct (N.eqb_spec 0 k); [lia|]. reflexivity.
    + destruct (N.eqb_spec k' 0) as [->|Z]; [f_equal; apply group_rev_short; left; reflexivity|]. destruct (N.eqb_spec 0 k'); [lia|]. reflexivity.
  - rewrite (IH (i + 1)) by lia. replace (N.to_nat (k - i)) with (S (N.to_nat (k - (i + 1)))) by lia. cbn [firstn skipn app]. reflexivity.
Qed.

Lemma grouped_group : forall n sep k ks d, length d = n -> grouped sep k ks d (rev (group_rev sep k ks 0 (rev d))).
Proof.
  intros n. induction n as [n IH] using lt_wf_ind. intros sep k ks d L.
  assert (C : (k = 0 \/ size d <= k) \/ (0 < k /\ k < size d)) by lia. destruct C as [C|(P & G)].
  { rewrite group_rev_short, rev_involutive by (rewrite rev_length; unfold size in C; lia). apply grouped_rest. exact C. }
  rewrite group_rev_cut by (try rewrite rev_length; unfold size in G; lia). replace (N.to_nat (k - 0)) with (N.to_nat k) by lia.
  unfold size in G. set (j := (length d - N.to_nat k)%nat).
  assert (F : firstn (N.to_nat k) (rev d) = rev (skipn j d)) by (rewrite firstn_rev; reflexivity).
  assert (K : skipn (N.to_nat k) (rev d) = rev (firstn j d)) by (rewrite skipn_rev; reflexivity).
  rewrite F, K, rev_app_distr, rev_involutive. rewrite <- (firstn_skipn j d) at 1.
  assert (S2 : size (skipn j d) = k) by (unfold size; rewrite skipn_length; subst j; lia).
  assert (N1 : firstn j d <> []) by (intros E; apply (f_equal (@length N)) in E; rewrite firstn_length in E; cbn [length] in E; subst j; lia).
  assert (LT : (length (firstn j d) < n)%nat) by (rewrite firstn_length; subst j; lia).
  destruct ks as [|k' ks]; cbn [rev]; rewrite <- app_assoc.
  - apply grouped_again; try assumption. eapply IH; [exact LT|reflexivity].
  - apply grouped_next; try assumption. eapply IH; [exact LT|reflexivity].
Qed.

(* A value has the same digits, in the groups of the locale, and nothing else changes. *)
Theorem C111_groups : forall m s h k v x s1 y s2 sep n ns, width s = 0 -> base s = Dec -> grouping s = Some (sep, n, ns) ->
  print m s (SettingsFrame h [(k, v)]) = Ok (x, s1) -> print m fresh (SettingsFrame h [(k, v)]) = Ok (y, s2) ->
  exists head t, y = head ++ digits 10 v ++ [10] /\ x = head ++ t ++ [10] /\ grouped sep n ns (digits 10 v) t.
Proof.
  intros m s h k v x s1 y s2 sep n ns W B G H K. apply print_ops in H. destruct H as (ops & O & R). apply print_ops in K. destruct K as (ops' & O' & R').
  rewrite O in O'. apply ok_inj in O'. subst ops'. destruct (print_form m _ ops O) as (rest & a & brk & z & parts & -> & P & F). cbn [settings_shown octets_shown] in *.
  cbn [run exec] in R, R'. rewrite (F (set_width 0 s) eq_refl) in R. rewrite (F (set_width 0 fresh) eq_refl) in R'.
  rewrite pad_string_zero in R by exact W. rewrite pad_string_zero in R' by reflexivity. rewrite width_zero in R by exact W. change (set_width 0 fresh) with fresh in R'.
  apply pair_inj in R; destruct R as [<- _]. apply pair_inj in R'; destruct R' as [<- _]. destruct parts as [|[lab w] [|]]; try discriminate P. cbn [map snd] in P. injection P as ->.
  unfold values. cbn [flat_map fst snd octets_text app]. change (pad_number fresh v) with (digits 10 v). rewrite !app_nil_r.
  exists (banner (SettingsFrame h [(k, v)]) ++ a ++ z ++ lab), (pad_number s v). rewrite <- !app_assoc. split; [reflexivity|]. split; [reflexivity|].
  rewrite number_zero, G by exact W. unfold prefix_of. rewrite B.
  assert (D : digits_of s v = digits 10 v).
  { unfold digits_of. rewrite B. cbn [radix]. destruct (uppercase s); [|reflexivity]. destruct (digits_spec 10 v ltac:(lia)) as (_ & D & _). clear -D.
    induction D as [|c ds [C1 C2] D IH]; [reflexivity|]. cbn [map]. rewrite IH. f_equal. unfold upper. unfold digit_value in C2.
    destruct (N.leb_spec 97 c); [|reflexivity]. destruct (N.ltb_spec c 58); lia. }
  rewrite D. destruct (showbase s && negb (v =? 0)); cbn [app group]; eapply grouped_group; reflexivity.
Qed.

(* A width that is set when a frame is printed pads its first line. *)
Theorem C111_width : forall m s f x s', print m s f = Ok (x, s') -> exists rest,
  print m (set_width 0 s) f = Ok (banner f ++ rest, s') /\
  x = (let pad := repeat (fill s) (N.to_nat (width s - size (banner f))) in
       match adjust s with AdjLeft => banner f ++ pad | _ => pad ++ banner f end) ++ rest.
Proof.
  intros m s f x s' H. apply print_ops in H. destruct H as (ops & O & R). destruct (print_form m f ops O) as (rest & a & brk & z & parts & -> & _ & F).
  cbn [run exec] in R. rewrite (F (set_width 0 s) eq_refl) in R. apply pair_inj in R; destruct R as [<- <-].
  eexists. split; [unfold print; rewrite O; cbn [bind run exec]; rewrite pad_string_zero by reflexivity; change (set_width 0 (set_width 0 s)) with (set_width 0 s); rewrite (F (set_width 0 s) eq_refl); reflexivity|].
  reflexivity.
Qed.

Theorem C111_width_refuted : forall m s f x s' y s'', print m s f = Ok (x, s') -> print m (set_width 0 s) f = Ok (y, s'') ->
  size (banner f) < width s -> x <> y.
Proof.
  intros m s f x s' y s'' H K L E. destruct (C111_width m s f x s' H) as (rest & P & X). rewrite K in P. apply ok_inj, pair_inj in P. destruct P as [-> _]. rewrite X in E.
  apply (f_equal (@length N)) in E. cbv zeta in E. destruct (adjust s); rewrite !app_length, repeat_length in E; lia.
Qed.

(* With std::left an octet below sixteen is shown as sixteen times its value: the
   text is the usual one of another frame. *)
Definition shifted (b : N) : N := if b <? 16 then 16 * b else b.
Lemma octets_text_map : forall o g brk l c, octets_text o brk c (map g l) = octets_text (fun b => o (g b)) brk c l.
Proof. intros o g brk. induction l as [|b l IH]; intros c; [reflexivity|]. cbn [map octets_text]. rewrite IH. reflexivity. Qed.
Lemma left_octet : forall b, b < 256 -> octet_in false false AdjLeft None b = octet_in false false AdjRight None (shifted b).
Proof.
  intros b B. assert (C : (if list_eq_dec N.eq_dec (octet_in false false AdjLeft None b) (octet_in false false AdjRight None (shifted b)) then true else false) = true).
  { revert b B. apply below_256. vm_compute. reflexivity. }
  destruct (list_eq_dec N.eq_dec _ _); [assumption|discriminate C].
Qed.

Theorem C111_left_refuted : forall m s h l, Forall (fun b => b < 256) l ->
  s = Ios Dec false false AdjLeft 0 32 None ->
  exists x s1 s2, print m s (PingFrame h l) = Ok (x, s1) /\ print m fresh (PingFrame h (map (fun b => if b <? 16 then 16 * b else b) l)) = Ok (x, s2).
Proof.
  intros m s h l B ->. change (fun b => if b <? 16 then 16 * b else b) with shifted.
  assert (Q : forall st d, width st = 0 -> print m st (PingFrame h d) =
    Ok ((octets "=== PING_STREAM FRAME ===" ++ [10]) ++ said (fh_ops h ++ [line "[PAYLOAD]"]) ++ octets_text (octet_text st) (said [newline]) 0 d ++ said [newline], after d st)).
  { intros st d W. unfold print. cbn [dump_ops bind]. rewrite <- (run_shape st _ (fh_ops h ++ [line "[PAYLOAD]"]) [newline] d [newline]); try shape_ins; try exact W.
    reflexivity. }
  rewrite (Q _ l) by reflexivity. rewrite (Q fresh) by reflexivity. do 3 eexists. split; [reflexivity|]. f_equal. f_equal. do 3 f_equal.
  rewrite octets_text_map. apply octets_text_ext. intros b I. rewrite Forall_forall in B. rewrite !octet_text_in. symmetry. apply left_octet, B, I.
Qed.

Lemma said_fh : forall h, said (fh_ops h) = dump_fh h.
Proof. intros h. unfold fh_ops, dump_fh, said. cbn [flat_map line ins decimal newline]. rewrite <- !app_assoc, app_nil_r. reflexivity. Qed.
Lemma said_error : forall c, dump_error_code c = (let* x := error_code_ops c in Ok (said x)).
Proof.
  intros c. unfold dump_error_code, error_code_ops. destruct (c <? UNKNOWN_ERROR).
  - destruct (name_at error_code_names c); cbn [bind]; try reflexivity; unfold said; cbn [flat_map ins newline]; rewrite app_nil_r; reflexivity.
  - destruct (name_at error_code_names UNKNOWN_ERROR); cbn [bind]; try reflexivity; unfold said; cbn [flat_map ins line decimal newline]; rewrite app_nil_r; reflexivity.
Qed.
Lemma said_entries : forall b, dump_entries b = (let* x := entries_ops b in Ok (said x)).
Proof.
  induction b as [|e b IH]; [reflexivity|]. cbn [dump_entries entries_ops]. rewrite IH.
  assert (X : dump_entry e = (let* x := entry_ops e in Ok (said x))).
  { unfold dump_entry, entry_ops. destruct (hprefix_eqb (e_prefix e) SizeUpdate).
    - destruct (get_max_size e); cbn [bind]; try reflexivity; unfold said; cbn [flat_map ins line decimal]; rewrite app_nil_r; reflexivity.
    - destruct (get_header e); cbn [bind]; try reflexivity; unfold said; cbn [flat_map ins newline]; rewrite app_nil_r; reflexivity. }
  rewrite X. destruct (entry_ops e); cbn [bind]; try reflexivity. destruct (entries_ops b); cbn [bind]; try reflexivity. rewrite said_app. reflexivity.
Qed.
Lemma said_block : forall b, dump_block b = (let* x := block_ops b in Ok (said x)).
Proof.
  intros b. unfold dump_block, block_ops. rewrite said_entries. destruct (entries_ops b); reflexivity.
Qed.
Lemma said_indent : forall l, said (indent_ops l) = indent l.
Proof.
  induction l as [|b l IH]; [reflexivity|]. cbn [indent_ops indent]. change (Insert [b] :: ?x) with ([Insert [b]] ++ x). rewrite !said_app, IH. destruct (b =? 10); reflexivity.
Qed.
Lemma said_priority : forall fl p, said (priority_option_ops fl p) = dump_priority_option fl p.
Proof. intros fl p. unfold priority_option_ops, dump_priority_option, said. cbn [flat_map ins newline]. rewrite app_nil_r. reflexivity. Qed.

(* The formatting of Dump.v: decimal or hexadecimal numbers and nothing else. *)
Definition usual (hex : bool) (s : ios) : Prop :=
  base s = (if hex then Hex else Dec) /\ showbase s = false /\ uppercase s = false /\ adjust s <> AdjLeft /\ width s = 0 /\ grouping s = None.

Lemma usual_octet : forall hex s b, usual hex s -> octet_text s b = put_hex2 b.
Proof.
  intros hex [ba sb up ad w fi g] b (_ & X1 & X2 & X3 & _ & X4). cbn in X1, X2, X3, X4. subst sb up g.
  unfold octet_text, pad_number, put_hex2, pad_of, prefix_of, digits_of. cbn [set_fill set_width set_base adjust grouping base width fill showbase uppercase radix andb app group].
  assert (S : (N.to_nat (2 - size (digits 16 b)) = 2 - length (digits 16 b))%nat) by (unfold size; lia). rewrite S. destruct ad; [destruct X3; reflexivity|reflexivity|reflexivity].
Qed.
Lemma usual_number : forall hex s v, usual hex s -> pad_number s v = put_unsigned hex v.
Proof.
  intros hex s v (B & SB & U & _ & W & G). rewrite number_zero, G by exact W. unfold prefix_of, digits_of. rewrite SB, U, B. destruct hex; reflexivity.
Qed.
Lemma usual_octets : forall hex s brk l c, usual hex s -> octets_text (octet_text s) brk c l = dump_hex brk c l.
Proof.
  intros hex s brk l c U. revert c. induction l as [|b l IH]; intros c; [reflexivity|]. cbn [octets_text dump_hex]. rewrite IH, (usual_octet hex s b U). reflexivity.
Qed.
Lemma usual_settings : forall hex s ps, usual hex s -> dump_settings hex ps = (let* x := settings_ops ps in Ok (fst (run s x))) /\
  forall x, settings_ops ps = Ok x -> snd (run s x) = s.
Proof.
  intros hex s ps U. assert (W : width s = 0) by apply U. split.
  - induction ps as [|[k v] ps IH]; [reflexivity|]. cbn [dump_settings settings_ops]. rewrite IH.
    assert (R : forall a z, inserts a -> fst (run s ((a ++ [Number v; newline]) ++ z)) = said a ++ put_unsigned hex v ++ nl ++ fst (run s z)).
    { intros a z A. rewrite !run_app, (run_inserts _ _ A W). cbn [run exec newline]. rewrite !(width_zero s W), (usual_number hex s v U), pad_string_zero by exact W.
      destruct (run s z). cbn [fst]. rewrite app_nil_r, <- !app_assoc. reflexivity. }
    destruct ((k <? 1) || (SETTINGS_UNKNOWN <=? k)).
    + destruct (name_at parameter_names SETTINGS_UNKNOWN) as [n| | |]; cbn [bind]; try reflexivity. destruct (settings_ops ps) as [z| | |]; cbn [bind]; try reflexivity.
      pose proof (R [ins "  "; Insert n; ins "("; decimal k; ins "): "] z ltac:(shape_ins)) as Q. cbn [app] in *. rewrite Q. unfold said. cbn [flat_map ins decimal]. rewrite <- !app_assoc, ?app_nil_r. reflexivity.
    + destruct (name_at parameter_names k) as [n| | |]; cbn [bind]; try reflexivity. destruct (settings_ops ps) as [z| | |]; cbn [bind]; try reflexivity.
      pose proof (R [ins "  "; Insert n; ins ": "] z ltac:(shape_ins)) as Q. cbn [app] in *. rewrite Q. unfold said. cbn [flat_map ins decimal]. rewrite <- !app_assoc, ?app_nil_r. reflexivity.
  - intros x X. destruct (run_settings ps x X) as (parts & _ & R). rewrite (R s W). reflexivity.
Qed.

Ltac tidy := rewrite ?said_app, ?said_fh, ?said_priority, ?said_indent; unfold said;
  cbn [flat_map line ins newline decimal app]; rewrite ?app_nil_r, <- ?app_assoc; reflexivity.

(* The texts of Dump.v are those of a stream formatted in the usual way. *)
Theorem C111_agrees : forall m hex s f, usual hex s ->
  (let* (x, s') := print m s f in Ok (x, match base s' with Hex => true | _ => false end)) = dump m hex f.
Proof.
  intros m hex s f U. assert (W : width s = 0) by apply U.
  assert (A : forall l, match base (after l s) with Hex => true | _ => false end = hex_after hex l).
  { intros [|b l]; [|reflexivity]. cbn [after hex_after]. destruct U as (-> & _). destruct hex; reflexivity. }
  assert (A0 : match base s with Hex => true | _ => false end = hex) by exact (A []).
  assert (R1 : forall a brk l z, inserts a -> inserts brk -> inserts z ->
    run s (a ++ octet_ops brk 0 l ++ z) = (said a ++ dump_hex (said brk) 0 l ++ said z, after l s)).
  { intros a brk l z I1 I2 I3. rewrite run_app, (run_inserts _ _ I1 W), run_app, (run_octets _ _ _ _ I2 W), (run_inserts _ _ I3) by (destruct l; exact W).
    rewrite (usual_octets hex s) by exact U. reflexivity. }
  assert (R0 : forall a, inserts a -> run s a = (said a, s)) by (intros a I1; apply run_inserts; assumption).
  unfold print. destruct f as [h p|h p|e h padding prio b|h p|h c|h ps|e h p|h d|h p|h r i|e h b]; cbn [dump_ops dump].
  - cbn [bind]. rewrite R1 by shape_ins. cbn [bind]. rewrite A. f_equal. f_equal. tidy.
  - unfold data_ops, dump_data. destruct (if is_flag_set (fh_flags h) F_PADDED then vget p 0 else Ok 0) as [pad| | |]; cbn [bind]; try reflexivity.
    destruct (address_of m p _); cbn [bind]; try reflexivity.
    destruct (vrange p _ _) as [data| | |]; cbn [bind]; try reflexivity.
    destruct (if is_flag_set (fh_flags h) F_PADDED then _ else Ok []) as [padding| | |]; cbn [bind]; try reflexivity.
    replace ([line "=== DATA FRAME ==="] ++ _) with
      (([line "=== DATA FRAME ==="] ++ fh_ops h ++ [line "[PAYLOAD]"] ++ [ins "  Pad Length: "; decimal pad; newline; line "  Data      : "; ins "    "] ++
       indent_ops data ++ [newline; line "  Padding   : "]) ++ octet_ops [Insert (nl ++ str "              ")] 0 padding ++ [newline])
      by (rewrite <- !app_assoc; reflexivity).
    rewrite R1 by shape_ins. cbn [bind]. rewrite A. f_equal. f_equal. tidy.
  - rewrite said_block. destruct (block_ops b) as [blk| | |] eqn:B; cbn [bind]; try reflexivity. apply inserts_block in B.
    unfold padding_ops, dump_padding, hex_padding. destruct (is_flag_set (fh_flags h) F_PADDED).
    + match goal with |- context [run s ?o] => replace o with
        ((([line "=== HEADERS FRAME ==="] ++ fh_ops h ++ [line "[PAYLOAD]"]) ++ priority_option_ops (fh_flags h) prio ++ blk ++ [line "  Padding:"; ins "    "]) ++
         octet_ops [newline; ins "    "] 0 padding ++ [newline]) by (rewrite <- !app_assoc; reflexivity) end.
      rewrite R1 by shape_ins. cbn [bind]. rewrite A. f_equal. f_equal. tidy.
    + rewrite R0 by shape_ins. cbn [bind]. rewrite A0. f_equal. f_equal. tidy.
  - cbn [bind]. rewrite R0 by shape_ins. cbn [bind]. rewrite A0. f_equal. f_equal. tidy.
  - rewrite said_error. destruct (error_code_ops c) as [x| | |] eqn:B; cbn [bind]; try reflexivity. apply inserts_error in B.
    rewrite R0 by shape_ins. cbn [bind]. rewrite A0. f_equal. f_equal. tidy.
  - destruct (usual_settings hex s ps U) as [D ST]. rewrite D. destruct (settings_ops ps) as [x| | |]; cbn [bind]; try reflexivity.
    rewrite run_app, R0 by shape_ins. specialize (ST x eq_refl). destruct (run s x) as [y s']. cbn [snd] in ST. subst s'. cbn [bind fst]. rewrite A0. f_equal. f_equal. tidy.
  - rewrite said_block. destruct (block_ops (pp_block p)) as [blk| | |] eqn:B; cbn [bind]; try reflexivity. apply inserts_block in B.
    unfold padding_ops, dump_padding, hex_padding. destruct (is_flag_set (fh_flags h) F_PADDED).
    + match goal with |- context [run s ?o] => replace o with
        ((([line "=== PUSH_PROMISE FRAME ==="] ++ fh_ops h ++ [line "[PAYLOAD]"]) ++
          [ins "  R: "; decimal (pp_reserved p); newline; ins "  Promised Stream ID: "; decimal (pp_promised p); newline] ++ blk ++ [line "  Padding:"; ins "    "]) ++
         octet_ops [newline; ins "    "] 0 (pp_padding p) ++ [newline]) by (rewrite <- !app_assoc; reflexivity) end.
      rewrite R1 by shape_ins. cbn [bind]. rewrite A. f_equal. f_equal. tidy.
    + rewrite R0 by shape_ins. cbn [bind]. rewrite A0. f_equal. f_equal. tidy.
  - cbn [bind]. rewrite R1 by shape_ins. cbn [bind]. rewrite A. f_equal. f_equal. tidy.
  - rewrite said_error. destruct (error_code_ops (g_error_code p)) as [x| | |] eqn:B; cbn [bind]; try reflexivity. apply inserts_error in B.
    destruct (size (g_debug p) =? 0); cbn [bind].
    + rewrite R0 by shape_ins. cbn [bind]. rewrite A0. f_equal. f_equal. tidy.
    + destruct (put_c_string (g_debug p)) as [c| | |]; cbn [bind]; try reflexivity. rewrite R0 by shape_ins. cbn [bind]. rewrite A0. f_equal. f_equal. tidy.
  - cbn [bind]. rewrite R0 by shape_ins. cbn [bind]. rewrite A0. f_equal. f_equal. tidy.
  - rewrite said_block. destruct (block_ops b) as [blk| | |] eqn:B; cbn [bind]; try reflexivity. apply inserts_block in B.
    rewrite R0 by shape_ins. cbn [bind]. rewrite A0. f_equal. f_equal. tidy.
Qed.

Theorem C111_table : forall s T, width s = 0 -> fst (run s (table_ops T)) = dump_table T.
Proof.
  intros s T W. rewrite run_inserts; [|unfold table_ops; constructor; [eexists; reflexivity|apply inserts_table]|exact W].
  cbn [fst]. unfold table_ops, dump_table. change (line "=== DYNAMIC_TABLE ===" :: ?x) with ([line "=== DYNAMIC_TABLE ==="] ++ x). rewrite said_app.
  assert (E : forall es i, said (table_entries_ops i es) = dump_table_entries i es).
  { induction es as [|e es IH]; intros i; [reflexivity|]. cbn [table_entries_ops dump_table_entries]. rewrite said_app, IH. tidy. }
  rewrite E. reflexivity.
Qed.

(* ---- C112 ---- *)

Lemma run_bad : forall ops s r, exists s', run_on (Ostream s false r) ops = ([], Ostream s' false r).
Proof.
  induction ops as [|o ops IH]; intros s r; [eexists; reflexivity|]. cbn [run_on].
  destruct o; cbn [exec_on o_good o_fmt o_room exec snd];
    match goal with |- context [run_on (Ostream ?t false r) ops] => destruct (IH t r) as (s' & ->) end; eexists; reflexivity.
Qed.

Lemma run_good : forall ops s r, let (x, s') := run s ops in exists s'',
  run_on (Ostream s true r) ops =
    (firstn (N.to_nat r) x, if size x <=? r then Ostream s' true (r - size x) else Ostream s'' false 0).
Proof.
  induction ops as [|o ops IH]; intros s r.
  - cbn [run run_on]. exists s. rewrite firstn_nil. f_equal. destruct (N.leb_spec (size (@nil N)) r); [|cbn in *; lia]. f_equal. unfold size. cbn. lia.
  - cbn [run run_on].
    assert (SP : (exists s1, exec s o = ([], s1) /\ exec_on (Ostream s true r) o = ([], Ostream s1 true r)) \/
      exists x s1, exec s o = (x, s1) /\ exec_on (Ostream s true r) o =
        if size x <=? r then (x, Ostream s1 true (r - size x)) else (firstn (N.to_nat r) x, Ostream s1 false 0)).
    { destruct o; [right|right|left|left|left]; repeat eexists. }
    destruct SP as [(s1 & -> & ->)|(x & s1 & -> & ->)].
    + specialize (IH s1 r). destruct (run s1 ops) as [y s2]. destruct IH as (s'' & ->). exists s''. reflexivity.
    + destruct (N.leb_spec (size x) r) as [L|L].
      * specialize (IH s1 (r - size x)). destruct (run s1 ops) as [y s2]. destruct IH as (s'' & ->). exists s''.
        assert (SZ : size (x ++ y) = size x + size y) by (unfold size; rewrite app_length; lia). rewrite SZ. f_equal.
        -- rewrite firstn_app. f_equal; [symmetry; apply firstn_all2; unfold size in L; lia|]. f_equal. unfold size. lia.
        -- destruct (N.leb_spec (size y) (r - size x)), (N.leb_spec (size x + size y) r); try lia; [f_equal; lia|reflexivity].
      * destruct (run_bad ops s1 0) as (s'' & ->). destruct (run s1 ops) as [y s2]. exists s''.
        assert (SZ : size (x ++ y) = size x + size y) by (unfold size; rewrite app_length; lia). rewrite SZ. f_equal.
        -- rewrite app_nil_r, firstn_app. replace (N.to_nat r - length x)%nat with 0%nat by (unfold size in L; lia). cbn [firstn]. rewrite app_nil_r. reflexivity.
        -- destruct (N.leb_spec (size x + size y) r); [lia|reflexivity].
Qed.

(* A device that takes room more octets gets that many octets of the text, in
   order; the stream is good afterwards exactly if that is the whole text. *)
Theorem C112_prefix : forall m s room f x s', print m s f = Ok (x, s') ->
  exists d, print_on m (Ostream s true room) f = Ok (firstn (N.to_nat room) x, d) /\
    (o_good d = true <-> size x <= room) /\
    (size x <= room -> o_fmt d = s' /\ o_room d = room - size x).
Proof.
  intros m s room f x s' H. apply print_ops in H. destruct H as (ops & O & R). pose proof (run_good ops s room) as G. rewrite R in G. destruct G as (s'' & G).
  unfold print_on. rewrite O. cbn [bind]. rewrite G. eexists. split; [reflexivity|].
  destruct (N.leb_spec (size x) room) as [L|L]; cbn [o_good o_fmt o_room]; split; try (split; intros; try reflexivity; try assumption; try discriminate; lia).
Qed.

(* Nothing is written to a stream that has failed. *)
Theorem C112_failed : forall m s room f x s', print m s f = Ok (x, s') ->
  exists d, print_on m (Ostream s false room) f = Ok ([], d) /\ o_good d = false /\ o_room d = room.
Proof.
  intros m s room f x s' H. apply print_ops in H. destruct H as (ops & O & R). destruct (run_bad ops s room) as (s'' & G).
  unfold print_on. rewrite O. cbn [bind]. rewrite G. eexists. split; [reflexivity|]. split; reflexivity.
Qed.

(* Printing fails with an exception, or faults, on such a stream exactly when it
   does on any other. *)
Theorem C112_same_outcome : forall m d s f,
  (exists x d', print_on m d f = Ok (x, d')) <-> (exists x s', print m s f = Ok (x, s')).
Proof.
  intros m d s f. unfold print_on, print. destruct (dump_ops m f) as [ops| | |]; cbn [bind].
  - destruct (run_on d ops), (run s ops). split; intros _; eauto.
  - split; intros (? & ? & E); discriminate E.
  - split; intros (? & ? & E); discriminate E.
  - split; intros (? & ? & E); discriminate E.
Qed.

Definition ping : frame := PingFrame (FH 8 6 0 0 0) [0; 1; 2; 0xab; 0xcd; 0x10; 0x20; 0xff].
Definition settings : frame := SettingsFrame (FH 12 4 0 0 0) [(3, 100); (4, 1048576)].

Example C110_case :
  octets_shown ping <> [] /\ (exists x, print Strict fresh ping = Ok (x, Ios Hex false false AdjRight 0 48 None)) /\
  fst (run (Ios Hex false false AdjRight 0 48 None) [Number 255]) = octets "ff" /\ fst (run fresh [Number 255]) = octets "255" /\
  octets_shown settings = [] /\ (exists x, print Strict (Ios Oct true true AdjLeft 7 46 (Some (44, 3, [2]))) settings = Ok (x, Ios Oct true true AdjLeft 0 46 (Some (44, 3, [2])))) /\
  octets_shown (DataFrame (FH 6 0 8 0 1) [2; 97; 98; 99; 100; 101]) = [100; 101].
Proof. split; [discriminate|]. split; [eexists; vm_compute; reflexivity|]. repeat split; try (eexists; vm_compute; reflexivity). Qed.

Definition last_line (x : bytes) : bytes := skipn (length x - 25) x.
Example C111_case :
  (* usual text, with showbase, upper case, std::left, std::left on another frame *)
  (exists x s, print Strict fresh ping = Ok (x, s) /\ last_line x = octets "00 01 02 ab cd 10 20 ff" ++ [10; 10]) /\
  (exists x s, print Strict (Ios Dec true false AdjInternal 0 32 None) (PingFrame (FH 2 6 0 0 0) [0; 10]) = Ok (x, s) /\ skipn (length x - 8) x = octets "00 0xa " ++ [10]) /\
  (exists x s, print Strict (Ios Dec false true AdjRight 0 32 None) ping = Ok (x, s) /\ last_line x = octets "00 01 02 AB CD 10 20 FF" ++ [10; 10]) /\
  (exists x s, print Strict (Ios Dec false false AdjLeft 0 32 None) ping = Ok (x, s) /\ last_line x = octets "00 10 20 ab cd 10 20 ff" ++ [10; 10]) /\
  Forall (plain_octet (Ios Oct false false AdjInternal 0 46 (Some (44, 3, [2])))) (octets_shown ping) /\
  ~ plain_octet (Ios Dec false false AdjLeft 0 32 None) 1 /\
  Forall (fun p => plain_number (Ios Dec true true AdjLeft 0 46 (Some (44, 7, []))) (snd p)) (settings_shown settings) /\
  (exists x s, print Strict (Ios Dec false false AdjRight 0 32 (Some (44, 3, [2]))) settings = Ok (x, s) /\ skipn (length x - 10) x = octets "10,48,576" ++ [10]) /\
  size (banner ping) = 26 /\
  (exists x s, print Strict (Ios Dec false false AdjRight 28 46 None) ping = Ok (x, s) /\ firstn 6 x = octets "..=== ") /\
  usual true (Ios Hex false false AdjInternal 0 46 None).
Proof.
  split; [do 2 eexists; split; vm_compute; reflexivity|]. split; [do 2 eexists; split; vm_compute; reflexivity|].
  split; [do 2 eexists; split; vm_compute; reflexivity|]. split; [do 2 eexists; split; vm_compute; reflexivity|].
  assert (PO : forall s b, showbase s = false -> uppercase s = false -> adjust s <> AdjLeft -> grouping s = Some (44, 3, [2]) -> plain_octet s b).
  { intros s b A B C D. unfold plain_octet. rewrite A, B, D. split; [discriminate|]. split; [discriminate|]. split; [intros X; contradiction|]. intros sep ks X. discriminate X. }
  split; [apply Forall_forall; intros b _; apply PO; try reflexivity; discriminate|].
  split; [intros (_ & _ & X & _); destruct (X eq_refl) as [Y|Y]; [discriminate Y|lia]|].
  split. { cbn [settings_shown settings]. constructor; [|constructor; [|constructor]]; cbn [plain_number base snd grouping]; intros sep k ks E; injection E as _ <- _; right; vm_compute; reflexivity. }
  split; [do 2 eexists; split; vm_compute; reflexivity|]. split; [reflexivity|]. split; [do 2 eexists; split; vm_compute; reflexivity|].
  repeat split; discriminate.
Qed.

Example C112_case :
  (exists x s, print Strict fresh ping = Ok (x, s) /\ size x = 156) /\
  (exists d, print_on Strict (Ostream fresh true 10) ping = Ok (octets "=== PING_S", d) /\ o_good d = false) /\
  (exists x d, print_on Strict (Ostream fresh true 1000) ping = Ok (x, d) /\ o_good d = true /\ o_room d = 844) /\
  (exists d, print_on Strict (Ostream fresh false 1000) ping = Ok ([], d)).
Proof.
  split; [do 2 eexists; split; vm_compute; reflexivity|]. split; [eexists; split; vm_compute; reflexivity|].
  split; [do 2 eexists; split; [vm_compute; reflexivity|split; vm_compute; reflexivity]|]. eexists. vm_compute. reflexivity.
Qed.

Print Assumptions C110_kept_partial.
Print Assumptions C110_octets_refuted.
Print Assumptions C110_later_refuted.
Print Assumptions C110_table.
Print Assumptions C111_octets_partial.
Print Assumptions C111_settings_partial.
Print Assumptions C111_value_refuted.
Print Assumptions C111_grouping_refuted.
Print Assumptions C111_groups.
Print Assumptions C111_width.
Print Assumptions C111_width_refuted.
Print Assumptions C111_left_refuted.
Print Assumptions C111_agrees.
Print Assumptions C111_table.
Print Assumptions C112_prefix.
Print Assumptions C112_failed.
Print Assumptions C112_same_outcome.
