(* Property C98: the text of a frame shows every value behind its name. *)
From Coq Require Import String.
From Coq Require Import ZArith NArith List Bool Lia ZifyBool ZifyNat ZifyN.
From Verif Require Import Base Arith Util HeaderType DynTable StaticTable HeaderEnc HeaderDec FrameHeader Frames FrameBuilder Dump
  SpecBits SpecHpack SpecFrame SpecText DumpProofs PropFrame PropBlock PropClient PropDump PropName.
Import ListNotations.
Local Open Scope string_scope.
Local Open Scope list_scope.
Local Open Scope N_scope.
Ltac Zify.zify_post_hook ::= Z.div_mod_to_equations.

(* ---------------------------------------------------------------- proofs *)

Lemma lines_cut : forall a b, ~ In 10 a -> lines (a ++ 10 :: b) = a :: lines b.
Proof.
  induction a as [|c a IH]; intros b NI; cbn [app lines]; [reflexivity|].
  destruct (N.eqb_spec c 10) as [->|NE]; [destruct NI; left; reflexivity|]. rewrite IH by (intros I; apply NI; right; exact I). reflexivity.
Qed.

Definition no_lf (l : list N) : bool := forallb (fun c => negb (c =? 10)) l.
Lemma no_lf_not_in : forall l, no_lf l = true -> ~ In 10 l.
Proof. intros l H I. unfold no_lf in H. rewrite forallb_forall in H. apply H in I. discriminate I. Qed.
Lemma no_lf_app : forall a b, no_lf a = true -> no_lf b = true -> no_lf (a ++ b) = true.
Proof. intros a b A B. unfold no_lf in *. rewrite forallb_app, A, B. reflexivity. Qed.
Lemma no_lf_string : forall n, no_lf (to_string n) = true.
Proof.
  intros n. unfold no_lf. apply forallb_forall. intros c I. apply to_string_chars in I. destruct (N.eqb_spec c 10); [lia|reflexivity].
Qed.

Lemma cut_const : forall s b, no_lf (str s) = true -> lines (str s ++ nl ++ b) = str s :: lines b.
Proof. intros s b H. apply lines_cut, no_lf_not_in, H. Qed.
Lemma cut_number : forall s n b, no_lf (str s) = true -> lines (str s ++ to_string n ++ nl ++ b) = (str s ++ to_string n) :: lines b.
Proof.
  intros s n b H. rewrite app_assoc. apply lines_cut, no_lf_not_in, no_lf_app; [exact H|apply no_lf_string].
Qed.

Lemma cut_last : forall s n, no_lf (str s) = true -> lines (str s ++ to_string n ++ nl) = [str s ++ to_string n; []].
Proof. intros s n H. apply (cut_number s n []), H. Qed.

Lemma split_app : forall p r a b, split_colon p = Some (a, b) -> split_colon (p ++ r) = Some (a, b ++ r).
Proof.
  induction p as [|c p IH]; intros r a b H; cbn [split_colon app] in *; [discriminate H|].
  destruct (c =? 58); [injection H as <- <-; reflexivity|]. destruct (split_colon p) as [[a' b']|] eqn:S; [|discriminate H].
  injection H as <- <-. rewrite (IH r a' b' eq_refl). reflexivity.
Qed.

Lemma number_digits : forall n, number (to_string n) = Some n.
Proof.
  intros n. destruct (decimal_digits n) as (NE & _ & F & V). unfold to_string, number. destruct (digits 10 n) as [|c ds] eqn:E; [contradiction|].
  rewrite <- E in *. assert (A : forallb (fun c => (48 <=? c) && (c <=? 57)) (digits 10 n) = true).
  { apply forallb_forall. intros d I. rewrite Forall_forall in F. apply F in I.
    destruct (N.leb_spec 48 d); [|lia]. destruct (N.leb_spec d 57); [reflexivity|lia]. }
  rewrite A, V. reflexivity.
Qed.

Lemma trim_digits : forall n, trim_left (32 :: to_string n) = to_string n.
Proof.
  intros n. cbn [trim_left N.eqb Pos.eqb]. unfold to_string. destruct (decimal_digits n) as (_ & _ & F & _).
  destruct (digits 10 n) as [|c ds]; [reflexivity|]. cbn [trim_left]. inversion F; subst. destruct (N.eqb_spec c 32); [lia|reflexivity].
Qed.

Lemma entry_hit : forall name s n ls a, split_colon (str s) = Some (a, [32]) -> same (trim a) name = true ->
  entry name ((str s ++ to_string n) :: ls) = Some (to_string n).
Proof. intros name s n ls a S E. cbn [entry]. rewrite (split_app _ _ _ _ S), E. cbn [app]. rewrite trim_digits. reflexivity. Qed.
Lemma entry_miss : forall name s n ls a, split_colon (str s) = Some (a, [32]) -> same (trim a) name = false ->
  entry name ((str s ++ to_string n) :: ls) = entry name ls.
Proof. intros name s n ls a S E. cbn [entry]. rewrite (split_app _ _ _ _ S), E. reflexivity. Qed.
Lemma entry_other : forall name l ls, split_colon l = None -> entry name (l :: ls) = entry name ls.
Proof. intros name l ls S. cbn [entry]. rewrite S. reflexivity. Qed.

Lemma title_line : forall f b, lines (str (title f) ++ nl ++ b) = str (title f) :: lines b.
Proof. intros f b. apply lines_cut, title_no_nl. Qed.
Lemma title_split : forall f, split_colon (str (title f)) = None.
Proof. destruct f; reflexivity. Qed.

Definition header_lines (h : frame_header) : list (list N) :=
  [str "[Frame Header]"; str "  length    : " ++ to_string (fh_length h); str "  type      : " ++ to_string (fh_type h);
   str "  flags     : " ++ to_string (fh_flags h); str "  reserved  : " ++ to_string (fh_reserved h);
   str "  stream id : " ++ to_string (fh_stream_id h)].

Lemma head_lines : forall f body,
  lines (str (title f) ++ nl ++ dump_fh (frame_fh f) ++ str "[PAYLOAD]" ++ nl ++ body) =
  str (title f) :: header_lines (frame_fh f) ++ str "[PAYLOAD]" :: lines body.
Proof.
  intros f body. rewrite title_line. unfold dump_fh. rewrite <- !app_assoc.
  rewrite cut_const by reflexivity. rewrite !cut_number by reflexivity. rewrite cut_const by reflexivity. reflexivity.
Qed.

Ltac step := first [rewrite (entry_other _ (str _)) by reflexivity | erewrite entry_miss; [|reflexivity|reflexivity] | erewrite entry_hit; [|reflexivity|reflexivity]].

(* The frame header: every value behind its name, whatever the payload. *)
Theorem C98_header : forall m hex f text hex', dump m hex f = Ok (text, hex') ->
  read "length" text = Some (fh_length (frame_fh f)) /\ read "type" text = Some (fh_type (frame_fh f)) /\
  read "flags" text = Some (fh_flags (frame_fh f)) /\ read "reserved" text = Some (fh_reserved (frame_fh f)) /\
  read "stream id" text = Some (fh_stream_id (frame_fh f)).
Proof.
  intros m hex f text hex' H. apply dump_head in H. destruct H as [body ->]. unfold read. rewrite head_lines.
  rewrite !(entry_other _ (str (title f))) by apply title_split. cbn [header_lines app].
  repeat split; repeat step; apply number_digits.
Qed.

Lemma past_header : forall name f body, forallb (fun n => negb (same (octets n) name)) ["length"; "type"; "flags"; "reserved"; "stream id"] = true ->
  entry name (str (title f) :: header_lines (frame_fh f) ++ str "[PAYLOAD]" :: lines body) = entry name (lines body).
Proof.
  intros name f body H. rewrite (entry_other _ (str (title f))) by apply title_split. cbn [header_lines app].
  cbn [forallb] in H. repeat (apply andb_true_iff in H; let K := fresh "K" in destruct H as [K H]; apply negb_true_iff in K).
  rewrite (entry_other _ (str "[Frame Header]")) by reflexivity.
  erewrite entry_miss; [|reflexivity|assumption]. erewrite entry_miss; [|reflexivity|assumption]. erewrite entry_miss; [|reflexivity|assumption].
  erewrite entry_miss; [|reflexivity|assumption]. erewrite entry_miss; [|reflexivity|assumption].
  apply entry_other. reflexivity.
Qed.

Lemma read_body : forall name m hex f text hex' body, dump m hex f = Ok (text, hex') ->
  text = str (title f) ++ nl ++ dump_fh (frame_fh f) ++ str "[PAYLOAD]" ++ nl ++ body ->
  forallb (fun n => negb (same (octets n) (octets name))) ["length"; "type"; "flags"; "reserved"; "stream id"] = true ->
  entry (octets name) (lines text) = entry (octets name) (lines body).
Proof. intros name m hex f text hex' body _ -> H. rewrite head_lines. apply past_header, H. Qed.

(* What dump writes behind the line [PAYLOAD]. *)
Lemma dump_body : forall m hex f text hex', dump m hex f = Ok (text, hex') ->
  exists body, text = str (title f) ++ nl ++ dump_fh (frame_fh f) ++ str "[PAYLOAD]" ++ nl ++ body /\
  match f with
  | RawFrame _ p | PingFrame _ p => body = dump_hex nl 0 p ++ nl
  | DataFrame h p => exists pad rest, (if has_padded (fh_flags h) then hd_error p = Some pad else pad = 0) /\
      body = str "  Pad Length: " ++ to_string pad ++ nl ++ rest
  | HeadersFrame _ h padding prio b => exists x, dump_entries b = Ok x /\
      body = dump_priority_option (fh_flags h) prio ++ str "  Header Block:" ++ nl ++ x ++ dump_padding (fh_flags h) padding
  | PriorityFrame _ p => body = str "  E: " ++ to_string (p_exclusive p) ++ nl ++
      str "  Stream Dependency: " ++ to_string (p_dependency p) ++ nl ++ str "  Weight: " ++ to_string (p_weight p) ++ nl
  | PushPromiseFrame _ h p => exists x, dump_entries (pp_block p) = Ok x /\
      body = str "  R: " ++ to_string (pp_reserved p) ++ nl ++ str "  Promised Stream ID: " ++ to_string (pp_promised p) ++ nl ++
        str "  Header Block:" ++ nl ++ x ++ dump_padding (fh_flags h) (pp_padding p)
  | GoawayFrame _ p => exists rest, body = str "  R: " ++ to_string (g_reserved p) ++ nl ++
      str "  Last-Stream-ID: " ++ to_string (g_last_stream_id p) ++ nl ++ rest
  | WindowUpdateFrame _ r incr => body = str "  R: " ++ to_string r ++ nl ++ str "  Window size Increment: " ++ to_string incr ++ nl
  | ContinuationFrame _ _ b => exists x, dump_entries b = Ok x /\ body = str "  Header Block:" ++ nl ++ x
  | _ => True
  end.
Proof.
  intros m hex f text hex' H. destruct f; cbn [dump frame_fh title] in *.
  2: unfold dump_data in H.
  all: repeat (apply bind_ok in H; let y := fresh "y" in let E := fresh "E" in destruct H as (y & E & H));
    apply ok_pair in H; destruct H as [<- <-]; rewrite <- ?app_assoc.
  all: try (eexists; split; [reflexivity|]; first [reflexivity|exact I]).
  - eexists; split; [reflexivity|]. exists y. eexists. split; [|reflexivity].
    rewrite padded_flag in E. destruct (has_padded (fh_flags h)); [|injection E as <-; reflexivity].
    destruct payload as [|c p]; [discriminate E|]. cbn in E. injection E as <-. reflexivity.
  - unfold dump_block in E. apply bind_ok in E. destruct E as (x & E & X). injection X as <-. rewrite <- ?app_assoc.
    eexists; split; [reflexivity|]. exists x. split; [exact E|]. rewrite <- ?app_assoc. reflexivity.
  - unfold dump_block in E. apply bind_ok in E. destruct E as (x & E & X). injection X as <-. rewrite <- ?app_assoc.
    eexists; split; [reflexivity|]. exists x. split; [exact E|]. rewrite <- ?app_assoc. reflexivity.
  - eexists; split; [reflexivity|]. eexists. reflexivity.
  - unfold dump_block in E. apply bind_ok in E. destruct E as (x & E & X). injection X as <-.
    eexists; split; [reflexivity|]. exists x. split; [exact E|]. reflexivity.
Qed.

Lemma entry_blank : forall name s ls a, split_colon (str s) = Some (a, [32]) ->
  entry name (str s :: ls) = if same (trim a) name then Some [] else entry name ls.
Proof. intros name s ls a S. cbn [entry]. rewrite S. reflexivity. Qed.

(* The numbers of the payload. *)
Theorem C98_payload : forall m hex f text hex', dump m hex f = Ok (text, hex') ->
  match f with
  | DataFrame h p => if has_padded (fh_flags h) then read "Pad Length" text = hd_error p else read "Pad Length" text = Some 0
  | HeadersFrame _ h _ p _ =>
      if has_priority (fh_flags h) then
        read "Exclusive" text = Some (p_exclusive p) /\ read "Stream Dependency" text = Some (p_dependency p) /\
        read "Weight" text = Some (p_weight p)
      else entry (octets "Exclusive") (lines text) = Some [] /\ entry (octets "Stream Dependency") (lines text) = Some [] /\
        entry (octets "Weight") (lines text) = Some []
  | PriorityFrame _ p =>
      read "E" text = Some (p_exclusive p) /\ read "Stream Dependency" text = Some (p_dependency p) /\
      read "Weight" text = Some (p_weight p)
  | PushPromiseFrame _ _ p => read "R" text = Some (pp_reserved p) /\ read "Promised Stream ID" text = Some (pp_promised p)
  | GoawayFrame _ p => read "R" text = Some (g_reserved p) /\ read "Last-Stream-ID" text = Some (g_last_stream_id p)
  | WindowUpdateFrame _ r incr => read "R" text = Some r /\ read "Window size Increment" text = Some incr
  | _ => True
  end.
Proof.
  intros m hex f text hex' H. destruct (dump_body _ _ _ _ _ H) as (body & T & B).
  pose proof (fun name => read_body name m hex f text hex' body H T) as R. clear H T. unfold read.
  destruct f; try exact I.
  - destruct B as (pad & rest & P & ->). rewrite !R by reflexivity. rewrite cut_number by reflexivity. step. rewrite number_digits.
    destruct (has_padded (fh_flags h)); [rewrite P; reflexivity|rewrite P; reflexivity].
  - destruct B as (x & _ & ->). rewrite !R by reflexivity. unfold dump_priority_option. rewrite priority_flag.
    destruct (has_priority (fh_flags h)); rewrite <- !app_assoc.
    + rewrite !cut_number by reflexivity. repeat split; repeat step; apply number_digits.
    + cbn [app]. rewrite (cut_const "  Exclusive: "), (cut_const "  Stream Dependency: "), (cut_const "  Weight: ") by reflexivity.
      repeat split; repeat (erewrite entry_blank by reflexivity; cbn [same trim octets]; try reflexivity).
  - subst body. rewrite !R by reflexivity. rewrite !cut_number, cut_last by reflexivity. repeat split; repeat step; apply number_digits.
  - destruct B as (x & _ & ->). rewrite !R by reflexivity. rewrite !cut_number by reflexivity. repeat split; repeat step; apply number_digits.
  - destruct B as (x & ->). rewrite !R by reflexivity. rewrite !cut_number by reflexivity. repeat split; repeat step; apply number_digits.
  - subst body. rewrite !R by reflexivity. rewrite !cut_number, cut_last by reflexivity. repeat split; repeat step; apply number_digits.
Qed.

(* ---- octets in hexadecimal ---- *)

Definition visible (c : N) : bool := negb (c =? 10).

Lemma concat_lines : forall x, concat (lines x) = filter visible x.
Proof.
  induction x as [|c x IH]; cbn [lines filter]; [reflexivity|]. unfold visible at 1. destruct (c =? 10); cbn [negb].
  - cbn [concat app]. exact IH.
  - destruct (lines x) as [|l ls] eqn:L.
    + destruct x as [|d x]; cbn in L; [discriminate L|]. destruct (d =? 10); [discriminate L|]. destruct (lines x); discriminate L.
    + cbn [concat app] in *. rewrite <- IH. reflexivity.
Qed.

Lemma hex2_read : forallb (fun b => match put_hex2 b with
  | [c; d] => match hex_digit c, hex_digit d with
    | Some x, Some y => (16 * x + y =? b) && negb (c =? 32) && visible c && visible d
    | _, _ => false end
  | _ => false end) (map N.of_nat (seq 0 256)) = true.
Proof. vm_compute. reflexivity. Qed.

Lemma hex2_pair : forall b, b < 256 -> exists c d x y, put_hex2 b = [c; d] /\ hex_digit c = Some x /\ hex_digit d = Some y /\
  16 * x + y = b /\ (c =? 32) = false /\ visible c = true /\ visible d = true.
Proof.
  intros b H. pose proof hex2_read as A. rewrite forallb_forall in A. specialize (A b).
  assert (I : In b (map N.of_nat (seq 0 256))) by (rewrite <- (N2Nat.id b); apply in_map; apply in_seq; lia).
  apply A in I. clear A. destruct (put_hex2 b) as [|c [|d [|e l]]]; try discriminate I.
  destruct (hex_digit c) as [x|] eqn:X; [|discriminate I]. destruct (hex_digit d) as [y|] eqn:Y; [|discriminate I].
  apply andb_true_iff in I. destruct I as [I V]. apply andb_true_iff in I. destruct I as [I U]. apply andb_true_iff in I. destruct I as [I S].
  apply N.eqb_eq in I. apply negb_true_iff in S. exists c, d, x, y. auto 10.
Qed.

Lemma hex_blank : forall p r, forallb (fun c => (c =? 32) || (c =? 10)) p = true ->
  hex_octets (filter visible (p ++ r)) = hex_octets (filter visible r).
Proof.
  induction p as [|c p IH]; intros r H; [reflexivity|]. cbn [forallb] in H. apply andb_true_iff in H. destruct H as [C H].
  cbn [app filter]. unfold visible at 1. destruct (N.eqb_spec c 10); cbn [negb]; [apply IH, H|].
  rewrite orb_false_r in C. cbn [hex_octets]. rewrite C. apply IH, H.
Qed.

Lemma hex_text : forall lb l n r, forallb (fun c => (c =? 32) || (c =? 10)) lb = true -> is_octets l ->
  hex_octets (filter visible r) = Some [] -> hex_octets (filter visible (dump_hex lb n l ++ r)) = Some l.
Proof.
  intros lb l. induction l as [|b l IH]; intros n r LB O R; cbn [dump_hex]; [exact R|].
  destruct (hex2_pair b) as (c & d & x & y & P & X & Y & E & S & V & W); [apply O; left; reflexivity|].
  rewrite P, <- !app_assoc. cbn [app filter]. rewrite V, W. cbn [hex_octets]. rewrite S, X, Y.
  rewrite hex_blank by (destruct ((n + 1) mod 8 =? 0); [exact LB|reflexivity]).
  rewrite (IH (n + 1) r LB (fun z I => O z (or_intror I)) R), E. reflexivity.
Qed.

Lemma payload_body : forall f body,
  behind (octets "[PAYLOAD]") (str (title f) :: header_lines (frame_fh f) ++ str "[PAYLOAD]" :: lines body) = lines body.
Proof. intros f body. destruct f; reflexivity. Qed.

(* The octets of a PING frame and of a frame that is not interpreted. *)
Theorem C98_octets : forall m hex f text hex', dump m hex f = Ok (text, hex') ->
  match f with
  | PingFrame _ d | RawFrame _ d => is_octets d -> hex_octets (concat (payload_lines text)) = Some d
  | _ => True
  end.
Proof.
  intros m hex f text hex' H. destruct (dump_body _ _ _ _ _ H) as (body & T & B). destruct f; try exact I; intros O; subst body;
    rewrite T; unfold payload_lines; rewrite head_lines, payload_body, concat_lines; apply hex_text; try reflexivity; exact O.
Qed.

(* Eight octets stand on a line. *)
Lemma hex_app : forall lb l n r, dump_hex lb n (l ++ r) = dump_hex lb n l ++ dump_hex lb (n + size l) r.
Proof.
  intros lb l. induction l as [|b l IH]; intros n r; cbn [app dump_hex].
  - change (size (@nil N)) with 0. rewrite N.add_0_r. reflexivity.
  - rewrite IH, size_cons, <- !app_assoc. replace (n + 1 + size l) with (n + (size l + 1)) by lia. reflexivity.
Qed.

Lemma hex_short : forall lb l n, is_octets l -> n mod 8 + size l < 8 ->
  hex_octets (dump_hex lb n l) = Some l /\ ~ In 10 (dump_hex lb n l) /\
  (forall r, hex_octets (dump_hex lb n l ++ r) = match hex_octets r with Some y => Some (l ++ y) | None => None end).
Proof.
  intros lb l. induction l as [|b l IH]; intros n O L; cbn [dump_hex].
  - split; [reflexivity|]. split; [intros []|]. intros r. cbn [app]. destruct (hex_octets r); reflexivity.
  - rewrite size_cons in L. destruct (hex2_pair b) as (c & d & x & y & P & X & Y & E & S & V & W); [apply O; left; reflexivity|].
    destruct (N.eqb_spec ((n + 1) mod 8) 0) as [Z|_]; [exfalso; clear - Z L; lia|].
    destruct (IH (n + 1) (fun z I => O z (or_intror I)) ltac:(clear - L; lia)) as (I1 & I2 & I3).
    rewrite P. change (str " ") with [32]. cbn [app hex_octets]. rewrite S, X, Y.
    change (32 =? 32) with true. cbv iota. rewrite I1, E. split; [reflexivity|]. split.
    + unfold visible in V, W. intros [Q|[Q|[Q|Q]]]; [rewrite Q in V; discriminate V|rewrite Q in W; discriminate W|discriminate Q|exact (I2 Q)].
    + intros r. rewrite I3. destruct (hex_octets r); reflexivity.
Qed.

Lemma hex_rows : forall m l n, (length l <= m)%nat -> n mod 8 = 0 -> is_octets l ->
  forall k row, nth_error (lines (dump_hex nl n l ++ nl)) k = Some row -> hex_octets row = Some (firstn 8 (skipn (8 * k) l)).
Proof.
  induction m as [m IH] using lt_wf_ind. intros l n L Z O k row R.
  destruct (Nat.lt_ge_cases (length l) 8) as [G|G].
  - destruct (hex_short nl l n O ltac:(unfold size; clear - G Z; lia)) as (H & NI & _).
    unfold nl in R at 2. change (str "
") with [10] in R. rewrite lines_cut in R by exact NI. destruct k as [|k].
    + cbn in R. injection R as <-. rewrite H, firstn_all2 by (clear - G; cbn; lia). reflexivity.
    + rewrite skipn_all2 by (clear - G; lia). destruct k as [|k]; cbn in R; [injection R as <-; reflexivity|].
      destruct k; discriminate R.
  - destruct (skipn 7 l) as [|b l'] eqn:T; [exfalso; assert (X : length (skipn 7 l) = 0%nat) by (rewrite T; reflexivity); rewrite skipn_length in X; clear - X G; lia|].
    pose proof (firstn_skipn 7 l) as F. rewrite T in F. assert (LA : length (firstn 7 l) = 7%nat) by (rewrite firstn_length; clear - G; lia).
    set (a := firstn 7 l) in *. rewrite <- F in *. clear T F. clearbody a.
    assert (OA : is_octets a) by (intros z I; apply O; apply in_or_app; left; exact I).
    assert (OB : b < 256) by (apply O; apply in_or_app; right; left; reflexivity).
    assert (OL : is_octets l') by (intros z I; apply O; apply in_or_app; right; right; exact I).
    destruct (hex_short nl a n OA ltac:(unfold size; rewrite LA; clear - Z; lia)) as (_ & NI & H).
    destruct (hex2_pair b OB) as (c & d & x & y & P & X & Y & E & S & V & W).
    rewrite hex_app in R. cbn [dump_hex] in R. assert (SA : size a = 7) by (unfold size; rewrite LA; reflexivity). rewrite SA, P in R.
    destruct (N.eqb_spec ((n + 7 + 1) mod 8) 0) as [_|Q]; [|exfalso; clear - Q Z; lia].
    replace ((dump_hex nl n a ++ [c; d] ++ nl ++ dump_hex nl (n + 7 + 1) l') ++ nl) with
      ((dump_hex nl n a ++ [c; d]) ++ 10 :: (dump_hex nl (n + 7 + 1) l' ++ nl)) in R
      by (rewrite <- !app_assoc; reflexivity).
    rewrite lines_cut in R.
    2:{ intros I. apply in_app_or in I. unfold visible in V, W. destruct I as [I|[Q|[Q|[]]]]; [exact (NI I)|rewrite Q in V; discriminate V|rewrite Q in W; discriminate W]. }
    destruct k as [|k]; cbn [nth_error] in R.
    + injection R as <-. rewrite H. cbn [hex_octets]. rewrite S, X, Y, E.
      change (8 * 0)%nat with 0%nat. cbn [skipn].
      rewrite firstn_app, LA. rewrite firstn_all2 by (rewrite LA; auto). reflexivity.
    + assert (LL : length (a ++ b :: l') = (8 + length l')%nat) by (rewrite app_length, LA; reflexivity).
      assert (N8 : (n + 7 + 1) mod 8 = 0) by (clear - Z; lia).
      assert (B1 : (length l' < m)%nat) by (clear - LL L; lia).
      rewrite (IH (length l') B1 l' (n + 7 + 1) (le_n _) N8 OL k row R).
      f_equal. f_equal. replace (8 * Datatypes.S k)%nat with (8 + 8 * k)%nat by lia.
      rewrite skipn_app, LA. rewrite (skipn_all2 a) by (rewrite LA; lia).
      replace (8 + 8 * k - 7)%nat with (Datatypes.S (8 * k)) by lia. reflexivity.
Qed.

Theorem C98_eight_a_line : forall m hex f text hex', dump m hex f = Ok (text, hex') ->
  match f with
  | PingFrame _ d | RawFrame _ d => is_octets d ->
      forall k row, nth_error (payload_lines text) k = Some row -> hex_octets row = Some (firstn 8 (skipn (8 * k) d))
  | _ => True
  end.
Proof.
  intros m hex f text hex' H. destruct (dump_body _ _ _ _ _ H) as (body & T & B). destruct f; try exact I; intros O k row R; subst body;
    rewrite T in R; unfold payload_lines in R; rewrite head_lines, payload_body in R;
    (eapply hex_rows; [apply le_n| |exact O|exact R]); reflexivity.
Qed.

(* ---- header blocks ---- *)

Definition no_line_feed (e : hentry) : Prop :=
  match e_content e with EHeader h => ~ In 10 (fst h) /\ ~ In 10 (snd h) | ESize _ => True end.

(* A line of the block shows an entry. *)
Definition shows_entry (e : hentry) (l : list N) : Prop :=
  match e_content e with
  | EHeader h => l = fst h ++ octets ": " ++ snd h
  | ESize k => exists ds, number ds = Some k /\ l = ds ++ octets " (dynamic table size update)"
  end.

Lemma entry_coherent : forall e x, dump_entry e = Ok x -> coherent e.
Proof.
  intros [p c] x H. unfold dump_entry, coherent in *. cbn [e_prefix e_content] in *.
  destruct p, c; cbn in H; try discriminate H; exact I.
Qed.

Lemma entries_lines : forall b x r, dump_entries b = Ok x -> Forall no_line_feed b ->
  exists ls, lines (x ++ r) = map (fun l => str "    " ++ l) ls ++ lines r /\ Forall2 shows_entry b ls.
Proof.
  induction b as [|e b IH]; intros x r H F; cbn [dump_entries] in H.
  - injection H as <-. exists []. split; [reflexivity|constructor].
  - apply bind_ok in H. destruct H as (y & E & H). apply bind_ok in H. destruct H as (z & Z & H). injection H as <-.
    pose proof (entry_coherent e y E) as C. rewrite (dump_entry_text e C) in E. apply Ok_inj in E. subst y.
    inversion F as [|? ? FE FB]; subst. destruct (IH z r Z FB) as (ls & L & S). exists (entry_text e :: ls). split.
    + transitivity (lines ((str "    " ++ entry_text e) ++ 10 :: (z ++ r))); [rewrite <- !app_assoc; reflexivity|].
      rewrite lines_cut; [rewrite L; reflexivity|]. intros K. apply in_app_or in K. destruct K as [K|K]; [revert K; apply no_lf_not_in; reflexivity|].
      unfold entry_text, no_line_feed in *. destruct (e_content e) as [h|k].
      * destruct FE as [A B]. apply in_app_or in K. destruct K as [K|[K|[K|K]]]; try discriminate K; auto.
      * revert K. apply no_lf_not_in, no_lf_app; [apply no_lf_string|reflexivity].
    + constructor; [|exact S]. unfold shows_entry, entry_text. destruct (e_content e); [reflexivity|].
      eexists. split; [apply number_digits|reflexivity].
Qed.

Lemma indented_map : forall ls r, indented (map (fun l => str "    " ++ l) ls ++ r) = ls ++ indented r.
Proof. induction ls as [|l ls IH]; intros r; [reflexivity|]. cbn [map app]. cbn. f_equal. apply IH. Qed.

Lemma behind_map : forall ls r, behind (octets "  Padding:") (map (fun l => str "    " ++ l) ls ++ r) = behind (octets "  Padding:") r.
Proof. induction ls as [|l ls IH]; intros r; [reflexivity|]. apply IH. Qed.

Lemma padding_text : forall flags padding, is_octets padding ->
  exists r, lines (dump_padding flags padding) = str "  Padding:" :: r /\
  hex_octets (concat r) = Some (if has_padded flags then padding else []).
Proof.
  intros flags padding O. unfold dump_padding. rewrite padded_flag. destruct (has_padded flags).
  - eexists. split; [apply cut_const; reflexivity|]. rewrite concat_lines, hex_blank by reflexivity. apply hex_text; [reflexivity|exact O|reflexivity].
  - eexists. split; [apply cut_const; reflexivity|]. reflexivity.
Qed.

(* Every field of a header block stands on its own line, in order, and the
   padding behind them, if names and values contain no line feed. *)
Theorem C98_block_partial : forall m hex f text hex', dump m hex f = Ok (text, hex') ->
  match f with
  | HeadersFrame _ h padding _ b => Forall no_line_feed b -> is_octets padding ->
      Forall2 shows_entry b (block_lines text) /\ hex_octets (concat (padding_lines text)) = Some (if has_padded (fh_flags h) then padding else [])
  | PushPromiseFrame _ h p => Forall no_line_feed (pp_block p) -> is_octets (pp_padding p) ->
      Forall2 shows_entry (pp_block p) (block_lines text) /\
      hex_octets (concat (padding_lines text)) = Some (if has_padded (fh_flags h) then pp_padding p else [])
  | ContinuationFrame _ _ b => Forall no_line_feed b -> Forall2 shows_entry b (block_lines text)
  | _ => True
  end.
Proof.
  intros m hex f text hex' H. destruct (dump_body _ _ _ _ _ H) as (body & T & B). destruct f; try exact I.
  - intros F O. destruct B as (x & X & ->). destruct (padding_text (fh_flags h) padding O) as (r & PL & PR).
    destruct (entries_lines _ _ (dump_padding (fh_flags h) padding) X F) as (ls & L & S).
    unfold block_lines, padding_lines. rewrite T, head_lines. unfold dump_priority_option.
    destruct (is_flag_set (fh_flags h) F_PRIORITY); rewrite <- !app_assoc.
    + rewrite !cut_number by reflexivity. rewrite cut_const by reflexivity. rewrite L, PL. split.
      * match goal with |- Forall2 _ _ (indented ?y) => change y with (map (fun l => str "    " ++ l) ls ++ str "  Padding:" :: r) end.
        rewrite indented_map. cbn [indented str]. rewrite app_nil_r. exact S.
      * match goal with |- hex_octets (concat (behind ?p ?y)) = _ => change (behind p y) with (behind p (map (fun l => str "    " ++ l) ls ++ str "  Padding:" :: r)) end.
        rewrite behind_map. exact PR.
    + cbn [app]. rewrite (cut_const "  Exclusive: "), (cut_const "  Stream Dependency: "), (cut_const "  Weight: "), cut_const by reflexivity.
      rewrite L, PL. split.
      * match goal with |- Forall2 _ _ (indented ?y) => change y with (map (fun l => str "    " ++ l) ls ++ str "  Padding:" :: r) end.
        rewrite indented_map. cbn [indented str]. rewrite app_nil_r. exact S.
      * match goal with |- hex_octets (concat (behind ?p ?y)) = _ => change (behind p y) with (behind p (map (fun l => str "    " ++ l) ls ++ str "  Padding:" :: r)) end.
        rewrite behind_map. exact PR.
  - intros F O. destruct B as (x & X & ->). destruct (padding_text (fh_flags h) (pp_padding p) O) as (r & PL & PR).
    destruct (entries_lines _ _ (dump_padding (fh_flags h) (pp_padding p)) X F) as (ls & L & S).
    unfold block_lines, padding_lines. rewrite T, head_lines. rewrite !cut_number by reflexivity. rewrite cut_const by reflexivity. rewrite L, PL. split.
    + match goal with |- Forall2 _ _ (indented ?y) => change y with (map (fun l => str "    " ++ l) ls ++ str "  Padding:" :: r) end.
      rewrite indented_map. cbn [indented str]. rewrite app_nil_r. exact S.
    + match goal with |- hex_octets (concat (behind ?p ?y)) = _ => change (behind p y) with (behind p (map (fun l => str "    " ++ l) ls ++ str "  Padding:" :: r)) end.
      rewrite behind_map. exact PR.
  - intros F. destruct B as (x & X & ->). destruct (entries_lines _ _ [] X F) as (ls & L & S). rewrite app_nil_r in L.
    unfold block_lines. rewrite T, head_lines, cut_const by reflexivity. rewrite L.
    match goal with |- Forall2 _ _ (indented ?y) => change y with (map (fun l => str "    " ++ l) ls ++ [[]]) end.
    rewrite indented_map. cbn [indented]. rewrite app_nil_r. exact S.
Qed.

(* A line feed in a value adds a line that shows a field that does not exist. *)
Theorem C98_line_feed_refuted : exists m hex f text hex' b h, f = ContinuationFrame b h [HEntry WithoutIndexing (EHeader (octets "a", octets "b" ++ [10] ++ octets "    c: d"))] /\
  dump m hex f = Ok (text, hex') /\ block_lines text = [octets "a: b"; octets "c: d"].
Proof.
  exists Strict, false. eexists. eexists. eexists. exists [], (FH 0 9 0 0 1). split; [reflexivity|]. split; [reflexivity|]. vm_compute. reflexivity.
Qed.

(* ---- DATA ---- *)

Lemma lines_prefix : forall p y l ls, no_lf p = true -> lines y = l :: ls -> lines (p ++ y) = (p ++ l) :: ls.
Proof.
  induction p as [|c p IH]; intros y l ls F E; [exact E|]. cbn [no_lf forallb] in F. apply andb_true_iff in F. destruct F as [C F].
  apply negb_true_iff in C. cbn [app lines]. rewrite C, (IH y l ls F E). reflexivity.
Qed.

Lemma indent_lines : forall d r, exists l ls, lines d = l :: ls /\
  lines (indent d ++ nl ++ r) = l :: map (fun l => str "    " ++ l) ls ++ lines r.
Proof.
  induction d as [|c d IH]; intros r; cbn [indent].
  - exists [], []. split; reflexivity.
  - destruct (IH r) as (l & ls & A & B). cbn [lines]. rewrite A. destruct (N.eqb_spec c 10) as [->|NE].
    + exists [], (l :: ls). split; [reflexivity|]. cbn [app lines N.eqb Pos.eqb]. f_equal. cbn [map app].
      assert (X : lines (str "    " ++ (indent d ++ nl ++ r)) = (str "    " ++ l) :: map (fun l => str "    " ++ l) ls ++ lines r).
      { apply (lines_prefix (str "    ")); [reflexivity|exact B]. }
      exact X.
    + exists (c :: l), ls. split; [reflexivity|]. cbn [app lines]. destruct (N.eqb_spec c 10); [contradiction|]. rewrite B. reflexivity.
Qed.

Lemma behind_data : forall ls r, behind (octets "  Padding   : ") (map (fun l => str "    " ++ l) ls ++ r) = behind (octets "  Padding   : ") r.
Proof. induction ls as [|l ls IH]; intros r; [reflexivity|]. apply IH. Qed.

(* The data of a received DATA frame, line by line, and its padding, whatever
   they contain. *)
Theorem C98_data : forall m hex h t contents padding, fh_type h = DATA ->
  let payload := padded_payload (has_padded (fh_flags h)) contents padding in
  is_octets payload -> size payload < 2 ^ 32 -> (m = Strict -> contents <> []) ->
  exists f text hex', build_frame m h payload t = Ok f /\ dump m hex f = Ok (text, hex') /\
    indented (behind (octets "  Data      : ") (lines text)) = lines contents /\
    hex_octets (concat (behind (octets "  Padding   : ") (lines text))) = Some (if has_padded (fh_flags h) then padding else []).
Proof.
  intros m hex h t contents padding T payload O L NE. destruct (C56_data_text m hex h t contents padding T L NE) as (f & B & D).
  eexists f, _, _. split; [exact B|]. split; [exact D|]. clear B D f. unfold data_text.
  set (padding' := if has_padded (fh_flags h) then padding else []).
  assert (OP : is_octets padding').
  { intros c I. apply O. unfold padding', payload in *. destruct (has_padded (fh_flags h)); [|destruct I]. cbn [padded_payload]. rewrite ?app_assoc. apply in_or_app. right. exact I. }
  match goal with |- context [dump_fh ?y] => set (g := y) end.
  match goal with |- context [str "[PAYLOAD]" ++ nl ++ ?y] => set (body := y) end.
  pose proof (head_lines (DataFrame g []) body) as HL. cbn [title frame_fh] in HL. rewrite HL. subst body.
  rewrite cut_number, cut_const by reflexivity.
  destruct (indent_lines contents (str "  Padding   : " ++ nl ++ dump_hex (nl ++ str "              ") 0 padding' ++ nl)) as (l & ls & A & IL).
  assert (X : lines (str "    " ++ indent contents ++ nl ++ str "  Padding   : " ++ nl ++ dump_hex (nl ++ str "              ") 0 padding' ++ nl) =
    map (fun l => str "    " ++ l) (l :: ls) ++ str "  Padding   : " :: lines (dump_hex (nl ++ str "              ") 0 padding' ++ nl)).
  { rewrite (lines_prefix (str "    ") _ l (map (fun l => str "    " ++ l) ls ++ lines (str "  Padding   : " ++ nl ++ dump_hex (nl ++ str "              ") 0 padding' ++ nl)) eq_refl IL).
    rewrite cut_const by reflexivity. reflexivity. }
  rewrite X. split.
  - match goal with |- indented ?y = _ => change y with (map (fun l => str "    " ++ l) (l :: ls) ++ str "  Padding   : " :: lines (dump_hex (nl ++ str "              ") 0 padding' ++ nl)) end.
    rewrite indented_map. cbn [indented str]. rewrite app_nil_r. symmetry. exact A.
  - match goal with |- hex_octets (concat (behind ?p ?y)) = _ => change (behind p y) with (behind p (map (fun l => str "    " ++ l) (l :: ls) ++ str "  Padding   : " :: lines (dump_hex (nl ++ str "              ") 0 padding' ++ nl))) end.
    rewrite behind_data. match goal with |- hex_octets (concat ?y) = _ => change y with (lines (dump_hex (nl ++ str "              ") 0 padding' ++ nl)) end.
    rewrite concat_lines. apply hex_text; [reflexivity|exact OP|reflexivity].
Qed.

(* ---- the title ---- *)

Definition titled (name : string) (text : list N) : Prop :=
  hd_error (lines text) = Some (octets "=== " ++ octets name ++ octets " FRAME ===").

Lemma build_class : forall m h raw t f, build_frame m h raw t = Ok f -> (exists g p, f = RawFrame g p) \/
  exists name, type_name (fh_type h) = Some name /\
    str (title f) = octets "=== " ++ octets (if fh_type h =? PING then "PING_STREAM" else name) ++ octets " FRAME ===".
Proof.
  intros m h raw t f H. unfold build_frame in H.
  repeat match type of H with (if fh_type h =? ?k then _ else _) = _ => destruct (N.eqb_spec (fh_type h) k) as [E|_]; [rewrite E|] end; [..|discriminate H].
  - injection H as <-. right. eexists. split; reflexivity.
  - unfold build_headers_frame in H. destruct (parse_headers m h raw t) as [g|x|u|] eqn:P; try discriminate H; injection H as <-; [right|left; eauto].
    unfold parse_headers in P. apply bind_ok in P. destruct P as ([[? ?] ?] & _ & P). injection P as <-. eexists. split; reflexivity.
  - right. unfold parse_priority in H. repeat (apply bind_ok in H; let y := fresh "y" in destruct H as (y & _ & H)). injection H as <-. eexists. split; reflexivity.
  - right. unfold parse_rst_stream in H. destruct (size raw <? 4); [discriminate H|]. repeat (apply bind_ok in H; let y := fresh "y" in destruct H as (y & _ & H)). injection H as <-. eexists. split; reflexivity.
  - right. unfold build_settings_frame in H. repeat (apply bind_ok in H; let y := fresh "y" in destruct H as (y & _ & H)). injection H as <-. eexists. split; reflexivity.
  - right. unfold parse_push_promise in H. repeat (apply bind_ok in H; let y := fresh "y" in destruct H as (y & _ & H)). injection H as <-. eexists. split; reflexivity.
  - right. unfold parse_ping in H. repeat (apply bind_ok in H; let y := fresh "y" in destruct H as (y & _ & H)). injection H as <-. eexists. split; reflexivity.
  - right. unfold parse_goaway in H. repeat (apply bind_ok in H; let y := fresh "y" in destruct H as (y & _ & H)). injection H as <-. eexists. split; reflexivity.
  - right. unfold parse_window_update in H. repeat (apply bind_ok in H; let y := fresh "y" in destruct H as (y & _ & H)). injection H as <-. eexists. split; reflexivity.
  - right. unfold parse_continuation in H. repeat (apply bind_ok in H; let y := fresh "y" in destruct H as (y & _ & H)). injection H as <-. eexists. split; reflexivity.
Qed.

(* The first line names the type of a received frame; a frame that could not be
   interpreted is called generic. *)
Theorem C98_title_partial : forall m hex h raw t f text hex', build_frame m h raw t = Ok f -> dump m hex f = Ok (text, hex') ->
  fh_type h <> PING ->
  match f with
  | RawFrame _ _ => hd_error (lines text) = Some (octets "=== GENERIC FRAME (unimplemented) ===")
  | _ => exists name, type_name (fh_type h) = Some name /\ titled name text
  end.
Proof.
  intros m hex h raw t f text hex' B D NP. apply dump_head in D. destruct D as [body ->]. unfold titled. rewrite title_line. cbn [hd_error].
  destruct (build_class m h raw t f B) as [(g & p & ->)|(name & N & T)]; [reflexivity|].
  destruct (N.eqb_spec (fh_type h) PING); [contradiction|]. rewrite T.
  destruct f; try (exists name; split; [exact N|reflexivity]). exfalso. cbn [title] in T.
  unfold type_name in N. destruct (N.to_nat (fh_type h)) as [|[|[|[|[|[|[|[|[|[|k]]]]]]]]]]; cbn [nth_error type_names] in N;
    try (injection N as <-; vm_compute in T; discriminate T). destruct k; discriminate N.
Qed.

Theorem C98_ping_title_refuted : forall m hex h raw t f text hex', build_frame m h raw t = Ok f -> dump m hex f = Ok (text, hex') ->
  fh_type h = PING -> type_name (fh_type h) = Some "PING" /\ titled "PING_STREAM" text /\ ~ titled "PING" text.
Proof.
  intros m hex h raw t f text hex' B D P. rewrite P. split; [reflexivity|].
  assert (C : exists g d, f = PingFrame g d).
  { unfold build_frame in B. rewrite P in B. change (parse_ping h raw = Ok f) in B. unfold parse_ping in B.
    repeat (apply bind_ok in B; let y := fresh "y" in destruct B as (y & _ & B)). injection B as <-. eauto. }
  destruct C as (g & d & ->). apply dump_head in D. destruct D as [body ->]. unfold titled. rewrite title_line. split; [reflexivity|discriminate].
Qed.

(* ---- debug data ---- *)

Lemma name_no_lf : forall l k s, forallb (fun p => no_lf (str (snd p))) l = true -> name_at l k = Ok s -> no_lf s = true.
Proof.
  induction l as [|[k' n] l IH]; intros k s F H; cbn [name_at] in H; [discriminate H|]. cbn [forallb snd] in F. apply andb_true_iff in F. destruct F as [A F].
  destruct (k =? k'); [apply Ok_inj in H; subst s; exact A|]. eapply IH; eassumption.
Qed.

Lemma error_text : forall code y, dump_error_code code = Ok y -> exists z, y = str "  Error Code: " ++ z ++ nl /\ no_lf z = true.
Proof.
  intros code y H. unfold dump_error_code in H. destruct (code <? UNKNOWN_ERROR); apply bind_ok in H; destruct H as (s & S & H);
    apply name_no_lf in S; try reflexivity; apply Ok_inj in H; subst y.
  - exists s. split; [reflexivity|exact S].
  - exists (s ++ str "(" ++ to_string code ++ str ")"). split; [rewrite <- !app_assoc; reflexivity|].
    repeat apply no_lf_app; try reflexivity; [exact S|apply no_lf_string].
Qed.

Lemma c_string_prefix : forall d rest, ~ In 0 d -> put_c_string (d ++ 0 :: rest) = Ok d.
Proof.
  induction d as [|c d IH]; intros rest N; cbn [app put_c_string]; [reflexivity|].
  destruct (N.eqb_spec c 0) as [->|_]; [destruct N; left; reflexivity|]. rewrite IH by (intros I; apply N; right; exact I). reflexivity.
Qed.

(* The debug data of GOAWAY, up to the first zero octet and without leading
   spaces, if there is no line feed in it. *)
Theorem C98_debug_partial : forall m hex h p text hex' d, dump m hex (GoawayFrame h p) = Ok (text, hex') ->
  (g_debug p = [] /\ d = []) \/ (exists rest, g_debug p = d ++ 0 :: rest /\ ~ In 0 d) -> ~ In 10 d ->
  entry (octets "Additional Debug Data") (lines text) = Some (trim_left d).
Proof.
  intros m hex h p text hex' d H P L. pose proof H as H0. cbn [dump] in H.
  apply bind_ok in H. destruct H as (y & E & H). apply bind_ok in H. destruct H as (z & Z & H). apply ok_pair in H. destruct H as [<- _].
  destruct (error_text _ _ E) as (e & -> & NE).
  assert (D : z = d).
  { destruct P as [[P ->]|(rest & P & N)]; rewrite P in Z; [cbn in Z; injection Z as <-; reflexivity|].
    rewrite c_string_prefix in Z by exact N. destruct (size (d ++ 0 :: rest) =? 0) eqn:S; [|apply Ok_inj in Z; symmetry; exact Z].
    apply N.eqb_eq in S. unfold size in S. rewrite app_length in S. cbn in S. lia. }
  subst z. rewrite <- !app_assoc in H0 |- *.
  erewrite (read_body "Additional Debug Data" m hex (GoawayFrame h p)); [|exact H0|cbn [title frame_fh]; reflexivity|reflexivity].
  rewrite !cut_number by reflexivity. step. step.
  replace (lines (str "  Error Code: " ++ e ++ nl ++ str "  Additional Debug Data: " ++ d ++ nl))
    with ((str "  Error Code: " ++ e) :: (str "  Additional Debug Data: " ++ d) :: [[]]).
  - cbn [entry]. erewrite !split_app by reflexivity. reflexivity.
  - transitivity (lines ((str "  Error Code: " ++ e) ++ 10 :: (str "  Additional Debug Data: " ++ d) ++ [10])); [|rewrite <- !app_assoc; reflexivity].
    rewrite lines_cut by (apply no_lf_not_in, no_lf_app; [reflexivity|exact NE]). f_equal. symmetry.
    apply (lines_cut _ []). intros I. apply in_app_or in I. destruct I as [I|I]; [revert I; apply no_lf_not_in; reflexivity|exact (L I)].
Qed.

(* ---- an example ---- *)

Example C98_case :
  let f := HeadersFrame [] (FH 22 HEADERS 44 0 5) [222; 173] (Prio 1 3 200)
             [HEntry Indexed (EHeader (octets ":status", octets "200")); HEntry SizeUpdate (ESize 64)] in
  exists text, dump Strict false f = Ok (text, true) /\ titled "HEADERS" text /\
    read "stream id" text = Some 5 /\ read "Weight" text = Some 200 /\
    block_lines text = [octets ":status: 200"; octets "64 (dynamic table size update)"] /\
    hex_octets (concat (padding_lines text)) = Some [222; 173] /\ Forall no_line_feed (block_of f).
Proof.
  cbv zeta. eexists. split; [reflexivity|]. repeat (split; [vm_compute; reflexivity|]).
  constructor; [split; vm_compute; intuition discriminate|]. constructor; [exact I|constructor].
Qed.
Example C98_data_case :
  exists f text, build_frame Strict (FH 8 DATA 9 0 1) [2; 97; 10; 10; 98; 58; 7; 9] default_table = Ok f /\
    dump Strict false f = Ok (text, true) /\
    indented (behind (octets "  Data      : ") (lines text)) = [octets "a"; []; octets "b:"] /\ read "Pad Length" text = Some 2.
Proof. do 2 eexists. split; [reflexivity|]. split; [reflexivity|]. split; vm_compute; reflexivity. Qed.

Print Assumptions C98_header.
Print Assumptions C98_payload.
Print Assumptions C98_octets.
Print Assumptions C98_eight_a_line.
Print Assumptions C98_block_partial.
Print Assumptions C98_line_feed_refuted.
Print Assumptions C98_data.
Print Assumptions C98_title_partial.
Print Assumptions C98_ping_title_refuted.
Print Assumptions C98_debug_partial.
