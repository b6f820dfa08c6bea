(* Property C107: running out of memory. *)
From Coq Require Import String.
From Coq Require Import ZArith NArith List Bool Lia ZifyBool ZifyNat ZifyN.
From Verif Require Import Base Arith Util HeaderType DynTable FrameHeader Frames FrameBuilder Ssl Client Memory
  SpecHpack SpecFrame DynTableProofs FrameProofs PropSsl PropClient PropEntry.
Import ListNotations.
Local Open Scope string_scope.
Local Open Scope list_scope.
Local Open Scope N_scope.
Ltac Zify.zify_post_hook ::= Z.div_mod_to_equations.

(* ---- specification ---- *)

(* What happens to a table: an insertion that succeeds, one whose allocation
   fails (the caller catches std::bad_alloc and goes on), a size update. *)
Inductive event := Inserted (h : header) | InsertFailed (h : header) | Resized (n : N).

(* The octets of the entries that could not be inserted. *)
Fixpoint lost (evs : list event) : N :=
  match evs with
  | [] => 0
  | InsertFailed h :: evs' => field_size h + lost evs'
  | _ :: evs' => lost evs'
  end.

(* A table of RFC 7541 that shrinks, for good, by the size of every entry that
   could not be inserted.  None: the event asks for more room than is left. *)
Fixpoint shrinking (gone : N) (t : table) (evs : list event) : option table :=
  match evs with
  | [] => Some t
  | Inserted h :: evs' => if field_size h <=? t_max t then shrinking gone (insert t h) evs' else None
  | InsertFailed h :: evs' =>
      if field_size h <=? t_max t then shrinking (gone + field_size h) (resize t (t_max t - field_size h)) evs' else None
  | Resized n :: evs' => if gone <=? n then shrinking gone (resize t (n - gone)) evs' else None
  end.

(* ---- the library ---- *)

(* The calls of a table, with std::bad_alloc caught. *)
Definition apply_event (t : dyn_table) (ev : event) : res dyn_table :=
  match ev with
  | Resized n => dt_update_size t n
  | Inserted h =>
      match dt_push_mem [true] t h with
      | (Returns r, t', _) => let* _ := r in Ok t'
      | (BadAlloc, t', _) => Ok t'
      end
  | InsertFailed h =>
      match dt_push_mem [false] t h with
      | (Returns r, t', _) => let* _ := r in Ok t'
      | (BadAlloc, t', _) => Ok t'
      end
  end.

Fixpoint run_events (t : dyn_table) (evs : list event) : res dyn_table :=
  match evs with
  | [] => Ok t
  | ev :: evs' => let* t' := apply_event t ev in run_events t' evs'
  end.

(* T keeps its books as if entries of gone octets were still there. *)
Definition holds (gone : N) (t : table) (T : dyn_table) : Prop :=
  dt_entries T = t_entries t /\ dt_size T = total_size (t_entries t) + gone /\ dt_max T = t_max t + gone /\
  total_size (t_entries t) <= t_max t.

Lemma holds_new : forall n, holds 0 (Table n []) (new_table n).
Proof. intros n. unfold holds, new_table. cbn. repeat split; lia. Qed.

Lemma ok_holds : forall T, dt_ok T -> holds 0 (rfc_table T) T.
Proof. intros T (S & M). unfold holds, rfc_table. cbn [t_entries t_max]. repeat split; lia. Qed.

Lemma holds_ok : forall t T, holds 0 t T -> dt_ok T /\ rfc_table T = t.
Proof.
  intros [mx es] T (E & S & M & L). cbn [t_entries t_max] in *. split; [split; rewrite ?E; lia|].
  unfold rfc_table. rewrite E, M, N.add_0_r. reflexivity.
Qed.

Lemma push_room : forall gone t T h, holds gone t T ->
  resize_table (dt_entries T) (dt_size T + entry_size h) (dt_max T) =
  if field_size h <=? t_max t then
    Ok (keep (t_max t - field_size h) (t_entries t), total_size (keep (t_max t - field_size h) (t_entries t)) + (gone + field_size h))
  else UB EmptyBack.
Proof.
  intros gone t T h (E & S & M & L). rewrite E, S, M, entry_size_eq, <- N.add_assoc, resize_table_spec.
  destruct (N.leb_spec (gone + field_size h) (t_max t + gone)), (N.leb_spec (field_size h) (t_max t)); try lia; [|reflexivity].
  replace (t_max t + gone - (gone + field_size h)) with (t_max t - field_size h) by lia. reflexivity.
Qed.

Lemma insert_room : forall t h, field_size h <= t_max t ->
  insert t h = Table (t_max t) (h :: keep (t_max t - field_size h) (t_entries t)).
Proof. intros t h L. unfold insert. cbn [keep]. destruct (N.leb_spec (field_size h) (t_max t)); [reflexivity|lia]. Qed.

Lemma push_holds : forall gone t T h mem, holds gone t T -> field_size h <= t_max t ->
  exists T', dt_push_mem (true :: mem) T h = (Returns (Ok tt), T', mem) /\ holds gone (insert t h) T'.
Proof.
  intros gone t T h mem H L. unfold dt_push_mem. rewrite (push_room _ _ _ h H).
  destruct (N.leb_spec (field_size h) (t_max t)); [|lia]. cbn [alloc]. eexists. split; [reflexivity|].
  rewrite insert_room by assumption. unfold holds. cbn [dt_entries dt_size dt_max t_entries t_max].
  destruct H as (E & S & M & B). pose proof (keep_le (t_entries t) (t_max t - field_size h)). rewrite total_cons. repeat split; lia.
Qed.

Lemma failed_holds : forall gone t T h mem, holds gone t T -> field_size h <= t_max t ->
  exists T', dt_push_mem (false :: mem) T h = (BadAlloc, T', mem) /\
    holds (gone + field_size h) (resize t (t_max t - field_size h)) T'.
Proof.
  intros gone t T h mem H L. unfold dt_push_mem. rewrite (push_room _ _ _ h H).
  destruct (N.leb_spec (field_size h) (t_max t)); [|lia]. cbn [alloc]. eexists. split; [reflexivity|].
  unfold holds, resize. cbn [dt_entries dt_size dt_max t_entries t_max].
  destruct H as (E & S & M & B). pose proof (keep_le (t_entries t) (t_max t - field_size h)). repeat split; lia.
Qed.

Lemma push_none : forall gone t T h mem, holds gone t T -> t_max t < field_size h ->
  dt_push_mem mem T h = (Returns (UB EmptyBack), T, mem).
Proof.
  intros gone t T h mem H L. unfold dt_push_mem. rewrite (push_room _ _ _ h H).
  destruct (N.leb_spec (field_size h) (t_max t)); [lia|]. reflexivity.
Qed.

Lemma resize_holds : forall gone t T n, holds gone t T -> gone <= n ->
  exists T', dt_update_size T n = Ok T' /\ holds gone (resize t (n - gone)) T'.
Proof.
  intros gone t T n (E & S & M & B) L. unfold dt_update_size. rewrite E, S, resize_table_spec.
  destruct (N.leb_spec gone n); [|lia]. cbn [bind]. eexists. split; [reflexivity|].
  unfold holds, resize. cbn [dt_entries dt_size dt_max t_entries t_max].
  pose proof (keep_le (t_entries t) (n - gone)). repeat split; lia.
Qed.

Lemma resize_none : forall gone t T n, holds gone t T -> n < gone -> dt_update_size T n = UB EmptyBack.
Proof.
  intros gone t T n (E & S & M & B) L. unfold dt_update_size. rewrite E, S, resize_table_spec.
  destruct (N.leb_spec gone n); [lia|]. reflexivity.
Qed.

Lemma events_exact : forall evs gone t T, holds gone t T ->
  match shrinking gone t evs with
  | Some t' => exists T', run_events T evs = Ok T' /\ holds (gone + lost evs) t' T'
  | None => run_events T evs = UB EmptyBack
  end.
Proof.
  induction evs as [|ev evs IH]; intros gone t T H.
  - cbn [shrinking run_events lost]. exists T. split; [reflexivity|]. rewrite N.add_0_r. exact H.
  - destruct ev as [h|h|n]; cbn [shrinking run_events lost apply_event].
    + destruct (N.leb_spec (field_size h) (t_max t)) as [L|L].
      * destruct (push_holds gone t T h [] H L) as (T' & P & H'). rewrite P. cbn [bind]. apply IH. exact H'.
      * rewrite (push_none _ _ _ h [true] H L). reflexivity.
    + destruct (N.leb_spec (field_size h) (t_max t)) as [L|L].
      * destruct (failed_holds gone t T h [] H L) as (T' & P & H'). rewrite P. cbn [bind].
        specialize (IH _ _ _ H'). rewrite N.add_assoc. exact IH.
      * rewrite (push_none _ _ _ h [false] H L). reflexivity.
    + destruct (N.leb_spec gone n) as [L|L].
      * destruct (resize_holds gone t T n H L) as (T' & P & H'). rewrite P. cbn [bind]. apply IH. exact H'.
      * rewrite (resize_none _ _ _ n H L). reflexivity.
Qed.

(* Every history of a table in which any of the insertions fails for want of
   memory: the table goes on like one of RFC 7541 whose maximum is smaller by the
   size of all the entries that were not inserted, or the call that asks for more
   room than that has undefined behaviour.  Nothing gives the room back. *)
Theorem C107_history_partial : forall initial evs,
  match shrinking 0 (Table initial []) evs with
  | Some t => exists T, run_events (new_table initial) evs = Ok T /\ dt_entries T = t_entries t /\
      dt_size T = total_size (dt_entries T) + lost evs /\ dt_max T = t_max t + lost evs
  | None => run_events (new_table initial) evs = UB EmptyBack
  end.
Proof.
  intros initial evs. pose proof (events_exact evs 0 _ _ (holds_new initial)) as X.
  destruct (shrinking 0 (Table initial []) evs) as [t|]; [|exact X].
  destruct X as (T & R & E & S & M & _). rewrite N.add_0_l in *. exists T. split; [exact R|]. split; [exact E|]. rewrite E. split; assumption.
Qed.

(* So after one failed insertion the books are wrong, and setting a size below
   what was lost, 0 for one, is undefined behaviour: at any later time, whatever
   has been done with the table meanwhile. *)
Theorem C107_books_refuted : forall initial evs h T, In (InsertFailed h) evs ->
  run_events (new_table initial) evs = Ok T ->
  total_size (dt_entries T) < dt_size T /\
  (forall n, dt_update_size T n = UB EmptyBack <-> n < lost evs) /\ field_size h <= lost evs.
Proof.
  intros initial evs h T I R. pose proof (events_exact evs 0 _ _ (holds_new initial)) as X.
  destruct (shrinking 0 (Table initial []) evs) as [t|]; [|rewrite R in X; discriminate X].
  destruct X as (T' & R' & H). rewrite R in R'. injection R' as <-. rewrite N.add_0_l in H.
  assert (F : field_size h <= lost evs).
  { clear -I. induction evs as [|ev evs IH]; [destruct I|]. destruct I as [->|I]; [cbn [lost]; lia|].
    specialize (IH I). destruct ev; cbn [lost]; lia. }
  pose proof (field_size_ge h). destruct H as (E & S & M & B). split; [rewrite E, S; lia|]. split; [|exact F].
  intros n. split.
  - intros U. destruct (N.ltb_spec n (lost evs)) as [L|L]; [exact L|exfalso].
    destruct (resize_holds (lost evs) t T n (conj E (conj S (conj M B))) L) as (T' & P & _). rewrite P in U. discriminate U.
  - intros L. apply (resize_none (lost evs) t T n (conj E (conj S (conj M B))) L).
Qed.

(* A server can bring that about: after one failed insertion into the response
   table, a SETTINGS frame with SETTINGS_HEADER_TABLE_SIZE 0. *)
Theorem C107_settings_refuted : forall m initial evs h T flags stream, In (InsertFailed h) evs ->
  run_events (new_table initial) evs = Ok T ->
  fst (handled m T (WFrame 4 flags 0 stream [0; 1; 0; 0; 0; 0])) = UB EmptyBack.
Proof.
  intros m initial evs h T flags stream I R. destruct (C107_books_refuted initial evs h T I R) as (_ & U & F).
  pose proof (field_size_ge h). unfold handled.
  change (build_frame m (header_of (WFrame 4 flags 0 stream [0; 1; 0; 0; 0; 0])) (w_payload (WFrame 4 flags 0 stream [0; 1; 0; 0; 0; 0])) T)
    with (Ok (SettingsFrame (FH 6 4 flags 0 stream) [(1, 0)])).
  unfold update_frame. cbn [frame_fh fh_type].
  change (4 =? T_HEADERS) with false. change (4 =? T_PUSH_PROMISE) with false. change (4 =? T_CONTINUATION) with false. change (4 =? T_SETTINGS) with true.
  cbv iota. change (sm_find [(1, 0)] 1) with (Some 0). cbv iota.
  assert (Z : dt_update_size T 0 = UB EmptyBack) by (apply U; lia). rewrite Z. reflexivity.
Qed.

(* ---- updating a table with a block ---- *)

(* What a block does whatever allocations fail: the entries before the first that
   cannot be applied take effect; if memory runs out while the header is copied,
   nothing else does; if it runs out while the entry is inserted, the room for the
   entry is gone. *)
Theorem C107_update_partial : forall mem b c, dt_ok (c_req c) ->
  exists r c', update_request_dynamic_table_mem mem c b = (r, c') /\ c_tls c' = c_tls c /\ c_resp c' = c_resp c /\
  exists applied rest, b = applied ++ rest /\ Forall (fun e => ~ mismatched e) applied /\
    let t := fold_left entry_effect applied (Table (dt_max (c_req c)) (dt_entries (c_req c))) in
    let t' := Table (dt_max (c_req c')) (dt_entries (c_req c')) in
    (rest = [] /\ r = Returns (Ok tt) /\ t' = t /\ dt_ok (c_req c')) \/
    exists e rest', rest = e :: rest' /\
      ((mismatched e /\ r = Returns (Throw RuntimeError) /\ t' = t /\ dt_ok (c_req c')) \/
       (oversized t e /\ r = Returns (UB EmptyBack) /\ t' = t /\ dt_ok (c_req c')) \/
       (r = BadAlloc /\ exists h, e = HEntry IncrementalIndexing (EHeader h) /\
          ((t' = t /\ dt_ok (c_req c')) \/
           (field_size h <= t_max t /\ dt_entries (c_req c') = t_entries (resize t (t_max t - field_size h)) /\
            dt_size (c_req c') = total_size (dt_entries (c_req c')) + field_size h /\ dt_max (c_req c') = t_max t)))).
Proof.
  intros mem b [s T resp] K. unfold update_request_dynamic_table_mem. cbn [c_req c_tls c_resp] in *.
  assert (G : exists r T', update_block_mem mem T b = (r, T') /\
    exists applied rest, b = applied ++ rest /\ Forall (fun e => ~ mismatched e) applied /\
    let t := fold_left entry_effect applied (rfc_table T) in
    (rest = [] /\ r = Returns (Ok tt) /\ rfc_table T' = t /\ dt_ok T') \/
    exists e rest', rest = e :: rest' /\
      ((mismatched e /\ r = Returns (Throw RuntimeError) /\ rfc_table T' = t /\ dt_ok T') \/
       (oversized t e /\ r = Returns (UB EmptyBack) /\ rfc_table T' = t /\ dt_ok T') \/
       (r = BadAlloc /\ exists h, e = HEntry IncrementalIndexing (EHeader h) /\
          ((rfc_table T' = t /\ dt_ok T') \/
           (field_size h <= t_max t /\ dt_entries T' = t_entries (resize t (t_max t - field_size h)) /\
            dt_size T' = total_size (dt_entries T') + field_size h /\ dt_max T' = t_max t))))).
  { revert mem T K. induction b as [|e b IH]; intros mem T K.
    - exists (Returns (Ok tt)), T. split; [reflexivity|]. exists [], []. split; [reflexivity|]. split; [constructor|].
      left. repeat (split; [reflexivity|]). exact K.
    - cbn [update_block_mem].
      assert (Step : forall T1 mem1, ~ mismatched e -> dt_ok T1 -> rfc_table T1 = entry_effect (rfc_table T) e ->
        exists r T', update_block_mem mem1 T1 b = (r, T') /\
        exists applied rest, e :: b = applied ++ rest /\ Forall (fun e => ~ mismatched e) applied /\
        let t := fold_left entry_effect applied (rfc_table T) in
        (rest = [] /\ r = Returns (Ok tt) /\ rfc_table T' = t /\ dt_ok T') \/
        exists e rest', rest = e :: rest' /\
          ((mismatched e /\ r = Returns (Throw RuntimeError) /\ rfc_table T' = t /\ dt_ok T') \/
           (oversized t e /\ r = Returns (UB EmptyBack) /\ rfc_table T' = t /\ dt_ok T') \/
           (r = BadAlloc /\ exists h, e = HEntry IncrementalIndexing (EHeader h) /\
              ((rfc_table T' = t /\ dt_ok T') \/
               (field_size h <= t_max t /\ dt_entries T' = t_entries (resize t (t_max t - field_size h)) /\
                dt_size T' = total_size (dt_entries T') + field_size h /\ dt_max T' = t_max t))))).
      { intros T1 mem1 NM K1 E1. destruct (IH mem1 T1 K1) as (r & T' & U & applied & rest & B & F & C).
        exists r, T'. split; [exact U|]. exists (e :: applied), rest. split; [cbn; f_equal; exact B|]. split; [constructor; assumption|].
        cbn [fold_left]. rewrite <- E1. exact C. }
      assert (Stop : forall r T' mem1, update_entry_mem mem T e = (r, T', mem1) -> r <> Returns (Ok tt) ->
        ((mismatched e /\ r = Returns (Throw RuntimeError) /\ rfc_table T' = rfc_table T /\ dt_ok T') \/
           (oversized (rfc_table T) e /\ r = Returns (UB EmptyBack) /\ rfc_table T' = rfc_table T /\ dt_ok T') \/
           (r = BadAlloc /\ exists h, e = HEntry IncrementalIndexing (EHeader h) /\
              ((rfc_table T' = rfc_table T /\ dt_ok T') \/
               (field_size h <= t_max (rfc_table T) /\ dt_entries T' = t_entries (resize (rfc_table T) (t_max (rfc_table T) - field_size h)) /\
                dt_size T' = total_size (dt_entries T') + field_size h /\ dt_max T' = t_max (rfc_table T))))) ->
        exists r' T'', (match update_entry_mem mem T e with
            | (Returns (Ok _), t', mem') => update_block_mem mem' t' b
            | (r, t', _) => (r, t') end) = (r', T'') /\
        exists applied rest, e :: b = applied ++ rest /\ Forall (fun e => ~ mismatched e) applied /\
        let t := fold_left entry_effect applied (rfc_table T) in
        (rest = [] /\ r' = Returns (Ok tt) /\ rfc_table T'' = t /\ dt_ok T'') \/
        exists e rest', rest = e :: rest' /\
          ((mismatched e /\ r' = Returns (Throw RuntimeError) /\ rfc_table T'' = t /\ dt_ok T'') \/
           (oversized t e /\ r' = Returns (UB EmptyBack) /\ rfc_table T'' = t /\ dt_ok T'') \/
           (r' = BadAlloc /\ exists h, e = HEntry IncrementalIndexing (EHeader h) /\
              ((rfc_table T'' = t /\ dt_ok T'') \/
               (field_size h <= t_max t /\ dt_entries T'' = t_entries (resize t (t_max t - field_size h)) /\
                dt_size T'' = total_size (dt_entries T'') + field_size h /\ dt_max T'' = t_max t))))).
      { intros r T' mem1 E NO C. exists r, T'. rewrite E. split.
        - destruct r as [[[]|x|u|]|]; try reflexivity. contradiction NO. reflexivity.
        - exists [], (e :: b). split; [reflexivity|]. split; [constructor|]. right. exists e, b. split; [reflexivity|]. exact C. }
      pose proof (ok_holds T K) as H0.
      destruct e as [p [h|n]]; destruct p;
        try (apply Step; [intros []|exact K|reflexivity]).
      + (* size update with a header *)
        eapply (Stop (Returns (Throw RuntimeError)) T mem); [reflexivity|discriminate|]. left.
        split; [exact Logic.I|]. split; [reflexivity|]. split; [reflexivity|exact K].
      + (* insertion *)
        destruct mem as [|[] mem].
        * destruct (N.leb_spec (field_size h) (dt_max T)) as [L|L].
          -- destruct (push_holds 0 (rfc_table T) T h [] H0 L) as (T1 & P & H1). destruct (holds_ok _ _ H1) as (K1 & R1).
             assert (E : update_entry_mem [] T (HEntry IncrementalIndexing (EHeader h)) = (Returns (Ok tt), T1, [])).
             { unfold update_entry_mem. cbn [e_prefix get_header e_content alloc]. unfold dt_push_mem in *. cbn [alloc] in *.
               destruct (resize_table _ _ _) as [[es sz]|x|u|]; [exact P|discriminate P..]. }
             rewrite E. apply Step; [intros []|exact K1|exact R1].
          -- eapply (Stop (Returns (UB EmptyBack)) T []); [|discriminate|].
             ++ unfold update_entry_mem. cbn [e_prefix get_header e_content alloc]. apply (push_none 0 (rfc_table T)); [exact H0|exact L].
             ++ right. left. split; [exact L|]. split; [reflexivity|]. split; [reflexivity|exact K].
        * destruct (N.leb_spec (field_size h) (dt_max T)) as [L|L].
          -- destruct mem as [|[] mem].
             ++ destruct (push_holds 0 (rfc_table T) T h [] H0 L) as (T1 & P & H1). destruct (holds_ok _ _ H1) as (K1 & R1).
                assert (E : update_entry_mem [true] T (HEntry IncrementalIndexing (EHeader h)) = (Returns (Ok tt), T1, [])).
                { unfold update_entry_mem. cbn [e_prefix get_header e_content alloc]. unfold dt_push_mem in *. cbn [alloc] in *.
                  destruct (resize_table _ _ _) as [[es sz]|x|u|]; [exact P|discriminate P..]. }
                rewrite E. apply Step; [intros []|exact K1|exact R1].
             ++ destruct (push_holds 0 (rfc_table T) T h mem H0 L) as (T1 & P & H1). destruct (holds_ok _ _ H1) as (K1 & R1).
                assert (E : update_entry_mem (true :: true :: mem) T (HEntry IncrementalIndexing (EHeader h)) = (Returns (Ok tt), T1, mem)).
                { unfold update_entry_mem. cbn [e_prefix get_header e_content alloc]. exact P. }
                rewrite E. apply Step; [intros []|exact K1|exact R1].
             ++ destruct (failed_holds 0 (rfc_table T) T h mem H0 L) as (T1 & P & E1 & S1 & M1 & B1).
                eapply (Stop BadAlloc T1 mem); [|discriminate|].
                ** unfold update_entry_mem. cbn [e_prefix get_header e_content alloc]. exact P.
                ** right. right. split; [reflexivity|]. exists h. split; [reflexivity|]. right. split; [exact L|].
                   split; [exact E1|]. split; [rewrite E1, S1; lia|]. rewrite M1. unfold rfc_table, resize. cbn [t_max]. lia.
          -- eapply (Stop (Returns (UB EmptyBack)) T mem); [|discriminate|].
             ++ unfold update_entry_mem. cbn [e_prefix get_header e_content alloc]. apply (push_none 0 (rfc_table T)); [exact H0|exact L].
             ++ right. left. split; [exact L|]. split; [reflexivity|]. split; [reflexivity|exact K].
        * eapply (Stop BadAlloc T mem); [reflexivity|discriminate|]. right. right. split; [reflexivity|]. exists h.
          split; [reflexivity|]. left. split; [reflexivity|exact K].
      + (* size update *)
        destruct (resize_holds 0 (rfc_table T) T n H0 (N.le_0_l n)) as (T1 & P & H1). destruct (holds_ok _ _ H1) as (K1 & R1).
        rewrite N.sub_0_r in R1.
        assert (E : update_entry_mem mem T (HEntry SizeUpdate (ESize n)) = (Returns (Ok tt), T1, mem)).
        { unfold update_entry_mem. cbn [e_prefix get_max_size e_content bind]. rewrite P. reflexivity. }
        rewrite E. apply Step; [intros []|exact K1|exact R1].
      + (* insertion of a size *)
        eapply (Stop (Returns (Throw RuntimeError)) T mem); [reflexivity|discriminate|]. left.
        split; [exact Logic.I|]. split; [reflexivity|]. split; [reflexivity|exact K]. }
  destruct G as (r & T' & U & applied & rest & G). rewrite U. exists r, (Client s T' resp). split; [reflexivity|].
  cbn [c_req c_tls c_resp]. split; [reflexivity|]. split; [reflexivity|]. exists applied, rest. exact G.
Qed.

(* ---- receiving a frame ---- *)

(* The header list a frame brings. *)
Definition block_of (f : frame) : option header_block :=
  match f with
  | HeadersFrame _ _ _ _ b => Some b
  | PushPromiseFrame _ _ p => Some (pp_block p)
  | ContinuationFrame _ _ b => Some b
  | _ => None
  end.

(* A block applied to the table T up to an entry that is to be inserted, which is
   not, and of which the table may keep the size. *)
Definition cut_short (T : dyn_table) (b : header_block) (T' : dyn_table) : Prop :=
  exists applied h rest, b = applied ++ HEntry IncrementalIndexing (EHeader h) :: rest /\
    let t := fold_left entry_effect applied (Table (dt_max T) (dt_entries T)) in
    (holds 0 t T' \/ (field_size h <= t_max t /\ holds (field_size h) (resize t (t_max t - field_size h)) T')).

Lemma block_cut : forall mem T b T', dt_ok T -> update_block_mem mem T b = (BadAlloc, T') -> cut_short T b T'.
Proof.
  intros mem T b T' K U.
  destruct (C107_update_partial mem b (Client (Tls [] [] []) T T) K) as (r & c' & E & _ & _ & applied & rest & B & _ & C).
  unfold update_request_dynamic_table_mem in E. cbn [c_req c_tls c_resp] in E. rewrite U in E. injection E as <- <-. cbn [c_req] in C.
  destruct C as [(_ & R & _)|(e & rest' & -> & [(_ & R & _)|[(_ & R & _)|(_ & h & -> & C)]])]; try discriminate R.
  exists applied, h, rest'. split; [exact B|]. cbv zeta. destruct C as [(E & K')|(L & E & S & M)].
  - left. rewrite <- E. apply ok_holds. exact K'.
  - right. split; [exact L|]. unfold holds. split; [exact E|]. split; [rewrite <- E; exact S|]. split; [|apply keep_le].
    rewrite M. unfold resize. cbn [t_max]. unfold rfc_table in *. cbn [t_max] in *. lia.
Qed.

(* The end of receive_frame, once the payload is there. *)
Definition finish (mem : memory) (m : ub_mode) (c2 : client) (fh : frame_header) (raw : bytes) : outcome frame * client :=
  let '(b, mem3) := build_frame_mem mem m fh raw (c_resp c2) in
  match b with
  | BadAlloc => (BadAlloc, c2)
  | Returns (Throw x) => (Returns (Throw x), c2)
  | Returns (UB u) => (Returns (UB u), c2)
  | Returns NoFuel => (Returns NoFuel, c2)
  | Returns (Ok f) =>
      let '(r3, t) := update_frame_mem mem3 (c_resp c2) f in
      let c3 := Client (c_tls c2) (c_req c2) t in
      match r3 with
      | BadAlloc => (BadAlloc, c3)
      | Returns r => (Returns (let* _ := r in Ok f), c3)
      end
  end.

Lemma receive_steps : forall m c w rest n, wframe_ok w -> tls_in (c_tls c) = wire w ++ rest ->
  delivers (size (wire w) + n) (c_tls c) ->
  exists s1 s2, tls_in s1 = w_payload w ++ rest /\ tls_out s1 = tls_out (c_tls c) /\ delivers (size (w_payload w) + n) s1 /\
  tls_in s2 = rest /\ tls_out s2 = tls_out (c_tls c) /\ delivers n s2 /\
  forall mem, receive_frame_mem mem m c =
    let '(ok1, mem1) := alloc mem in let '(ok2, mem2) := alloc mem1 in
    if negb ok1 then (BadAlloc, c) else if negb ok2 then (BadAlloc, set_tls c s1)
    else finish mem2 m (set_tls c s2) (header_of w) (w_payload w).
Proof.
  intros m c w rest n W E D. pose proof (wire_size w W) as WS.
  destruct (wire_split w W) as (head & WE & HS & HB). destruct W as (_ & _ & _ & _ & _ & L).
  rewrite WE, <- app_assoc in E. rewrite WS in D.
  destruct (read_delivers (c_tls c) head (w_payload w ++ rest) (size (w_payload w) + n) E) as (s1 & R1 & I1 & O1 & D1).
  { rewrite HS. reflexivity. }
  { rewrite HS. replace (9 + (size (w_payload w) + n)) with (9 + size (w_payload w) + n) by (clear; lia). exact D. }
  rewrite HS in R1.
  assert (R2 : exists s2, (if 0 <? size (w_payload w) then receive_raw_data (set_tls c s1) (size (w_payload w))
                else (Ok [], set_tls c s1)) = (Ok (w_payload w), set_tls c s2) /\
              tls_in s2 = rest /\ tls_out s2 = tls_out (c_tls c) /\ delivers n s2).
  { destruct (N.ltb_spec 0 (size (w_payload w))) as [P|P].
    - destruct (read_delivers s1 (w_payload w) rest n I1) as (s2 & R2 & I2 & O2 & D2).
      { eapply N.lt_trans; [exact L|reflexivity]. }
      { exact D1. }
      exists s2. unfold receive_raw_data. cbn [set_tls c_tls c_req c_resp]. rewrite R2.
      split; [reflexivity|]. split; [exact I2|]. split; [congruence|exact D2].
    - assert (w_payload w = []) as Z.
      { destruct (w_payload w); [reflexivity|]. rewrite size_cons in P. clear L. lia. }
      rewrite Z in *. exists s1. split; [reflexivity|]. split; [exact I1|]. split; [exact O1|].
      eapply delivers_mono; [|exact D1]. clear; lia. }
  destruct R2 as (s2 & R2 & I2 & O2 & D2). exists s1, s2.
  split; [exact I1|]. split; [exact O1|]. split; [exact D1|]. split; [exact I2|]. split; [exact O2|]. split; [exact D2|].
  intros mem. unfold receive_frame_mem, receive_raw_data_mem at 1, receive_raw_data at 1, FRAME_HEADER_BYTES. destruct (alloc mem) as [[] mem1]; cbn [negb].
  2: { destruct (alloc mem1) as [ok2 mem2]. reflexivity. }
  rewrite R1. cbn [bind]. rewrite HB. destruct (alloc mem1) as [[] mem2]; cbn [negb]; [|reflexivity].
  change (fh_length (header_of w)) with (size (w_payload w)). unfold receive_raw_data_mem.
  destruct (0 <? size (w_payload w)); [rewrite R2; reflexivity|]. injection R2 as R2 R3. rewrite <- R2, <- R3. reflexivity.
Qed.

(* Whenever receive_frame ends in std::bad_alloc: nothing was sent and the request
   table is untouched; and either nothing at all has happened, or the header alone
   was read (the next call takes the payload for a frame), or the frame is lost, or
   the frame is lost and its block applied in part. *)
Theorem C107_receive_partial : forall mem m c w rest c', wframe_ok w -> tls_in (c_tls c) = wire w ++ rest ->
  delivers (size (wire w)) (c_tls c) -> dt_ok (c_resp c) ->
  receive_frame_mem mem m c = (BadAlloc, c') ->
  c_req c' = c_req c /\ tls_out (c_tls c') = tls_out (c_tls c) /\
  (c' = c \/
   (tls_in (c_tls c') = w_payload w ++ rest /\ c_resp c' = c_resp c) \/
   (tls_in (c_tls c') = rest /\ c_resp c' = c_resp c) \/
   (tls_in (c_tls c') = rest /\ exists f b, build_frame m (header_of w) (w_payload w) (c_resp c) = Ok f /\
      block_of f = Some b /\ cut_short (c_resp c) b (c_resp c'))).
Proof.
  intros mem m c w rest c' W E D K R.
  destruct (receive_steps m c w rest 0 W E) as (s1 & s2 & I1 & O1 & _ & I2 & O2 & _ & X); [rewrite N.add_0_r; exact D|].
  rewrite X in R. destruct (alloc mem) as [ok1 mem1]. destruct (alloc mem1) as [ok2 mem2].
  destruct ok1; cbn [negb] in R.
  2: { injection R as <-. split; [reflexivity|]. split; [reflexivity|]. left. reflexivity. }
  destruct ok2; cbn [negb] in R.
  2: { injection R as <-. cbn [set_tls c_req c_tls c_resp]. split; [reflexivity|]. split; [exact O1|]. right. left. split; [exact I1|reflexivity]. }
  unfold finish in R. cbn [set_tls c_req c_tls c_resp] in R.
  destruct (build_frame_mem mem2 m (header_of w) (w_payload w) (c_resp c)) as [o mem3] eqn:B.
  assert (Lost : c' = set_tls c s2 -> c_req c' = c_req c /\ tls_out (c_tls c') = tls_out (c_tls c) /\
    (c' = c \/
     (tls_in (c_tls c') = w_payload w ++ rest /\ c_resp c' = c_resp c) \/
     (tls_in (c_tls c') = rest /\ c_resp c' = c_resp c) \/
     (tls_in (c_tls c') = rest /\ exists f b, build_frame m (header_of w) (w_payload w) (c_resp c) = Ok f /\
      block_of f = Some b /\ cut_short (c_resp c) b (c_resp c')))).
  { intros ->. cbn [set_tls c_req c_tls c_resp]. split; [reflexivity|]. split; [exact O2|]. right. right. left. split; [exact I2|reflexivity]. }
  destruct o as [[f|x|u|]|]; try discriminate R.
  2: { injection R as <-. apply Lost. reflexivity. }
  assert (BF : build_frame m (header_of w) (w_payload w) (c_resp c) = Ok f \/
               (fh_type (header_of w) = T_HEADERS /\ f = RawFrame (header_of w) (w_payload w))).
  { unfold build_frame_mem in B. destruct (N.eqb_spec (fh_type (header_of w)) T_HEADERS) as [TY|TY].
    - unfold build_headers_frame_mem, build_raw_frame_mem in B. destruct (alloc mem2) as [[] mem4].
      + destruct (parse_headers m (header_of w) (w_payload w) (c_resp c)) as [g|y|u|] eqn:P; try discriminate B.
        * injection B as <- <-. left. unfold build_frame. rewrite TY. change (T_HEADERS =? T_DATA) with false. change (T_HEADERS =? T_HEADERS) with true.
          cbv iota. unfold build_headers_frame. rewrite P. reflexivity.
        * destruct (alloc mem4) as [[] mem5]; [|discriminate B]. injection B as <- <-. right. split; [exact TY|reflexivity].
      + destruct (alloc mem4) as [[] mem5]; [|discriminate B]. injection B as <- <-. right. split; [exact TY|reflexivity].
    - destruct (T_CONTINUATION <? fh_type (header_of w)).
      + injection B as B <-. left. exact B.
      + destruct (alloc mem2) as [[] mem4]; [|discriminate B]. injection B as B <-. left. exact B. }
  destruct (update_frame_mem mem3 (c_resp c) f) as [r3 t] eqn:U. destruct r3 as [r3|]; [discriminate R|]. injection R as <-.
  assert (Cut : forall b, (let '(ok, mem') := alloc mem3 in if ok then update_block_mem mem' (c_resp c) b else (BadAlloc, c_resp c)) = (BadAlloc, t) ->
    t = c_resp c \/ cut_short (c_resp c) b t).
  { intros b Y. destruct (alloc mem3) as [[] mem4].
    - right. eapply block_cut; [exact K|exact Y].
    - left. injection Y as <-. reflexivity. }
  assert (Out : t = c_resp c \/ exists b, block_of f = Some b /\ cut_short (c_resp c) b t).
  { unfold update_frame_mem in U.
    destruct (fh_type (frame_fh f) =? T_HEADERS).
    { destruct f; try discriminate U. destruct (Cut _ U) as [Z|Z]; [left; exact Z|right; eexists; split; [reflexivity|exact Z]]. }
    destruct (fh_type (frame_fh f) =? T_PUSH_PROMISE).
    { destruct f; try discriminate U. destruct (Cut _ U) as [Z|Z]; [left; exact Z|right; eexists; split; [reflexivity|exact Z]]. }
    destruct (fh_type (frame_fh f) =? T_CONTINUATION).
    { destruct f; try discriminate U. destruct (Cut _ U) as [Z|Z]; [left; exact Z|right; eexists; split; [reflexivity|exact Z]]. }
    destruct (fh_type (frame_fh f) =? T_SETTINGS); [|discriminate U].
    destruct f; try discriminate U. destruct (alloc mem3) as [[] mem4].
    - destruct (update_frame (c_resp c) (SettingsFrame h m0)) as [r t1]. discriminate U.
    - injection U as <-. left. reflexivity. }
  cbn [c_req c_tls c_resp set_tls]. split; [reflexivity|]. split; [exact O2|]. destruct Out as [->|(b & BO & CS)].
  - right. right. left. split; [exact I2|reflexivity].
  - right. right. right. split; [exact I2|]. destruct BF as [BF|(_ & ->)]; [|discriminate BO].
    exists f, b. split; [exact BF|]. split; [exact BO|exact CS].
Qed.

(* For every HEADERS frame: if memory runs out while it is decoded and there is
   enough for the raw frame, receive_frame dereferences a null pointer. *)
Theorem C107_headers_refuted : forall mem m c w rest, wframe_ok w -> w_type w = 1 -> tls_in (c_tls c) = wire w ++ rest ->
  delivers (size (wire w)) (c_tls c) ->
  fst (receive_frame_mem (true :: true :: false :: true :: mem) m c) = Returns (UB NullDeref).
Proof.
  intros mem m c w rest W TY E D.
  destruct (receive_steps m c w rest 0 W E) as (s1 & s2 & _ & _ & _ & _ & _ & _ & X); [rewrite N.add_0_r; exact D|].
  rewrite X. cbn [alloc negb]. unfold finish, build_frame_mem.
  change (fh_type (header_of w)) with (w_type w). rewrite TY. change (1 =? T_HEADERS) with true. cbv iota.
  unfold build_headers_frame_mem, build_raw_frame_mem. cbn [alloc].
  unfold update_frame_mem. cbn [frame_fh]. change (fh_type (header_of w)) with (w_type w). rewrite TY. reflexivity.
Qed.

(* If there is no memory for the payload, the next call takes the payload for
   frames: what a DATA frame carries is received as a frame of the server. *)
Theorem C107_smuggled_refuted : forall mem m c w v rest, wframe_ok w -> wframe_ok v -> w_payload w = wire v ->
  tls_in (c_tls c) = wire w ++ rest -> delivers (size (wire w)) (c_tls c) ->
  exists c1 c2, receive_frame_mem (true :: false :: mem) m c = (BadAlloc, c1) /\
  receive_frame m c1 = (fst (handled m (c_resp c) v), c2) /\ tls_in (c_tls c2) = rest.
Proof.
  intros mem m c w v rest W V P E D.
  destruct (receive_steps m c w rest 0 W E) as (s1 & s2 & I1 & _ & D1 & _ & _ & _ & X); [rewrite N.add_0_r; exact D|].
  rewrite P in I1, D1.
  destruct (receive_complete m (set_tls c s1) v rest 0 V I1 D1) as (s3 & I3 & _ & _ & R).
  exists (set_tls c s1). eexists. split; [rewrite X; reflexivity|]. split; [exact R|]. exact I3.
Qed.

(* ---- the model with memory and the model without ---- *)

Definition plenty (mem : memory) : Prop := Forall (fun b => b = true) mem.

Lemma alloc_plenty : forall mem, plenty mem -> exists mem', alloc mem = (true, mem') /\ plenty mem'.
Proof.
  intros [|b mem] P; [exists []; auto|]. exists mem. split; [cbn [alloc]; rewrite (Forall_inv P); reflexivity|exact (Forall_inv_tail P)].
Qed.

Lemma update_block_plenty : forall b mem t, plenty mem ->
  update_block_mem mem t b = (Returns (fst (update_block t b)), snd (update_block t b)).
Proof.
  induction b as [|e b IH]; intros mem t P; [reflexivity|]. cbn [update_block_mem update_block].
  unfold update_entry_mem, update_entry. destruct (e_prefix e); try (apply IH; exact P).
  - destruct (let* n := get_max_size e in dt_update_size t n) as [t'|x|u|]; [apply IH; exact P|reflexivity..].
  - destruct (get_header e) as [h|x|u|]; cbn [bind]; [|reflexivity..].
    destruct (alloc_plenty mem P) as (mem' & A & P'). rewrite A. unfold dt_push_mem, dt_push.
    destruct (resize_table _ _ _) as [[es sz]|x|u|]; cbn [bind]; [|reflexivity..].
    destruct (alloc_plenty mem' P') as (mem2 & A2 & P2). rewrite A2. apply IH. exact P2.
Qed.

(* With memory enough the calls do what the rest of the development says. *)
Theorem C107_enough_memory : forall mem, plenty mem ->
  (forall m c, receive_frame_mem mem m c = (Returns (fst (receive_frame m c)), snd (receive_frame m c))) /\
  (forall c b, update_request_dynamic_table_mem mem c b =
     (Returns (fst (update_request_dynamic_table c b)), snd (update_request_dynamic_table c b))).
Proof.
  intros mem P. split.
  - intros m c. unfold receive_frame_mem, receive_frame.
    destruct (alloc_plenty mem P) as (mem1 & A1 & P1). rewrite A1. cbn [negb].
    assert (RD : forall k c0 n, plenty k -> exists k', plenty k' /\
      receive_raw_data_mem k c0 n = (Returns (fst (receive_raw_data c0 n)), snd (receive_raw_data c0 n), k')).
    { intros k c0 n PK. unfold receive_raw_data_mem. destruct (alloc_plenty k PK) as (k' & A & PK'). rewrite A.
      destruct (receive_raw_data c0 n) as [[| | |] c1]; [exists k|exists k'|exists k|exists k]; split; (assumption || reflexivity). }
    destruct (RD mem1 c FRAME_HEADER_BYTES P1) as (mem1' & P1' & ->).
    destruct (receive_raw_data c FRAME_HEADER_BYTES) as [r c1]. cbn [fst snd].
    destruct (let* raw_fh := r in build_frame_header raw_fh) as [fh|x|u|]; [|reflexivity..].
    destruct (alloc_plenty mem1' P1') as (mem2' & A2 & P2'). rewrite A2. cbn [negb].
    assert (R2 : exists mem2, plenty mem2 /\ (if 0 <? fh_length fh then receive_raw_data_mem mem2' c1 (fh_length fh) else (Returns (Ok []), c1, mem2')) =
      let '(r2, c2) := if 0 <? fh_length fh then receive_raw_data c1 (fh_length fh) else (Ok [], c1) in (Returns r2, c2, mem2)).
    { destruct (0 <? fh_length fh); [|exists mem2'; split; [exact P2'|reflexivity]]. destruct (RD mem2' c1 (fh_length fh) P2') as (k & PK & ->).
      exists k. split; [exact PK|]. destruct (receive_raw_data c1 (fh_length fh)). reflexivity. }
    destruct R2 as (mem2 & P2 & ->).
    destruct (if 0 <? fh_length fh then receive_raw_data c1 (fh_length fh) else (Ok [], c1)) as [r2 c2].
    destruct r2 as [raw|x|u|]; cbn [bind]; [|reflexivity..].
    assert (B : exists mem3, build_frame_mem mem2 m fh raw (c_resp c2) = (Returns (build_frame m fh raw (c_resp c2)), mem3) /\ plenty mem3).
    { unfold build_frame_mem. destruct (alloc_plenty mem2 P2) as (mem3 & A3 & P3).
      destruct (N.eqb_spec (fh_type fh) T_HEADERS) as [TY|TY].
      - unfold build_headers_frame_mem. rewrite A3. unfold build_frame. rewrite TY.
        change (T_HEADERS =? T_DATA) with false. change (T_HEADERS =? T_HEADERS) with true. cbv iota. unfold build_headers_frame.
        destruct (parse_headers m fh raw (c_resp c2)); try (exists mem3; split; [reflexivity|exact P3]).
        unfold build_raw_frame_mem. destruct (alloc_plenty mem3 P3) as (mem4 & A4 & P4). rewrite A4. exists mem4. split; [reflexivity|exact P4].
      - destruct (T_CONTINUATION <? fh_type fh); [exists mem2; split; [reflexivity|exact P2]|]. rewrite A3. exists mem3. split; [reflexivity|exact P3]. }
    destruct B as (mem3 & B & P3). rewrite B. destruct (build_frame m fh raw (c_resp c2)) as [f|x|u|]; [|reflexivity..].
    assert (U : update_frame_mem mem3 (c_resp c2) f = (Returns (fst (update_frame (c_resp c2) f)), snd (update_frame (c_resp c2) f))).
    { destruct (alloc_plenty mem3 P3) as (mem4 & A4 & P4). unfold update_frame_mem. rewrite A4.
      unfold update_frame at 2 3.
      destruct (fh_type (frame_fh f) =? T_HEADERS); [destruct f; try reflexivity; apply update_block_plenty; exact P4|].
      destruct (fh_type (frame_fh f) =? T_PUSH_PROMISE); [destruct f; try reflexivity; apply update_block_plenty; exact P4|].
      destruct (fh_type (frame_fh f) =? T_CONTINUATION) eqn:TC; [destruct f; try reflexivity; apply update_block_plenty; exact P4|].
      destruct (fh_type (frame_fh f) =? T_SETTINGS) eqn:TS; [|reflexivity].
      destruct f; try reflexivity. unfold update_frame. cbn [frame_fh] in *. apply N.eqb_eq in TS. rewrite TS.
      change (T_SETTINGS =? T_HEADERS) with false. change (T_SETTINGS =? T_PUSH_PROMISE) with false.
      change (T_SETTINGS =? T_CONTINUATION) with false. change (T_SETTINGS =? T_SETTINGS) with true. cbv iota.
      destruct (sm_find m0 1) as [k|]; [|reflexivity]. destruct (dt_update_size (c_resp c2) k); reflexivity. }
    rewrite U. destruct (update_frame (c_resp c2) f) as [r3 t]. reflexivity.
  - intros c b. unfold update_request_dynamic_table_mem, update_request_dynamic_table.
    rewrite (update_block_plenty b mem (c_req c) P). destruct (update_block (c_req c) b) as [r t]. reflexivity.
Qed.

Lemma block_reported : forall b mem t r t', update_block_mem mem t b = (Returns r, t') -> (r, t') = update_block t b.
Proof.
  induction b as [|e b IH]; intros mem t r t' U; [injection U as <- <-; reflexivity|]. cbn [update_block_mem update_block] in *.
  unfold update_entry_mem, update_entry in *. destruct (e_prefix e); try (eapply IH; exact U).
  - destruct (let* n := get_max_size e in dt_update_size t n) as [t1|x|u|]; [eapply IH; exact U|injection U as <- <-; reflexivity..].
  - destruct (get_header e) as [h|x|u|]; cbn [bind]; [|injection U as <- <-; reflexivity..].
    destruct (alloc mem) as [[] mem1]; [|discriminate U]. unfold dt_push_mem in U. unfold dt_push.
    destruct (resize_table _ _ _) as [[es sz]|x|u|]; cbn [bind]; [|injection U as <- <-; reflexivity..].
    destruct (alloc mem1) as [[] mem2]; [|discriminate U]. eapply IH. exact U.
Qed.

Lemma update_reported : forall mem t f r t', update_frame_mem mem t f = (Returns r, t') -> (r, t') = update_frame t f.
Proof.
  intros mem t f r t' U. unfold update_frame_mem in U.
  assert (B : forall b, (let '(ok, mem') := alloc mem in if ok then update_block_mem mem' t b else (BadAlloc, t)) = (Returns r, t') ->
    (r, t') = update_block t b).
  { intros b X. destruct (alloc mem) as [[] mem1]; [|discriminate X]. eapply block_reported. exact X. }
  destruct (fh_type (frame_fh f) =? T_HEADERS) eqn:T1.
  { unfold update_frame. rewrite T1. destruct f; try (injection U as <- <-; reflexivity). apply B. exact U. }
  destruct (fh_type (frame_fh f) =? T_PUSH_PROMISE) eqn:T2.
  { unfold update_frame. rewrite T1, T2. destruct f; try (injection U as <- <-; reflexivity). apply B. exact U. }
  destruct (fh_type (frame_fh f) =? T_CONTINUATION) eqn:T3.
  { unfold update_frame. rewrite T1, T2, T3. destruct f; try (injection U as <- <-; reflexivity). apply B. exact U. }
  destruct (fh_type (frame_fh f) =? T_SETTINGS) eqn:T4.
  { destruct f; try (unfold update_frame; rewrite T1, T2, T3, T4; injection U as <- <-; reflexivity).
    destruct (alloc mem) as [[] mem1]; [|discriminate U]. destruct (update_frame t (SettingsFrame h m)) as [r1 t1]. injection U as <- <-. reflexivity. }
  unfold update_frame. rewrite T1, T2, T3, T4. injection U as <- <-. reflexivity.
Qed.

Lemma read_reported : forall mem c n r c' mem', receive_raw_data_mem mem c n = (Returns r, c', mem') -> receive_raw_data c n = (r, c').
Proof.
  intros mem c n r c' mem' H. unfold receive_raw_data_mem in H. destruct (receive_raw_data c n) as [[d|x|u|] c1]; try (injection H as <- <- _; reflexivity).
  destruct (alloc mem) as [[] mem1]; [injection H as <- <- _; reflexivity|discriminate H].
Qed.

(* A failed allocation is not passed over in silence: a call that does not throw
   std::bad_alloc has done exactly what it does with memory enough, or (a HEADERS
   frame only) has dereferenced a null pointer. *)
Theorem C107_reported_partial : forall mem c,
  (forall m r c', receive_frame_mem mem m c = (Returns r, c') -> (r, c') = receive_frame m c \/ r = UB NullDeref) /\
  (forall b r c', update_request_dynamic_table_mem mem c b = (Returns r, c') -> (r, c') = update_request_dynamic_table c b).
Proof.
  intros mem c. split.
  - intros m r c' R. unfold receive_frame_mem in R. unfold receive_frame. destruct (alloc mem) as [[] mem1]; cbn [negb] in R; [|discriminate R].
    destruct (receive_raw_data_mem mem1 c FRAME_HEADER_BYTES) as [[[r1|] c1] mem1'] eqn:E1; [|discriminate R].
    rewrite (read_reported _ _ _ _ _ _ E1).
    destruct (let* raw_fh := r1 in build_frame_header raw_fh) as [fh|x|u|]; [|left; injection R as <- <-; reflexivity..].
    destruct (alloc mem1') as [[] mem2']; cbn [negb] in R; [|discriminate R].
    destruct (if 0 <? fh_length fh then receive_raw_data_mem mem2' c1 (fh_length fh) else (Returns (Ok []), c1, mem2')) as [[[r2|] c2] mem2] eqn:E2; [|discriminate R].
    assert ((if 0 <? fh_length fh then receive_raw_data c1 (fh_length fh) else (Ok [], c1)) = (r2, c2)) as ->.
    { destruct (0 <? fh_length fh); [exact (read_reported _ _ _ _ _ _ E2)|]. injection E2 as <- <- _. reflexivity. }
    destruct r2 as [raw|x|u|]; cbn [bind]; [|left; injection R as <- <-; reflexivity..].
    assert (Same : forall mem3, (match build_frame m fh raw (c_resp c2) with
        | Ok f => let '(r3, t) := update_frame_mem mem3 (c_resp c2) f in
            match r3 with BadAlloc => (BadAlloc, Client (c_tls c2) (c_req c2) t)
            | Returns r => (Returns (let* _ := r in Ok f), Client (c_tls c2) (c_req c2) t) end
        | Throw x => (Returns (Throw x), c2) | UB u => (Returns (UB u), c2) | NoFuel => (Returns NoFuel, c2) end) = (Returns r, c') ->
      (r, c') = (match build_frame m fh raw (c_resp c2) with
        | Ok f => let '(r3, t) := update_frame (c_resp c2) f in (let* _ := r3 in Ok f, Client (c_tls c2) (c_req c2) t)
        | Throw x => (Throw x, c2) | UB u => (UB u, c2) | NoFuel => (NoFuel, c2) end)).
    { intros mem3 X. destruct (build_frame m fh raw (c_resp c2)) as [f|x|u|]; [|injection X as <- <-; reflexivity..].
      destruct (update_frame_mem mem3 (c_resp c2) f) as [r3 t] eqn:U. destruct r3 as [r3|]; [|discriminate X]. injection X as <- <-.
      rewrite <- (update_reported _ _ _ _ _ U). reflexivity. }
    assert (Null : forall mem3, fh_type fh = T_HEADERS -> (let '(r3, t) := update_frame_mem mem3 (c_resp c2) (RawFrame fh raw) in
            match r3 with BadAlloc => (BadAlloc, Client (c_tls c2) (c_req c2) t)
            | Returns r => (Returns (let* _ := r in Ok (RawFrame fh raw)), Client (c_tls c2) (c_req c2) t) end) = (Returns r, c') ->
      r = UB NullDeref).
    { intros mem3 TY X. unfold update_frame_mem in X. cbn [frame_fh] in X. rewrite TY in X.
      change (T_HEADERS =? T_HEADERS) with true in X. cbv iota in X. injection X as <- _. reflexivity. }
    unfold build_frame_mem in R. destruct (N.eqb_spec (fh_type fh) T_HEADERS) as [TY|TY].
    + unfold build_headers_frame_mem, build_raw_frame_mem in R. destruct (alloc mem2) as [[] mem3].
      * destruct (parse_headers m fh raw (c_resp c2)) as [f|x|u|] eqn:P;
          [| destruct (alloc mem3) as [[] mem4]; [right; apply (Null mem4 TY); exact R|discriminate R] | |];
          left; apply (Same mem3); unfold build_frame; rewrite TY; change (T_HEADERS =? T_DATA) with false;
          change (T_HEADERS =? T_HEADERS) with true; cbv iota; unfold build_headers_frame; rewrite P; exact R.
      * destruct (alloc mem3) as [[] mem4]; [right; apply (Null mem4 TY); exact R|discriminate R].
    + destruct (T_CONTINUATION <? fh_type fh).
      * left. apply (Same mem2). destruct (build_frame m fh raw (c_resp c2)); exact R.
      * destruct (alloc mem2) as [[] mem3]; [|discriminate R]. left. apply (Same mem3). destruct (build_frame m fh raw (c_resp c2)); exact R.
  - intros b r c' U. unfold update_request_dynamic_table_mem in U. unfold update_request_dynamic_table.
    destruct (update_block_mem mem (c_req c) b) as [r1 t] eqn:E. injection U as -> <-. rewrite <- (block_reported _ _ _ _ _ E). reflexivity.
Qed.

Lemma read_mem : forall mem c n o c' mem', receive_raw_data_mem mem c n = (o, c', mem') ->
  c_req c' = c_req c /\ c_resp c' = c_resp c /\ tls_out (c_tls c') = tls_out (c_tls c) /\
  exists k, N.of_nat k <= n /\ tls_in (c_tls c') = skipn k (tls_in (c_tls c)).
Proof.
  intros mem c n o c' mem' H.
  assert (E : snd (receive_raw_data c n) = c').
  { unfold receive_raw_data_mem in H. destruct (receive_raw_data c n) as [[| | |] c1]; try (injection H as _ <- _; reflexivity).
    destruct (alloc mem) as [ok mem1]. injection H as _ <- _. reflexivity. }
  subst c'. unfold receive_raw_data. destruct (C48_read_exact (c_tls c) n) as (k & X). destruct (ssl_read (c_tls c) n) as [r s'].
  destruct X as (_ & I & O & R). cbn [snd set_tls c_req c_resp c_tls]. repeat (split; [first [reflexivity|exact O]|]).
  exists k. split; [destruct R as [(_ & R)|(_ & R)]; lia|exact I].
Qed.

(* Whatever the TLS layer does and whatever octets the server sends: std::bad_alloc
   from receive_frame leaves what was sent and the request table alone, and takes
   away at most a prefix of what the server sends. *)
Theorem C107_any_connection_partial : forall mem m c c', receive_frame_mem mem m c = (BadAlloc, c') ->
  c_req c' = c_req c /\ tls_out (c_tls c') = tls_out (c_tls c) /\ exists k, tls_in (c_tls c') = skipn k (tls_in (c_tls c)).
Proof.
  intros mem m c c' H. unfold receive_frame_mem in H. destruct (alloc mem) as [[] mem1]; cbn [negb] in H.
  2: { injection H as <-. split; [reflexivity|]. split; [reflexivity|]. exists 0%nat. reflexivity. }
  destruct (receive_raw_data_mem mem1 c FRAME_HEADER_BYTES) as [[o1 c1] mem1'] eqn:E1.
  destruct (read_mem _ _ _ _ _ _ E1) as (Q1 & _ & O1 & k1 & _ & I1).
  assert (D1 : c_req c1 = c_req c /\ tls_out (c_tls c1) = tls_out (c_tls c) /\ exists k, tls_in (c_tls c1) = skipn k (tls_in (c_tls c))) by eauto.
  destruct o1 as [r1|]; [|injection H as <-; exact D1].
  destruct (let* raw_fh := r1 in build_frame_header raw_fh) as [fh|x|u|]; try discriminate H.
  destruct (alloc mem1') as [[] mem2']; cbn [negb] in H; [|injection H as <-; exact D1].
  destruct (if 0 <? fh_length fh then receive_raw_data_mem mem2' c1 (fh_length fh) else (Returns (Ok []), c1, mem2')) as [[o2 c2] mem2] eqn:E2.
  assert (D2 : c_req c2 = c_req c /\ tls_out (c_tls c2) = tls_out (c_tls c) /\ exists k, tls_in (c_tls c2) = skipn k (tls_in (c_tls c))).
  { destruct (0 <? fh_length fh).
    - destruct (read_mem _ _ _ _ _ _ E2) as (Q2 & _ & O2 & k2 & _ & I2). split; [congruence|]. split; [congruence|].
      exists (k2 + k1)%nat. rewrite I2, I1. symmetry. clear. revert k1. induction (tls_in (c_tls c)) as [|b l IH]; intros k1; [rewrite !skipn_nil; reflexivity|].
      destruct k1 as [|k1]; [rewrite Nat.add_0_r; reflexivity|]. rewrite Nat.add_succ_r. apply IH.
    - injection E2 as _ <- _. exact D1. }
  destruct o2 as [[raw|x|u|]|]; try discriminate H; [|injection H as <-; exact D2].
  destruct (build_frame_mem mem2 m fh raw (c_resp c2)) as [[[f|x|u|]|] mem3]; try discriminate H; [|injection H as <-; exact D2].
  destruct (update_frame_mem mem3 (c_resp c2) f) as [[r3|] t]; [discriminate H|]. injection H as <-. exact D2.
Qed.

(* A connection that is lost, with no memory for the text of the exception: the
   caller sees the exception of a call to which nothing has happened, and a part of
   a frame header is gone. *)
Theorem C107_lost_connection_refuted : forall mem m c c1, receive_raw_data c 9 = (Throw RuntimeError, c1) ->
  receive_frame_mem (false :: mem) m c = (BadAlloc, c) /\ receive_frame_mem (true :: false :: mem) m c = (BadAlloc, c1) /\
  receive_frame m c = (Throw RuntimeError, c1).
Proof.
  intros mem m c c1 H. unfold receive_frame_mem, receive_frame, receive_raw_data_mem. change FRAME_HEADER_BYTES with 9. cbn [alloc negb].
  rewrite H. cbn [bind]. auto.
Qed.

Example C107_case :
  let h := (octets "x-token", octets "abc") in
  let evs := [Inserted (octets "a", octets "b"); InsertFailed h; Inserted (octets "c", octets "d")] in
  let w := WFrame 1 4 0 1 [0x82] in
  let v := WFrame 7 0 0 0 [0; 0; 0; 0; 0; 0; 0; 2] in
  let d := WFrame 0 0 0 1 (wire v) in
  let c x := new_client (Tls (wire x) [] (repeat (Chunk 8) 40)) in
  In (InsertFailed h) evs /\
  run_events (new_table 4096) evs = Ok (DynTable [(octets "c", octets "d"); (octets "a", octets "b")] 110 4096) /\
  lost evs = 42 /\
  wframe_ok w /\ w_type w = 1 /\ delivers (size (wire w)) (c_tls (c w)) /\ dt_ok (c_resp (c w)) /\
  wframe_ok v /\ wframe_ok d /\ w_payload d = wire v /\ delivers (size (wire d)) (c_tls (c d)) /\
  (exists c', receive_frame_mem [true; true; false; false] Strict (c w) = (BadAlloc, c')) /\
  plenty [true; true] /\
  (exists c1, receive_raw_data (new_client (Tls [0; 0; 8; 6] [] [Chunk 3; Fail])) 9 = (Throw RuntimeError, c1) /\ tls_in (c_tls c1) = []) /\
  (exists c', update_request_dynamic_table_mem [true; true; true; false]
    (c w) [HEntry IncrementalIndexing (EHeader (octets "a", octets "b")); HEntry IncrementalIndexing (EHeader h)] = (BadAlloc, c') /\
    c_req c' = DynTable [(octets "a", octets "b")] 76 4096).
Proof.
  cbv zeta.
  assert (D : forall n i, n <= 40 -> delivers n (Tls i [] (repeat (Chunk 8) 40))).
  { intros n i L. exists (repeat (Chunk 8) 40), []. split; [rewrite app_nil_r; reflexivity|]. split.
    - apply Forall_forall. intros x I. apply repeat_spec in I. subst. discriminate.
    - unfold size. rewrite repeat_length. lia. }
  assert (V : wframe_ok (WFrame 7 0 0 0 [0; 0; 0; 0; 0; 0; 0; 2])).
  { unfold wframe_ok. cbn [w_type w_flags w_reserved w_stream w_payload]. repeat (split; [reflexivity|]). split; [|reflexivity].
    intros b I. cbn [In] in I. lia. }
  split; [right; left; reflexivity|]. split; [reflexivity|]. split; [reflexivity|].
  split; [unfold wframe_ok; cbn [w_type w_flags w_reserved w_stream w_payload]; repeat (split; [reflexivity|]); split; [intros b I; cbn [In] in I; lia|reflexivity]|].
  split; [reflexivity|]. split; [apply D; vm_compute; discriminate|]. split; [apply new_table_ok|]. split; [exact V|].
  split; [unfold wframe_ok; cbn [w_type w_flags w_reserved w_stream w_payload]; repeat (split; [reflexivity|]); split; [|reflexivity]|].
  { intros b I. vm_compute in I. repeat (destruct I as [<-|I]; [reflexivity|]). destruct I. }
  split; [reflexivity|]. split; [apply D; vm_compute; discriminate|].
  split; [eexists; vm_compute; reflexivity|]. split; [repeat constructor|].
  split; [eexists; split; vm_compute; reflexivity|]. eexists. split; vm_compute; reflexivity.
Qed.

Print Assumptions C107_history_partial.
Print Assumptions C107_books_refuted.
Print Assumptions C107_settings_refuted.
Print Assumptions C107_update_partial.
Print Assumptions C107_receive_partial.
Print Assumptions C107_headers_refuted.
Print Assumptions C107_smuggled_refuted.
Print Assumptions C107_enough_memory.
Print Assumptions C107_reported_partial.
Print Assumptions C107_any_connection_partial.
Print Assumptions C107_lost_connection_refuted.
