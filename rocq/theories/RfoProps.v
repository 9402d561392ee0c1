(** C84: receipts reach the client, from the poller's hands to the client's copy. *)
From Verif Require Import Prelude RequestModel ExtModel ExtSpec ExtProps ReceiptModel ReceiptSpec ReceiptProps RfoModel RfoSpec RfoProofs.
From Verif Require FolModel.
Open Scope string_scope. Open Scope list_scope. Open Scope Z_scope.

(** The user's own receipts, public or private: however pollers, the consumer, requests
    and responses take turns, whatever the order in which maps are walked and rows are
    read, and whatever crashes and new connections there were: when nothing is
    outstanding, a client that asks for the room's receipts has what is stored. The
    rooms' receipts without a thread, and rooms that come into scope by a request. *)
Theorem C84_own_partial me room private st l :
  let k := (room, me, "", private) in
  let s := qrun me (qstart st) l in
  every_step me (fun s a => no_step_back k s a /\ in_room me room s a /\ enters_by_request me room s a) (qstart st) l ->
  done_with s -> covers s room -> q_copy s k = stored_in s k.
Proof.
  cbn zeta. intros He Hd Hc.
  destruct (own_run me room me private (fun _ => eq_refl) l (qstart st) eq_refl (rinv_start _ _ _ _) ) as [Hi Hk]; [|done|].
  - intros (e & [Ha _] & _). done.
  - apply (done_known room me private); auto.
Qed.
Print Assumptions C84_own_partial.

(** Receipts of others: one that is stored while the client asks for the room's receipts
    is known to the client when nothing is outstanding, if the room stayed in scope. *)
Theorem C84_later_partial me room user st l1 e ord l2 :
  let k := (room, user, "", false) in
  let s1 := qrun me (qstart st) l1 in
  let s2 := qstep me s1 (Arrive room e ord) in
  let s := qrun me s2 l2 in
  every_step me (fun s a => no_step_back k s a /\ in_room me room s a) (qstart st) l1 ->
  no_step_back k s1 (Arrive room e ord) ->
  stored_in s2 k <> stored_in s1 k -> covers s1 room ->
  every_step me (fun s a => no_step_back k s a /\ in_room me room s a /\ stays me room s a) s2 l2 ->
  done_with s -> q_copy s k = stored_in s k.
Proof.
  cbn zeta. set (k := (room, user, "", false)). set (s1 := qrun me (qstart st) l1). intros H1 Hn Hch Hc H2 Hd.
  assert (Hb : false = true -> user = me) by done.
  assert (Hi1 : rinv room user false s1) by (apply (rinv_run me); [done|apply rinv_start|done]).
  assert (Hi2 : rinv room user false (qstep me s1 (Arrive room e ord))) by (apply (rinv_step me); done).
  destruct (stays_run me room user false Hb l2 _ Hi2) as [Hi Hk]; [| |done|by apply (done_known room user false)].
  - destruct Hc as (x & Hx). exists x. cbn [qstep]. destruct (insert_receipts _ _ _) as [st' [[|r new]|]]; exact Hx.
  - left. cbn [qstep] in *. destruct (insert_receipts _ _ _) as [st' [[|r0 new0]|]] eqn:E; [done| |done]. set (new := r0 :: new0) in *.
    destruct (insert_slot _ _ _ _ _ E) as (_ & _ & J3).
    { intros r Hr. apply ordered_In, in_unpack_read in Hr. tauto. }
    { intros r Hr. apply ordered_In, in_unpack_priv in Hr. tauto. }
    qcbn. destruct (last (keyf room user false new)) as [r|] eqn:El.
    + exists r. rewrite concat_app. cbn [concat]. rewrite app_nil_r, app_assoc, keyf_app, last_app. by rewrite El.
    + exfalso. apply Hch. apply (J3 false (room, user, "")). intros r Hr Hp Hk. apply last_None in El.
      assert (In r (keyf room user false new)) as Hx; [|by rewrite El in Hx]. apply keyf_In. split; [done|].
      unfold slot_of, rkey in *. injection Hk as -> -> ->. by rewrite Hp.
Qed.
Print Assumptions C84_later_partial.

(** At any time, what the client has is stored, or older than what is stored. *)
Theorem C84_not_newer me room user private st l event ts :
  let k := (room, user, "", private) in
  let s := qrun me (qstart st) l in
  (private = true -> user = me) ->
  every_step me (fun s a => no_step_back k s a /\ in_room me room s a) (qstart st) l ->
  q_copy s k = Some (event, ts) ->
  stored_in s k = Some (event, ts) \/ exists event' ts', stored_in s k = Some (event', ts') /\ ts < ts'.
Proof.
  cbn zeta. intros Hb He Hc.
  pose proof (rinv_run me room user private Hb l _ (rinv_start _ _ _ _) He) as Hi.
  destruct (i_copy _ _ _ _ Hi _ Hc) as (ev & t & Hs & [Hlt|[= -> ->]]); [right; by exists ev, t|by left].
Qed.
Print Assumptions C84_not_newer.

(** Private receipts of others never get to the client, in whatever thread, and whatever
    happens. *)
Definition safe (me : string) (s : qstate) : Prop :=
  forall r, rc_private r = true -> rc_user r <> me ->
    ~ In r (q_queue s) /\ ~ In r (entries (q_resp s)) /\ q_copy s (slot_of r) = None.
Lemma says_fix (r r' : receipt) : place_of r = place_of r' -> rc_private r = rc_private r' /\ rc_user r = rc_user r'.
Proof. unfold place_of. intros [= _ -> ->]. done. Qed.
Lemma entries_append ex p res r ord x : In x (entries (append ex p res r ord)) -> In x (entries res) \/ place_of x = place_of r.
Proof.
  rewrite !in_entries. unfold append. destruct (in_view ex p (rc_room r)); [|by left]. intros (e & He & Hs).
  destruct (decide (place_of x = place_of r)) as [Hp|Hp]; [by right|]. left.
  destruct (decide (rc_room r = rc_room x)) as [Hr|Hr].
  - destruct (res !! rc_room r) as [e0|] eqn:E0; rewrite Hr, lookup_insert in He; injection He as <-.
    + exists e0. rewrite <- Hr. split; [done|]. rewrite <- Hr, live_says, decide_False in Hs; [exact Hs|congruence].
    + change [r] with ([] ++ [r]) in Hs. rewrite pack_snoc, says_add, decide_False in Hs by congruence.
      unfold says, pack in Hs. cbn in Hs. by rewrite lookup_empty in Hs.
  - exists e. split; [|done]. destruct (res !! rc_room r); by rewrite lookup_insert_ne in He.
Qed.
Lemma entries_load me st ex p tl ord x : In x (entries (load me st ex p tl ord)) -> rc_private x = false \/ rc_user x = me.
Proof.
  rewrite in_entries. intros (e & He & Hs). unfold load in He. rewrite map_lookup_imap in He. destruct (tl !! rc_room x) as [evs|]; [|done]. cbn in He.
  destruct (in_view ex p (rc_room x)); [|done]. set (l := ordered ord _) in He.
  assert (e = pack l) as -> by (destruct l; [done|by injection He as <-]). rewrite C38_pack in Hs.
  destruct (chosen _ l) as [r|] eqn:Ec; [|done]. apply chosen_in in Ec as [Hin Hp]. apply says_fix in Hp as [<- <-].
  apply ordered_In, in_app_iff in Hin as [Hin|Hin]; apply filter_In in Hin as [Hin Hf].
  - left. by apply in_rows in Hin as [-> _].
  - right. apply andb_true_iff in Hf as [_ Hf]. by apply bool_decide_eq_true in Hf.
Qed.
Lemma keep_none k l : forall c, (forall r, In r l -> slot_of r <> k) -> c k = None -> fold_left keep l c k = None.
Proof.
  induction l as [|r l IH]; intros c Hl Hc; cbn [fold_left]; [done|]. apply IH; [intros; apply Hl; by right|].
  unfold keep. rewrite bool_decide_eq_false_2; [done|]. apply Hl. by left.
Qed.
Lemma entries_nil : entries ∅ = [].
Proof. unfold entries. by rewrite map_to_list_empty. Qed.
Lemma safe_step me s a : safe me s -> safe me (qstep me s a).
Proof.
  intros H. destruct a as [rm e ord|rm e|joined| | |ex p tl ord|p|p ord|]; cbn [qstep].
  - by destruct (insert_receipts _ _ _) as [st [[|r new]|]].
  - done.
  - destruct (q_pend s) as [|rs rest]; [done|]. intros r Hp Hu. destruct (H r Hp Hu) as (H1 & H2 & H3). qcbn. split; [|done].
    destruct (q_on s); [|done]. intros [Hr|Hr]%in_app_iff; [done|]. unfold for_me in Hr. apply in_map_iff in Hr as ([u x] & Hx & Hr). cbn in Hx. subst x.
    apply filter_In in Hr as [Hr Hf]. cbn in Hf. apply bool_decide_eq_true in Hf as ->. apply C38_delivered_to in Hr as (_ & _ & Hr). rewrite Hp in Hr. done.
  - intros r Hp Hu. destruct (H r Hp Hu) as (H1 & H2 & H3). qcbn. rewrite entries_nil. auto.
  - intros r Hp Hu. destruct (H r Hp Hu) as (H1 & H2 & H3). qcbn. rewrite entries_nil. auto.
  - destruct (q_busy s || negb (q_on s)); [done|]. intros r Hp Hu. destruct (H r Hp Hu) as (H1 & H2 & H3). qcbn. split; [done|]. split; [|done].
    intros Hr. apply entries_load in Hr as [Hr|Hr]; congruence.
  - by destruct (q_busy s).
  - destruct (q_busy s); cbn [negb]; [|done]. destruct (q_queue s) as [|r0 rest] eqn:Eq; [done|]. intros r Hp Hu. destruct (H r Hp Hu) as (H1 & H2 & H3). qcbn.
    rewrite Eq in H1. split; [|split; [|done]]; [intros Hr; apply H1; by right|]. intros Hr. apply entries_append in Hr as [Hr|Hr]; [done|].
    apply says_fix in Hr as [Hr1 Hr2]. destruct (H r0) as [G _]; [congruence|congruence|]. rewrite Eq in G. apply G. by left.
  - destruct (q_busy s); [|done]. intros r Hp Hu. destruct (H r Hp Hu) as (H1 & H2 & H3). qcbn. rewrite entries_nil. split; [done|]. split; [intros []|].
    apply keep_none; [|done]. intros x Hx E. unfold slot_of in E. injection E as E1 E2 E3 E4. destruct (H x) as (_ & G & _); [congruence|congruence|done].
Qed.
Theorem C84_private me room user thread st l : user <> me -> q_copy (qrun me (qstart st) l) (room, user, thread, true) = None.
Proof.
  intros Hu. assert (Hs : safe me (qrun me (qstart st) l)).
  { unfold qrun. assert (H0 : safe me (qstart st)) by (intros r _ _; cbn; rewrite entries_nil; auto). revert H0. generalize (qstart st).
    induction l as [|a l IH]; intros s H0; cbn [fold_left]; [done|]. apply IH. by apply safe_step. }
  destruct (Hs (mk_receipt room "" user 0 thread true)) as (_ & _ & H); [done|done|]. exact H.
Qed.
Print Assumptions C84_private.

(** ** Examples *)
Definition allx : exts := fun _ => Some (mk_ext (Some true) (Some ["*"]) (Some ["*"]) 0 "").
Definition view (rooms : list string) : FolModel.place := FolModel.mk_place (list_to_map (map (fun r => (r, ["l"])) rooms)) ["l"] [].
Definition me : string := "@me".
Definition she : string := "@she".
Definition r_of (event user : string) (ts : Z) (private : bool) : edu := pack [mk_receipt "!x" event user ts "" private].
Definition here (_ : string) : list string := [me; she].
Definition lines (rooms : list string) (events : list string) : gmap string (list string) := list_to_map (map (fun r => (r, events)) rooms).

(** A check for the hypotheses. *)
Definition checkb (room : string) (k : slot) (s : qstate) (a : qaction) : bool :=
  match a with
  | Arrive rm e _ => forallb (fun r => negb (bool_decide (slot_of r = k)) ||
      match stored_in s k with Some (ev, ts) => bool_decide (rc_event r = ev) || (ts <? rc_ts r) | None => true end) (unpack_read rm e ++ unpack_priv rm e)
  | Told joined => existsb (String.eqb me) (joined room)
  | _ => true
  end.
Definition enterb (room : string) (s : qstate) (a : qaction) : bool :=
  in_view (q_exts s) (q_place s) room || negb (in_view (q_exts (qstep me s a)) (q_place (qstep me s a)) room)
  || match a with Ask _ _ tl _ => bool_decide (is_Some (tl !! room)) | _ => false end.
Definition stayb (room : string) (s : qstate) (a : qaction) : bool := in_view (q_exts (qstep me s a)) (q_place (qstep me s a)) room.
Fixpoint everyb (f : qstate -> qaction -> bool) (s : qstate) (l : list qaction) : bool :=
  match l with [] => true | a :: l' => f s a && everyb f (qstep me s a) l' end.
Lemma everyb_ok (f : qstate -> qaction -> bool) (P : qstate -> qaction -> Prop) : (forall s a, f s a = true -> P s a) ->
  forall l s, everyb f s l = true -> every_step me P s l.
Proof. intros H. induction l as [|a l IH]; intros s E; cbn in *; [done|]. apply andb_true_iff in E as [E1 E2]. split; [by apply H|by apply IH]. Qed.
Lemma checkb_ok room k s a : checkb room k s a = true -> no_step_back k s a /\ in_room me room s a.
Proof.
  destruct a as [rm e ord|rm e|joined| | |ex p tl ord|p|p ord|]; cbn [checkb no_step_back in_room]; intros E; try done.
  - split; [|done]. intros r ev ts Hr Hk Hs Hne. rewrite forallb_forall in E. specialize (E r). rewrite Hs in E.
    rewrite (bool_decide_eq_true_2 _ Hk), (bool_decide_eq_false_2 _ Hne) in E. cbn [negb orb] in E. apply Z.ltb_lt, E. apply in_app_iff. tauto.
  - split; [done|]. apply existsb_exists in E as (u & Hu & E). apply String.eqb_eq in E as <-. done.
Qed.
Lemma enterb_ok room s a : enterb room s a = true -> enters_by_request me room s a.
Proof.
  unfold enterb, enters_by_request. intros E Hn Hc. apply in_view_covers in Hc. rewrite Hc in E.
  destruct (in_view (q_exts s) (q_place s) room) eqn:Ev; [by apply in_view_covers in Ev|]. cbn [orb negb] in E.
  destruct a; try done. by apply bool_decide_eq_true in E.
Qed.
Lemma own_ok room k l s : everyb (fun s a => checkb room k s a && enterb room s a) s l = true ->
  every_step me (fun s a => no_step_back k s a /\ in_room me room s a /\ enters_by_request me room s a) s l.
Proof.
  apply everyb_ok. intros s' a E. apply andb_true_iff in E as [E1 E2]. apply checkb_ok in E1 as [? ?]. split; [done|]. split; [done|]. by apply enterb_ok.
Qed.
Lemma stays_ok room k l s : everyb (fun s a => checkb room k s a && stayb room s a) s l = true ->
  every_step me (fun s a => no_step_back k s a /\ in_room me room s a /\ stays me room s a) s l.
Proof.
  apply everyb_ok. intros s' a E. apply andb_true_iff in E as [E1 E2]. apply checkb_ok in E1 as [? ?]. split; [done|]. split; [done|]. by apply in_view_covers.
Qed.
Ltac comp := vm_compute; reflexivity.

(** The user reads an event before they connect, and another one on another device while
    a request is being answered; the server crashes in between. *)
Definition st0 : store := mk_store {[ ("!x", me, "") := ("$1", 1) ]} ∅.
Definition run_own : list qaction :=
  [Connect; Ask allx (view ["!x"]) (lines ["!x"] ["$9"]) id; Reply; Arrive "!x" (r_of "$2" me 2 false) id; Crash;
   Arrive "!x" (r_of "$3" me 3 false) (@rev _); Connect; Told here; Ask allx (view ["!x"]) (lines ["!x"] ["$9"]) id;
   Arrive "!x" (r_of "$4" me 4 false) id; Arrive "!x" (r_of "$5" she 4 false) id; Told here; Told here; Next (view ["!x"]) id; Next (view ["!x"]) id; Next (view ["!x"]) (@rev _); Reply].
Example C84_own_example :
  let s := qrun me (qstart st0) run_own in
  every_step me (fun s a => no_step_back ("!x", me, "", false) s a /\ in_room me "!x" s a /\ enters_by_request me "!x" s a) (qstart st0) run_own
  /\ done_with s /\ covers s "!x" /\ q_copy s ("!x", me, "", false) = Some ("$4", 4) /\ q_copy s ("!x", she, "", false) = Some ("$5", 4).
Proof.
  split; [apply own_ok; comp|]. split; [split; [comp|split; comp]|]. split; [apply in_view_covers; comp|]. split; comp.
Qed.
(** Somebody else reads on while the client has the room. *)
Example C84_later_example :
  let l1 := [Connect; Ask allx (view ["!x"]) (lines ["!x"] ["$9"]) id] in
  let s1 := qrun me (qstart st0) l1 in
  let s2 := qstep me s1 (Arrive "!x" (r_of "$2" she 2 false) id) in
  let l2 := [Reply; Told here; Ask allx (view ["!x"]) ∅ id; Next (view ["!x"]) id; Reply] in
  let k := ("!x", she, "", false) in
  every_step me (fun s a => no_step_back k s a /\ in_room me "!x" s a) (qstart st0) l1
  /\ stored_in s2 k <> stored_in s1 k /\ covers s1 "!x"
  /\ every_step me (fun s a => no_step_back k s a /\ in_room me "!x" s a /\ stays me "!x" s a) s2 l2
  /\ done_with (qrun me s2 l2) /\ q_copy (qrun me s2 l2) k = Some ("$2", 2).
Proof.
  split; [apply (everyb_ok (checkb "!x" ("!x", she, "", false))); [intros; by apply checkb_ok|comp]|].
  split; [vm_compute; discriminate|]. split; [apply in_view_covers; comp|]. split; [apply stays_ok; comp|]. split; [split; [comp|split; comp]|comp].
Qed.

(** ** What does not hold *)

(** A room that comes into view because of an update, and not by a request: its receipts
    are not sent, not even the user's own. *)
Theorem C84_entered_live_refuted :
  let l := [Connect; Ask allx (view ["!y"]) (lines ["!y"] ["$9"]) id; Move (view ["!x"]); Reply; Ask allx (view ["!x"]) ∅ id; Reply] in
  let s := qrun me (qstart st0) l in
  done_with s /\ covers s "!x" /\ stored_in s ("!x", me, "", false) = Some ("$1", 1) /\ q_copy s ("!x", me, "", false) = None.
Proof. split; [split; [comp|split; comp]|]. split; [apply in_view_covers; comp|]. split; comp. Qed.
Print Assumptions C84_entered_live_refuted.

(** Receipts of others that were stored before the room came into scope are only sent if
    they are at events of the timeline that is sent. *)
Theorem C84_earlier_refuted :
  let st := mk_store {[ ("!x", she, "") := ("$1", 1) ]} ∅ in
  let l := [Connect; Ask allx (view ["!x"]) (lines ["!x"] ["$9"]) id; Reply] in
  let s := qrun me (qstart st) l in
  done_with s /\ covers s "!x" /\ stored_in s ("!x", she, "", false) = Some ("$1", 1) /\ q_copy s ("!x", she, "", false) = None.
Proof. split; [split; [comp|split; comp]|]. split; [apply in_view_covers; comp|]. split; comp. Qed.
Print Assumptions C84_earlier_refuted.

(** A poller that lags behind brings an older receipt, which replaces the newer one that is
    stored: a client that connects afterwards is told that the user has read less. *)
Theorem C84_step_back_refuted :
  let l := [Connect; Ask allx (view ["!x"]) (lines ["!x"] ["$9"]) id; Reply; Arrive "!x" (r_of "$3" me 3 false) id; Arrive "!x" (r_of "$2" me 2 false) id;
    Told here; Told here; Ask allx (view ["!x"]) ∅ id; Next (view ["!x"]) id; Next (view ["!x"]) id; Reply] in
  let s := qrun me (qstart st0) l in
  let s' := qrun me s [Connect; Ask allx (view ["!x"]) (lines ["!x"] ["$9"]) id; Reply] in
  done_with s /\ covers s "!x" /\ q_copy s ("!x", me, "", false) = Some ("$3", 3)
  /\ stored_in s ("!x", me, "", false) = Some ("$2", 2)
  /\ done_with s' /\ q_copy s' ("!x", me, "", false) = Some ("$2", 2).
Proof. split; [split; [comp|split; comp]|]. split; [apply in_view_covers; comp|]. split; [comp|]. split; [comp|]. split; [split; [comp|split; comp]|comp]. Qed.
Print Assumptions C84_step_back_refuted.

(** Receipts in threads: a receipt of the same user at the same event is dropped. *)
Theorem C84_threaded_refuted :
  let e1 := pack [mk_receipt "!x" "$2" me 2 "" false] in
  let e2 := pack [mk_receipt "!x" "$2" me 3 "$t" false] in
  let l := [Connect; Ask allx (view ["!x"]) (lines ["!x"] ["$9"]) id; Reply; Arrive "!x" e1 id; Arrive "!x" e2 id; Told here; Told here;
    Ask allx (view ["!x"]) ∅ id; Next (view ["!x"]) id; Next (view ["!x"]) id; Reply] in
  let s := qrun me (qstart (mk_store ∅ ∅)) l in
  done_with s /\ covers s "!x" /\ stored_in s ("!x", me, "$t", false) = Some ("$2", 3) /\ q_copy s ("!x", me, "$t", false) = None.
Proof. split; [split; [comp|split; comp]|]. split; [apply in_view_covers; comp|]. split; comp. Qed.
Print Assumptions C84_threaded_refuted.

(** If the database fails when a receipt comes, it is lost: the error is only logged, and
    the poller goes on with its next token. *)
Theorem C84_broken_store_refuted :
  let l := [Connect; Ask allx (view ["!x"]) (lines ["!x"] ["$9"]) id; Reply; Broken "!x" (r_of "$3" me 3 false)] in
  let s := qrun me (qstart st0) l in
  done_with s /\ covers s "!x" /\ q_copy s ("!x", me, "", false) = Some ("$1", 1).
Proof. split; [split; [comp|split; comp]|]. split; [apply in_view_covers; comp|]. comp. Qed.
Print Assumptions C84_broken_store_refuted.
