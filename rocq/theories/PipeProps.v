(** C78: the timeline of a room in view arrives at the client, from the poller's storing an
    event to the response. *)
From Verif Require Import Prelude AccumModel AccumSpec StoreModel StoreSpec RequestModel SubModel FeedModel FeedSpec FeedProofs
  PipeModel PipeSpec PipeProofs PipeProofs2.
From Verif Require TxnModel StoreProps AccumProps FeedProps.
Open Scope string_scope. Open Scope list_scope. Open Scope Z_scope.

(** Whatever pollers store, however their messages are handed out, held back and released,
    and whenever requests are made: what the client has of a room in view is a stretch of
    the room's timeline as stored, in order, with nothing missing and nothing twice; and
    what is missing at its end is still on the way. *)
Theorem C78_timeline_arrives_partial ord redact env delay rm l s :
  redact_ok redact -> 0 <= fe_max env -> well_run ord redact env delay rm l s true ->
  exists before rest, stored_timeline s rm = before ++ client_timeline s rm ++ rest /\
    map fst rest `suffix_of` on_the_way s rm.
Proof.
  intros Hred Hmax H. pose proof (run_pinv _ _ _ _ _ Hred Hmax _ _ _ H) as I.
  pose proof (StoreProps.stored_base _ _ _ Hred (pi_stored _ _ _ _ _ _ I)) as Hb.
  destruct (pi_main _ _ _ _ _ _ I) as (C & M1 & _ & M3). specialize (M3 eq_refl).
  change (stored_timeline s rm) with (trows (d_events (p_db s)) rm). set (T := trows (d_events (p_db s)) rm) in *.
  assert (Hts : StronglySorted Z.lt (map fst T)) by (apply trows_sorted, Hb).
  assert (Hcl : client_timeline s rm = map tkey (eff (p_conn s) rm)).
  { unfold client_timeline, next_view. by rewrite (proj1 (eff_respond (p_conn s) rm)). }
  rewrite Hcl. destruct M3 as [[_ ->]|(Hp & HC & k & Hk)].
  - exists (take (length C) T), (drop (length C) T). cbn [map app]. rewrite take_drop. split; [done|].
    exists []. cbn [app]. change (map fst (drop (length C) T)) with (fst <$> drop (length C) T). rewrite fmap_drop.
    change (fst <$> T) with (map fst T). rewrite M1. by rewrite drop_app.
  - destruct (upto_split (lp_of (p_conn s) rm) T Hts) as (R & HR1 & HR2).
    exists (take k (upto (lp_of (p_conn s) rm) T)), R. rewrite Hk, app_assoc, take_drop. split; [done|].
    rewrite HR1, map_app in M1. apply app_eq_inv in M1 as [(x & E1 & E2)|(x & E1 & E2)].
    + exists x. by rewrite E2.
    + destruct x as [|n x]; [exists []; by rewrite E2|]. exfalso. rewrite E1 in HC. apply Forall_app in HC as [_ HC].
      inversion HC as [|? ? Hn]; subst. assert (Hin : n ∈ map fst R) by (rewrite E2; left).
      apply elem_of_list_fmap in Hin as (p & -> & Hin). pose proof (proj1 (Forall_forall _ _) HR2 p Hin). cbn in *. lia.
Qed.
Print Assumptions C78_timeline_arrives_partial.

(** So the client has the room's latest events once nothing is on the way. *)
Theorem C78_up_to_date_partial ord redact env delay rm l s :
  redact_ok redact -> 0 <= fe_max env -> well_run ord redact env delay rm l s true -> on_the_way s rm = [] ->
  client_timeline s rm `suffix_of` stored_timeline s rm /\ NoDup (client_timeline s rm).
Proof.
  intros Hred Hmax H Hnone. destruct (C78_timeline_arrives_partial _ _ _ _ _ _ _ Hred Hmax H) as (before & rest & E & Hs).
  rewrite Hnone in Hs. assert (rest = []) as ->.
  { destruct Hs as [x Hx]. destruct rest; [done|]. by destruct x. }
  rewrite app_nil_r in E. split; [by exists before|].
  pose proof (run_pinv _ _ _ _ _ Hred Hmax _ _ _ H) as I.
  pose proof (StoreProps.stored_base _ _ _ Hred (pi_stored _ _ _ _ _ _ I)) as Hb.
  assert (Hnd : NoDup (stored_timeline s rm)).
  { apply (NoDup_fmap_1 fst). change (fst <$> stored_timeline s rm) with (map fst (trows (d_events (p_db s)) rm)).
    clear Hs. assert (Hs : StronglySorted Z.lt (map fst (trows (d_events (p_db s)) rm))) by (apply trows_sorted, Hb).
    induction Hs as [|z l' Hs IH Hf]; constructor; [|done]. intros Hin. pose proof (proj1 (Forall_forall _ _) Hf z Hin). lia. }
  rewrite E in Hnd. by apply NoDup_app in Hnd as (_ & _ & ?).
Qed.
Print Assumptions C78_up_to_date_partial.

(** *** Everything arrives in the end *)
Section Drain.
Context (ord : list Z -> list Z) (redact : raw -> raw -> raw -> raw) (env : fenv) (delay : Z) (rm : string).
Notation run_ok := (well_run ord redact env delay rm).
Notation step := (pstep1 ord redact env delay).

Lemma hand_out_same user now joined txn r l s :
  let s' := fold_left (hand_out user delay now joined txn r) l s in p_bus s' = p_bus s /\ p_db s' = p_db s /\ p_conn s' = p_conn s.
Proof.
  cbv zeta. revert s. induction l as [|[e n] l IH]; intros s; cbn [fold_left]; [done|]. destruct (IH (hand_out user delay now joined txn r s (e, n))) as (-> & -> & ->).
  unfold hand_out. destruct (p_on s && joined (e_id e)); [|done]. by destruct (TxnModel.Ingest _ _ _ _ _).
Qed.
Lemma dispatch_same s ok joined txn now :
  let s' := step s (PDispatch ok joined txn now) in p_bus s' = tail (p_bus s) /\ p_db s' = p_db s /\ p_conn s' = p_conn s.
Proof.
  cbn [pstep1]. destruct (p_bus s) as [|[r nids] bus] eqn:E; [done|]. unfold on_accumulate. destruct ok; [|done].
  destruct (select_nids _ _) as [rows|]; [|done].
  exact (hand_out_same _ _ _ _ _ (zip rows nids) (mk_pipe (p_db s) bus (p_on s) (p_log s) (p_wait s) (p_queue s) (p_conn s))).
Qed.

(** No new events are stored. *)
Definition quiet (st : pstep) : Prop := match st with PStore _ => False | _ => True end.

Lemma drain_bus n : forall l s b, length (p_bus s) = n -> run_ok l s b ->
  exists l' s', Forall quiet l' /\ run_ok (l ++ l') s' b /\ p_db s' = p_db s /\ p_bus s' = [].
Proof.
  induction n as [|n IH]; intros l s b Hn H.
  - exists [], s. rewrite app_nil_r. split; [constructor|]. split; [done|]. split; [done|]. by destruct (p_bus s).
  - set (st := PDispatch true (fun _ => true) (fun _ => "") 0). destruct (dispatch_same s true (fun _ => true) (fun _ => "") 0) as (E1 & E2 & _). fold st in E1, E2.
    destruct (IH (l ++ [st]) (step s st) b) as (l' & s' & A1 & A2 & A3 & A4).
    { rewrite E1. destruct (p_bus s); [done|]. cbn in *. lia. }
    { change b with (in_view_after rm s st b). by apply wr_snoc. }
    exists (st :: l'), s'. split; [by constructor|]. rewrite <- app_assoc in A2. split; [done|]. by rewrite A3, E2.
Qed.

Lemma split_all n (q : list TxnModel.ev) : Forall (fun e => TxnModel.e_nid e <= n) q -> TxnModel.split_at n q = (q, []).
Proof.
  induction 1 as [|e q He H IH]; [done|]. cbn [TxnModel.split_at]. destruct (Z.ltb_spec n (TxnModel.e_nid e)); [lia|]. by rewrite IH.
Qed.
Context (Hred : redact_ok redact) (Hmax : 0 <= fe_max env).

Lemma drain_wait l s b : run_ok l s b -> exists l' s', Forall quiet l' /\ run_ok (l ++ l') s' b /\ p_db s' = p_db s /\ p_bus s' = p_bus s /\
  TxnModel.t_queues (p_wait s') !! rm = None.
Proof.
  intros H. set (st := PRelease rm (d_seq (p_db s))). exists [st], (step s st). split; [by repeat constructor|].
  split; [change b with (in_view_after rm s st b); by apply wr_snoc|].
  pose proof (run_pinv _ _ _ _ _ Hred Hmax _ _ _ H) as I. unfold st. cbn [pstep1]. unfold TxnModel.PublishUpToNID.
  destruct (TxnModel.t_queues (p_wait s) !! rm) as [q|] eqn:E; [|done]. rewrite split_all.
  - cbn [p_db p_bus p_wait TxnModel.t_queues]. by rewrite lookup_delete.
  - pose proof (en_wait _ _ _ _ (pi_en _ _ _ _ _ _ I) _ _ E) as Hq. eapply Forall_impl; [exact Hq|].
    intros e (_ & t & st' & _ & T2 & _ & T4 & _). cbn. lia.
Qed.

Lemma drain_queue n : forall l s, length (p_queue s) = n -> run_ok l s true ->
  exists l' s', Forall quiet l' /\ run_ok (l ++ l') s' true /\ p_db s' = p_db s /\ p_bus s' = p_bus s /\ p_wait s' = p_wait s /\ p_queue s' = [].
Proof.
  induction n as [|n IH]; intros l s Hn H.
  - exists [], s. rewrite app_nil_r. split; [constructor|]. repeat (split; [done|]). by destruct (p_queue s).
  - pose proof (run_pinv _ _ _ _ _ Hred Hmax _ _ _ H) as I.
    destruct (p_queue s) as [|e queue] eqn:Eq; [done|]. pose proof (en_queue _ _ _ _ (pi_en _ _ _ _ _ _ I)) as Hq. rewrite Eq in Hq.
    inversion Hq as [|? ? (t & sf & T1 & _)]; subst.
    set (st := PConsume [] true false true).
    assert (Hpos : 0 < f_anchor (p_conn s)).
    { destruct (Z.ltb_spec 0 (f_anchor (p_conn s))); [done|]. by destruct (pi_low _ _ _ _ _ _ I). }
    assert (Hst : exists c, step s st = mk_pipe (p_db s) (p_bus s) (p_on s) (p_log s) (p_wait s) queue c).
    { unfold st. cbn [pstep1]. rewrite Eq, T1. eauto. }
    destruct Hst as [c Hc].
    destruct (IH (l ++ [st]) (step s st)) as (l' & s' & A1 & A2 & A3 & A4 & A5 & A6).
    { rewrite Hc. cbn in *. lia. }
    { assert (in_view_after rm s st true = true) as <-. { unfold st. cbn [in_view_after existsb]. destruct (next_update s) as [[r ?]|]; [|done]. by destruct (String.eqb r rm). }
      apply wr_snoc; [done|]. unfold st. cbn [goes_well]. split; [done|].
      split; [intros nid _; split; [done|]; by intros (i & [] & _)|]. intros r nid _. split; [constructor|]. by intros (i & [] & _). }
    exists (st :: l'), s'. split; [by constructor|]. rewrite <- app_assoc in A2. split; [done|]. rewrite A3, A4, A5, A6, Hc. done.
Qed.

(** At every moment of such a history there is a way on, without anything new being stored,
    after which the client has the room's latest events. *)
Theorem C78_catches_up_partial l s : run_ok l s true ->
  exists l' s', Forall quiet l' /\ run_ok (l ++ l') s' true /\ stored_timeline s' rm = stored_timeline s rm /\
    client_timeline s' rm `suffix_of` stored_timeline s rm.
Proof.
  intros H. destruct (drain_bus _ l s true eq_refl H) as (l1 & s1 & A1 & A2 & A3 & A4).
  destruct (drain_wait _ _ _ A2) as (l2 & s2 & B1 & B2 & B3 & B4 & B5).
  destruct (drain_queue _ _ _ eq_refl B2) as (l3 & s3 & D1 & D2 & D3 & D4 & D5 & D6).
  exists (l1 ++ l2 ++ l3), s3. split; [by repeat (apply Forall_app; split)|]. rewrite !app_assoc. split; [done|].
  assert (E : stored_timeline s3 rm = stored_timeline s rm) by (unfold stored_timeline; by rewrite D3, B3, A3).
  split; [done|]. rewrite <- E. eapply C78_up_to_date_partial; [done|done|exact D2|].
  unfold on_the_way, buffered, held_back, in_channel. by rewrite D6, D5, B5, D4, B4, A4.
Qed.
End Drain.
Print Assumptions C78_catches_up_partial.

(** *** Examples and refutations *)
Definition env1 : fenv := FeedProps.env1.
Definition all_joined (id : string) : bool := true.
(** The transaction ID of "m7" is known. *)
Definition txns (id : string) : string := if String.eqb id "m7" then "t7" else "".
Definition ini (room : string) (limit : Z) : finit := mk_finit room limit [] (Some empty_db) [] [] false.
Definition message (room id : string) : pstep := PStore (Accumulate room (Timeline [AccumProps.ev id "m.room.message" None] false "")).
Definition room0 (room c j : string) : pstep :=
  PStore (Initialise room [AccumProps.ev c "m.room.create" (Some ""); AccumProps.mem j "@a" "join"]).
Definition dispatch : pstep := PDispatch true all_joined txns 0.
Definition take_next : pstep := PConsume [] true false true.
Notation go delay := (pruns id AccumProps.keep env1 delay pipe0).

(** A history in which the user's own messages wait for their transaction IDs, and are
    overtaken by a message in another room. *)
Definition steps1 : list pstep :=
  [room0 "!r" "c1" "j1"; room0 "!s" "c2" "j2"; message "!r" "m5"; PRegister; dispatch; PLoad ["!r"; "!s"]; PRooms [ini "!r" 10];
   message "!r" "m6"; message "!s" "m7"; dispatch; dispatch; take_next; PRelease "!r" 6; take_next; take_next; message "!r" "m8"].

Fixpoint all_well (env : fenv) (delay : Z) (rm : string) (s : pipe) (b : bool) (l : list pstep) : Prop :=
  match l with
  | [] => b = true
  | st :: l => goes_well env rm s st /\ all_well env delay rm (pstep1 id AccumProps.keep env delay s st) (in_view_after rm s st b) l
  end.
Lemma all_well_run env delay rm l2 : forall l s b, well_run id AccumProps.keep env delay rm l s b -> all_well env delay rm s b l2 ->
  well_run id AccumProps.keep env delay rm (l ++ l2) (pruns id AccumProps.keep env delay s l2) true.
Proof.
  induction l2 as [|st l2 IH]; intros l s b H Ha; cbn [all_well] in Ha.
  - rewrite app_nil_r. by subst b.
  - destruct Ha as [Hg Ha]. change (l ++ st :: l2) with (l ++ [st] ++ l2). rewrite app_assoc. unfold pruns. cbn [fold_left].
    eapply IH; [by apply wr_snoc|done].
Qed.
Definition member_of (user rm : string) (e : event) : bool :=
  String.eqb (e_room e) rm && String.eqb (e_type e) "m.room.member" && String.eqb (e_skey e) user.
Lemma in_room_check l user rm p q : q <= p ->
  existsb (fun e => member_of user rm e && (e_nid e =? q) && String.eqb (r_mship (e_json e)) "join") l &&
  forallb (fun e => negb (member_of user rm e && (q <? e_nid e))) l = true -> in_room l user rm p.
Proof.
  intros Hq H. apply andb_true_iff in H as [H1 H2]. exists q. split; [done|]. split.
  - apply existsb_exists in H1 as (e & He & H1). unfold member_of in H1. apply andb_true_iff in H1 as [H1 H3]. apply andb_true_iff in H1 as [H1 H4].
    apply andb_true_iff in H1 as [H1 H5]. apply andb_true_iff in H1 as [H1 H6].
    apply String.eqb_eq in H1, H3, H5, H6. apply Z.eqb_eq in H4. exists e. rewrite elem_of_list_In. done.
  - intros r m (e & He & Hn & Hr & Ht & Hk & _) Hlt _. rewrite forallb_forall in H2. apply elem_of_list_In in He. specialize (H2 e He).
    unfold member_of in H2. rewrite Hr, Ht, Hk, !String.eqb_refl in H2. cbn in H2. destruct (Z.ltb_spec q (e_nid e)); [done|lia].
Qed.
Ltac comp := vm_compute; reflexivity.
Example C78_example :
  exists s, well_run id AccumProps.keep env1 100 "!r" steps1 s true /\
    map snd (client_timeline s "!r") = ["m5"; "m6"] /\ map snd (stored_timeline s "!r") = ["m5"; "m6"; "m8"] /\ on_the_way s "!r" = [8].
Proof.
  exists (go 100 steps1). split; [|split; [comp|split; comp]].
  apply (all_well_run env1 100 "!r" steps1 [] pipe0 false); [constructor|]. unfold steps1.
  assert (Hc : forall s, 0 < f_anchor (p_conn s) -> goes_well env1 "!r" s take_next).
  { intros s Hs. split; [done|]. split; [intros nid _; split; [done|by intros (i & [] & _)]|]. intros r nid _. split; [constructor|by intros (i & [] & _)]. }
  assert (Hd : forall s, goes_well env1 "!r" s dispatch).
  { intros s _. by split. }
  split; [exact I|]. split; [exact I|]. split; [exact I|]. split; [exact I|]. split; [apply Hd|].
  split; [split; [comp|]; split; [by left|comp]|].
  split.
  { split; [comp|]. constructor; [|constructor]. intros _. split; [discriminate|]. split; [discriminate|]. split; [reflexivity|].
    apply (in_room_check _ _ _ _ 2); [vm_compute; discriminate|comp]. }
  split; [exact I|]. split; [exact I|]. split; [apply Hd|]. split; [apply Hd|]. split; [apply Hc; comp|]. split; [exact I|].
  split; [apply Hc; comp|]. split; [apply Hc; comp|]. split; [exact I|]. comp.
Qed.

(** C78 fails if the query for new events fails when their message is received: the message
    is gone, the event is never shown although later ones are, and the client is not told of
    the gap. *)
Theorem C78_lost_when_query_fails_refuted :
  let s := go 0 [room0 "!r" "c1" "j1"; message "!r" "m3"; PRegister; dispatch; PLoad ["!r"]; PRooms [ini "!r" 10]; take_next;
    message "!r" "m4"; message "!r" "m5"; PDispatch false all_joined txns 0; dispatch; take_next; PRespond] in
  map snd (stored_timeline s "!r") = ["m3"; "m4"; "m5"] /\ map snd (client_timeline s "!r") = ["m3"; "m5"] /\ on_the_way s "!r" = [].
Proof. split; [comp|split; comp]. Qed.
Print Assumptions C78_lost_when_query_fails_refuted.

(** C78 fails if events of a room are held back for their transaction IDs while the
    connection goes on with later events of another room, and the first of them brings the
    room into view: the room is loaded up to where the connection is, and the others are
    sent a second time when they come. *)
Theorem C78_duplicate_refuted :
  let s := go 100 [room0 "!r" "c1" "j1"; room0 "!s" "c2" "j2"; PRegister; PLoad ["!r"; "!s"];
    message "!r" "m5"; message "!r" "m6"; message "!s" "m7"; dispatch; dispatch; dispatch; take_next;
    PRelease "!r" 6; PConsume [ini "!r" 10] true false true; take_next; PRespond] in
  map snd (stored_timeline s "!r") = ["m5"; "m6"] /\ map snd (client_timeline s "!r") = ["m5"; "m6"; "m6"] /\ on_the_way s "!r" = [].
Proof. split; [comp|split; comp]. Qed.
Print Assumptions C78_duplicate_refuted.
