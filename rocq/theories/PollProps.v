(** C34, C35: processing a response. *)
From Verif Require Import Prelude PollModel PollSpec PollProofs.
Open Scope string_scope. Open Scope list_scope.

(** C35. Whatever fails, every joined, left and invited room is attempted, in
    order; each up to its first failure. A retry is asked for exactly if some
    failure is not a permanent data error. *)
Theorem C35_every_room_is_attempted env tr res tr' o :
  parseRoomsResponse env tr res = Some (tr', o) ->
  exists t, tr' = tr ++ t /\ rooms_done res t /\ (shouldRetry o = true <-> Exists transient t).
Proof. apply rooms_spec. Qed.

(** How one section ends. *)
Definition section_done (needed : bool) (c : call) (t : trace) : Prop :=
  follows (if needed then [c] else []) t.
Lemma section_spec env tr needed c tr' o :
  reports c = true -> section env tr needed c = Some (tr', o) ->
  exists t, tr' = tr ++ t /\ section_done needed c t /\ (shouldRetry o = true <-> Exists transient t).
Proof.
  intros Hr. unfold section, section_done. destruct needed.
  - intros H. apply last_spec in H as (t & -> & Hf & He); [|done]. exists t. split; [done|]. split; [done|].
    apply ended_room in He as [He _]. rewrite He. destruct o; cbn; naive_solver.
  - intros [= <- <-]. exists []. rewrite app_nil_r. split; [done|]. split; [apply follows_nil|].
    split; [done|]. intros H. by apply Exists_nil in H.
Qed.

Definition e2ee_part (res : response) := section_done (r_e2ee res) OnE2EEData.
Definition acct_part (res : response) := section_done (negb (r_acct res =? 0)%nat) (OnAccountData "").
Definition todev_part (res : response) := section_done (negb (r_todev res =? 0)%nat) AddToDeviceMessages.

(** C34. A retry is asked for exactly if some reported failure is not a permanent
    data error. If none is, every section of the response was processed. *)
Theorem C34_retry_iff_a_section_failed env res tr retry :
  process env res = Some (tr, retry) ->
  (retry = true <-> Exists transient tr)
  /\ (retry = false -> exists e a r d, tr = e ++ a ++ r ++ d
       /\ e2ee_part res e /\ acct_part res a /\ rooms_done res r /\ todev_part res d).
Proof.
  unfold process.
  destruct (section env [] (r_e2ee res) OnE2EEData) as [[tr1 o1]|] eqn:E1; [|done].
  apply section_spec in E1 as (e & -> & He & R1); [|done]. cbn [app].
  destruct (shouldRetry o1); [intros [= <- <-]; split; [done|done]|].
  assert (N1 : ~ Exists transient e) by naive_solver.
  destruct (section env _ _ (OnAccountData "")) as [[tr2 o2]|] eqn:E2; [|done].
  apply section_spec in E2 as (a & -> & Ha & R2); [|done].
  destruct (shouldRetry o2); [intros [= <- <-]; split; [rewrite Exists_app; naive_solver|done]|].
  assert (N2 : ~ Exists transient a) by naive_solver.
  destruct (parseRoomsResponse env _ res) as [[tr3 o3]|] eqn:E3; [|done].
  apply rooms_spec in E3 as (r & -> & Hrr & R3).
  destruct (shouldRetry o3); [intros [= <- <-]; split; [rewrite !Exists_app; naive_solver|done]|].
  assert (N3 : ~ Exists transient r) by naive_solver.
  destruct (section env _ _ AddToDeviceMessages) as [[tr4 o4]|] eqn:E4; [|done].
  apply section_spec in E4 as (d & -> & Hd & R4); [|done].
  intros [= <- <-]. split.
  - rewrite !Exists_app, R4. naive_solver.
  - intros _. exists e, a, r, d. by rewrite <- !app_assoc.
Qed.
Print Assumptions C34_retry_iff_a_section_failed.

(** C34. The position moves only to the token of the response just processed, and
    exactly if it need not be processed again. *)
Theorem C34_advances p env res late stored tr retry :
  process env res = Some (tr, retry) ->
  (retry = true -> poll p env res late stored = p)
  /\ (retry = false -> p_since (poll p env res late stored) = r_next res
       /\ (p_stored (poll p env res late stored) = p_stored p
           \/ p_stored (poll p env res late stored) = r_next res)
       /\ (r_todev res <> 0 -> stored = true -> p_stored (poll p env res late stored) = r_next res)
       /\ (late = true -> stored = true -> p_stored (poll p env res late stored) = r_next res)).
Proof.
  intros H. unfold poll. rewrite H. split; [by intros ->|]. intros ->. cbn [p_since p_stored].
  split; [done|]. split; [destruct ((late || negb (r_todev res =? 0)%nat) && stored); [by right|by left]|]. split.
  - intros Hn ->. rewrite (proj2 (Nat.eqb_neq _ _) Hn). by destruct late.
  - by intros -> ->.
Qed.

Lemma leads_mono v v' s t : (forall x, In x (v_done v) -> In x (v_done v')) -> leads v s t -> leads v' s t.
Proof. intros H (res & Hin & E). exists res. auto. Qed.
Lemma rtc_leads_mono v v' s t : (forall x, In x (v_done v) -> In x (v_done v')) ->
  rtc (leads v) s t -> rtc (leads v') s t.
Proof. intros H R. induction R; [constructor|]. econstructor; [by eapply leads_mono|done]. Qed.

(** C34. After any history of responses, failures, crashes and restarts, the
    stored position is reached from the start by processed responses only, and
    the poller's own position from the stored one. *)
Theorem C34_never_past_unprocessed_data hs :
  let v := run hs in
  rtc (leads v) "" (p_stored (v_p v)) /\ rtc (leads v) (p_stored (v_p v)) (p_since (v_p v))
  /\ (forall s res, In (s, res) (v_done v) -> exists env tr, process env res = Some (tr, false)).
Proof.
  cbn zeta. unfold run. induction hs as [|h hs IH] using rev_ind.
  { cbn. split; [constructor|]. split; [constructor|]. done. }
  rewrite fold_left_app. cbn [fold_left]. set (v := fold_left step hs world0) in *.
  destruct IH as (I1 & I2 & I3). destruct h as [env res late stored|]; cbn [step].
  - destruct (process env res) as [[tr b]|] eqn:E.
    + destruct b.
      * unfold poll. rewrite E. by destruct v.
      * cbn [v_done v_p]. unfold poll. rewrite E. cbn [p_stored p_since].
        assert (Hm : forall x, In x (v_done v) -> In x (v_done v ++ [(p_since (v_p v), res)])).
        { intros x Hx. apply in_or_app. by left. }
        set (v' := {| v_p := _; v_done := _ |}).
        assert (Hl : rtc (leads v') (p_since (v_p v)) (r_next res)).
        { apply rtc_once. exists res. split; [|done]. apply in_or_app. right. by left. }
        assert (J1 : rtc (leads v') "" (p_stored (v_p v))) by (by eapply rtc_leads_mono; [|exact I1]).
        assert (J2 : rtc (leads v') (p_stored (v_p v)) (p_since (v_p v))) by (by eapply rtc_leads_mono; [|exact I2]).
        split; [|split].
        -- destruct ((late || _) && stored); [|done]. etrans; [exact J1|]. etrans; [exact J2|done].
        -- destruct ((late || _) && stored); [constructor|]. etrans; [exact J2|done].
        -- intros s x Hin. apply in_app_or in Hin as [Hin|[[= <- <-]|[]]]; [by apply (I3 s)|by exists env, tr].
    + unfold poll. rewrite E. cbn [v_done v_p p_stored p_since]. split; [|split; [constructor|done]].
      eapply rtc_leads_mono; [|exact I1]. done.
  - cbn [v_done v_p p_stored p_since]. split; [|split; [constructor|done]].
    eapply rtc_leads_mono; [|exact I1]. done.
Qed.
Print Assumptions C34_never_past_unprocessed_data.

(** A response with two joined rooms, one left and one invite. *)
Definition ev (c l : bool) (s : nat) : tev := mk_tev c l s.
Definition room (id : string) := mk_joined id [ev false false 0] [Typing; Receipt] 1 [ev false false 1] true.
Definition res1 : response :=
  mk_response "s1" true 1 [room "!bad"; room "!good"] [mk_left "!left" [ev false true 4]] ["!invite"] 1.
(** "!bad" cannot be initialised because of its data. *)
Definition bad_data : oracle := fun _ c =>
  match c with Initialise "!bad" _ => Data | _ => Ok end.
Definition bad_db : oracle := fun _ c =>
  match c with Initialise "!bad" _ => Fail | _ => Ok end.

Example C35_bad_room_example :
  (exists tr, process bad_data res1 = Some (tr, false)
     /\ In (Accumulate "!good" [ev false false 1], Ok) tr /\ In (OnInvite "!invite", Ok) tr
     /\ In (AddToDeviceMessages, Ok) tr)
  /\ (exists tr, process bad_db res1 = Some (tr, true)
     /\ In (Accumulate "!good" [ev false false 1], Ok) tr /\ In (OnInvite "!invite", Ok) tr)
  /\ process (fun _ _ => Crash) res1 = None.
Proof.
  split; [|split; [|done]]; eexists; (split; [vm_compute; reflexivity|]); repeat split; cbn; tauto.
Qed.

(** A create event found in the timeline is moved to the state. *)
Definition misplaced : joined :=
  mk_joined "!a" [ev false false 0] [] 0 [ev false false 1; ev true false 3; ev false false 2] false.
Example C35_create_is_moved_example :
  join_room (fun _ c => match c with Initialise _ [_] => Data | _ => Ok end) [] misplaced
  = Some ([(Initialise "!a" [ev false false 0], Data);
           (Initialise "!a" [ev true false 3; ev false false 0], Ok);
           (Accumulate "!a" [ev false false 1; ev false false 2], Ok)], Ok).
Proof. reflexivity. Qed.

(** C35 does not say that every part of a room is attempted: after a data error in
    its state, a room's new messages are not stored and the position advances. *)
Theorem C35_rest_of_the_room_refuted :
  exists env res tr, process env res = Some (tr, false)
    /\ p_since (poll (mk_poller "" "") env res true true) = r_next res
    /\ (exists r, In r (r_join res) /\ j_tl r <> [] /\ forall evs o, ~ In (Accumulate (j_room r) evs, o) tr).
Proof.
  exists bad_data, res1. eexists. split; [vm_compute; reflexivity|]. split; [reflexivity|].
  exists (room "!bad"). split; [by left|]. split; [done|]. intros evs o H. cbn in H.
  repeat (destruct H as [H|H]; [inversion H|]). done.
Qed.

(** C34 as stated fails for receipts, typing and unread counts: their failure is
    not reported, and the position advances although they were not stored. *)
Theorem C34_receipts_and_counts_refuted :
  exists env res tr, process env res = Some (tr, false)
    /\ p_since (poll (mk_poller "" "") env res true true) = r_next res
    /\ In (OnReceipt "!good", Fail) tr /\ In (UpdateUnreadCounts "!good", Fail) tr.
Proof.
  exists (fun _ c => match c with OnReceipt _ | UpdateUnreadCounts _ => Fail | _ => Ok end), res1.
  eexists. split; [vm_compute; reflexivity|]. split; [reflexivity|]. split; cbn; tauto.
Qed.

(** A crash while the stored token is behind: the response is processed again. *)
Example C34_history_example :
  let hs := [Response (fun _ _ => Ok) res1 true true;
             Response (fun _ _ => Ok) (mk_response "s2" false 0 [room "!good"] [] [] 0) false true;
             Response (fun _ _ => Crash) (mk_response "s3" true 0 [] [] [] 0) false true] in
  run (take 2 hs) = mk_world (mk_poller "s1" "s2") [("", res1); ("s1", mk_response "s2" false 0 [room "!good"] [] [] 0)]
  /\ v_p (run hs) = mk_poller "s1" "s1".
Proof. split; vm_compute; reflexivity. Qed.
