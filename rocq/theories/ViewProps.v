(** C77: while a room is in view, the client's copy of its name, avatar and counts
    follows what the server knows. *)
From Verif Require Import Prelude RoomNameModel GlobalModel ListsModel ViewModel ViewSpec ViewProofs.
Open Scope string_scope.
Open Scope list_scope.
Open Scope Z_scope.

(** C77, partial: whenever the room is in view and no update is outstanding, what
    the client has after the response is what the server knows. Missing: the
    circumstances excluded by [gentle], for each of which there is a refutation
    below. *)
Theorem C77_follows_partial :
  forall lower me m u pos l,
  tellable me m ->
  all_gentle lower me (start lower me m u pos) l ->
  let s := run lower me (start lower me m u pos) l in
  s_shown s = true -> pending s = [] -> sees s = Some (known me s).
Proof.
  intros lower me m u pos l Ht Hg s Hs Hp.
  destruct (inv_run lower me l _ _ (inv_start lower me m u pos Ht) Hg) as (h & HI & _).
  destruct HI as [_ _ _ _ Is Il]. fold s in Is, Il. specialize (Is Hs). specialize (Il Hs).
  rewrite Hp in Il. cbn in Il. by rewrite Is.
Qed.
Print Assumptions C77_follows_partial.

(** C77, partial: also while updates are outstanding, the client is only ever
    shown what was the case at some moment since the connection was made: never a
    new name with an old count, or a name the room did not have. Missing: as above. *)
Theorem C77_was_so_partial :
  forall lower me m u pos l,
  tellable me m ->
  all_gentle lower me (start lower me m u pos) l ->
  let s := run lower me (start lower me m u pos) l in
  s_shown s = true ->
  exists k, sees s = Some (known me (run lower me (start lower me m u pos) (take k l))).
Proof.
  intros lower me m u pos l Ht Hg s Hs.
  destruct (inv_run lower me l _ _ (inv_start lower me m u pos Ht) Hg) as (h & HI & Hh).
  destruct HI as [_ _ _ (e & Ee & Hin) Is _]. fold s in Ee, Is. specialize (Is Hs).
  rewrite Is, (recorded_entry s e Ee). destruct (Hh _ Hin) as [Hv|[k ->]]; [|by exists k].
  apply elem_of_list_singleton in Hv as ->. by exists 0%nat.
Qed.
Print Assumptions C77_was_so_partial.

(** C77: when the room comes into view the client is given all there is to know,
    whatever it had before. *)
Theorem C77_load_tells :
  forall lower me s pos, tellable me (s_meta s) ->
  sees (step lower me s (Enter pos)) = Some (known me s).
Proof. intros lower me s pos Ht. unfold sees. cbn [step set_resp s_resp s_client]. by rewrite merge_initial. Qed.
Print Assumptions C77_load_tells.

(** C77: an event of a room in view which is not dropped brings the client up to
    date with all that the event's update says, if the copy agreed with the
    connection's record. *)
Theorem C77_event_tells :
  forall lower me s up q ev inside pos r,
  s_queue s = up :: q -> up_event up = Some ev -> dropped (s_pos s) up = false ->
  s_shown s = true -> recorded s = Some r -> sees s = Some r ->
  tellable me (up_meta up) -> v_dm (says me up) = v_dm r ->
  let s' := step lower me s (Take inside false pos) in
  sees s' = Some (says me up) /\ recorded s' = Some (says me up).
Proof.
  intros lower me s up q ev inside pos r Hq Hev Hd Hs Hr Hse Ht Hdm s'.
  unfold recorded in Hr. destruct (s_entry s) as [e|] eqn:Ee; [|done]. apply (inj Some) in Hr. subst r.
  pose proof (take_update_ok lower me inside false pos up (set_queue s q (s_held s)) e) as H.
  cbv zeta in H. destruct H as (H1 & _ & H3 & _); try done.
  - cbn. by rewrite Hs.
  - intros _. split; [done|]. split; [exact Hse|]. intros Hx. by rewrite Hev in Hx.
  - unfold s'. cbn [step]. rewrite Hq. done.
Qed.
Print Assumptions C77_event_tells.

(** C77: a change of the unread counts alone reaches the client of a room in view
    although nothing else about the room is in the response. *)
Theorem C77_counts_tell :
  forall lower me s up q inside pos r,
  s_queue s = up :: q -> up_event up = None ->
  s_shown s = true -> recorded s = Some r -> sees s = Some r ->
  tellable me (up_meta up) -> same_but_counts (says me up) r ->
  let s' := step lower me s (Take inside false pos) in
  sees s' = Some (says me up) /\ recorded s' = Some (says me up).
Proof.
  intros lower me s up q inside pos r Hq Hev Hs Hr Hse Ht Hsame s'.
  unfold recorded in Hr. destruct (s_entry s) as [e|] eqn:Ee; [|done]. apply (inj Some) in Hr. subst r.
  pose proof (take_update_ok lower me inside false pos up (set_queue s q (s_held s)) e) as H.
  cbv zeta in H. destruct H as (H1 & _ & H3 & _); try done.
  - unfold dropped. by rewrite Hev.
  - cbn. by rewrite Hs.
  - intros _. split; [|by split]. by destruct Hsame as (_ & _ & -> & _).
  - unfold s'. cbn [step]. rewrite Hq. done.
Qed.
Print Assumptions C77_counts_tell.

(** ** Witnesses *)
Definition room (name : string) (joined : Z) : room_meta :=
  mk_meta "!r" [mk_hero "@me" "Me" ""; mk_hero "@b" "Bo" "mxc://b"] name "" "" joined 0 0 ∅ false None None None ∅.
Definition me := "@me".
Definition fresh_conn (unread : Z) : state := start id me (room "A" 2) (mk_user false unread 0) 10.
Definition msg (nid : Z) : event_info := mk_event nid false false.
Definition copy (s : state) : option (string * Z * Z * bool) :=
  (fun v => (v_name v, v_joined v, v_notif v, v_dm v)) <$> s_client s.
Definition truth (s : state) : string * Z * Z * bool :=
  let v := known me s in (v_name v, v_joined v, v_notif v, v_dm v).
Definition settled (s : state) : Prop := s_shown s = true /\ pending s = [] /\ s_resp s = None.

Lemma tellable_room name joined :
  name <> "" -> joined <> 0 -> tellable me (room name joined).
Proof.
  intros Hn Hj. split; [|split; [done|by intros []]].
  unfold display_name, room_name, without, room. cbn [m_name].
  destruct (String.eqb_spec name ""); done.
Qed.

(** The hypotheses are met by a run in which the room comes into view, is renamed
    while a message of the user is being held back, gains a member and has its
    unread count changed. *)
Definition quiet_run : list action :=
  [Enter 10; Answer; Event (msg 11) (room "A" 2) true; Event (msg 12) (room "B" 3) false;
   Release 2; Take false false 0; Take false false 0; Answer;
   Counts 4 1; Take false false 0; Answer; Other; Take false false 0; Answer].
Example C77_example :
  tellable me (room "A" 2) /\ all_gentle id me (fresh_conn 1) quiet_run /\
  settled (run id me (fresh_conn 1) quiet_run) /\
  copy (run id me (fresh_conn 1) quiet_run) = Some ("B", 3, 4, false).
Proof.
  split; [by apply tellable_room|]. split.
  - unfold quiet_run. cbn [all_gentle].
    repeat lazymatch goal with
    | |- gentle _ _ (Event _ _ _) /\ _ => split; [by apply tellable_room|]
    | |- gentle _ _ (Enter _) /\ _ => split; [by vm_compute|]
    | |- gentle _ _ (Counts _ _) /\ _ => split; [intros _; by vm_compute|]
    | |- gentle _ _ (Take _ _ _) /\ _ =>
        split; [intros up q Hq; vm_compute in Hq; injection Hq as <- <-; split; [done|];
                intros _ r Hr; vm_compute in Hr; injection Hr as <-; vm_compute; by intuition|]
    | |- gentle _ _ _ /\ _ => split; [exact I|]
    | |- True => exact I
    end.
  - split; [by vm_compute|]. vm_compute. done.
Qed.

(** C77 is false in general. *)

(** An event which was held back carries the unread counts of the time when it was
    held: the user, with five unread messages, sends a message; another member's
    poller brings it first, so it is held back; the user's own poller then brings
    the unread count of zero, which is sent at once; when the message is released
    the client is told five again, and nothing corrects it. *)
Theorem C77_counts_go_back_refuted :
  let s := run id me (fresh_conn 5)
    [Enter 10; Answer; Event (msg 11) (room "A" 2) true; Counts 0 0; Take false false 0; Answer;
     Release 1; Take false false 0; Answer] in
  settled s /\ truth s = ("A", 2, 0, false) /\ copy s = Some ("A", 2, 5, false).
Proof. vm_compute. done. Qed.
Print Assumptions C77_counts_go_back_refuted.

(** A change of name which is being held back with the user's own message is lost
    when somebody starts typing before it is released: the typing notification
    records the new name without sending it. *)
Theorem C77_name_lost_refuted :
  let s := run id me (fresh_conn 0)
    [Enter 10; Answer; Event (msg 11) (room "A" 2) true; Event (msg 12) (room "B" 3) false;
     Release 1; Take false false 0; Answer; Other; Take false false 0; Answer;
     Release 1; Take false false 0; Answer] in
  settled s /\ truth s = ("B", 3, 0, false) /\ copy s = Some ("A", 2, 0, false).
Proof. vm_compute. done. Qed.
Print Assumptions C77_name_lost_refuted.

(** The room comes into view between two changes that cancel out, both of which are
    in the database: the client keeps the name in between. *)
Theorem C77_loaded_between_refuted :
  let s := run id me (fresh_conn 0)
    [Event (msg 11) (room "B" 3) false; Enter 12; Event (msg 12) (room "A" 2) false;
     Take false false 0; Take false false 0; Answer] in
  settled s /\ truth s = ("A", 2, 0, false) /\ copy s = Some ("B", 3, 0, false).
Proof. vm_compute. done. Qed.
Print Assumptions C77_loaded_between_refuted.

(** The room comes into view when a change of name and a message of an ignored user
    are in the database but not dispatched yet: both are dropped. *)
Theorem C77_dropped_refuted :
  let s := run id me (fresh_conn 0)
    [Enter 12; Event (msg 11) (room "B" 3) false; Event (mk_event 12 false true) (room "B" 3) false;
     Take false false 0; Take false false 0; Answer] in
  settled s /\ truth s = ("B", 3, 0, false) /\ copy s = Some ("A", 2, 0, false).
Proof. vm_compute. done. Qed.
Print Assumptions C77_dropped_refuted.

(** When the member event of somebody who is typing is added to a response in which
    the room is not, the client is told that there is nothing unread. *)
Theorem C77_typing_clears_counts_refuted :
  let s := run id me (fresh_conn 3) [Enter 10; Answer; Other; Take false false 0; Members; Answer] in
  settled s /\ truth s = ("A", 2, 3, false) /\ copy s = Some ("A", 2, 0, false).
Proof. vm_compute. done. Qed.
Print Assumptions C77_typing_clears_counts_refuted.

(** A client is not told that a room in view became a direct chat, or ceased to be
    one, not even with the next event. *)
Theorem C77_direct_refuted :
  let s := run id me (fresh_conn 0)
    [Enter 10; Answer; Direct true; Event (msg 11) (room "A" 2) false; Take false false 0; Answer] in
  settled s /\ truth s = ("A", 2, 0, true) /\ copy s = Some ("A", 2, 0, false).
Proof. vm_compute. done. Qed.
Print Assumptions C77_direct_refuted.
