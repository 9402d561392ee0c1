(** Model of which rooms' content gets into the responses of one connection: the user's
    memberships as the dispatcher has them (sync3/dispatcher.go:160-203, sync3/tracker.go), the
    user's data of rooms (sync3/caches/user.go:593-695), the connection's updates
    (sync3/handler/connstate_live.go:133-381, sync3/handler/txn_id_waiter.go) and its requests
    (sync3/handler/connstate.go:269-517, 553-692). What a room looks like is not modelled: only of which
    moment of the room it is, as the position of the latest event it takes into account. *)
From Verif Require Import Prelude.
Open Scope string_scope. Open Scope list_scope. Open Scope Z_scope.

(** The content.membership of the user's own m.room.member events; [Knock] stands for all
    other values. *)
Inductive mship := Join | Invite | Leave | Ban | Knock.
(** An event: its position, its room, and whether it is an m.room.member event of the user.
    State events without a position (sync3/dispatcher.go:122-158) are left out. *)
Record ev := mk_ev { e_nid : Z; e_room : string; e_own : option mship }.

(** sync3/caches/user.go:36-62, UserRoomData: IsInvite, Invite, HasLeft. An invite is known by
    a string that stands for all of its content. *)
Record urd := mk_urd { u_invite : bool; u_data : option string; u_left : bool }.
Definition urd0 : urd := mk_urd false None false.

(** sync3/caches/update.go: the updates. [UEvent] is made by OnNewEvent, [ULeft] by OnLeftRoom
    with AlwaysProcess, [UInvite] by OnInvite, and [UNote] by OnUnreadCounts, OnAccountData,
    OnSpaceUpdate, OnReceipt and OnEphemeralEvent: it has the room's metadata, of the position
    given. All have a copy of the user's data. *)
Inductive upd :=
| UEvent (e : ev) (u : urd)
| ULeft (r : string) (always : bool) (u : urd)
| UInvite (r : string) (c : string) (u : urd)
| UNote (r : string) (v : option Z) (u : urd).
Definition upd_room (x : upd) : string :=
  match x with UEvent e _ => e_room e | ULeft r _ _ => r | UInvite r _ _ => r | UNote r _ _ => r end.
Definition upd_urd (x : upd) : urd :=
  match x with UEvent _ u => u | ULeft _ _ u => u | UInvite _ _ u => u | UNote _ _ u => u end.
(** *caches.RoomEventUpdate. *)
Definition is_event (x : upd) : bool := match x with UEvent _ _ | ULeft _ _ _ => true | _ => false end.

(** What the client is shown: an event; the name, avatar, heroes and counts of a room as they
    were after an event; the room's state as it was after an event; what an invite says; or
    nothing, because the request panics. The user's own leave event that OnLeftRoom passes on
    is not listed, nor are timelines of rooms with initial: true, which are C27's. *)
Inductive shown :=
| ShowEvent (r : string) (n : Z)
| ShowMeta (r : string) (n : Z)
| ShowState (r : string) (n : Z)
| ShowInvite (r : string) (c : string)
| Crash (r : string).

(** The server, as far as one user and one connection of theirs are concerned. [s_db] are the
    stored events, [s_todo] those of them of which the dispatcher does not yet know, [s_done]
    those it has handed out. [s_joined] and [s_invited] are the rooms for which the
    JoinedRoomsTracker has the user. [s_listed] are the rooms in the connection's lists, before
    filters. [s_buf] are the updates on their way: in the TxnIDWaiter or in the buffer.
    [s_resp] are the rooms in the response that is being made. [s_out] is all that was shown
    so far and [s_invs] all invites the user's poller has got: both only for the statements. *)
Record st := mk_st {
  s_db : list ev; s_todo : list ev; s_done : list ev;
  s_joined : gset string; s_invited : gset string; s_cache : gmap string urd;
  s_listed : gset string; s_lp : gmap string Z; s_anchor : Z; s_buf : list upd;
  s_resp : gset string; s_out : list shown; s_invs : list (string * string) }.

Definition in_room (r : string) (e : ev) : bool := String.eqb (e_room e) r.
(** The position of the latest event of a room among these. *)
Definition latest (l : list ev) (r : string) : option Z := last (map e_nid (List.filter (in_room r) l)).
(** sync3/tracker.go:77-137, for this user. *)
Definition track (ji : gset string * gset string) (e : ev) : gset string * gset string :=
  match e_own e with
  | Some Invite => (ji.1, ji.2 ∪ {[ e_room e ]})
  | Some Join => (ji.1 ∪ {[ e_room e ]}, ji.2 ∖ {[ e_room e ]})
  | Some Leave | Some Ban => (ji.1 ∖ {[ e_room e ]}, ji.2 ∖ {[ e_room e ]})
  | Some Knock | None => ji
  end.
(** sync3/caches/user.go:366-395, LoadRoomData. *)
Definition udata (s : st) (r : string) : urd := default urd0 (s_cache s !! r).

(** sync3/dispatcher.go:160-203, OnNewEvent: whether the user is told. *)
Definition told (j i j' : gset string) (e : ev) : bool :=
  bool_decide (e_room e ∈ j') ||
  match e_own e with
  | Some Leave | Some Ban => bool_decide (e_room e ∈ j) || bool_decide (e_room e ∈ i)
  | _ => false
  end.
(** sync3/caches/user.go:593-619, OnNewEvent. *)
Definition cache_event (u : urd) (e : ev) : urd :=
  match e_own e with
  | Some m => if u_invite u then mk_urd (match m with Invite => true | _ => false end) (u_data u) (u_left u) else u
  | None => u
  end.
(** sync3/handler/handler.go:650-668 and the above: an event is handed out. The metadata of
    the room in the global cache (sync3/caches/global.go) is then as of this event. *)
Definition dispatch (s : st) (e : ev) (todo : list ev) : st :=
  let ji := track (s_joined s, s_invited s) e in
  let s1 := mk_st (s_db s) todo (s_done s ++ [e]) ji.1 ji.2 (s_cache s) (s_listed s) (s_lp s)
              (s_anchor s) (s_buf s) (s_resp s) (s_out s) (s_invs s) in
  if told (s_joined s) (s_invited s) ji.1 e then
    let u := cache_event (udata s (e_room e)) e in
    mk_st (s_db s1) todo (s_done s1) ji.1 ji.2 (<[e_room e := u]> (s_cache s)) (s_listed s) (s_lp s)
      (s_anchor s) (s_buf s ++ [UEvent e u]) (s_resp s) (s_out s) (s_invs s)
  else s1.

(** sync3/caches/user.go:621-648, OnInvite. *)
Definition on_invite (s : st) (r c : string) : st :=
  let u := mk_urd true (Some c) false in
  mk_st (s_db s) (s_todo s) (s_done s) (s_joined s) (s_invited s) (<[r := u]> (s_cache s)) (s_listed s)
    (s_lp s) (s_anchor s) (s_buf s ++ [UInvite r c u]) (s_resp s) (s_out s) (s_invs s ++ [(r, c)]).
(** sync3/caches/user.go:650-695, OnLeftRoom. [kick] says that the sender of the leave event is
    somebody else. sync2/poller.go:889-915: only called if the room is in the leave section of
    the user's own poll and the timeline has a membership "leave" of the user; never for "ban". *)
Definition on_left (s : st) (r : string) (kick : bool) : st :=
  let u := mk_urd false None true in
  mk_st (s_db s) (s_todo s) (s_done s) (s_joined s) (s_invited s) (<[r := u]> (s_cache s)) (s_listed s)
    (s_lp s) (s_anchor s) (s_buf s ++ [ULeft r (u_invite (udata s r) || kick) u]) (s_resp s) (s_out s) (s_invs s).
(** sync3/caches/user.go:397-415 newRoomUpdate, called at 505, 517, 564, 586, 781. *)
Definition on_note (s : st) (r : string) : st :=
  mk_st (s_db s) (s_todo s) (s_done s) (s_joined s) (s_invited s) (s_cache s) (s_listed s)
    (s_lp s) (s_anchor s) (s_buf s ++ [UNote r (latest (s_done s) r) (udata s r)]) (s_resp s) (s_out s) (s_invs s).

(** sync3/handler/connstate.go:553-692, getInitialRoomData, for one room: an invited room is
    shown as the invite says; else its metadata is that of the global cache, and its state
    that of the database at the connection's anchor. A room that the global cache does not know
    makes the request panic (610, RemoveHero of nil). *)
Definition load (s : st) (r : string) : list shown :=
  let u := udata s r in
  if u_invite u then
    match u_data u with Some c => [ShowInvite r c] | None => [Crash r] end
  else
    match latest (s_done s) r with
    | None => [Crash r]
    | Some v =>
        ShowMeta r v ::
        match latest (List.filter (fun e => e_nid e <=? s_anchor s) (s_db s)) r with
        | Some w => [ShowState r w]
        | None => []
        end
    end.
(** Rooms are loaded for a response: connstate.go:469-517 and 587. The new load position is that of
    the latest event in the timeline that was read, and no later than the anchor; [pos] says
    what it is (C28). *)
Definition load_rooms (pos : string -> Z) (rs : list string) (s : st) : st :=
  mk_st (s_db s) (s_todo s) (s_done s) (s_joined s) (s_invited s) (s_cache s) (s_listed s)
    (fold_right (fun r m => <[r := Z.min (pos r) (s_anchor s)]> m) (s_lp s) rs) (s_anchor s) (s_buf s)
    (s_resp s ∪ list_to_set rs) (s_out s ++ concat (map (load s) rs)) (s_invs s).

(** sync3/handler/connstate.go:269-424, 443-467, 489-500: a request. [wins] are the rooms of lists
    that come into view because of new lists, added ranges, changed filters or sort orders:
    any rooms of the lists. [subs] are the rooms which it asks for in any other way: room
    subscriptions, rooms in view whose timeline_limit or required_state changes, and
    predecessors of rooms: the tracker is asked for each. A new response is begun. *)
Definition request (s : st) (wins subs : list string) (pos : string -> Z) : st :=
  let s0 := mk_st (s_db s) (s_todo s) (s_done s) (s_joined s) (s_invited s) (s_cache s) (s_listed s) (s_lp s)
              (s_anchor s) (s_buf s) ∅ (s_out s) (s_invs s) in
  load_rooms pos (List.filter (fun r => bool_decide (r ∈ s_listed s)) wins
                  ++ List.filter (fun r => bool_decide (r ∈ s_joined s)) subs) s0.

(** sync3/handler/connstate_live.go:140-151: updates that are behind. OnLeftRoom's event has no
    position, that is 0. Ignored senders (153-162) are left out. *)
Definition behind (s : st) (x : upd) : bool :=
  let lp := default 0 (s_lp s !! upd_room x) in
  match x with
  | UEvent e _ => (0 <? lp) && (e_nid e <? lp)
  | ULeft _ always _ => negb always && (0 <? lp)
  | _ => false
  end.
(** connstate_live.go:334-381, processGlobalUpdates and sync3/lists.go:79-150, SetRoom: the room
    is then in the lists unless the user has left; the anchor moves on. *)
Definition set_room (s : st) (x : upd) : st :=
  mk_st (s_db s) (s_todo s) (s_done s) (s_joined s) (s_invited s) (s_cache s)
    (if u_left (upd_urd x) then s_listed s ∖ {[ upd_room x ]} else s_listed s ∪ {[ upd_room x ]}) (s_lp s)
    (match x with UEvent e _ => Z.max (s_anchor s) (e_nid e) | _ => s_anchor s end) (s_buf s)
    (s_resp s) (s_out s) (s_invs s).
(** connstate_live.go:189-235: the event itself is put into the response if [hu] (hasUpdates). *)
Definition show_event (hu : bool) (s : st) (x : upd) : st :=
  let seen := match x with UEvent e _ => [ShowEvent (e_room e) (e_nid e)] | _ => [] end in
  if hu && is_event x then
    mk_st (s_db s) (s_todo s) (s_done s) (s_joined s) (s_invited s) (s_cache s) (s_listed s)
      (match x with UEvent e _ => <[e_room e := e_nid e]> (s_lp s) | _ => s_lp s end) (s_anchor s) (s_buf s)
      (s_resp s ∪ {[ upd_room x ]}) (s_out s ++ seen) (s_invs s)
  else s.
(** connstate_live.go:253-291: a changed name, avatar or count is taken from the update's
    metadata if the room is in the response. That it changed is not asked here. *)
Definition show_meta (s : st) (x : upd) : st :=
  let seen := match x with
              | UEvent e _ => [ShowMeta (e_room e) (e_nid e)]
              | ULeft _ _ _ => []
              | UInvite r c _ => [ShowInvite r c]
              | UNote r v _ => match v with Some n => [ShowMeta r n] | None => [] end
              end in
  if bool_decide (upd_room x ∈ s_resp s) then
    mk_st (s_db s) (s_todo s) (s_done s) (s_joined s) (s_invited s) (s_cache s) (s_listed s) (s_lp s) (s_anchor s)
      (s_buf s) (s_resp s) (s_out s ++ seen) (s_invs s)
  else s.
(** connstate_live.go:133-294, processLiveUpdate. [wins] are rooms which come into view because of the
    update (resort, ForceInitial): rooms of the lists, or the update's own; [sub] says that the
    client asked for a subscription of the room that it does not have yet (297-331). *)
Definition process (s : st) (x : upd) (wins : list string) (sub hu : bool) (pos : string -> Z) : st :=
  if behind s x then s else
  let s1 := set_room s x in
  let rs := List.filter (fun r => bool_decide (r ∈ s_listed s1)
                          || (bool_decide (r ∈ s_listed s) && String.eqb r (upd_room x))) wins
            ++ (if sub && bool_decide (upd_room x ∈ s_joined s) then [upd_room x] else []) in
  show_meta (show_event hu (load_rooms pos rs s1) x) x.

(** What can happen. [Deliver before x after ...]: the update [x] is taken from the buffer, of
    which [before] are held back by the TxnIDWaiter: only events are, and with them all later
    events of the room (sync3/handler/txn_id_waiter.go:32-63). *)
Inductive act :=
| Store (e : ev)
| Dispatch (before : nat)
| Invited (r c : string)
| Left (r : string) (kick : bool)
| Note (r : string)
| Request (wins subs : list string) (pos : string -> Z)
| Deliver (before : nat) (wins : list string) (sub hu : bool) (pos : string -> Z).

Definition set_buf (s : st) (b : list upd) : st :=
  mk_st (s_db s) (s_todo s) (s_done s) (s_joined s) (s_invited s) (s_cache s) (s_listed s) (s_lp s) (s_anchor s)
    b (s_resp s) (s_out s) (s_invs s).

(** One step; [None]: it cannot happen. Positions are given out by a sequence
    (state/migrations, events.event_nid); events of one room are handed out in order (C55,
    C78). *)
Definition step (s : st) (a : act) : option st :=
  match a with
  | Store e =>
      if forallb (fun e' => e_nid e' <? e_nid e) (s_db s) && (0 <? e_nid e)
      then Some (mk_st (s_db s ++ [e]) (s_todo s ++ [e]) (s_done s) (s_joined s) (s_invited s) (s_cache s) (s_listed s)
                   (s_lp s) (s_anchor s) (s_buf s) (s_resp s) (s_out s) (s_invs s))
      else None
  | Dispatch n =>
      match s_todo s !! n with
      | Some e => if forallb (fun e' => negb (in_room (e_room e) e')) (take n (s_todo s))
                  then Some (dispatch s e (take n (s_todo s) ++ drop (S n) (s_todo s))) else None
      | None => None
      end
  | Invited r c => Some (on_invite s r c)
  | Left r kick => Some (on_left s r kick)
  | Note r => Some (on_note s r)
  | Request wins subs pos => Some (request s wins subs pos)
  | Deliver n wins sub hu pos =>
      match s_buf s !! n with
      | Some x => if forallb (fun y => is_event y && negb (is_event x && String.eqb (upd_room y) (upd_room x)))
                       (take n (s_buf s))
                  then Some (process (set_buf s (take n (s_buf s) ++ drop (S n) (s_buf s))) x wins sub hu pos) else None
      | None => None
      end
  end.
Fixpoint run (s : st) (l : list act) : option st :=
  match l with [] => Some s | a :: l => step s a ≫= fun s' => run s' l end.

(** sync3/handler/connstate.go:107-165, load: a connection is set up when these events are stored and
    handed out and these invites are pending. *)
Definition connected (d : list ev) (inv : list (string * string)) : st :=
  let ji := fold_left track d (∅, ∅) in
  mk_st d [] d ji.1 ji.2
    (fold_right (fun p m => <[p.1 := mk_urd true (Some p.2) false]> m) ∅ inv)
    (ji.1 ∪ list_to_set (map fst inv))
    (fold_right (fun r m => match latest d r with Some n => <[r := n]> m | None => m end) ∅ (elements ji.1))
    (default 0 (last (map e_nid d))) [] ∅ [] inv.
