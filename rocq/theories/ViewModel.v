(** Model of one room on one connection: how the copy of the room's name, avatar
    and counts which the client keeps is built and kept up to date.
    [sync3/handler/connstate_live.go], [sync3/handler/connstate.go],
    [sync3/room.go], [sync3/avatar.go], with SetRoom from [ListsModel].

    Left out: timelines, required state, invites (the user is a joined member;
    C69), timestamps, hero lists, other rooms. What brings the room into view
    or out of it is a choice of the environment (C01, C02). *)
From Verif Require Import Prelude RoomNameModel GlobalModel ListsModel.
Open Scope string_scope.
Open Scope list_scope.
Open Scope Z_scope.

(** sync3/caches/user.go:41-68, the fields a client is shown. *)
Record user_data := mk_user { u_dm : bool; u_notif : Z; u_high : Z }.

(** What decides how an event is treated (sync3/handler/connstate_live.go:138-161):
    its position, whether it is always processed, and whether it is a message of
    a user whom our user ignores. *)
Record event_info := mk_event { ev_nid : Z; ev_always : bool; ev_ignored : bool }.

(** sync3/caches/update.go:30-60 and sync3/caches/user.go:397-415: an update
    carries copies of the metadata and of the user's data made when it was
    created. [up_event] is None for typing, receipts, account data and counts. *)
Record update := mk_update {
  up_event : option event_info;
  up_meta : room_meta;
  up_user : user_data
}.

(** sync3/room.go:11-27, the fields modelled. The avatar is "" when unchanged. *)
Record resp_room := mk_resp {
  rr_name : string;
  rr_avatar : string;
  rr_notif : Z;
  rr_high : Z;
  rr_initial : bool;
  rr_dm : bool;
  rr_joined : Z;
  rr_invited : option Z
}.
(** sync3.Room{}. *)
Definition empty_resp : resp_room := mk_resp "" "" 0 0 false false 0 None.

(** sync3/avatar.go:15-25. *)
Definition deleted_avatar : string := "<no-avatar>".
Definition new_avatar_change (a : string) : string :=
  if String.eqb a "" then deleted_avatar else a.

(** A client's copy of the room. *)
Record view := mk_view {
  v_name : string;
  v_avatar : option string;
  v_notif : Z;
  v_high : Z;
  v_dm : bool;
  v_joined : Z;
  v_invited : Z
}.
Definition blank : view := mk_view "" None 0 0 false 0 0.

(** What a client makes of a room in a response, by the JSON tags at
    sync3/room.go:12-23 and sync3/avatar.go:27-33: the fields marked omitempty
    are absent when zero and then keep their value; the two unread counts are
    always present; [initial] starts from nothing. *)
Definition merge (old : option view) (r : resp_room) : view :=
  let b := if rr_initial r then blank else default blank old in
  mk_view (if String.eqb (rr_name r) "" then v_name b else rr_name r)
          (if String.eqb (rr_avatar r) "" then v_avatar b
           else if String.eqb (rr_avatar r) deleted_avatar then None else Some (rr_avatar r))
          (rr_notif r) (rr_high r)
          (rr_dm r || v_dm b)
          (if rr_joined r =? 0 then v_joined b else rr_joined r)
          (match rr_invited r with Some i => i | None => v_invited b end).

(** internal/roomname.go:102-112, RemoveHero. *)
Definition without (me : string) (m : room_meta) : room_meta :=
  mk_meta (m_room m) (remove_hero me (m_heroes m)) (m_name m) (m_avatar m) (m_alias m)
    (m_join m) (m_invite m) (m_last_ts m) (m_latest m) (m_encrypted m)
    (m_predecessor m) (m_upgraded m) (m_type m) (m_children m).

(** [s_meta] is the room in the global cache, [s_user] the user's data in the
    user cache, [s_entry] the connection's own record (allRooms,
    sync3/lists.go:48-51), [s_pos] the load position, [s_queue] the updates
    channel, [s_held] the queue of the transaction ID waiter, [s_resp] the room in
    the response being made, [s_client] the client's copy before that response.
    [s_shown]: the room is subscribed to or in a window. *)
Record state := mk_state {
  s_meta : room_meta;
  s_user : user_data;
  s_entry : option conn_room;
  s_pos : Z;
  s_queue : list update;
  s_held : list update;
  s_resp : option resp_room;
  s_client : option view;
  s_shown : bool
}.

Inductive action :=
| Event (e : event_info) (m : room_meta) (hold : bool)
    (* an event is dispatched, after which the room is [m]; [hold]: it is our
       user's own message without a transaction ID *)
| State (m : room_meta)      (* an event of a state block, after which the room is [m] *)
| Other                      (* typing, a receipt or room account data *)
| Counts (notif high : Z)    (* the user's poller reports unread counts *)
| Direct (dm : bool)         (* m.direct changes *)
| Release (k : nat)          (* the waiter lets [k] events go *)
| Enter (pos : Z)            (* the request brings the room into view *)
| Take (inside fresh : bool) (pos : Z)
    (* the next update is processed; [fresh]: it brings the room into view *)
| Members                    (* member events of typing users are added to the response *)
| Answer                     (* the response is sent; a new one is begun *)
| Hide.                      (* the room leaves all windows and subscriptions *)

Section view.
Context (lower : string -> string) (me : string).

(** sync3/lists.go:59-153, SetRoom, for this room only. *)
Definition set_entry (e : option conn_room) (r : conn_room) : conn_room * room_delta :=
  let s := mk_rlists (match e with Some x => <[m_room (c_meta r) := x]> ∅ | None => ∅ end) ∅ in
  (stored_room lower s r, (set_room lower id s r).2).

(** sync3/handler/connstate_live.go:360-373: the record given to SetRoom. Spaces,
    tags and timestamps are left out. *)
Definition entry_of (m : room_meta) (u : user_data) : conn_room :=
  mk_conn_room (without me m) (u_dm u) false false (u_notif u) (u_high u) "" ∅ ∅ ∅.

(** sync3/handler/connstate.go:611-689, getInitialRoomData for a joined room:
    from the caches as they are now. *)
Definition initial_room (m : room_meta) (u : user_data) : resp_room :=
  let m' := without me m in
  mk_resp (display_name m') (new_avatar_change (calc_avatar m' (u_dm u))) (u_notif u) (u_high u)
          true (u_dm u) (m_join m') (Some (m_invite m')).

(** sync3/handler/connstate_live.go:138-161: the update is dropped. *)
Definition dropped (pos : Z) (up : update) : bool :=
  match up_event up with
  | None => false
  | Some e => (negb (ev_always e) && (0 <? pos) && (ev_nid e <? pos)) || ev_ignored e
  end.

(** sync3/handler/connstate_live.go:197-221: the counts of the event's room. *)
Definition add_event (r : option resp_room) (up : update) : resp_room :=
  let r := default empty_resp r in
  mk_resp (rr_name r) (rr_avatar r) (u_notif (up_user up)) (u_high (up_user up))
          (rr_initial r) (rr_dm r) (rr_joined r) (rr_invited r).

(** sync3/handler/connstate_live.go:264-286: the fields that changed. *)
Definition add_changes (d : room_delta) (up : update) (r : resp_room) : resp_room :=
  let m' := without me (up_meta up) in
  mk_resp (if d_name d then display_name m' else rr_name r)
          (if d_avatar d then new_avatar_change (calc_avatar m' (u_dm (up_user up))) else rr_avatar r)
          (rr_notif r) (rr_high r) (rr_initial r) (rr_dm r)
          (if d_join d then m_join (up_meta up) else rr_joined r)
          (if d_invite d then Some (m_invite (up_meta up)) else rr_invited r).

(** sync3/handler/connstate_live.go:288-297: the unread counts. *)
Definition add_counts (d : room_delta) (up : update) (r : option resp_room) : option resp_room :=
  if d_highlight d || d_notif d then
    let r := default empty_resp r in
    Some (mk_resp (rr_name r) (rr_avatar r) (u_notif (up_user up)) (u_high (up_user up))
            (rr_initial r) (rr_dm r) (rr_joined r) (rr_invited r))
  else r.

(** sync3/handler/connstate_live.go:131-300, processLiveUpdate. While the room is
    in view [hasUpdates] is true (connstate_live.go:303-318 for a subscription,
    connstate_live.go:384-428 for a list); otherwise it is [inside]. [pos] is the
    latest position in the database when the room is loaded (connstate.go:588). *)
Definition take_update (inside fresh : bool) (pos : Z) (up : update) (s : state) : state :=
  if dropped (s_pos s) up then s
  else
    let '(e, d) := set_entry (s_entry s) (entry_of (up_meta up) (up_user up)) in
    let inside := inside || s_shown s || fresh in
    let r0 := if fresh then Some (initial_room (s_meta s) (s_user s)) else s_resp s in
    let p0 := if fresh then pos else s_pos s in
    let '(r1, p1) :=
      match up_event up with
      | Some ev => if inside
                   then (Some (add_event r0 up), if ev_always ev then p0 else ev_nid ev)
                   else (r0, p0)
      | None => (r0, p0)
      end in
    let r2 := add_counts d up (add_changes d up <$> r1) in
    mk_state (s_meta s) (s_user s) (Some e) p1 (s_queue s) (s_held s) r2 (s_client s) (s_shown s || fresh).

Definition set_queue (s : state) (q h : list update) : state :=
  mk_state (s_meta s) (s_user s) (s_entry s) (s_pos s) q h (s_resp s) (s_client s) (s_shown s).
Definition set_known (s : state) (m : room_meta) (u : user_data) : state :=
  mk_state m u (s_entry s) (s_pos s) (s_queue s) (s_held s) (s_resp s) (s_client s) (s_shown s).
Definition set_resp (s : state) (p : Z) (r : option resp_room) (c : option view) (b : bool) : state :=
  mk_state (s_meta s) (s_user s) (s_entry s) p (s_queue s) (s_held s) r c b.

Definition step (s : state) (a : action) : state :=
  match a with
  | Event e m hold =>
      (* sync3/caches/user.go:593-619, sync3/handler/txn_id_waiter.go:30-64 *)
      let up := mk_update (Some e) m (s_user s) in
      let s := set_known s m (s_user s) in
      if hold || negb (length (s_held s) =? 0)%nat
      then set_queue s (s_queue s) (s_held s ++ [up])
      else set_queue s (s_queue s ++ [up]) (s_held s)
  | State m => (* sync3/handler/connstate.go:750-756: no update *) set_known s m (s_user s)
  | Other => (* sync3/caches/user.go:499-520, 775-784; txn_id_waiter.go:36-40 *)
      set_queue s (s_queue s ++ [mk_update None (s_meta s) (s_user s)]) (s_held s)
  | Counts n h => (* sync3/caches/user.go:546-569 *)
      let u := mk_user (u_dm (s_user s)) n h in
      set_queue (set_known s (s_meta s) u) (s_queue s ++ [mk_update None (s_meta s) u]) (s_held s)
  | Direct b => (* sync3/caches/user.go:697-760: no update *)
      set_known s (s_meta s) (mk_user b (u_notif (s_user s)) (u_high (s_user s)))
  | Release k => (* sync3/handler/txn_id_waiter.go:66-95 *)
      set_queue s (s_queue s ++ take k (s_held s)) (drop k (s_held s))
  | Enter pos => (* sync3/handler/connstate.go:553-692 *)
      set_resp s pos (Some (initial_room (s_meta s) (s_user s))) (s_client s) true
  | Take inside fresh pos =>
      match s_queue s with
      | [] => s
      | up :: q => take_update inside fresh pos up (set_queue s q (s_held s))
      end
  | Members => (* sync3/handler/connstate.go:526-551 *)
      set_resp s (s_pos s) (Some (default empty_resp (s_resp s))) (s_client s) (s_shown s)
  | Answer =>
      set_resp s (s_pos s) None
        (match s_resp s with Some r => Some (merge (s_client s) r) | None => s_client s end) (s_shown s)
  | Hide => set_resp s (s_pos s) (s_resp s) (s_client s) false
  end.
End view.

(** A connection just made (sync3/handler/connstate.go:108-170, load). *)
Definition start lower (me : string) (m : room_meta) (u : user_data) (pos : Z) : state :=
  mk_state m u (Some (set_entry lower None (entry_of me m u)).1) pos [] [] None None false.

Definition run lower me (s : state) (l : list action) : state := foldl (step lower me) s l.
