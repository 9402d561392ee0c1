(** Model of how a connection fills the timelines and the lazily loaded members of its
    responses: [sync3/handler/connstate.go], [sync3/handler/connstate_live.go] and
    [sync3/handler/lazy_member.go]. *)
From Verif Require Import Prelude AccumModel StoreModel RequestModel SubModel.
Open Scope string_scope. Open Scope list_scope. Open Scope Z_scope.

(** ** Lazily loaded members *)

(** lazy_member.go:3-6, LazyCache. *)
Record lcache := mk_lcache { lz_cache : gset string; lz_rooms : gset string }.
(** lazy_member.go:16, 38: the key. *)
Definition lkey (room user : string) : string := (room ++ " | " ++ user)%string.
(** lazy_member.go:15-19. *)
Definition isSet (l : lcache) (room user : string) : bool := bool_decide (lkey room user ∈ lz_cache l).
(** lazy_member.go:22-25. *)
Definition isLazyLoading (l : lcache) (room : string) : bool := bool_decide (room ∈ lz_rooms l).
(** lazy_member.go:35-44, AddUser; the result is not used. *)
Definition addUser (room : string) (l : lcache) (user : string) : lcache :=
  mk_lcache ({[ lkey room user ]} ∪ lz_cache l) ({[ room ]} ∪ lz_rooms l).
(** lazy_member.go:27-31, Add: nothing happens without users. *)
Definition addUsers (l : lcache) (room : string) (users : list string) : lcache := fold_left (addUser room) users l.

(** ** The connection *)

(** A timeline entry: its position (0 if it has none), event ID, the room of the event
    and its sender. *)
Record tent := mk_tent { t_nid : Z; t_id : string; t_room : string; t_sender : string }.
Definition of_event (e : event) : tent := mk_tent (e_nid e) (e_id e) (e_room e) (r_sender (e_json e)).
(** sync3/room.go Room, reduced to Initial, Timeline, and the users whose m.room.member
    event is in RequiredState. *)
Record lroom := mk_lroom { lr_initial : bool; lr_timeline : list tent; lr_members : list string }.
Definition lroom0 : lroom := mk_lroom false [] [].
(** connstate.go:31-59, ConnState: anchorLoadPosition, loadPositions, lazyCache;
    [f_pending] is response.Rooms of the response being made. [f_view] is what a client
    has after the responses so far: the events since the room was last sent with
    initial: true. *)
Record feed := mk_feed {
  f_anchor : Z; f_lp : gmap string Z; f_lazy : lcache;
  f_pending : gmap string lroom; f_view : gmap string (list tent)
}.
(** connstate.go:62-96, NewConnState. *)
Definition feed0 : feed := mk_feed (-1) ∅ (mk_lcache ∅ ∅) ∅ ∅.
Definition lp_of (c : feed) (room : string) : Z := default 0 (f_lp c !! room).

(** The user, the server's timeline limit, and the row that a query without ORDER BY
    keeps. *)
Record fenv := mk_fenv { fe_user : string; fe_max : Z; fe_pick : list event -> option event }.

(** ** Loading rooms *)

(** A room to send with initial: true: its combined subscription, the database at the
    time (None: the query fails), the ignored users, the state events that the state
    query finds, and whether the user is only invited. *)
Record finit := mk_finit {
  i_room : string; i_limit : Z; i_req : list tuple; i_db : option db; i_ignored : list string;
  i_state : list sev; i_invite : bool
}.
(** connstate.go:567, sync3/caches/user.go:326-347. *)
Definition load_timeline (env : fenv) (anchor : Z) (i : finit) : option latest_events :=
  match i_db i with
  | Some d => lazy_load_timeline (fe_pick env) (i_ignored i) d (fe_user env) (i_room i) anchor (i_limit i) (fe_max env)
  | None => None
  end.
Definition timeline_of (tl : option latest_events) : list tent :=
  match tl with Some l => map of_event (le_timeline l) | None => [] end.
(** connstate.go:573-577: the keys of a map. *)
Definition senders (tl : list tent) : list string := remove_dups (map t_sender tl).
(** connstate.go:553-697, getInitialRoomData, for one room. Only the member events of the
    required state are kept. *)
Definition get_initial (env : fenv) (c : feed) (i : finit) : feed :=
  let tl := load_timeline env (f_anchor c) i in
  let users := senders (timeline_of tl) in
  let lp := match tl with Some l => <[i_room i := le_nid l]> (f_lp c) | None => f_lp c end in
  let lazy := if lazy_members (i_req i) then addUsers (f_lazy c) (i_room i) users else f_lazy c in
  let state := if i_invite i then [] else load_state (fe_user env) (i_req i) users (i_state i) in
  let members := map se_key (List.filter (fun ev => String.eqb (se_type ev) "m.room.member") state) in
  mk_feed (f_anchor c) lp lazy
    (<[i_room i := mk_lroom true (timeline_of tl) members]> (f_pending c)) (f_view c).
(** connstate.go:469-517, buildRooms, and its callers, which put the rooms into the
    response (connstate.go:226-229, connstate_live.go:186-189). Which rooms are loaded,
    from lists, subscriptions and old rooms, is up to the caller. *)
Definition load_rooms (env : fenv) (c : feed) (l : list finit) : feed := fold_left (get_initial env) l c.

(** ** Live updates *)

(** A room event update: the room it is for (RoomUpdate.RoomID()), the event, whether the
    event is a state event, EventData.AlwaysProcess, whether EventData.Event is set,
    whether the user ignores the sender, and whether the sender's member event can be
    loaded. *)
Record live := mk_live {
  v_room : string; v_ent : tent; v_state : bool; v_always : bool; v_event : bool; v_ignored : bool; v_found : bool
}.
(** connstate_live.go:252-258 and connstate.go:536-546: add a member event if it is not
    known to have been sent. *)
Definition lazy_member (lz : lcache) (room user : string) (found : bool) (members : list string) : lcache * list string * list (string * string) :=
  if isLazyLoading lz room && negb (isSet lz room user) then
    if found then (addUser room lz user, members ++ [user], [(room, user)]) else (lz, members, [])
  else (lz, members, []).
(** connstate_live.go:133-263, processLiveUpdate, and connstate.go:747-757, OnRoomUpdate.
    [inits] are the rooms the update brings into view and [shown] is hasUpdates; both are
    decided by lists and subscriptions, and any choice is allowed here. Counts,
    timestamps, names and prev_batch are left out. The result has the lazily loaded
    members as well. *)
Definition process_live (env : fenv) (c : feed) (v : live) (inits : list finit) (shown : bool) : feed * list (string * string) :=
  let nid := t_nid (v_ent v) in
  let lp := lp_of c (v_room v) in
  if negb (v_always v) && (nid =? 0) then (c, [])
  else if negb (v_always v) && ((0 <? lp) && (nid <? lp)) then (c, [])
  else if negb (v_state v) && v_ignored v then (c, [])
  else
    let c := mk_feed (if f_anchor c <? nid then nid else f_anchor c) (f_lp c) (f_lazy c) (f_pending c) (f_view c) in
    let c := load_rooms env c inits in
    if shown then
      let r := default lroom0 (f_pending c !! v_room v) in
      if v_event v then
        let advanced := negb (v_always v) && (nid <=? lp_of c (v_room v)) in
        let lp := if v_always v then f_lp c else <[v_room v := nid]> (f_lp c) in
        if advanced then (mk_feed (f_anchor c) lp (f_lazy c) (<[v_room v := r]> (f_pending c)) (f_view c), [])
        else
          let '(lz, members, sent) := lazy_member (f_lazy c) (v_room v) (t_sender (v_ent v)) (v_found v) (lr_members r) in
          (mk_feed (f_anchor c) lp lz
             (<[v_room v := mk_lroom (lr_initial r) (lr_timeline r ++ [v_ent v]) members]> (f_pending c)) (f_view c), sent)
      else (mk_feed (f_anchor c) (f_lp c) (f_lazy c) (<[v_room v := r]> (f_pending c)) (f_view c), [])
    else (c, []).
(** connstate.go:520-552, lazyLoadTypingMembers, for one room; the typing users and
    whether their member events can be loaded. *)
Fixpoint typing_members (lz : lcache) (room : string) (users : list (string * bool)) (members : list string) : lcache * list string * list (string * string) :=
  match users with
  | [] => (lz, members, [])
  | (u, found) :: users =>
      let '(lz, members, sent) := lazy_member lz room u found members in
      let '(lz, members, sent') := typing_members lz room users members in
      (lz, members, sent ++ sent')
  end.
Definition lazy_typing (c : feed) (room : string) (users : list (string * bool)) : feed * list (string * string) :=
  if isLazyLoading (f_lazy c) room then
    let r := default lroom0 (f_pending c !! room) in
    let '(lz, members, sent) := typing_members (f_lazy c) room users (lr_members r) in
    (mk_feed (f_anchor c) (f_lp c) lz
       (if (0 <? Z.of_nat (length members)) then <[room := mk_lroom (lr_initial r) (lr_timeline r) members]> (f_pending c) else f_pending c)
       (f_view c), sent)
  else (c, []).

(** ** Histories *)

(** A client's view of a room after the response. *)
Definition show (view : option (list tent)) (r : option lroom) : option (list tent) :=
  match r with
  | None => view
  | Some r => Some (if lr_initial r then lr_timeline r else default [] view ++ lr_timeline r)
  end.
Definition respond (c : feed) : feed :=
  mk_feed (f_anchor c) (f_lp c) (f_lazy c) ∅ (merge show (f_view c) (f_pending c)).
(** connstate.go:108-170, load, which runs when a request finds no load position
    (connstate.go:175-186): the positions of the joined rooms and of the snapshot. *)
Definition load (c : feed) (pos : Z) (lps : gmap string Z) : feed :=
  if f_anchor c <=? 0 then mk_feed pos (lps ∪ f_lp c) (f_lazy c) (f_pending c) (f_view c) else c.

Inductive fstep :=
  | FLoad (pos : Z) (lps : gmap string Z)
  | FRooms (inits : list finit)              (* a request, or an update that is not an event *)
  | FLive (v : live) (inits : list finit) (shown : bool)
  | FTyping (room : string) (users : list (string * bool))
  | FRespond.
Definition fstep1 (env : fenv) (c : feed) (s : fstep) : feed * list (string * string) :=
  match s with
  | FLoad pos lps => (load c pos lps, [])
  | FRooms inits => (load_rooms env c inits, [])
  | FLive v inits shown => process_live env c v inits shown
  | FTyping room users => lazy_typing c room users
  | FRespond => (respond c, [])
  end.
Definition fruns (env : fenv) (c : feed) (l : list fstep) : feed := fold_left (fun c s => (fstep1 env c s).1) l c.

(** ** Which updates an event causes *)

(** sync3/caches/user.go:596-634, OnNewEvent with OnSpaceUpdate (572-594): the rooms
    whose updates carry the event. An m.space.child event is sent to the child room too,
    if the user is joined to it. *)
Definition update_rooms (joined : string -> bool) (room : string) (space_child : option string) : list string :=
  match space_child with
  | Some child => if joined child then [child; room] else [room]
  | None => [room]
  end.
