(** Model of the joined-rooms tracker: [sync3/tracker.go]. *)
From Verif Require Import Prelude.

(** sync3/tracker.go:14-22. Go's [map[string]set] becomes [gmap string (gset
    string)]; a nil set stored in a map is the empty set (deleting from, ranging
    over and measuring a nil map behave like the empty one, and the code
    allocates before each write). The RWMutex makes each method one step. *)
Record tracker := mk_tracker {
  t_joined : gmap string (gset string);   (* roomIDToJoinedUsers *)
  t_rooms : gmap string (gset string);    (* userIDToJoinedRooms *)
  t_invited : gmap string (gset string) }. (* roomIDToInvitedUsers *)

(** sync3/tracker.go:24-31, NewJoinedRoomsTracker. *)
Definition new_tracker : tracker := mk_tracker ∅ ∅ ∅.

(** Reading a Go map of sets: the nil set if absent. *)
Definition get_set (m : gmap string (gset string)) (k : string) : gset string :=
  default ∅ (m !! k).

(** sync3/tracker.go:43-51: the inner loop of Startup over one room's users. *)
Definition startup_users (room : string) (users : list string)
  (rooms : gmap string (gset string)) : gmap string (gset string) :=
  foldl (fun rooms u => <[u := {[room]} ∪ get_set rooms u]> rooms) rooms users.

(** sync3/tracker.go:35-54, Startup; None is the panic. The argument is the
    list of entries of the Go map in iteration order. *)
Definition startup (t : tracker) (m : list (string * list string)) : option tracker :=
  if bool_decide (t_joined t = ∅ /\ t_rooms t = ∅) then
    Some (foldl (fun t '(room, users) =>
            mk_tracker (<[room := list_to_set users]> (t_joined t))
                       (startup_users room users (t_rooms t)) (t_invited t)) t m)
  else None.

(** sync3/tracker.go:56-66, IsUserJoined. *)
Definition is_user_joined (t : tracker) (user room : string) : bool :=
  bool_decide (user ∈ get_set (t_joined t) room).

(** sync3/tracker.go:79-115, UsersJoinedRoom. *)
Definition users_joined_room (t : tracker) (users : list string) (room : string)
  : tracker * bool :=
  let before := get_set (t_joined t) room in
  let was_joined := forallb (fun u => bool_decide (u ∈ before)) users in
  let '(joined, invited, rooms) :=
    foldl (fun '(joined, invited, rooms) u =>
             ({[u]} ∪ joined, invited ∖ {[u]},
              <[u := {[room]} ∪ get_set rooms u]> rooms))
          (before, get_set (t_invited t) room, t_rooms t) users in
  (mk_tracker (<[room := joined]> (t_joined t)) rooms (<[room := invited]> (t_invited t)),
   negb was_joined).

(** sync3/tracker.go:70-74, UserJoinedRoom. *)
Definition user_joined_room (t : tracker) (user room : string) : tracker * bool :=
  users_joined_room t [user] room.

(** sync3/tracker.go:120-138, UserLeftRoom. *)
Definition user_left_room (t : tracker) (user room : string) : tracker * bool :=
  let rooms := get_set (t_rooms t) user in
  let joined := get_set (t_joined t) room in
  let invited := get_set (t_invited t) room in
  let was_joined := bool_decide (user ∈ joined) in
  let was_invited := bool_decide (user ∈ invited) in
  (mk_tracker (<[room := joined ∖ {[user]}]> (t_joined t))
              (<[user := rooms ∖ {[room]}]> (t_rooms t))
              (<[room := invited ∖ {[user]}]> (t_invited t)),
   was_joined || was_invited).

(** sync3/tracker.go:140-155, JoinedRoomsForUser. The result's order is Go's map
    iteration order, i.e. arbitrary; here it is the order of [elements], and
    users of this function quantify over permutations of it. *)
Definition joined_rooms_for_user (t : tracker) (user : string) : list string :=
  elements (get_set (t_rooms t) user).

(** sync3/tracker.go:159-176, JoinedUsersForRoom; [filter] is the Go filter
    callback. Same remark about the order. *)
Definition joined_users_for_room (t : tracker) (room : string) (f : string -> bool)
  : list string * nat :=
  let users := get_set (t_joined t) room in
  (List.filter f (elements users), size users).

(** sync3/tracker.go:178-189, UsersInvitedToRoom. *)
Definition users_invited_to_room (t : tracker) (users : list string) (room : string) : tracker :=
  mk_tracker (t_joined t) (t_rooms t)
    (<[room := foldl (fun s u => {[u]} ∪ s) (get_set (t_invited t) room) users]> (t_invited t)).

(** sync3/tracker.go:191-195, NumInvitedUsersForRoom. *)
Definition num_invited (t : tracker) (room : string) : nat :=
  size (get_set (t_invited t) room).

(** sync3/tracker.go:199-232, ReloadMembershipsForRoom. The two loops range over
    sets; their iterations commute, so the order of [elements] is used. *)
Definition reload_memberships (t : tracker) (room : string) (joined invited : list string)
  : tracker :=
  let new_joined : gset string := list_to_set joined in
  let new_invited : gset string := list_to_set invited in
  let old_joined := get_set (t_joined t) room in
  let rooms1 := foldl (fun rooms u => <[u := {[room]} ∪ get_set rooms u]> rooms)
                      (t_rooms t) (elements new_joined) in
  let rooms2 := foldl (fun rooms u =>
                         if bool_decide (u ∈ new_joined) then rooms
                         else <[u := get_set rooms u ∖ {[room]}]> rooms)
                      rooms1 (elements old_joined) in
  mk_tracker (<[room := new_joined]> (t_joined t)) rooms2
             (<[room := new_invited]> (t_invited t)).

(** The tracker as a state machine. *)
Inductive top :=
| TStartup (m : list (string * list string))
| TJoin (users : list string) (room : string)
| TLeave (user room : string)
| TInvite (users : list string) (room : string)
| TReload (room : string) (joined invited : list string).

(** None: the method panicked. *)
Definition tstep (t : tracker) (o : top) : option tracker :=
  match o with
  | TStartup m => startup t m
  | TJoin us r => Some (users_joined_room t us r).1
  | TLeave u r => Some (user_left_room t u r).1
  | TInvite us r => Some (users_invited_to_room t us r)
  | TReload r js is => Some (reload_memberships t r js is)
  end.

Fixpoint trun (t : tracker) (ops : list top) : option tracker :=
  match ops with
  | [] => Some t
  | o :: ops' => match tstep t o with Some t' => trun t' ops' | None => None end
  end.
