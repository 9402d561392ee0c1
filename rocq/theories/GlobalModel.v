(** Model of the metadata of all rooms: [sync3/caches/global.go], with
    [state/storage.go] for reloading it. *)
From Verif Require Import Prelude RoomNameModel.
Open Scope string_scope. Open Scope list_scope. Open Scope Z_scope.

(** sync3/caches/global.go:16-54, EventData, and what the cache reads in the content:
    strings that are missing or not strings are "". [g_type_field] is content.type if it
    is a string; [g_via] is whether content.via is an array; [g_change] is
    internal.IsMembershipChange (internal/event.go:5-19) of the event. *)
Record gevent := mk_gevent {
  g_room : string; g_type : string; g_key : option string;
  g_name : string; g_url : string; g_replacement : string; g_alias : string;
  g_type_field : option string; g_predecessor : string; g_via : bool;
  g_membership : string; g_change : bool; g_displayname : string; g_avatar : string;
  g_joins : Z; g_invites : Z; g_ts : Z; g_nid : Z
}.

(** global.go:349-367: change the first hero with this ID, or add one. *)
Fixpoint put_hero (h : hero) (l : list hero) : list hero :=
  match l with
  | [] => [h]
  | x :: l => if String.eqb (h_id x) (h_id h) then h :: l else x :: put_hero h l
  end.

Definition set_name (m : room_meta) (s : string) : room_meta :=
  mk_meta (m_room m) (m_heroes m) s (m_avatar m) (m_alias m) (m_join m) (m_invite m) (m_last_ts m) (m_latest m)
    (m_encrypted m) (m_predecessor m) (m_upgraded m) (m_type m) (m_children m).
Definition set_avatar (m : room_meta) (s : string) : room_meta :=
  mk_meta (m_room m) (m_heroes m) (m_name m) s (m_alias m) (m_join m) (m_invite m) (m_last_ts m) (m_latest m)
    (m_encrypted m) (m_predecessor m) (m_upgraded m) (m_type m) (m_children m).
Definition set_alias (m : room_meta) (s : string) : room_meta :=
  mk_meta (m_room m) (m_heroes m) (m_name m) (m_avatar m) s (m_join m) (m_invite m) (m_last_ts m) (m_latest m)
    (m_encrypted m) (m_predecessor m) (m_upgraded m) (m_type m) (m_children m).
Definition set_encrypted (m : room_meta) : room_meta :=
  mk_meta (m_room m) (m_heroes m) (m_name m) (m_avatar m) (m_alias m) (m_join m) (m_invite m) (m_last_ts m) (m_latest m)
    true (m_predecessor m) (m_upgraded m) (m_type m) (m_children m).
Definition set_upgraded (m : room_meta) (u : option string) : room_meta :=
  mk_meta (m_room m) (m_heroes m) (m_name m) (m_avatar m) (m_alias m) (m_join m) (m_invite m) (m_last_ts m) (m_latest m)
    (m_encrypted m) (m_predecessor m) u (m_type m) (m_children m).
Definition set_created (m : room_meta) (ty pred : option string) : room_meta :=
  mk_meta (m_room m) (m_heroes m) (m_name m) (m_avatar m) (m_alias m) (m_join m) (m_invite m) (m_last_ts m) (m_latest m)
    (m_encrypted m) (match pred with Some p => Some p | None => m_predecessor m end) (m_upgraded m)
    (match ty with Some t => Some t | None => m_type m end) (m_children m).
Definition set_children (m : room_meta) (c : gset string) : room_meta :=
  mk_meta (m_room m) (m_heroes m) (m_name m) (m_avatar m) (m_alias m) (m_join m) (m_invite m) (m_last_ts m) (m_latest m)
    (m_encrypted m) (m_predecessor m) (m_upgraded m) (m_type m) c.
Definition set_members (m : room_meta) (heroes : list hero) (joins invites : Z) : room_meta :=
  mk_meta (m_room m) heroes (m_name m) (m_avatar m) (m_alias m) joins invites (m_last_ts m) (m_latest m)
    (m_encrypted m) (m_predecessor m) (m_upgraded m) (m_type m) (m_children m).
Definition set_latest (m : room_meta) (ts : Z) (latest : gmap string (Z * Z)) : room_meta :=
  mk_meta (m_room m) (m_heroes m) (m_name m) (m_avatar m) (m_alias m) (m_join m) (m_invite m) ts latest
    (m_encrypted m) (m_predecessor m) (m_upgraded m) (m_type m) (m_children m).

(** global.go:337-368: a member event. *)
Definition on_member (m : room_meta) (user : string) (e : gevent) : room_meta :=
  let ms := g_membership e in
  let m :=
    if g_change e then
      set_members m (if String.eqb ms "leave" || String.eqb ms "ban" then remove_hero user (m_heroes m) else m_heroes m) (g_joins e) (g_invites e)
    else m in
  if (length (m_heroes m) <? 6)%nat && (String.eqb ms "join" || String.eqb ms "invite") then
    set_members m (put_hero (mk_hero user (g_displayname e) (g_avatar e)) (m_heroes m)) (m_join m) (m_invite m)
  else m.
(** global.go:291-369: the event types. *)
Definition on_event (m : room_meta) (e : gevent) : room_meta :=
  let ty := g_type e in
  if String.eqb ty "m.room.name" then match g_key e with Some "" => set_name m (g_name e) | _ => m end
  else if String.eqb ty "m.room.avatar" then match g_key e with Some "" => set_avatar m (g_url e) | _ => m end
  else if String.eqb ty "m.room.encryption" then match g_key e with Some "" => set_encrypted m | _ => m end
  else if String.eqb ty "m.room.tombstone" then
    match g_key e with
    | Some "" => set_upgraded m (if String.eqb (g_replacement e) "" then None else Some (g_replacement e))
    | _ => m end
  else if String.eqb ty "m.room.canonical_alias" then match g_key e with Some "" => set_alias m (g_alias e) | _ => m end
  else if String.eqb ty "m.room.create" then
    match g_key e with
    | Some "" => set_created m (g_type_field e) (if String.eqb (g_predecessor e) "" then None else Some (g_predecessor e))
    | _ => m end
  else if String.eqb ty "m.space.child" then
    match g_key e with
    | Some k => set_children m (if g_via e then {[ k ]} ∪ m_children m else m_children m ∖ {[ k ]})
    | None => m end
  else if String.eqb ty "m.room.member" then match g_key e with Some user => on_member m user e | None => m end
  else m.
Notation cache := (gmap string room_meta).
(** global.go:281-378, OnNewEvent. *)
Definition on_new_event (c : cache) (e : gevent) : cache :=
  let m := default (new_meta (g_room e)) (c !! g_room e) in
  let m := on_event m e in
  <[g_room e := set_latest m (g_ts e) (<[g_type e := (g_nid e, g_ts e)]> (m_latest m))]> c.
(** global.go:261-275, OnEphemeralEvent: the typing event is in another model; the room
    is added. *)
Definition on_ephemeral (c : cache) (room : string) : cache :=
  <[room := default (new_meta room) (c !! room)]> c.

(** state/storage.go:1203-1225, circularSlice: the values and the index of the next
    write; the writes past [max] go round. *)
Definition circ (T : Type) : Type := list T * nat.
Definition circ_append {T} (max : nat) (s : circ T) (x : T) : circ T :=
  let (vals, i) := s in
  if (length vals <? max)%nat then (vals ++ [x], S i)
  else let i := if (i =? max)%nat then 0%nat else i in
    (<[i := x]> vals, S i).

(** state/storage.go:312-381, ResetMetadataState: [evs] are the events of the current
    snapshot of the room by NID. The membership column of the events table is the
    membership in the content, with a "_" before it if it did not change it: the model
    reads the content. *)
Definition reset_selects (e : gevent) : bool :=
  ((String.eqb (g_type e) "m.room.name" || String.eqb (g_type e) "m.room.avatar"
    || String.eqb (g_type e) "m.room.canonical_alias" || String.eqb (g_type e) "m.room.encryption")
   && match g_key e with Some k => String.eqb k "" | None => false end)
  || (String.eqb (g_type e) "m.room.member" && (String.eqb (g_membership e) "join" || String.eqb (g_membership e) "invite")).
Definition reset_event (s : room_meta * circ hero) (e : gevent) : room_meta * circ hero :=
  let (m, heroes) := s in
  let ty := g_type e in
  if String.eqb ty "m.room.name" then (set_name m (g_name e), heroes)
  else if String.eqb ty "m.room.avatar" then (set_avatar m (g_url e), heroes)
  else if String.eqb ty "m.room.canonical_alias" then (set_alias m (g_alias e), heroes)
  else if String.eqb ty "m.room.encryption" then (set_encrypted m, heroes)
  else if String.eqb ty "m.room.member" then
    let heroes := circ_append 6 heroes (mk_hero (default "" (g_key e)) (g_displayname e) (g_avatar e)) in
    (if String.eqb (g_membership e) "join" then set_members m (m_heroes m) (m_join m + 1) (m_invite m)
     else if String.eqb (g_membership e) "invite" then set_members m (m_heroes m) (m_join m) (m_invite m + 1)
     else m, heroes)
  else if String.eqb ty "m.space.child" then (set_children m ({[ default "" (g_key e) ]} ∪ m_children m), heroes)
  else (m, heroes).
Definition reset_meta (m : room_meta) (evs : list gevent) : room_meta :=
  let m := set_children (set_members m (m_heroes m) 0 0) ∅ in
  let (m, heroes) := fold_left reset_event (List.filter reset_selects evs) (m, ([], 0%nat)) in
  set_members m heroes.1 (m_join m) (m_invite m).
(** global.go:380-395, OnInvalidateRoom; None if the query fails. *)
Definition on_invalidate (c : cache) (room : string) (evs : option (list gevent)) : cache :=
  match c !! room, evs with
  | Some m, Some evs => <[room := reset_meta m evs]> c
  | _, _ => c
  end.

Inductive gstep :=
  | GEvent (e : gevent)
  | GEphemeral (room : string)
  | GInvalidate (room : string) (evs : option (list gevent)).
Definition gstep1 (c : cache) (s : gstep) : cache :=
  match s with
  | GEvent e => on_new_event c e
  | GEphemeral room => on_ephemeral c room
  | GInvalidate room evs => on_invalidate c room evs
  end.
Definition gruns (c : cache) (l : list gstep) : cache := fold_left gstep1 l c.
(** global.go:124-131, copyRoom, for LoadRooms. *)
Definition load_room (c : cache) (room : string) : room_meta := default (new_meta room) (c !! room).
