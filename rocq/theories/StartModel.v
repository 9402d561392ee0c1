(** Model of what a restarted server knows: [state/storage.go], GlobalSnapshot, on the
    tables of AccumModel. *)
From Verif Require Import Prelude AccumModel RoomNameModel.
From Verif Require GlobalModel.
Open Scope string_scope. Open Scope list_scope. Open Scope Z_scope.

(** storage.go:164-175, PrepareSnapshot: the numbers of the membership events in the
    current snapshots of all rooms. *)
Definition current_snaps (d : db) : list snap :=
  omap (fun kv : string * room => d_snaps d !! rm_snap (snd kv)) (map_to_list (d_rooms d)).
Definition in_members (d : db) (e : event) : bool :=
  existsb (fun s => existsb (Z.eqb (e_nid e)) (s_members s)) (current_snaps d).
Definition in_others (d : db) (e : event) : bool :=
  existsb (fun s => existsb (Z.eqb (e_nid e)) (s_others s)) (current_snaps d).

Definition is_join (e : event) : bool := String.eqb (e_member e) "join" || String.eqb (e_member e) "_join".
Definition is_invite (e : event) : bool := String.eqb (e_member e) "invite" || String.eqb (e_member e) "_invite".

(** What AllJoinedMembers gathers for a room. *)
Record gathered := Gathered { ga_joined : list string; ga_invited : Z; ga_heroes : GlobalModel.circ Z }.
Definition no_members : gathered := Gathered [] 0 ([], 0%nat).

Section Start.
(** What is read in the content of an event: name, url, alias, displayname, avatar_url
    ("" if it is missing) and origin_server_ts. *)
Context (c_name c_url c_alias c_display c_avatar : raw -> string) (c_ts : raw -> Z).
(** The order in which the database gives the rows of a query without ORDER BY. *)
Context (any : list event -> list event).

(** storage.go:1002-1043: the rows by ascending number, gathered by room. The maps
    joinedMembers, inviteCounts and heroNIDs are one map here. *)
Definition gather_row (m : gmap string gathered) (e : event) : gmap string gathered :=
  let g := default no_members (m !! e_room e) in
  <[e_room e :=
      if is_join e then Gathered (ga_joined g ++ [e_skey e]) (ga_invited g) (GlobalModel.circ_append 6 (ga_heroes g) (e_nid e))
      else if is_invite e then Gathered (ga_joined g) (ga_invited g + 1) (GlobalModel.circ_append 6 (ga_heroes g) (e_nid e))
      else g]> m.
Definition gather (d : db) : gmap string gathered :=
  fold_left gather_row (List.filter (fun e => in_members d e && (is_join e || is_invite e)) (d_events d)) ∅.
(** storage.go:1045-1067: the heroes of a room, the most recent first. SelectByNIDs fails
    if a number is missing. *)
Definition all_hero_nids (g : gmap string gathered) : list Z :=
  concat (map (fun kv : string * gathered => fst (ga_heroes (snd kv))) (map_to_list g)).
Definition heroes_of (evs : list event) (rm : string) : list hero :=
  map (fun e => mk_hero (e_skey e) (c_display (e_json e)) (c_avatar (e_json e)))
    (reverse (List.filter (fun e => String.eqb (e_room e) rm) evs)).
(** storage.go:996-1078, AllJoinedMembers: the joined members, and the metadata of rooms
    with joined members. None: an error. *)
Definition all_joined (d : db) : option (gmap string (list string) * gmap string room_meta) :=
  let g := gather d in
  match select_nids d (all_hero_nids g) with
  | Fail _ => None
  | Ok evs =>
      let with_joined := filter (fun kv : string * gathered => ga_joined (snd kv) <> []) g in
      Some (ga_joined <$> with_joined,
            map_imap (fun rm ga =>
              Some (mk_meta rm (heroes_of evs rm) "" "" "" (Z.of_nat (length (ga_joined ga))) (ga_invited ga) 0 ∅ false None None None ∅))
              with_joined)
  end.

Definition load_meta (m : gmap string room_meta) (rm : string) : room_meta := default (new_meta rm) (m !! rm).
(** event_table.go:442-490, selectLatestEventByTypeInAllRooms: of each room of the rooms
    table and each type, the event with the greatest number. *)
Definition latest_rows (d : db) : list event :=
  List.filter (fun e => match d_rooms d !! e_room e with Some _ => true | None => false end
                && forallb (fun x => negb (String.eqb (e_room x) (e_room e) && String.eqb (e_type x) (e_type e)) || (e_nid x <=? e_nid e)) (d_events d))
    (d_events d).
(** storage.go:222-245: the latest timestamps. The type is read in the JSON. *)
Definition latest_step (m : gmap string room_meta) (e : event) : gmap string room_meta :=
  let md := load_meta m (e_room e) in
  let ts := c_ts (e_json e) in
  <[e_room e := GlobalModel.set_latest md (if m_last_ts md <? ts then ts else m_last_ts md)
                  (<[default "" (r_type (e_json e)) := (e_nid e, ts)]> (m_latest md))]> m.
(** storage.go:436-462, currentNotMembershipStateEventsInAllRooms. *)
Definition name_rows (d : db) : list event :=
  List.filter (fun e => (String.eqb (e_type e) "m.room.name" || String.eqb (e_type e) "m.room.canonical_alias" || String.eqb (e_type e) "m.room.avatar")
                        && in_others d e) (d_events d).
(** storage.go:247-265: names, aliases and avatars. *)
Definition name_step (m : gmap string room_meta) (e : event) : gmap string room_meta :=
  let md := load_meta m (e_room e) in
  <[e_room e :=
      if String.eqb (e_skey e) "" then
        if String.eqb (e_type e) "m.room.name" then GlobalModel.set_name md (c_name (e_json e))
        else if String.eqb (e_type e) "m.room.canonical_alias" then GlobalModel.set_alias md (c_alias (e_json e))
        else if String.eqb (e_type e) "m.room.avatar" then GlobalModel.set_avatar md (c_url (e_json e))
        else md
      else md]> m.
(** storage.go:266-282: what the rooms table has. *)
Definition info_row (m : gmap string room_meta) (kv : string * room) : gmap string room_meta :=
  let (rm, r) := kv in
  let md := load_meta m rm in
  <[rm := mk_meta (m_room md) (m_heroes md) (m_name md) (m_avatar md) (m_alias md) (m_join md) (m_invite md) (m_last_ts md) (m_latest md)
            (rm_enc r) (rm_pred r) (rm_upgraded r) (rm_type r) (m_children md)]> m.
(** storage.go:284-305: the children of the spaces. *)
Definition is_space (r : room) : bool := match rm_type r with Some ty => String.eqb ty "m.space" | None => false end.
Definition relations_of (d : db) (rm : string) : list (string * Z) :=
  omap (fun kv : (string * string * Z) * space =>
          let '(parent, child, rel) := fst kv in if String.eqb parent rm then Some (child, rel) else None) (map_to_list (d_spaces d)).
Definition child_step (d : db) (m : gmap string room_meta) (rm : string) : gmap string room_meta :=
  match relations_of d rm, m !! rm with
  | [], _ | _, None => m
  | rels, Some md =>
      <[rm := GlobalModel.set_children md (list_to_set (map fst (List.filter (fun r : string * Z => (snd r) =? 2) rels)))]> m
  end.
(** storage.go:207-307, MetadataForAllRooms. *)
Definition metadata_for_all (d : db) (m : gmap string room_meta) : gmap string room_meta :=
  let m := fold_left latest_step (any (latest_rows d)) m in
  let m := fold_left name_step (any (name_rows d)) m in
  let infos := map_to_list (d_rooms d) in
  let m := fold_left info_row infos m in
  fold_left (child_step d) (map fst (List.filter (fun kv : string * room => is_space (snd kv)) infos)) m.
(** storage.go:177-205, GlobalSnapshot: joined members and metadata; then
    sync3/caches/global.go:232-255, Startup, keeps the metadata (its assertions are left
    out). *)
Definition global_snapshot (d : db) : option (gmap string (list string) * gmap string room_meta) :=
  match all_joined d with
  | None => None
  | Some (joined, m) => Some (joined, metadata_for_all d m)
  end.
End Start.
