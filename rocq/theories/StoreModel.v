(** Model of the queries of state/storage.go on the tables of AccumModel: room state at
    a position, visible ranges, recent timelines, and dropping ignored senders.

    The Go functions take several rooms and return maps keyed by room; their loops and
    queries treat each room by itself, so each model function gives the value at one
    room.  An error for one room is an error of the whole call. *)
From Verif Require Import Prelude AccumModel.
Open Scope string_scope.
Open Scope list_scope.
Open Scope Z_scope.

(** event_table.go 322-349: LatestEventInRooms, at one room: the last row of the room
    with a number not above [pos]. *)
Definition latest_event_in (d : db) (rm : string) (pos : Z) : option event :=
  last (List.filter (fun e => String.eqb (e_room e) rm && (e_nid e <=? pos)) (d_events d)).

(** storage.go 531-556: the latest event, from the rooms table if that is not ahead of
    [pos], else from the events table. *)
Definition latest_for (d : db) (r : room) (rm : string) (pos : Z) : outcome (option event) :=
  if pos <? rm_latest r then Ok (latest_event_in d rm pos)
  else match select_nids d [rm_latest r] with
       | Fail b => Fail b
       | Ok l => Ok (head l)
       end.

(** storage.go 557-569: the snapshot to start from. *)
Definition start_snap (d : db) (rm : string) (latest : event) : Z :=
  if e_before latest =? 0 then current_snap d rm else e_before latest.

(** storage.go 581-586: replace the first occurrence. *)
Fixpoint replace_first (old new : Z) (l : list Z) : list Z :=
  match l with
  | [] => []
  | n :: l => if n =? old then new :: l else n :: replace_first old new l
  end.
(** storage.go 577-601: roll forward over the latest event. *)
Definition roll_forward (latest : event) (nids : list Z) : list Z :=
  if has_key (e_json latest) then
    if negb (e_replaces latest =? 0) then replace_first (e_replaces latest) (e_nid latest) nids
    else if existsb (Z.eqb (e_nid latest)) nids then nids
    else nids ++ [e_nid latest]
  else nids.

(** The requested types, each with its state keys; no keys means all.  An empty map asks
    for everything. *)
Notation state_filter := (gmap string (list string)).

(** storage.go 621-641: the WHERE clause. *)
Definition where_clause (f : state_filter) (e : event) : bool :=
  match f !! e_type e with
  | None => false
  | Some [] => true
  | Some ks => existsb (String.eqb (e_skey e)) ks
  end.
(** storage.go 619-649: which column of the snapshot is read. *)
Definition has_member_filter (f : state_filter) : bool :=
  match f !! "m.room.member" with Some _ => true | None => false end.
Definition has_other_filter (f : state_filter) : bool :=
  negb (Nat.eqb (size (delete "m.room.member" f)) 0).
Definition nid_column (f : state_filter) (s : snap) : list Z :=
  if has_member_filter f && negb (has_other_filter f) then s_members s
  else if negb (has_member_filter f) && has_other_filter f then s_others s
  else s_others s ++ s_members s.
(** storage.go 655-663: the query; a snapshot which does not exist has no rows. *)
Definition query_rows (d : db) (sid : Z) (f : state_filter) : list event :=
  match d_snaps d !! sid with
  | None => []
  | Some s =>
      List.filter (fun e => where_clause f e && existsb (Z.eqb (e_nid e)) (nid_column f s)) (d_events d)
  end.
(** storage.go 673-705: replace the row the latest event replaces; then add the latest
    event if it replaces nothing and matches. *)
Definition filtered_state (d : db) (sid : Z) (f : state_filter) (latest : event) : list event :=
  map (fun e => if e_replaces latest =? e_nid e then latest else e) (query_rows d sid f) ++
  (if (e_replaces latest =? 0) && where_clause f latest then [latest] else []).

(** storage.go 517-708: RoomStateAfterEventPosition, at one room.  Ok None: the room is
    not in the result.  Event columns which a query leaves out are kept. *)
Definition room_state_after (d : db) (rm : string) (pos : Z) (f : state_filter)
    : outcome (option (list event)) :=
  match d_rooms d !! rm with
  | None => Ok None
  | Some r =>
      match latest_for d r rm pos with
      | Fail b => Fail b
      | Ok None => Ok None
      | Ok (Some latest) =>
          let sid := start_snap d rm latest in
          if Nat.eqb (size f) 0 then
            match select_snap d sid with
            | Fail b => Fail b
            | Ok s =>
                match select_nids d (roll_forward latest (s_members s ++ s_others s)) with
                | Fail b => Fail b
                | Ok evs => Ok (Some evs)
                end
            end
          else Ok (Some (filtered_state d sid f latest))
      end
  end.

(** event_table.go 484-512: SelectEventsWithTypeStateKey(InRooms), for m.room.member, at
    one room, as (position, content.membership). *)
Definition membership_logs (d : db) (user rm : string) (from to : Z) : list (Z * string) :=
  map (fun e => (e_nid e, r_mship (e_json e)))
    (List.filter (fun e => (from <? e_nid e) && (e_nid e <=? to) &&
                           String.eqb (e_type e) "m.room.member" && String.eqb (e_skey e) user &&
                           String.eqb (e_room e) rm) (d_events d)).

(** storage.go 1161-1189: determineJoinedRoomsFromMemberships, at one room: the position
    of the join. *)
Definition joined_step (j : option Z) (l : Z * string) : option Z :=
  if String.eqb (snd l) "join" then match j with Some _ => j | None => Some (fst l) end
  else if String.eqb (snd l) "ban" || String.eqb (snd l) "leave" then None else j.
Definition joined_from (logs : list (Z * string)) : option Z := fold_left joined_step logs None.

(** storage.go 907-949: calculateVisibleEventNIDs.  The state is (isJoined, startIndex,
    last range). *)
Definition vis_step (st : bool * Z * option (Z * Z)) (l : Z * string) : bool * Z * option (Z * Z) :=
  let '(joined, start, res) := st in
  let '(nid, m) := l in
  if joined && (String.eqb m "leave" || String.eqb m "ban") then (false, start, Some (start, nid))
  else if negb joined && String.eqb m "join" then (true, nid, res)
  else if negb joined && String.eqb m "invite" then (joined, start, Some (nid, nid))
  else st.
Definition visible_nids (joined : bool) (from to : Z) (logs : list (Z * string)) : Z * Z :=
  match logs with
  | [] => (from, to)
  | _ =>
      let '(j, start, res) :=
        fold_left vis_step logs (joined, if joined then from else -1, None) in
      if j then (start, to) else match res with Some r => r | None => (0, 0) end
  end.

(** storage.go 822-845, 875-969: visibleEventNIDsBetweenForRooms and
    VisibleEventNIDsBetween, at one room.  None: the room is not in the result. *)
Definition visible_range (d : db) (user rm : string) (from to : Z) : option (Z * Z) :=
  let joined := match joined_from (membership_logs d user rm 0 from) with Some _ => true | None => false end in
  let logs := membership_logs d user rm from to in
  if joined then Some (visible_nids true from to logs)
  else match logs with [] => None | _ => Some (visible_nids false from to logs) end.

(** event_table.go 429-437: cut after the first row which misses its predecessor. *)
Fixpoint cut_gap (l : list event) : list event :=
  match l with
  | [] => []
  | e :: l => if e_missing e then [e] else e :: cut_gap l
  end.
(** event_table.go 420-440: SelectLatestEventsBetween, newest first. *)
Definition latest_between (d : db) (rm : string) (lower upper : Z) (limit : nat) : list event :=
  cut_gap (take limit (rev (List.filter (fun e =>
    (lower <? e_nid e) && (e_nid e <=? upper) && String.eqb (e_room e) rm && negb (e_isstate e)) (d_events d)))).

Section Prev.
(** A query without ORDER BY gives the rows in any order: [pick] is the one which LIMIT 1
    keeps. *)
Context (pick : list event -> option event).

(** event_table.go 538-546: SelectClosestPrevBatch. *)
Definition closest_prev (d : db) (rm : string) (nid : Z) : string :=
  match pick (List.filter (fun e => match e_prev e with Some _ => true | None => false end &&
                                    String.eqb (e_room e) rm && (nid <=? e_nid e)) (d_events d)) with
  | Some e => default "" (e_prev e)
  | None => ""
  end.

(** storage.go 39-43: LatestEvents.  The timeline holds rows instead of their JSON. *)
Record latest_events := LatestEvents { le_timeline : list event; le_prev : string; le_nid : Z }.

(** storage.go 715-763: LatestEventsInRooms, at one room; [max] is MaxTimelineLimit.
    A negative limit is an SQL error. *)
Definition latest_in_room (d : db) (user rm : string) (to limit max : Z) : outcome (option latest_events) :=
  match visible_range d user rm 0 to with
  | None => Ok None
  | Some (a, b) =>
      let limit := if negb (max =? 0) && (max <? limit) then max else limit in
      if limit <? 0 then Fail false
      else
        let evs := latest_between d rm (a - 1) b (Z.to_nat limit) in
        let latest := match evs with e :: _ => e_nid e | [] => 0 end in
        let earliest := match last evs with Some e => e_nid e | None => 0 end in
        Ok (Some (LatestEvents (rev evs)
                    (if earliest =? 0 then "" else closest_prev d rm earliest) latest))
  end.
End Prev.

(** storage.go 47-59: DiscardIgnoredMessages. *)
Definition discard_ignored (ignore : string -> bool) (l : list event) : list event :=
  List.filter (fun e => has_key (e_json e) || negb (ignore (r_sender (e_json e)))) l.

(** sync3/caches/user.go 734-756, 789-794: the ignored users are those of the last
    m.ignored_user_list whose content.ignored_users is an object. *)
Definition on_ignored_list (old : list string) (content : option (list string)) : list string :=
  match content with Some l => l | None => old end.
Definition should_ignore (ignored : list string) (user : string) : bool :=
  existsb (String.eqb user) ignored.

(** sync3/caches/user.go 326-347: LazyLoadTimelines, at one room. *)
Definition lazy_load_timeline (pick : list event -> option event) (ignored : list string) (d : db)
    (user rm : string) (load_pos limit max : Z) : option latest_events :=
  match latest_in_room pick d user rm load_pos limit max with
  | Ok (Some l) => Some (LatestEvents (discard_ignored (should_ignore ignored) (le_timeline l)) (le_prev l) (le_nid l))
  | _ => None
  end.
