(** Model of what a list sorted by recency goes by: which events move a room up
    ([bump_event_types]), when a connection is set up ([sync3/handler/connstate.go]),
    as updates come in ([sync3/handler/connstate_live.go]) and the timestamp sent with
    a room. It is built on the connection's lists (LiveListModel.v) and on the global
    cache (GlobalModel.v).

    Simplifications: one connection of one user who ignores nobody. The user joins
    rooms and leaves none; invites are not modelled. Rooms come to be with their
    events, not with blocks of state. What an update says about a room other than its
    global metadata (counts, tags, ...) is arbitrary. *)
From Verif Require Import Prelude RangeModel OpsModel RoomNameModel GlobalModel ListsModel LiveListModel LiveListSpec.
Open Scope string_scope.
Open Scope list_scope.
Open Scope Z_scope.

(** connstate.go:128-144: the timestamp of a room in a list, when the connection is
    set up. [join] is NID and timestamp of the user's join. A type without an event
    has the zero timing. *)
Definition load_interest (join : Z * Z) (m : room_meta) (types : list string) : Z :=
  match types with
  | [] => m_last_ts m
  | _ => foldl (fun acc t =>
           let timing := default (0, 0) (m_latest m !! t) in
           if (join.1 <? timing.1) && (acc <? timing.2) then timing.2 else acc) join.2 types
  end.

(** connstate.go:126-146: for every list of the first request. *)
Definition load_bumps (join : Z * Z) (m : room_meta) (types : gmap string (list string)) : gmap string Z :=
  load_interest join m <$> types.

(** connstate_live.go:338-358: which lists a room update bumps. [ev] is the type of the
    event, if the update is one. *)
Definition live_bumps (m : room_meta) (ev : option string) (types : gmap string (list string)) : gmap string Z :=
  omap (fun ts : list string =>
    match ts, ev with
    | [], _ => Some (m_last_ts m)
    | _, Some t => if existsb (String.eqb t) ts then Some (m_last_ts m) else None
    | _, None => None
    end) types.

(** sync3/request.go:393-396: bump_event_types is sticky. *)
Definition next_types (prev : option (list string)) (next : option (list string)) : list string :=
  match next with Some ts => ts | None => default [] prev end.

(** connstate.go:645-673: the timestamp of a room sent as a whole. [types] is what all
    lists ask for, [m] the metadata the lists have of the room and [join] the timestamp
    of the user's join. *)
Definition latest_of (m : room_meta) (types : list string) (start : Z) : Z :=
  foldl (fun acc t => let ts := (default (0, 0) (m_latest m !! t)).2 in if acc <? ts then ts else acc) start types.
Definition initial_timestamp (types : list string) (m : room_meta) (join : Z) : Z :=
  let t := latest_of m types 0 in
  if (t =? 0) || (t <? join) then match types with [] => m_last_ts m | _ => join end else t.

(** connstate_live.go:196-219: the timestamp that goes with an event as it happens.
    [before] is the timestamp the room already has in the response, 0 if none;
    [m] is both the metadata of the update and what the lists have of the room. *)
Definition live_timestamp (before : Z) (types : list string) (m : room_meta) (join : Z) : Z :=
  let t := latest_of m types before in
  let t := match types with [] => if t =? 0 then m_last_ts m else t | _ => t end in
  if t <? join then join else t.

(** connstate_live.go:366-370 and connstate.go:147-151: the metadata with these
    timestamps. *)
Definition with_ts (r : conn_room) (ts : gmap string Z) : conn_room :=
  mk_conn_room (c_meta r) (c_dm r) (c_invite r) (c_left r) (c_notif r) (c_highlight r)
    (c_canon r) (c_spaces r) (c_tags r) ts.

(** The metadata are the same as far as it matters here: connections take the user
    out of the heroes (connstate.go:120, connstate_live.go:360). *)
Definition same_room (m : room_meta) (m' : room_meta) : bool :=
  bool_decide (m_room m = m_room m') && bool_decide (m_last_ts m = m_last_ts m') && bool_decide (m_latest m = m_latest m').

(** An update on its way to the connection: the metadata of the room when it was made
    (sync3/caches/user.go:397-415), and NID and type if it is an event. *)
Record upd := mk_upd { u_room : conn_room; u_event : option (Z * string) }.
Definition u_of (u : upd) : string := m_room (c_meta (u_room u)).

(** The server and one connection. *)
Record st := mk_st {
  s_log : list gevent;                     (* all events, oldest first *)
  s_cache : cache;                         (* the global cache *)
  s_join : gmap string (Z * Z);            (* the rooms the user is in: NID and timestamp of the join *)
  s_on : bool;                             (* the connection gets updates *)
  s_loaded : bool;                         (* load() was done *)
  s_held : list upd;                       (* held back for transaction IDs, txn_id_waiter.go *)
  s_queue : list upd;                      (* the connection's channel *)
  s_pos : gmap string Z;                   (* loadPositions *)
  s_types : gmap string (list string);     (* bump_event_types of the effective requests *)
  s_world : world
}.
Definition init_st : st := mk_st [] ∅ ∅ false false [] [] ∅ ∅ new_world.

Definition next_nid (s : st) : Z := 1 + Z.of_nat (length (s_log s)).
(** The newest position of a room. *)
Definition last_nid (room : string) (log : list gevent) : Z :=
  match last (filter (fun e => g_room e = room) log) with Some e => g_nid e | None => 0 end.

Definition is_for (room : string) (u : upd) : bool := String.eqb (u_of u) room.

(** What happens. *)
Inductive act :=
| AEvent (e : gevent) (r : conn_room) (hold : bool)  (* an event is stored and handed out *)
| AJoin (e : gevent) (r : conn_room) (hold : bool)   (* ... which is the user's join *)
| AOther (r : conn_room)                             (* another update of a room *)
| AListen                                            (* the connection is made *)
| ALoad (types : gmap string (list string)) (rooms : list conn_room)
| ARequest (ord : list string -> list string) (key : string) (next : req_list) (chg : bool) (types : option (list string))
| ADelete (key : string)
| ARelease (i : nat)                                 (* the event held back at this place goes on *)
| AShow (room : string) (n : Z)
| AProcess (ord : list (string * flist) -> list (string * flist)) (shown : bool).

Section lower.
Context (lower : string -> string).

(** sync3/dispatcher.go (the global cache goes first), sync3/caches/user.go (updates have
    a copy of the metadata) and sync3/handler/txn_id_waiter.go:37-62: an event is held
    back at will, and always behind another one of its room. *)
Definition hand_out (s : st) (e : gevent) (r : conn_room) (hold : bool) (join : gmap string (Z * Z)) : option st :=
  let cache := on_new_event (s_cache s) e in
  let log := s_log s ++ [e] in
  if bool_decide (g_nid e = next_nid s) && match cache !! g_room e with Some m => same_room m (c_meta r) | None => false end then
    if s_on s && bool_decide (is_Some (join !! g_room e)) then
      let u := mk_upd r (Some (g_nid e, g_type e)) in
      if hold || existsb (is_for (g_room e)) (s_held s)
      then Some (mk_st log cache join (s_on s) (s_loaded s) (s_held s ++ [u]) (s_queue s) (s_pos s) (s_types s) (s_world s))
      else Some (mk_st log cache join (s_on s) (s_loaded s) (s_held s) (s_queue s ++ [u]) (s_pos s) (s_types s) (s_world s))
    else Some (mk_st log cache join (s_on s) (s_loaded s) (s_held s) (s_queue s) (s_pos s) (s_types s) (s_world s))
  else None.

(** connstate.go:109-171, load: SetRoom for every room the user is in; there are no
    lists yet. *)
Definition load_one (types : gmap string (list string)) (s : st) (l : rlists) (r : conn_room) : option rlists :=
  match s_join s !! m_room (c_meta r) with
  | Some join => if match s_cache s !! m_room (c_meta r) with Some m => same_room m (c_meta r) | None => false end
                 then Some (set_room lower id l (with_ts r (load_bumps join (c_meta r) types))).1
                 else None
  | None => None
  end.

Definition do (s : st) (a : act) : option st :=
  match a with
  | AEvent e r hold => hand_out s e r hold (s_join s)
  | AJoin e r hold =>
      match s_join s !! g_room e with
      | Some _ => None
      | None => if String.eqb (g_type e) "m.room.member"
                then hand_out s e r hold (<[g_room e := (g_nid e, g_ts e)]> (s_join s)) else None
      end
  | AOther r =>
      if same_room (default (new_meta (m_room (c_meta r))) (s_cache s !! m_room (c_meta r))) (c_meta r) then
        if s_on s
        then Some (mk_st (s_log s) (s_cache s) (s_join s) (s_on s) (s_loaded s) (s_held s) (s_queue s ++ [mk_upd r None])
                     (s_pos s) (s_types s) (s_world s))
        else Some s
      else None
  (* connstate.go:94: the connection subscribes before it loads anything. *)
  | AListen => Some (mk_st (s_log s) (s_cache s) (s_join s) true (s_loaded s) (s_held s) (s_queue s) (s_pos s) (s_types s) (s_world s))
  (* connstate.go:109-189: the first request. Its lists are made next. *)
  | ALoad types rooms =>
      if s_on s && negb (s_loaded s) && bool_decide (NoDup (map (fun r => m_room (c_meta r)) rooms))
         && bool_decide (list_to_set (map (fun r => m_room (c_meta r)) rooms) = dom (s_join s)) then
        match foldl (fun l r => match l with Some l => load_one types s l r | None => None end) (Some (w_lists (s_world s))) rooms with
        | Some l =>
            Some (mk_st (s_log s) (s_cache s) (s_join s) true true (s_held s) (s_queue s)
                    (map_imap (fun room _ => Some (last_nid room (s_log s))) (s_join s)) types
                    (mk_world l (w_reqs (s_world s)) (w_views (s_world s))))
        | None => None
        end
      else None
  (* connstate.go:191-228, sync3/request.go:341-420: a request for one list. *)
  | ARequest ord key next chg types =>
      if s_loaded s then
        match list_request lower ord (w_lists (s_world s)) key (w_reqs (s_world s) !! key) next chg with
        | Some (l, ms, _) =>
            Some (mk_st (s_log s) (s_cache s) (s_join s) (s_on s) true (s_held s) (s_queue s) (s_pos s)
                    (<[key := next_types (s_types s !! key) types]> (s_types s))
                    (mk_world l (<[key := next]> (w_reqs (s_world s)))
                       (set_view (w_views (s_world s)) key (client_ranges (w_views (s_world s) key) ms))))
        | None => None
        end
      else None
  | ADelete key =>
      if s_loaded s then
        Some (mk_st (s_log s) (s_cache s) (s_join s) (s_on s) true (s_held s) (s_queue s) (s_pos s) (delete key (s_types s))
                (mk_world (delete_list (w_lists (s_world s)) key) (delete key (w_reqs (s_world s))) (w_views (s_world s))))
      else None
  (* txn_id_waiter.go:64-94: the first held back event of a room goes on. *)
  | ARelease i =>
      match s_held s !! i with
      | Some u =>
          if negb (existsb (is_for (u_of u)) (take i (s_held s))) then
            Some (mk_st (s_log s) (s_cache s) (s_join s) (s_on s) (s_loaded s) (take i (s_held s) ++ drop (S i) (s_held s))
                    (s_queue s ++ [u]) (s_pos s) (s_types s) (s_world s))
          else None
      | None => None
      end
  (* connstate.go:568-588: a room is sent as a whole, with a timeline up to [n]. The
     anchor of the connection never goes back, so neither does [n]. *)
  | AShow room n =>
      if s_loaded s && (default 0 (s_pos s !! room) <=? n) && (n <=? last_nid room (s_log s)) then
        Some (mk_st (s_log s) (s_cache s) (s_join s) (s_on s) true (s_held s) (s_queue s) (<[room := n]> (s_pos s)) (s_types s) (s_world s))
      else None
  (* connstate_live.go:130-180 and 224-232: the next update. All lists of the request
     exist by then. [shown]: the event is put into the response. *)
  | AProcess ord shown =>
      match s_queue s with
      | u :: q =>
          let lp := default 0 (s_pos s !! u_of u) in
          let behind := match u_event u with Some (nid, _) => (0 <? lp) && (nid <? lp) | None => false end in
          if s_loaded s && bool_decide (dom (s_types s) = dom (w_reqs (s_world s))) then
            if behind then
              Some (mk_st (s_log s) (s_cache s) (s_join s) (s_on s) true (s_held s) q (s_pos s) (s_types s) (s_world s))
            else
              let r := with_ts (u_room u) (live_bumps (c_meta (u_room u)) (snd <$> u_event u) (s_types s)) in
              let pos := match u_event u with
                         | Some (nid, _) => if shown then <[u_of u := nid]> (s_pos s) else s_pos s
                         | None => s_pos s
                         end in
              match live_update lower ord (w_lists (s_world s)) (w_reqs (s_world s)) r with
              | Some (l, out) =>
                  Some (mk_st (s_log s) (s_cache s) (s_join s) (s_on s) true (s_held s) q pos (s_types s)
                          (mk_world l (w_reqs (s_world s)) (client_update (w_reqs (s_world s)) (w_views (s_world s)) out)))
              | None => None
              end
          else None
      | [] => None
      end
  end.

End lower.
