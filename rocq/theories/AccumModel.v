(** Model of the event store: state/accumulator.go, state/event_table.go,
    state/snapshot_table.go, state/rooms_table.go, state/invites_table.go and
    state/spaces_table.go, as far as storing state blocks and timelines goes.

    The database is a value.  All writers run in one goroutine at a time
    (sync2/poller.go 256-310: the PollerMap executor), so a transaction is one
    function from database to database; a failed one keeps the old tables but
    uses up numbers of the two sequences, as Postgres sequences do.  Row and
    parameter limits (Chunkify), SQL errors other than "no rows" and
    unsigned.txn_id (event_table.go 167-176) are left out. *)
From Verif Require Import Prelude.
Open Scope string_scope.
Open Scope list_scope.
Open Scope Z_scope.

(** What the code reads from an event's JSON. *)
Record raw := Raw {
  r_id : string;                 (* "event_id"; "" if missing or not a string *)
  r_type : option string;        (* "type", if it is a string *)
  r_skey : option string;        (* None: no "state_key"; Some "" if it is not a string *)
  r_mship : string;              (* content.membership *)
  r_change : bool;               (* internal.IsMembershipChange *)
  r_sender : string;             (* "sender" *)
  r_redacts : string;            (* "redacts", else content.redacts *)
  r_via : bool;                  (* content.via is an array *)
  r_order : string;              (* content.ordering *)
  r_suggested : bool;            (* content.suggested *)
  r_replacement : option string; (* content.replacement_room, if it is a string *)
  r_roomtype : option string;    (* content.type, if it is a string *)
  r_pred : string;               (* content.predecessor.room_id *)
  r_rest : string                (* everything else *)
}.

(** event_table.go 24-44: Event, also a row of syncv3_events. *)
Record event := Event {
  e_nid : Z; e_id : string; e_room : string; e_type : string; e_skey : string;
  e_member : string; e_isstate : bool; e_before : Z; e_replaces : Z;
  e_prev : option string; e_missing : bool; e_json : raw
}.

(** snapshot_table.go: a row of syncv3_snapshots (the key is its ID). *)
Record snap := Snap { s_room : string; s_members : list Z; s_others : list Z }.

(** rooms_table.go: a row of syncv3_rooms (the key is the room ID). *)
Record room := Room {
  rm_snap : Z; rm_latest : Z; rm_enc : bool;
  rm_upgraded : option string; rm_type : option string; rm_pred : option string
}.

(** spaces_table.go: a row of syncv3_spaces; the key is (parent, child, relation)
    with relation 2 for m.space.child and 1 for m.space.parent. *)
Record space := Space { sp_order : string; sp_suggested : bool }.

(** The tables.  Event rows are kept in the order of their numbers (NIDs): rows
    are only ever added with a fresh, larger one. *)
Record db := DB {
  d_events : list event; d_seq : Z;
  d_snaps : gmap Z snap; d_snapseq : Z;
  d_rooms : gmap string room;
  d_invites : gmap (string * string) string;          (* (user, room) -> invite_state *)
  d_spaces : gmap (string * string * Z) space
}.
Definition empty_db : db := DB [] 0 ∅ 0 ∅ ∅ ∅.

Definition set_events (l : list event) (d : db) : db :=
  DB l (d_seq d) (d_snaps d) (d_snapseq d) (d_rooms d) (d_invites d) (d_spaces d).
Definition set_seq (n : Z) (d : db) : db :=
  DB (d_events d) n (d_snaps d) (d_snapseq d) (d_rooms d) (d_invites d) (d_spaces d).
Definition set_snaps (s : gmap Z snap) (n : Z) (d : db) : db :=
  DB (d_events d) (d_seq d) s n (d_rooms d) (d_invites d) (d_spaces d).
Definition set_rooms (r : gmap string room) (d : db) : db :=
  DB (d_events d) (d_seq d) (d_snaps d) (d_snapseq d) r (d_invites d) (d_spaces d).
Definition set_invites (i : gmap (string * string) string) (d : db) : db :=
  DB (d_events d) (d_seq d) (d_snaps d) (d_snapseq d) (d_rooms d) i (d_spaces d).
Definition set_spaces (s : gmap (string * string * Z) space) (d : db) : db :=
  DB (d_events d) (d_seq d) (d_snaps d) (d_snapseq d) (d_rooms d) (d_invites d) s.

(** An error is an internal.DataError or another one (internal/errors.go). *)
Inductive outcome (A : Type) : Type := Ok (a : A) | Fail (data_error : bool).
Arguments Ok {A} a.
Arguments Fail {A} data_error.

Definition has_key (r : raw) : bool := match r_skey r with Some _ => true | None => false end.

(** event_table.go 46-87: ensureFieldsSetOnEvent, for a fresh Event which has only
    its JSON, its room (never empty: it is a key of the rooms section of the sync
    response) and IsState.  None: an error. *)
Definition ensure_fields (rm : string) (isstate : bool) (r : raw) : option event :=
  if String.eqb (r_id r) "" then None else
  match r_type r with
  | None => None
  | Some ty =>
      let sk := match r_skey r with Some s => s | None => "" end in
      let mk m := Event 0 (r_id r) rm ty sk m isstate 0 0 None false r in
      if negb (String.eqb sk "") && String.eqb ty "m.room.member" then
        if String.eqb (r_mship r) "" then None
        else Some (mk (if r_change r then r_mship r else "_" +:+ r_mship r))
      else Some (mk "")
  end.

(** event_table.go 564-578: filterAndEnsureFieldsSet. *)
Definition filter_ensure (rm : string) (state : list raw) : list event :=
  omap (ensure_fields rm true) state.

Definition set_nid (n : Z) (e : event) : event :=
  Event n (e_id e) (e_room e) (e_type e) (e_skey e) (e_member e) (e_isstate e)
    (e_before e) (e_replaces e) (e_prev e) (e_missing e) (e_json e).
Definition set_isstate (b : bool) (e : event) : event :=
  Event (e_nid e) (e_id e) (e_room e) (e_type e) (e_skey e) (e_member e) b
    (e_before e) (e_replaces e) (e_prev e) (e_missing e) (e_json e).
Definition set_before (s rep : Z) (e : event) : event :=
  Event (e_nid e) (e_id e) (e_room e) (e_type e) (e_skey e) (e_member e) (e_isstate e)
    s rep (e_prev e) (e_missing e) (e_json e).
Definition set_prev (p : option string) (e : event) : event :=
  Event (e_nid e) (e_id e) (e_room e) (e_type e) (e_skey e) (e_member e) (e_isstate e)
    (e_before e) (e_replaces e) p (e_missing e) (e_json e).
Definition set_missing (b : bool) (e : event) : event :=
  Event (e_nid e) (e_id e) (e_room e) (e_type e) (e_skey e) (e_member e) (e_isstate e)
    (e_before e) (e_replaces e) (e_prev e) b (e_json e).
Definition set_json (j : raw) (e : event) : event :=
  Event (e_nid e) (e_id e) (e_room e) (e_type e) (e_skey e) (e_member e) (e_isstate e)
    (e_before e) (e_replaces e) (e_prev e) (e_missing e) j.

(** Is there a row with this event ID? *)
Definition known (l : list event) (id : string) : bool :=
  existsb (fun e => String.eqb (e_id e) id) l.

(** event_table.go 180-196: INSERT ... ON CONFLICT (event_id) DO NOTHING RETURNING,
    row by row; each attempted row takes a number from the sequence. *)
Fixpoint insert (d : db) (l : list event) : db * gmap string Z :=
  match l with
  | [] => (d, ∅)
  | e :: l =>
      let n := d_seq d + 1 in
      if known (d_events d) (e_id e) then insert (set_seq n d) l
      else
        let '(d', m) := insert (set_seq n (set_events (d_events d ++ [set_nid n e]) d)) l in
        (d', <[e_id e := n]> m)
  end.

(** event_table.go 202-228, 261-270: the rows with these NIDs, by ascending NID; with
    verifyAll, an error unless there are as many as there are NIDs. *)
Definition select_nids (d : db) (nids : list Z) : outcome (list event) :=
  let evs := List.filter (fun e => existsb (Z.eqb (e_nid e)) nids) (d_events d) in
  if (Z.of_nat (length nids) =? 0) || Nat.eqb (length evs) (length nids) then Ok evs
  else Fail true.

(** snapshot_table.go 60-67: Select. *)
Definition select_snap (d : db) (id : Z) : outcome snap :=
  if id =? 0 then Fail false
  else match d_snaps d !! id with Some s => Ok s | None => Fail false end.

(** snapshot_table.go 70-84: Insert. *)
Definition insert_snap (d : db) (s : snap) : db * Z :=
  let n := d_snapseq d + 1 in (set_snaps (<[n := s]> (d_snaps d)) n d, n).

(** rooms_table.go 112-118: CurrentAfterSnapshotID. *)
Definition current_snap (d : db) (rm : string) : Z :=
  match d_rooms d !! rm with Some r => rm_snap r | None => 0 end.

(** accumulator.go 103-138: roomInfoDelta. *)
Record info := Info {
  i_enc : bool; i_upgraded : option string; i_type : option string; i_pred : option string
}.
Definition info_step (i : info) (e : event) : info :=
  let top ty := String.eqb (e_type e) ty && String.eqb (e_skey e) "" in
  let i1 := if top "m.room.encryption" then Info true (i_upgraded i) (i_type i) (i_pred i) else i in
  let i2 := if top "m.room.tombstone" then
              match r_replacement (e_json e) with
              | Some x => Info (i_enc i1) (Some x) (i_type i1) (i_pred i1) | None => i1 end
            else i1 in
  if top "m.room.create" then
    let i3 := match r_roomtype (e_json e) with
              | Some x => Info (i_enc i2) (i_upgraded i2) (Some x) (i_pred i2) | None => i2 end in
    if String.eqb (r_pred (e_json e)) "" then i3
    else Info (i_enc i3) (i_upgraded i3) (i_type i3) (Some (r_pred (e_json e)))
  else i2.
Definition info_delta (l : list event) : info :=
  fold_left info_step l (Info false None None None).

(** rooms_table.go 43-91: Upsert. *)
Definition upsert_room (d : db) (rm : string) (i : info) (snapid latest : Z) : db :=
  let or_old {A} (x : option A) (old : option A) := match x with Some _ => x | None => old end in
  let new :=
    match d_rooms d !! rm with
    | None => Room snapid latest (i_enc i) (i_upgraded i) (i_type i) (i_pred i)
    | Some o => Room snapid latest (i_enc i || rm_enc o) (or_old (i_upgraded i) (rm_upgraded o))
                  (or_old (i_type i) (rm_type o)) (or_old (i_pred i) (rm_pred o))
    end in
  set_rooms (<[rm := new]> (d_rooms d)) d.

(** invites_table.go 64-90: RemoveSupersededInvites. *)
Definition final_memberships (l : list event) : gmap string string :=
  fold_left (fun m e => if String.eqb (e_type e) "m.room.member" then <[e_skey e := e_member e]> m else m)
    l ∅.
Definition supersede_invites (d : db) (rm : string) (l : list event) : db :=
  let m := final_memberships l in
  set_invites
    (filter (fun kv : (string * string) * string =>
       negb (String.eqb (snd (fst kv)) rm &&
             match m !! (fst (fst kv)) with
             | Some ms => negb (String.eqb ms "invite" || String.eqb ms "_invite")
             | None => false
             end) = true) (d_invites d)) d.

(** spaces_table.go 30-54: NewSpaceRelationFromEvent, as (key, row, isDeleted). *)
Definition space_relation (e : event) : option ((string * string * Z) * space * bool) :=
  let j := e_json e in
  if negb (has_key j) then None
  else if String.eqb (e_type e) "m.space.child" then
    Some ((e_room e, e_skey e, 2), Space (r_order j) (r_suggested j), negb (r_via j))
  else if String.eqb (e_type e) "m.space.parent" then
    Some ((e_skey e, e_room e, 1), Space "" false, negb (r_via j))
  else None.

(** spaces_table.go 122-160: HandleSpaceUpdates.  The last relation per key counts.
    The map is keyed by the string "parent-child-relation"; all events of a call are in
    one room, so one end is the same everywhere and the string tells keys apart: the
    model keys by the triple. *)
Definition space_updates (d : db) (l : list event) : db :=
  let rels := fold_left (fun (m : gmap (string * string * Z) (space * bool)) e =>
                match space_relation e with
                | Some (k, s, del) => <[k := (s, del)]> m
                | None => m
                end) l ∅ in
  set_spaces
    (merge (fun (old : option space) (upd : option (space * bool)) =>
       match upd with
       | Some (s, false) => Some s
       | Some (_, true) => None
       | None => old
       end) (d_spaces d) rels) d.

(** accumulator.go 61-64: tupleKey.  0x1f is the unit separator. *)
Definition sep : string := String (Ascii.ascii_of_nat 31) EmptyString.
Definition tuple_key (e : event) : string := e_type e +:+ sep +:+ e_skey e.

(** accumulator.go 59-101: calculateNewSnapshot.  None: an error. *)
Fixpoint calc_loop (old : list event) (new : event) (seen : list string)
    (added : bool) (replaced : Z) (result : list event) : option (list event * Z) :=
  match old with
  | [] => Some (if added then result else result ++ [new], replaced)
  | e :: old =>
      let k := tuple_key e in
      if existsb (String.eqb k) seen then None
      else if (e_nid e =? e_nid new) && negb (String.eqb k (tuple_key new)) then None
      else if String.eqb k (tuple_key new) then
        calc_loop old new (k :: seen) true (e_nid e) (result ++ [new])
      else calc_loop old new (k :: seen) added replaced (result ++ [e])
  end.
Definition calc_snapshot (old : list event) (new : event) : option (list event * Z) :=
  calc_loop old new [] false 0 [].

(** event_table.go 91-100: StrippedEvents.NIDs. *)
Definition is_member (e : event) : bool := String.eqb (e_type e) "m.room.member".
Definition member_nids (l : list event) : list Z := map e_nid (List.filter is_member l).
Definition other_nids (l : list event) : list Z :=
  map e_nid (List.filter (fun e => negb (is_member e)) l).

(** accumulator.go 684-701: stateMap and Ingest. *)
Record state_map := StateMap { sm_members : gmap string Z; sm_others : gmap (string * string) Z }.
Definition ingest (m : state_map) (e : event) : state_map :=
  if is_member e then StateMap (<[e_skey e := e_nid e]> (sm_members m)) (sm_others m)
  else StateMap (sm_members m) (<[(e_type e, e_skey e) := e_nid e]> (sm_others m)).

(** accumulator.go 657-682: ensureStateHasCreateEvent. *)
Definition is_create (e : event) : bool :=
  String.eqb (e_type e) "m.room.create" && String.eqb (e_skey e) "".
Definition has_create (l : list event) : bool := existsb is_create l.

(** accumulator.go 140-149, 323-333: what the two operations return. *)
Record init_result := InitResult { ir_added : bool; ir_snap : Z; ir_replaced : bool }.
Record acc_result := AccResult { ar_new : Z; ar_nids : list Z; ar_redaction : bool }.

(** A timeline section of a sync v2 response: events, limited, prev_batch ("" if none). *)
Record timeline := Timeline { tl_events : list raw; tl_limited : bool; tl_prev : string }.

(** accumulator.go 570-601: parseAndDeduplicateTimelineEvents; [first] is i == 0. *)
Fixpoint dedup (rm prev : string) (first : bool) (seen : list string) (l : list raw) : list event :=
  match l with
  | [] => []
  | r :: l =>
      match ensure_fields rm false r with
      | None => dedup rm prev false seen l
      | Some e =>
          if existsb (String.eqb (e_id e)) seen then dedup rm prev false seen l
          else
            (if first && negb (String.eqb prev "") then set_prev (Some prev) e else e)
              :: dedup rm prev false (e_id e :: seen) l
      end
  end.

(** accumulator.go 642-654: the events after the last one which is known. *)
Fixpoint after_last_known (rows : list event) (l : list event) : list event :=
  match l with
  | [] => []
  | e :: l =>
      if existsb (fun x => known rows (e_id x)) (e :: l)
      then after_last_known rows l else e :: l
  end.

(** accumulator.go 606-655: filterToNewTimelineEvents. *)
Definition filter_new (rows : list event) (l : list event) : list event :=
  if Nat.leb (length l) 1 then l
  else if forallb (fun e => known rows (e_id e)) l then []
  else after_last_known rows l.

(** accumulator.go 444-473: the events which were inserted, with their numbers and with
    IsState set for state events. *)
Definition post_insert (m : gmap string Z) (l : list event) : list event :=
  omap (fun e => match m !! e_id e with
                 | Some n => Some (set_isstate (e_isstate e || has_key (e_json e)) (set_nid n e))
                 | None => None
                 end) l.

(** accumulator.go 459-469: redacted event ID -> redaction; a later one wins. *)
Definition redactions (l : list event) : gmap string raw :=
  fold_left (fun m e =>
    if negb (e_isstate e) && String.eqb (e_type e) "m.room.redaction"
       && negb (String.eqb (r_redacts (e_json e)) "")
    then <[r_redacts (e_json e) := e_json e]> m else m) l ∅.

(** event_table.go 308-313: UpdateBeforeSnapshotID. *)
Definition update_before (d : db) (nid sid rep : Z) : db :=
  set_events (map (fun e => if e_nid e =? nid then set_before sid rep e else e) (d_events d)) d.

(** sqlutil/sql.go 22-50: WithTransaction.  On failure the tables are as before. *)
Definition rollback (old new : db) : db :=
  set_seq (d_seq new) (set_snaps (d_snaps old) (d_snapseq new) old).

Section Store.
(** Go iterates over maps in an unspecified order. *)
Context (ord : list Z -> list Z).
(** gomatrixserverlib's RedactEventJSON plus unsigned.redacted_because
    (event_table.go 392-411), given the create event, the redaction and the event. *)
Context (redact : raw -> raw -> raw -> raw).

(** accumulator.go 703-713: stateMap.NIDs. *)
Definition sm_nids (m : state_map) : list Z * list Z :=
  (ord (map snd (map_to_list (sm_members m))), ord (map snd (map_to_list (sm_others m)))).

(** accumulator.go 715-734: stateMapAtSnapshot. *)
Definition state_map_at (d : db) (sid : Z) : outcome state_map :=
  match select_snap d sid with
  | Fail b => Fail b
  | Ok s =>
      match select_nids d (s_members s ++ s_others s) with
      | Fail b => Fail b
      | Ok evs => Ok (fold_left ingest evs (StateMap ∅ ∅))
      end
  end.

(** accumulator.go 182-321: Initialise, inside its transaction (190-319). *)
Definition init_txn (rm : string) (state : list raw) (d : db) : outcome init_result * db :=
  let start := current_snap d rm in
  let events := filter_ensure rm state in
  if Nat.eqb (length events) 0 then (Fail false, d)
  else if (start =? 0) && negb (has_create events) then (Fail true, d)
  else
    let '(d1, m) := insert d events in
    if Nat.eqb (size m) 0 then (Ok (InitResult false 0 false), d1)
    else
      let news := omap (fun e => match m !! e_id e with
                                 | Some n => Some (set_nid n e) | None => None end) events in
      match (if 0 <? start then state_map_at d1 start else Ok (StateMap ∅ ∅)) with
      | Fail b => (Fail b, d1)
      | Ok cur =>
          let '(mem, oth) := sm_nids (fold_left ingest news cur) in
          let '(d2, sid) := insert_snap d1 (Snap rm mem oth) in
          let latest := fold_left Z.max mem (fold_left Z.max oth 0) in
          let d3 := space_updates (supersede_invites d2 rm events) events in
          let d4 := upsert_room d3 rm (info_delta events) sid latest in
          (Ok (InitResult true sid (0 <? start)), d4)
      end.
Definition initialise (rm : string) (state : list raw) (d : db) : outcome init_result * db :=
  match state with
  | [] => (Ok (InitResult false 0 false), d)
  | _ =>
      match init_txn rm state d with
      | (Ok r, d') => (Ok r, d')
      | (Fail b, d') => (Fail b, rollback d d')
      end
  end.

(** event_table.go 382-418: Redact.  Rows are found by event ID alone. *)
Definition redact_rows (d : db) (create : raw) (m : gmap string raw) : db :=
  set_events (map (fun e => match m !! e_id e with
                            | Some by_ => set_json (redact create by_ (e_json e)) e
                            | None => e
                            end) (d_events d)) d.
(** accumulator.go 475-494: None when the room has no create event (548-553). *)
Definition redact_step (d : db) (rm : string) (m : gmap string raw) : option db :=
  if Nat.eqb (size m) 0 then Some d
  else match List.find (fun e => String.eqb (e_room e) rm && is_create e) (d_events d) with
       | None => None
       | Some c => Some (redact_rows d (e_json c) m)
       end.

(** accumulator.go 496-530: roll the snapshot forward over the new events. *)
Fixpoint roll (rm : string) (d : db) (sid : Z) (l : list event) : outcome Z * db :=
  match l with
  | [] => (Ok sid, d)
  | e :: l =>
      if e_isstate e then
        match (if sid =? 0 then Ok []
               else match select_snap d sid with
                    | Fail b => Fail b
                    | Ok s => select_nids d (s_members s ++ s_others s)
                    end) with
        | Fail _ => (Fail false, d)
        | Ok old =>
            match calc_snapshot old e with
            | None => (Fail false, d)
            | Some (new, rep) =>
                let '(d1, sid') := insert_snap d (Snap rm (member_nids new) (other_nids new)) in
                roll rm (update_before d1 (e_nid e) sid rep) sid' l
            end
        end
      else roll rm (update_before d (e_nid e) sid 0) sid l
  end.

(** accumulator.go 532-550: is a redacted event in the current snapshot? *)
Definition redacts_state (d : db) (sid : Z) (m : gmap string raw) : bool :=
  match d_snaps d !! sid with
  | None => false
  | Some s =>
      existsb (fun e => existsb (Z.eqb (e_nid e)) (s_others s ++ s_members s) &&
                        match m !! e_id e with Some _ => true | None => false end) (d_events d)
  end.

(** accumulator.go 369-372: newEvents shares its array with incomingEvents, so the mark
    on the first incoming event is seen in newEvents when that event is new. *)
Definition mark_gap (limited : bool) (incoming news : list event) : list event :=
  match news, incoming with
  | e :: news', i :: _ =>
      if limited && String.eqb (e_id e) (e_id i) then set_missing true e :: news' else news
  | _, _ => news
  end.

(** accumulator.go 346-566: Accumulate. *)
Definition acc_txn (rm : string) (t : timeline) (d : db) : outcome acc_result * db :=
  let incoming := dedup rm (tl_prev t) true [] (tl_events t) in
  let news := mark_gap (tl_limited t) incoming (filter_new (d_events d) incoming) in
  match news with
  | [] => (Ok (AccResult 0 [] false), d)
  | first :: _ =>
      let snapid := current_snap d rm in
      if (snapid =? 0) && negb (is_create first) then (Ok (AccResult 0 [] false), d)
      else
        let '(d1, m) := insert d news in
        if Nat.eqb (size m) 0 then (Ok (AccResult 0 [] false), d1)
        else
          let post := post_insert m news in
          let latest := fold_left Z.max (map e_nid post) 0 in
          let red := redactions post in
          match redact_step d1 rm red with
          | None => (Fail false, d1)
          | Some d2 =>
              match roll rm d2 snapid post with
              | (Fail b, d3) => (Fail b, d3)
              | (Ok sid, d3) =>
                  let flag := negb (Nat.eqb (size red) 0) && redacts_state d3 sid red in
                  let d4 := space_updates (supersede_invites d3 rm post) post in
                  let d5 := upsert_room d4 rm (info_delta post) sid latest in
                  (Ok (AccResult (Z.of_nat (size m)) (map e_nid post) flag), d5)
              end
          end
  end.

(** storage.go 464-473: Storage.Accumulate. *)
Definition accumulate (rm : string) (t : timeline) (d : db) : outcome acc_result * db :=
  match tl_events t with
  | [] => (Ok (AccResult 0 [] false), d)
  | _ =>
      match acc_txn rm t d with
      | (Ok r, d') => (Ok r, d')
      | (Fail b, d') => (Fail b, rollback d d')
      end
  end.

(** storage.go 770-807: RemoveInaccessibleStateSnapshots; [limit] is MaxTimelineLimit.
    A snapshot's rank in its room counts the snapshots with an ID at least its own. *)
Definition snap_rank (d : db) (id : Z) (s : snap) : nat :=
  length (List.filter (fun kv : Z * snap => String.eqb (s_room (snd kv)) (s_room s) && (id <=? fst kv))
            (map_to_list (d_snaps d))).
Definition clean_snaps (limit : nat) (d : db) : db :=
  set_snaps (filter (fun kv : Z * snap => Nat.leb (snap_rank d (fst kv) (snd kv)) (limit + 1) = true)
               (d_snaps d)) (d_snapseq d) d.

(** Everything that writes the tables: the two operations above, the cleaner, and
    invites (invites_table.go 92-103 InsertInvite, 44-53 RemoveInvite). *)
Inductive op :=
| Initialise (rm : string) (state : list raw)
| Accumulate (rm : string) (t : timeline)
| Clean (limit : nat)
| Invite (user rm inv : string)
| Retire (user rm : string).

Definition run (o : op) (d : db) : db :=
  match o with
  | Initialise rm st => snd (initialise rm st d)
  | Accumulate rm t => snd (accumulate rm t d)
  | Clean n => clean_snaps n d
  | Invite u rm i => set_invites (<[(u, rm) := i]> (d_invites d)) d
  | Retire u rm => set_invites (delete (u, rm) (d_invites d)) d
  end.
Definition runs (ops : list op) (d : db) : db := fold_left (fun d o => run o d) ops d.
End Store.
