(** Model of the way of account data and typing notifications of a user to a client:
    from the pollers over the consumer, the user's cache and the connection into
    responses, and the copy the client keeps. [sync2/handler2/handler.go],
    [state/account_data.go], [sync3/handler/handler.go], [sync3/caches/user.go],
    [sync3/handler/connstate.go] and [connstate_live.go]; the extensions themselves are
    [ExtModel]'s.

    One user with one connection. Left out: queries that fail, an updates channel that
    runs full (C72), responses that get lost (C10 gives them again) and the content of
    rooms. Which rooms are visible in which lists, subscribed to and part of the
    response is chosen by the environment (C01, C02, C61). *)
From Verif Require Import Prelude RequestModel ExtModel.
Open Scope string_scope. Open Scope list_scope. Open Scope Z_scope.

(** The part of extensions.go:279-304 that decides the scope of extensions: the
    visible rooms with their lists, all lists and all subscribed rooms. *)
Record place := mk_place { p_lists : gmap string (list string); p_all : list string; p_subs : list string }.

(** sync3/response.go:48-58, RoomIDsToTimelineEventIDs: a key for every room of the
    response. Neither extension looks at the event IDs. *)
Definition keys_of (here : list string) : gmap string (list string) :=
  list_to_map (map (fun r => (r, [])) here).
(** connstate.go:225-233 and connstate_live.go:120-128. *)
Definition ctx_of (p : place) (here : list string) (initial : bool) : ectx :=
  mk_ectx (keys_of here) initial (p_lists p) (p_all p) (p_subs p).

(** [f_rows]: the user's rows of syncv3_account_data. [f_pend]: the V2AccountData
    notifications that were not handled yet: a room ("" for global data) and types.
    [f_typ]: the typing events in the global cache. [f_queue]: the updates channel of
    the connection; [f_held]: the events which its transaction ID waiter holds back.
    [f_exts], [f_place]: the extensions asked for and the scope; [f_first]: no request
    was made yet. [f_busy]: a request is being served; [f_here]: the rooms of its
    response, [f_resp] its extensions. [f_global], [f_data], [f_typing]: the client's
    copy of global account data (by type), of rooms' account data (by room and type)
    and of rooms' typing events. *)
Record fstate := mk_f {
  f_rows : list adata;
  f_pend : list (string * list string);
  f_typ : string -> option string;
  f_queue : list update;
  f_held : list update;
  f_exts : exts;
  f_place : place;
  f_first : bool;
  f_busy : bool;
  f_here : list string;
  f_resp : eresp;
  f_global : string -> option string;
  f_data : string -> string -> option string;
  f_typing : string -> option string
}.

Inductive faction :=
| Store (room : string) (data : list string)
    (* a poller stores account data and notifies *)
| Reorder (rows : list adata)
    (* the database gives rows in another order *)
| Notified
    (* the consumer handles the next account data notification *)
| Typed (room ev : string) (member : bool)
    (* a typing event arrives; [member]: the user is in the room *)
| Event (room : string) (hold : bool)
    (* an event of a room; [hold]: the user's own, without its transaction ID *)
| Release (room : string)
    (* the waiter lets the room's next event go *)
| News (room : string)
    (* a receipt, unread counts, an invite or a leave in a room *)
| Device
    (* to-device messages or device data *)
| Request (ex : exts) (p : place) (here : list string)
    (* a request; [ex], [p]: what is asked for after it, [here]: the rooms of the
       response before live updates *)
| Take (p : place) (added : list string)
    (* the next update is processed; [p]: the scope after it, [added]: the rooms it
       brings into the response *)
| Answer.

Section follow.
(** The type field of account data (handler2/handler.go:481, storage.go:131). *)
Context (type_of : string -> string).

(** The last of [l] of type [t]. *)
Definition last_of (t : string) (l : list string) : option string :=
  last (List.filter (fun d => bool_decide (type_of d = t)) l).

(** state/account_data.go:41-66, Insert, of the events of one room: one row for each
    room and type; of several events of one type the last is kept. *)
Definition upsert (room : string) (rows : list adata) (d : string) : list adata :=
  List.filter (fun x => negb (bool_decide (x.1 = room /\ type_of x.2 = type_of d))) rows ++ [(room, d)].
Definition insert_all (rows : list adata) (room : string) (data : list string) : list adata :=
  fold_left (upsert room) data rows.

(** state/account_data.go:68-72, Select: the rows of some types of one room. *)
Definition select (rows : list adata) (room : string) (types : list string) : list string :=
  map snd (List.filter (fun x => bool_decide (x.1 = room /\ type_of x.2 ∈ types)) rows).

(** sync3/caches/user.go:397-415: an update of a room copies the room's metadata, with
    its typing event, when it is made. *)
(** sync3/caches/user.go:771-786: what OnAccountData tells the connections, when given
    the rows of one room. Its effect on the user's cache is in UserModel. *)
Definition data_update (typ : string -> option string) (room : string) (d : list string) : list update :=
  match d with
  | [] => []
  | _ => if String.eqb room "" then [UGlobalData d] else [URoomData room (typ room) d]
  end.

(** The room of an update. *)
Definition room_of (u : update) : option string := fst <$> room_update u.

(** txn_id_waiter.go:66-95, PublishUpToNID, one event at a time: the first event of
    the room, and the events that stay. *)
Fixpoint next_held (room : string) (l : list update) : option (update * list update) :=
  match l with
  | [] => None
  | u :: l' => if bool_decide (room_of u = Some room) then Some (u, l')
               else '(v, r) ← next_held room l'; Some (v, u :: r)
  end.

(** What a client makes of the extensions of a response: newer data replaces older
    data of the same type, a typing event replaces the room's previous one. *)
Definition newer (a b : option string) : option string := match a with Some _ => a | None => b end.
Definition resp_global (r : eresp) : list string := default [] (a_global <$> r_acct r).
Definition resp_data (r : eresp) (room : string) : list string := default [] (a ← r_acct r; a_rooms a !! room).
Definition resp_typing (r : eresp) (room : string) : option string := m ← r_typing r; m !! room.
Definition answer (s : fstate) : fstate :=
  let r := f_resp s in
  mk_f (f_rows s) (f_pend s) (f_typ s) (f_queue s) (f_held s) (f_exts s) (f_place s) (f_first s) false [] eresp0
    (fun t => newer (last_of t (resp_global r)) (f_global s t))
    (fun room t => newer (last_of t (resp_data r room)) (f_data s room t))
    (fun room => newer (resp_typing r room) (f_typing s room)).

Definition set_queue (s : fstate) (q h : list update) : fstate :=
  mk_f (f_rows s) (f_pend s) (f_typ s) q h (f_exts s) (f_place s) (f_first s) (f_busy s)
    (f_here s) (f_resp s) (f_global s) (f_data s) (f_typing s).
Definition set_rows (s : fstate) (rows : list adata) (pend : list (string * list string)) : fstate :=
  mk_f rows pend (f_typ s) (f_queue s) (f_held s) (f_exts s) (f_place s) (f_first s) (f_busy s)
    (f_here s) (f_resp s) (f_global s) (f_data s) (f_typing s).
Definition set_typ (s : fstate) (room ev : string) : fstate :=
  mk_f (f_rows s) (f_pend s) (fun r => if String.eqb r room then Some ev else f_typ s r)
    (f_queue s) (f_held s) (f_exts s) (f_place s) (f_first s) (f_busy s)
    (f_here s) (f_resp s) (f_global s) (f_data s) (f_typing s).
Definition push (s : fstate) (l : list update) : fstate := set_queue s (f_queue s ++ l) (f_held s).

Definition fstep (s : fstate) (a : faction) : fstate :=
  match a with
  | Store room data =>
      (* handler2/handler.go:475-515, OnAccountData, after data that did not change was
         dropped (C36); state/storage.go:123-138. No data: nothing is notified. *)
      match data with
      | [] => s
      | _ => set_rows s (insert_all (f_rows s) room data) (f_pend s ++ [(room, map type_of data)])
      end
  | Reorder rows => if decide (rows ≡ₚ f_rows s) then set_rows s rows (f_pend s) else s
  | Notified =>
      (* sync3/handler/handler.go:800-814, OnAccountData *)
      match f_pend s with
      | [] => s
      | (room, types) :: rest =>
          push (set_rows s (f_rows s) rest) (data_update (f_typ s) room (select (f_rows s) room types))
      end
  | Typed room ev member =>
      (* sync3/handler/handler.go:788-798, sync3/dispatcher.go:215-240,
         sync3/caches/global.go:261-275, sync3/caches/user.go:499-513 *)
      if bool_decide (f_typ s room = Some ev) then s
      else
        let s' := set_typ s room ev in
        if member then push s' [UTyping room (Some ev)] else s'
  | Event room hold =>
      (* sync3/caches/user.go:593-619, sync3/handler/txn_id_waiter.go:30-64 *)
      let u := URoom room (f_typ s room) in
      if hold || existsb (fun v => bool_decide (room_of v = Some room)) (f_held s)
      then set_queue s (f_queue s) (f_held s ++ [u])
      else push s [u]
  | Release room =>
      match next_held room (f_held s) with
      | Some (u, rest) => set_queue s (f_queue s ++ [u]) rest
      | None => s
      end
  | News room =>
      (* sync3/caches/user.go:515-520, 546-569, 621-695; txn_id_waiter.go:36-40 *)
      push s [URoom room (f_typ s room)]
  | Device => push s [UOther]
  | Request ex p here =>
      (* connstate.go:190-250, onIncomingRequest up to liveUpdate *)
      if f_busy s then s
      else
        let c := ctx_of p here (f_first s) in
        mk_f (f_rows s) (f_pend s) (f_typ s) (f_queue s) (f_held s) ex p false true here
          (handle ex c here (Some (f_rows s)) (Some (f_rows s)) (f_typ s))
          (f_global s) (f_data s) (f_typing s)
  | Take p added =>
      (* connstate_live.go:113-129, processUpdate *)
      if negb (f_busy s) then s
      else match f_queue s with
      | [] => s
      | u :: q =>
          let here := f_here s ++ added in
          mk_f (f_rows s) (f_pend s) (f_typ s) q (f_held s) (f_exts s) p (f_first s) true here
            (handle_live (f_exts s) (ctx_of p here false) (Some (f_rows s)) (f_resp s) u)
            (f_global s) (f_data s) (f_typing s)
      end
  | Answer => if f_busy s then answer s else s
  end.

Definition frun (s : fstate) (l : list faction) : fstate := fold_left fstep l s.
End follow.

(** A connection that was just made: nothing was asked for and nothing is known to the
    client. Notifications may be outstanding. *)
Definition fstart (rows : list adata) (pend : list (string * list string)) (typ : string -> option string) : fstate :=
  mk_f rows pend typ [] [] (fun _ => None) (mk_place ∅ [] []) true false [] eresp0
    (fun _ => None) (fun _ _ => None) (fun _ => None).
