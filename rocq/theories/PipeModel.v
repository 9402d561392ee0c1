(** Model of the way of an event from a poller to a client: storing it
    (sync2/handler2/handler.go:259-317, state/accumulator.go), the channel between the two
    halves of the server (pubsub), handing it out (sync3/handler/handler.go:650-668,
    sync3/dispatcher.go, sync3/caches/user.go), waiting for its transaction ID
    (sync3/handler/txn_id_waiter.go), the connection's buffer
    (sync3/handler/connstate_live.go:31-51) and its use
    (connstate_live.go:133-263). The parts are those of AccumModel, StoreModel, TxnModel and
    FeedModel; here they are put together, for one connection. *)
From Verif Require Import Prelude AccumModel StoreModel RequestModel SubModel FeedModel.
From Verif Require TxnModel.
Open Scope string_scope. Open Scope list_scope. Open Scope Z_scope.

(** The state of the server, as far as one connection is concerned. [p_bus] is the channel of
    V2Accumulate messages: the room and the event NIDs, oldest first. [p_on] is set once the
    connection exists and is registered with the dispatcher. [p_log] holds the events handed
    to the connection so far, with their being state events; the waiter and the buffer
    (ConnState.live.updates) refer to them by number ([TxnModel.e_rest]). *)
Record pipe := mk_pipe {
  p_db : db; p_bus : list (string * list Z); p_on : bool; p_log : list (tent * bool);
  p_wait : TxnModel.waiter; p_queue : list TxnModel.ev; p_conn : feed
}.
(** A new server with an empty database. *)
Definition pipe0 : pipe := mk_pipe empty_db [] false [] TxnModel.waiter0 [] feed0.

(** state/event_table.go:148-157, SelectHighestNID. *)
Definition highest (d : db) : Z := fold_left Z.max (map e_nid (d_events d)) 0.
(** state/storage.go:1103-1141, LatestEventNIDInRooms, for one room: the latest position up
    to [pos]. The shortcut through the rooms table (storage.go:1113-1116) gives the same and
    is left out. *)
Definition room_position (d : db) (pos : Z) (rm : string) : option Z :=
  last (map e_nid (List.filter (fun e => String.eqb (e_room e) rm && (e_nid e <=? pos)) (d_events d))).
Definition room_positions (d : db) (pos : Z) (rooms : list string) : gmap string Z :=
  fold_right (fun rm m => match room_position d pos rm with Some n => <[rm := n]> m | None => m end) ∅ rooms.

(** What goes into the connection's buffer. *)
Definition events_of (out : list (bool * TxnModel.upd)) : list TxnModel.ev :=
  omap (fun x => match x.2 with TxnModel.Ev e => Some e | TxnModel.Else _ => None end) out.

(** sync3/dispatcher.go:101-118 newEventData, 160-203 OnNewEvent, sync3/caches/user.go:593-619
    OnNewEvent, sync3/handler/connstate.go:741-759: one event for this connection. [joined]
    says whether the dispatcher counts the user among those to tell about the event, and
    [txn] is the transaction ID in the event's JSON. Events of the buffer being full
    (C72) are left out, and so are the updates which m.space.child events cause in other
    rooms (C65_space_event_in_child_refuted). *)
Definition hand_out (user : string) (delay now : Z) (joined : string -> bool) (txn : string -> string)
    (rm : string) (s : pipe) (x : event * Z) : pipe :=
  let '(e, nid) := x in
  if p_on s && joined (e_id e) then
    let sender := r_sender (e_json e) in
    let state := has_key (e_json e) in
    let up := TxnModel.mk_ev rm nid sender state (txn (e_id e)) (length (p_log s)) in
    let '(w, out) := TxnModel.Ingest user delay now (p_wait s) (TxnModel.Ev up) in
    mk_pipe (p_db s) (p_bus s) (p_on s) (p_log s ++ [(mk_tent nid (e_id e) rm sender, state)])
      w (p_queue s ++ events_of out) (p_conn s)
  else s.
(** sync3/handler/handler.go:650-668, Accumulate: the rows are sorted by position and are put
    together with the positions in the message one by one. [ok] says whether the query
    succeeds. *)
Definition on_accumulate (user : string) (delay now : Z) (ok : bool) (joined : string -> bool)
    (txn : string -> string) (rm : string) (event_nids : list Z) (s : pipe) : pipe :=
  if ok then
    match select_nids (p_db s) event_nids with
    | Ok rows => fold_left (hand_out user delay now joined txn rm) (zip rows event_nids) s
    | Fail _ => s
    end
  else s.

(** Timelines are loaded from the database of the moment, if the query succeeds. *)
Definition at_db (d : db) (i : finit) : finit :=
  mk_finit (i_room i) (i_limit i) (i_req i) (match i_db i with Some _ => Some d | None => None end)
    (i_ignored i) (i_state i) (i_invite i).

Inductive pstep :=
  | PStore (o : op)                    (* a poller's goroutine *)
  | PRegister                          (* the connection is made *)
  | PDispatch (ok : bool) (joined : string -> bool) (txn : string -> string) (now : Z)
                                       (* the oldest message is received *)
  | PRelease (rm : string) (nid : Z)   (* a timer, or a transaction ID *)
  | PConsume (inits : list finit) (shown ignored found : bool)
                                       (* a request takes the oldest update *)
  | PLoad (rooms : list string)        (* the first request; the rooms the user is joined to *)
  | PRooms (inits : list finit)        (* a request sends rooms *)
  | PTyping (rm : string) (users : list (string * bool))
  | PRespond.

Section Pipe.
Context (ord : list Z -> list Z) (redact : raw -> raw -> raw -> raw) (env : fenv) (delay : Z).

Definition with_conn (c : feed) (s : pipe) : pipe :=
  mk_pipe (p_db s) (p_bus s) (p_on s) (p_log s) (p_wait s) (p_queue s) c.

Definition pstep1 (s : pipe) (st : pstep) : pipe :=
  match st with
  | PStore o =>
      (* sync2/handler2/handler.go:296-317 *)
      let bus := match o with
                 | Accumulate rm t =>
                     match fst (accumulate redact rm t (p_db s)) with
                     | Ok r => if ar_new r =? 0 then p_bus s else p_bus s ++ [(rm, ar_nids r)]
                     | Fail _ => p_bus s
                     end
                 | _ => p_bus s
                 end in
      mk_pipe (run ord redact o (p_db s)) bus (p_on s) (p_log s) (p_wait s) (p_queue s) (p_conn s)
  | PRegister => mk_pipe (p_db s) (p_bus s) true (p_log s) (p_wait s) (p_queue s) (p_conn s)
  | PDispatch ok joined txn now =>
      match p_bus s with
      | [] => s
      | (rm, event_nids) :: bus =>
          on_accumulate (fe_user env) delay now ok joined txn rm event_nids
            (mk_pipe (p_db s) bus (p_on s) (p_log s) (p_wait s) (p_queue s) (p_conn s))
      end
  | PRelease rm nid =>
      let '(w, out) := TxnModel.PublishUpToNID (p_wait s) rm nid in
      mk_pipe (p_db s) (p_bus s) (p_on s) (p_log s) w (p_queue s ++ events_of out) (p_conn s)
  | PConsume inits shown ignored found =>
      match p_queue s with
      | [] => s
      | e :: queue =>
          match p_log s !! TxnModel.e_rest e with
          | None => s
          | Some (t, state) =>
              let v := mk_live (t_room t) t state false true ignored found in
              mk_pipe (p_db s) (p_bus s) (p_on s) (p_log s) (p_wait s) queue
                (fstep1 env (p_conn s) (FLive v (map (at_db (p_db s)) inits) shown)).1
          end
      end
  | PLoad rooms =>
      (* connstate.go:110-117, sync3/caches/global.go:142-172 *)
      let pos := highest (p_db s) in
      with_conn (fstep1 env (p_conn s) (FLoad pos (room_positions (p_db s) pos rooms))).1 s
  | PRooms inits => with_conn (fstep1 env (p_conn s) (FRooms (map (at_db (p_db s)) inits))).1 s
  | PTyping rm users => with_conn (fstep1 env (p_conn s) (FTyping rm users)).1 s
  | PRespond => with_conn (fstep1 env (p_conn s) FRespond).1 s
  end.
Definition pruns (s : pipe) (l : list pstep) : pipe := fold_left pstep1 l s.
End Pipe.
