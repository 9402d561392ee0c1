(** Specification of the way of an event from a poller to a client. *)
From Verif Require Import Prelude AccumModel AccumSpec StoreModel StoreSpec RequestModel SubModel FeedModel FeedSpec PipeModel.
From Verif Require TxnModel.
Open Scope string_scope. Open Scope list_scope. Open Scope Z_scope.

(** The room's timeline as stored: positions and event IDs, oldest first. *)
Definition stored_timeline (s : pipe) (rm : string) : list (Z * string) :=
  map (fun e => (e_nid e, e_id e))
    (List.filter (fun e => String.eqb (e_room e) rm && negb (e_isstate e)) (d_events (p_db s))).
(** What the client has of the room since it was last sent with initial: true, once the
    response in the making is sent. *)
Definition client_timeline (s : pipe) (rm : string) : list (Z * string) :=
  map (fun t => (t_nid t, t_id t)) (next_view (p_conn s) rm).

(** The positions of the room's events that are between the store and the client: in the
    channel, waiting for transaction IDs, or in the connection's buffer. *)
Definition in_channel (s : pipe) (rm : string) : list Z :=
  concat (map snd (List.filter (fun p => String.eqb p.1 rm) (p_bus s))).
Definition held_back (s : pipe) (rm : string) : list Z :=
  map TxnModel.e_nid (default [] (TxnModel.t_queues (p_wait s) !! rm)).
Definition buffered (s : pipe) (rm : string) : list Z :=
  map TxnModel.e_nid (List.filter (fun e => String.eqb (TxnModel.e_room e) rm) (p_queue s)).
Definition on_the_way (s : pipe) (rm : string) : list Z :=
  buffered s rm ++ held_back s rm ++ in_channel s rm.

(** The room of the message that is next in the channel, and of the update that is next in
    the buffer with its position. *)
Definition next_message (s : pipe) : option string := fst <$> head (p_bus s).
Definition next_update (s : pipe) : option (string * Z) :=
  (fun e => (TxnModel.e_room e, TxnModel.e_nid e)) <$> head (p_queue s).

Section Gentle.
Context (env : fenv) (rm : string).
(** The room is sent with initial: true at position [pos] while the user is in it: the query
    works, the limit is not negative, and the user ignores nobody. *)
Definition good_load (s : pipe) (pos : Z) (i : finit) : Prop :=
  i_room i = rm ->
  i_db i <> None /\ 0 <= i_limit i /\ i_ignored i = [] /\
  in_room (d_events (p_db s)) (fe_user env) rm pos.
(** Nothing goes wrong for the room at this step: the query for its new events works and the
    user counts as joined; the connection loads its rooms before anything else, at a time
    when it is registered and the user is in the room; an update that is skipped brings no
    room into view; if an event of the room is what brings the room into view, it is the
    latest the connection has come to; and its sender is not ignored. *)
Definition goes_well (s : pipe) (st : pstep) : Prop :=
  match st with
  | PStore _ | PRegister | PRelease _ _ | PTyping _ _ | PRespond => True
  | PDispatch ok joined _ _ =>
      next_message s = Some rm -> ok = true /\ forall id, joined id = true
  | PLoad rooms => p_on s = true /\ In rm rooms /\ 0 < highest (p_db s)
  | PRooms inits => 0 < f_anchor (p_conn s) /\ Forall (good_load s (f_anchor (p_conn s))) inits
  | PConsume inits _ ignored _ =>
      0 < f_anchor (p_conn s) /\
      (forall nid, next_update s = Some (rm, nid) ->
         ignored = false /\ ((exists i, In i inits /\ i_room i = rm) -> f_anchor (p_conn s) <= nid)) /\
      (forall room nid, next_update s = Some (room, nid) ->
         Forall (good_load s (Z.max (f_anchor (p_conn s)) nid)) inits /\
         ((exists i, In i inits /\ i_room i = rm) -> lp_of (p_conn s) room <= nid /\ ignored = false))
  end.
(** Whether the room is in view after a step: it is once it was sent with initial: true, and
    for as long as its events are shown. *)
Definition in_view_after (s : pipe) (st : pstep) (before : bool) : bool :=
  let sent inits := existsb (fun i => String.eqb (i_room i) rm) inits in
  match st with
  | PRooms inits => before || sent inits
  | PConsume inits shown _ _ =>
      match next_update s with
      | Some (room, _) => if String.eqb room rm then (before || sent inits) && shown else before || sent inits
      | None => before
      end
  | _ => before
  end.
End Gentle.

(** Histories in which nothing goes wrong for the room; the last argument says whether it is
    in view at the end. *)
Inductive well_run (ord : list Z -> list Z) (redact : raw -> raw -> raw -> raw) (env : fenv) (delay : Z)
    (rm : string) : list pstep -> pipe -> bool -> Prop :=
  | wr_nil : well_run ord redact env delay rm [] pipe0 false
  | wr_snoc l s b st : well_run ord redact env delay rm l s b -> goes_well env rm s st ->
      well_run ord redact env delay rm (l ++ [st]) (pstep1 ord redact env delay s st) (in_view_after rm s st b).
