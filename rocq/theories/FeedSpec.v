(** Specification of timelines and lazily loaded members on a connection. *)
From Coq Require Import Ascii.
From Verif Require Import Prelude AccumModel AccumSpec StoreModel RequestModel SubModel SubSpec FeedModel.
Open Scope string_scope. Open Scope list_scope. Open Scope Z_scope.

(** What the client has seen of a room since it was last sent as initial. *)
Definition view_of (c : feed) (room : string) : list tent := default [] (f_view c !! room).
(** The positions in it; entries without a position are left out. *)
Definition nids (l : list tent) : list Z := List.filter (fun n => 0 <? n) (map t_nid l).

(** Databases come from the store, and positions of events are positive; an event that is
    always processed has none. *)
Definition good_init (ord : list Z -> list Z) (redact : raw -> raw -> raw -> raw) (i : finit) : Prop :=
  forall d, i_db i = Some d -> stored ord redact d.
Definition good_step (ord : list Z -> list Z) (redact : raw -> raw -> raw -> raw) (s : fstep) : Prop :=
  match s with
  | FRooms inits => Forall (good_init ord redact) inits
  | FLive v inits _ => Forall (good_init ord redact) inits /\ (if v_always v then t_nid (v_ent v) = 0 else 0 <= t_nid (v_ent v))
  | _ => True
  end.
(** An update that brings its own room into view is not older than what the connection
    has processed already. *)
Definition timely (c : feed) (s : fstep) : Prop :=
  match s with
  | FLive v inits _ => (exists i, In i inits /\ i_room i = v_room v) -> v_always v = true \/ f_anchor c <= t_nid (v_ent v)
  | _ => True
  end.
(** Histories of a connection in which this holds. *)
Inductive timely_run (env : fenv) : feed -> list fstep -> feed -> Prop :=
  | tr_nil c : timely_run env c [] c
  | tr_cons c s l c' : timely c s -> timely_run env (fstep1 env c s).1 l c' -> timely_run env c (s :: l) c'.

(** The client will have, once the response being made is sent. *)
Definition next_view (c : feed) (room : string) : list tent := view_of (respond c) room.

(** A step that does not send the room as initial and has no event for it. *)
Definition aside (room : string) (s : fstep) : Prop :=
  match s with
  | FLoad _ _ => False
  | FRooms inits => Forall (fun i => i_room i <> room) inits
  | FLive v inits _ => v_room v <> room /\ Forall (fun i => i_room i <> room) inits
  | FTyping _ _ | FRespond => True
  end.
(** A step with an event for the room, which is in view. *)
Definition shows (room : string) (e : tent) (s : fstep) : Prop :=
  exists v inits, s = FLive v inits true /\ v_room v = room /\ v_ent v = e /\ v_event v = true
    /\ v_always v = false /\ (v_state v = true \/ v_ignored v = false) /\ Forall (fun i => i_room i <> room) inits.
Inductive feeds (room : string) : list fstep -> list tent -> Prop :=
  | feeds_nil : feeds room [] []
  | feeds_aside s l es : aside room s -> feeds room l es -> feeds room (s :: l) es
  | feeds_event s e l es : shows room e s -> feeds room l es -> feeds room (s :: l) (e :: es).

(** The member event of a user is known to have been sent. *)
Definition tracked (c : feed) (room user : string) : Prop := isSet (f_lazy c) room user = true.
(** A step sends the room as initial with an event by the user, with lazy loading. (A live
    update that is skipped changes nothing and so does not load anything.) *)
Definition loads_sender (env : fenv) (c : feed) (s : fstep) (room user : string) : Prop :=
  fstep1 env c s <> (c, []) /\ exists anchor inits i e,
    (s = FRooms inits /\ anchor = f_anchor c
     \/ exists v shown, s = FLive v inits shown /\ anchor = Z.max (f_anchor c) (t_nid (v_ent v))) /\
    In i inits /\ i_room i = room /\ wants_lazy (i_req i) /\
    In e (timeline_of (load_timeline env anchor i)) /\ t_sender e = user.
(** Room IDs have no spaces. *)
Fixpoint no_space (s : string) : Prop :=
  match s with EmptyString => True | String a s => a <> " "%char /\ no_space s end.
(** The rooms that a step is about. *)
Definition step_rooms (s : fstep) : list string :=
  match s with
  | FRooms inits => map i_room inits
  | FLive v inits _ => v_room v :: map i_room inits
  | FTyping room _ => [room]
  | FLoad _ _ | FRespond => []
  end.
(** At some step of the history. *)
Definition at_some_step (env : fenv) (steps : list fstep) (P : feed -> fstep -> Prop) : Prop :=
  exists pre s post, steps = pre ++ s :: post /\ P (fruns env feed0 pre) s.
(** The room's timeline in the response being made. *)
Definition pending_timeline (c : feed) (room : string) : list tent := lr_timeline (default lroom0 (f_pending c !! room)).
