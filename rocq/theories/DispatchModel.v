(** Model of the dispatcher: [sync3/dispatcher.go]. *)
From Verif Require Import Prelude TrackerModel.

(** sync3/dispatcher.go:20, DispatcherAllUsers. *)
Definition all_users : string := "-".

(** The fields of an event's JSON which the dispatcher reads
    (dispatcher.go:98-118): type, state_key if present, content.membership; the
    rest of the event is the opaque [ev_raw]. *)
Record rawev := mk_rawev {
  ev_raw : string; ev_type : string; ev_skey : option string; ev_membership : string }.

(** caches.EventData as far as the dispatcher fills it in. *)
Record edata := mk_edata {
  ed_ev : rawev; ed_room : string; ed_nid : Z;
  ed_invites : nat; ed_joins : nat; ed_force : bool }.

(** sync3/dispatcher.go:98-118, newEventData. *)
Definition new_event_data (ev : rawev) (room : string) (nid : Z) : edata :=
  mk_edata ev room nid 0 0 false.

(** userToReceiver (dispatcher.go:34): receivers are identified by a number. *)
Notation receivers := (gmap string nat).

(** sync3/dispatcher.go:32-36. *)
Record dispatcher := mk_dispatcher { d_jrt : tracker; d_recv : receivers }.

Definition new_dispatcher : dispatcher := mk_dispatcher new_tracker ∅.

(** A callback on a receiver: which user's, which receiver, with what. *)
Inductive payload := POnEvent (e : edata) | POnEphemeral (room raw : string) | POnReceipt (room raw : string).
Record call := mk_call { cl_user : string; cl_recv : nat; cl_what : payload }.

(** Registration changes (dispatcher.go:58-90); UnregisterBulk is several
    Unregisters. *)
Inductive regop := Reg (user : string) (recv : nat) | Unreg (user : string).
Definition reg_step (R : receivers) (o : regop) : receivers :=
  match o with Reg u n => <[u := n]> R | Unreg u => delete u R end.

(** sync3/dispatcher.go:67-80, UnregisterBulk: also returns who was removed. *)
Definition unregister_bulk (R : receivers) (users : list string) : receivers * list string :=
  foldl (fun '(R, out) u => match R !! u with
                            | Some _ => (delete u R, out ++ [u])
                            | None => (R, out)
                            end) (R, []) users.

Section order.
  (** The iteration order of Go maps: any permutation. *)
  Variable ord : list string -> list string.

  (** The filter callback of dispatcher.go:155-160, 200-205, 216-221, 243-248. *)
  Definition has_receiver (R : receivers) (u : string) : bool :=
    negb (String.eqb u all_users) && bool_decide (is_Some (R !! u)).

  (** One callback if a receiver is registered. *)
  Definition call_to (R : receivers) (u : string) (p : payload) : list call :=
    match R !! u with Some n => [mk_call u n p] | None => [] end.

  (** sync3/dispatcher.go:269-294, notifyListeners. *)
  Definition notify_listeners (R : receivers) (ed : edata) (users : list string)
    (target : string) (force : bool) : list call :=
    call_to R all_users (POnEvent ed) ++
    concat (map (fun u =>
      call_to R u (POnEvent (if String.eqb target u && force
        then mk_edata (ed_ev ed) (ed_room ed) (ed_nid ed) (ed_invites ed) (ed_joins ed) true
        else ed))) users).

  (** sync3/dispatcher.go:170-213, OnNewEvent. [mid] are registrations and
      unregistrations by other goroutines between choosing the users and calling
      them (the receiver map's lock is not held in between). *)
  Definition on_new_event (d : dispatcher) (room : string) (ev : rawev) (nid : Z)
    (mid : list regop) : dispatcher * list call :=
    let ed := new_event_data ev room nid in
    let '(jrt, target, force, left_, invites) :=
      match ev_skey ev with
      | Some target =>
          if String.eqb (ev_type ev) "m.room.member" then
            let '(jrt, force, left_) :=
              if String.eqb (ev_membership ev) "invite" then
                (users_invited_to_room (d_jrt d) [target] room, false, false)
              else if String.eqb (ev_membership ev) "join" then
                let '(j, new) := user_joined_room (d_jrt d) target room in (j, new, false)
              else if String.eqb (ev_membership ev) "ban" || String.eqb (ev_membership ev) "leave" then
                let '(j, was) := user_left_room (d_jrt d) target room in (j, false, was)
              else (d_jrt d, false, false) in
            (jrt, target, force, left_, num_invited jrt room)
          else (d_jrt d, "", false, false, 0)
      | None => (d_jrt d, "", false, false, 0)
      end%string in
    let '(users, joins) := joined_users_for_room jrt room (has_receiver (d_recv d)) in
    let users := ord users in
    let ed := mk_edata ev room nid invites joins false in
    let users := if left_ : bool then users ++ [target] else users in
    let R' := foldl reg_step (d_recv d) mid in
    (mk_dispatcher jrt R', notify_listeners R' ed users target force).

  (** sync3/dispatcher.go:128-131: feed the events one by one. *)
  Fixpoint events_one_by_one (d : dispatcher) (room : string) (state : list rawev)
    : dispatcher * list call :=
    match state with
    | [] => (d, [])
    | ev :: state' =>
        let '(d1, c1) := on_new_event d room ev 0 [] in
        let '(d2, c2) := events_one_by_one d1 room state' in (d2, c1 ++ c2)
    end.

  (** sync3/dispatcher.go:139-147: the users of the state block's member events
      with the given membership. *)
  Definition members_with (m : string) (state : list rawev) : list string :=
    omap (fun ev => if String.eqb (ev_type ev) "m.room.member" && String.eqb (ev_membership ev) m
                    then ev_skey ev else None) state.

  (** sync3/dispatcher.go:122-168, OnNewInitialRoomState. Simplification: no
      registration changes during the call. *)
  Definition on_new_initial_state (d : dispatcher) (room : string) (state : list rawev)
    : dispatcher * list call :=
    if (0 <? (joined_users_for_room (d_jrt d) room (fun _ => true)).2)%nat then
      events_one_by_one d room state
    else
      let '(jrt1, force) := users_joined_room (d_jrt d) (members_with "join" state) room in
      let jrt := users_invited_to_room jrt1 (members_with "invite" state) room in
      let invites := num_invited jrt room in
      let '(users, joins) := joined_users_for_room jrt room (has_receiver (d_recv d)) in
      let users := ord users in
      (mk_dispatcher jrt (d_recv d),
       concat (map (fun ev => notify_listeners (d_recv d) (mk_edata ev room 0 invites joins false)
                                users "" force) state)).

  (** sync3/dispatcher.go:215-240, OnEphemeralEvent, and 242-267, OnReceipt: the
      same shape with different callbacks. *)
  Definition broadcast (d : dispatcher) (room : string) (mid : list regop) (p : payload)
    : dispatcher * list call :=
    let users := ord (joined_users_for_room (d_jrt d) room (has_receiver (d_recv d))).1 in
    let R' := foldl reg_step (d_recv d) mid in
    (mk_dispatcher (d_jrt d) R',
     call_to R' all_users p ++ concat (map (fun u => call_to R' u p) users)).

  Inductive dop :=
  | DStartup (m : list (string * list string))           (* dispatcher.go:52-56 *)
  | DReg (o : regop)
  | DEvent (room : string) (ev : rawev) (nid : Z) (mid : list regop)
  | DInitial (room : string) (state : list rawev)
  | DEphemeral (room raw : string) (mid : list regop)
  | DReceipt (room raw : string) (mid : list regop)
  | DInvalidate (room : string) (joins invites : list string). (* dispatcher.go:296-299 *)

  (** None: Startup panicked. *)
  Definition dstep (d : dispatcher) (o : dop) : option (dispatcher * list call) :=
    match o with
    | DStartup m => match startup (d_jrt d) m with
                    | Some t => Some (mk_dispatcher t (d_recv d), [])
                    | None => None
                    end
    | DReg o => Some (mk_dispatcher (d_jrt d) (reg_step (d_recv d) o), [])
    | DEvent room ev nid mid => Some (on_new_event d room ev nid mid)
    | DInitial room st => Some (on_new_initial_state d room st)
    | DEphemeral room raw mid => Some (broadcast d room mid (POnEphemeral room raw))
    | DReceipt room raw mid => Some (broadcast d room mid (POnReceipt room raw))
    | DInvalidate room js is =>
        Some (mk_dispatcher (reload_memberships (d_jrt d) room js is) (d_recv d), [])
    end.

  Fixpoint drun (d : dispatcher) (ops : list dop) : option (dispatcher * list call) :=
    match ops with
    | [] => Some (d, [])
    | o :: ops' =>
        match dstep d o with
        | Some (d1, c1) => match drun d1 ops' with
                           | Some (d2, c2) => Some (d2, c1 ++ c2)
                           | None => None
                           end
        | None => None
        end
    end.
End order.
