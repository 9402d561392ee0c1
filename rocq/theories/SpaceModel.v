(** Model of how the cache of a registered user learns about spaces: the dispatcher
    ([sync3/dispatcher.go]), the children of spaces in [sync3/caches/global.go] and
    [sync3/caches/user.go] together. *)
From Verif Require Import Prelude RoomNameModel TrackerModel DispatchModel UserModel.
Open Scope string_scope. Open Scope list_scope. Open Scope Z_scope.

(** dispatcher.go:98-118: what the dispatcher reads in an event. *)
Definition raw (e : uevent) : rawev := mk_rawev "" (e_type e) (e_key e) (e_membership e).

(** global.go:328-336: ChildSpaceRooms of the rooms' metadata. *)
Definition set_child (m : gmap string (gset string)) (e : uevent) : gmap string (gset string) :=
  match e_key e with
  | Some k =>
      if String.eqb (e_type e) "m.space.child"
      then <[e_room e := if e_via e then {[ k ]} ∪ get_set m (e_room e) else get_set m (e_room e) ∖ {[ k ]}]> m
      else m
  | None => m
  end.

(** The dispatcher, the children of spaces and the calls made to the cache of the user. *)
Record sys := mk_sys { y_disp : dispatcher; y_children : gmap string (gset string); y_calls : list ucall }.
(** The global cache is registered when the process starts: sync3/handler/handler.go:107-112. *)
Definition sys0 : sys := mk_sys (mk_dispatcher new_tracker {[ all_users := 0%nat ]}) ∅ [].

(** Events come in order. Simplifications: state blocks of new rooms, which are told in full
    to the users who join by them (C20_initial_state_exactly_once), are left out, and nobody
    registers during the dispatch of an event. *)
Inductive sop := SEvent (e : uevent) | SRegister.

Section user.
  Variable ord : list string -> list string.
  Variable user : string.
  (** roommetadata.go: IsSpace; the type of a room does not change. *)
  Variable is_space : string -> bool.

  (** user.go:240-318: the rooms which OnRegistered finds and the children of those that are
      spaces. Simplification: the database, from which LoadJoinedRooms reads, agrees with the
      tracker; the times at which the user joined are left out. *)
  Definition found (y : sys) : list jroom :=
    map (fun r => mk_jroom r
          (if is_space r then map (fun k => (k, is_user_joined (d_jrt (y_disp y)) user k)) (elements (get_set (y_children y) r)) else [])
          (0, 0))
      (joined_rooms_for_user (d_jrt (y_disp y)) user).

  Definition sstep (y : sys) (o : sop) : sys :=
    match o with
    | SEvent e =>
        let (d, calls) := on_new_event ord (y_disp y) (e_room e) (raw e) 0 [] in
        let mine := List.filter (fun c => String.eqb (cl_user c) user) calls in
        let joined := match e_key e with Some k => is_user_joined (d_jrt d) user k | None => false end in
        (* dispatcher.go:269-294: the global cache is called, then the user's. *)
        mk_sys d (set_child (y_children y) e) (y_calls y ++ map (fun _ => CEvent e joined) mine)
    | SRegister =>
        (* dispatcher.go:58-65 *)
        mk_sys (mk_dispatcher (d_jrt (y_disp y)) (reg_step (d_recv (y_disp y)) (Reg user 1%nat)))
          (y_children y) (y_calls y ++ [CRegistered (found y)])
    end.
  Definition srun (l : list sop) (y : sys) : sys := fold_left sstep l y.

  (** The events [before] come before the user is registered, the events [later] after. *)
  Definition scene (before later : list uevent) : sys :=
    srun (map SEvent before ++ SRegister :: map SEvent later) sys0.
  (** request.go:556-565: whether the room counts as being in the space for a list that is
      filtered by it. *)
  Definition counts_as_in (y : sys) (space room : string) : bool :=
    bool_decide (space ∈ spaces (ucalls user ucache0 (y_calls y)) room).
End user.
