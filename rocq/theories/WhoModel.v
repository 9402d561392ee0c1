(** Model of what a client that asked for heroes is told of a room's heroes, on top of the room
    as it is in ViewModel.v: [sync3/handler/connstate.go] (getInitialRoomData),
    [sync3/handler/connstate_live.go] (processLiveUpdate, shouldIncludeHeroes),
    [sync3/request.go] (IncludeHeroes, Combine), [sync3/room.go] (Room).

    Simplifications: those of ViewModel.v. Which lists the room is visible in, and what they
    and the subscription ask for, is a choice of the environment. *)
From Verif Require Import Prelude RoomNameModel GlobalModel ListsModel RequestModel SubModel ViewModel.
Open Scope string_scope.
Open Scope list_scope.
Open Scope Z_scope.

(** sync3/request.go:596-598, IncludeHeroes. *)
Definition include_heroes (s : room_sub) : bool := default false (sub_heroes s).

(** internal/roomname.go:154-211: the second result of CalculateRoomName. *)
Definition calculated (m : room_meta) : bool :=
  match room_name id m 5 with Some (_, b) => b | None => false end.

(** [w_room]: the room as in ViewModel.v. [w_sub]: the confirmed subscription, [w_lists]: the
    lists in which the room is visible. [w_resp]: the heroes of the room in the response being
    made, [] when it has none (room.go:14, omitempty). [w_client]: those the client knows. *)
Record wstate := mk_w { w_room : state; w_sub : option room_sub; w_lists : list room_sub; w_resp : list hero; w_client : list hero }.

(** What happens: something of ViewModel.v, where [added] are the subscriptions that bring the
    room into view if it does; or the client asks for something else, which does not. *)
Inductive waction := Do (a : action) (added : room_sub * list room_sub) | Asks (sub : option room_sub) (lists : list room_sub).

Section who.
Context (lower : string -> string) (me : string).

(** connstate_live.go:461-476, shouldIncludeHeroes. *)
Definition should_include (w : wstate) : bool :=
  (match w_sub w with Some s => include_heroes s | None => false end) || existsb include_heroes (w_lists w).

(** connstate.go:610-614, 676 and 691-693: the heroes when the room is loaded, with the combined
    subscription (rooms_builder.go:97-106). *)
Definition initial_heroes (m : room_meta) (added : room_sub * list room_sub) : list hero :=
  let m' := without me m in
  if include_heroes (combine_all added.1 added.2) && calculated m' then m_heroes m' else [].

(** connstate_live.go:131-300, processLiveUpdate, as far as heroes go. *)
Definition take_heroes (inside fresh : bool) (added : room_sub * list room_sub) (up : update) (w : wstate) : list hero :=
  let s := w_room w in
  if dropped (s_pos s) up then w_resp w
  else
    let d := (set_entry lower (s_entry s) (entry_of me (up_meta up) (up_user up))).2 in
    let r0 := if fresh then initial_heroes (s_meta s) added else w_resp w in
    let inside := inside || s_shown s || fresh in
    (* 268-270: the room is in the response *)
    let exists_ := fresh || (match s_resp s with Some _ => true | None => false end) ||
      (match up_event up with Some _ => inside | None => false end) in
    let m' := without me (up_meta up) in
    (* 272-284 *)
    if exists_ && d_name d && calculated m' && should_include w then m_heroes m' else r0.

(** What the client makes of the room's heroes in a response: absent means as before, but a
    room sent anew starts from nothing (room.go:14 and 19). *)
Definition merge_heroes (r : resp_room) (sent old : list hero) : list hero :=
  if rr_initial r then sent else match sent with [] => old | _ => sent end.

Definition wstep (w : wstate) (x : waction) : wstate :=
  match x with
  | Asks sub lists => mk_w (w_room w) sub lists (w_resp w) (w_client w)
  | Do a added =>
      let s := w_room w in
      let s' := step lower me s a in
      match a with
      | Enter _ => mk_w s' (w_sub w) (w_lists w) (initial_heroes (s_meta s) added) (w_client w)
      | Take inside fresh _ =>
          match s_queue s with
          | [] => mk_w s' (w_sub w) (w_lists w) (w_resp w) (w_client w)
          | up :: _ => mk_w s' (w_sub w) (w_lists w) (take_heroes inside fresh added up w) (w_client w)
          end
      | Answer =>
          mk_w s' (w_sub w) (w_lists w) []
            (match s_resp s with Some r => merge_heroes r (w_resp w) (w_client w) | None => w_client w end)
      | _ => mk_w s' (w_sub w) (w_lists w) (w_resp w) (w_client w)
      end
  end.

Definition wrun (w : wstate) (l : list waction) : wstate := foldl wstep w l.

(** A connection just made. *)
Definition wstart (m : room_meta) (u : user_data) (pos : Z) : wstate :=
  mk_w (start lower me m u pos) None [] [] [].
End who.
