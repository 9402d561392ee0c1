(** Model of including the rooms a room was upgraded from:
    [sync3/handler/connstate.go], buildRooms. *)
From Verif Require Import Prelude RequestModel.
Open Scope string_scope. Open Scope list_scope. Open Scope nat_scope.

(** What the loop looks at: JoinedRoomsTracker.IsUserJoined for the connection's user
    (sync3/tracker.go), and the connection's copy of the room's metadata
    (sync3/lists.go ReadOnlyRoom; [None] is nil), of which only PredecessorRoomID is
    used. A Go loop may run forever, so it gets fuel; [None] is "not finished". *)
Record oenv := mk_oenv {
  o_joined : string -> bool;
  o_room : string -> option (option string)
}.

(** connstate.go:489-500: the loop along the chain. A room without metadata leaves
    prevRoomID as it is. *)
Fixpoint chain (env : oenv) (fuel : nat) (prev : option string) : option (list string) :=
  match fuel with
  | O => None
  | S fuel =>
      match prev with
      | None => Some []
      | Some p =>
          if negb (o_joined env p) then Some []
          else l ← chain env fuel (match o_room env p with Some q => q | None => Some p end); Some (p :: l)
      end
  end.
(** connstate.go:482-501: the old rooms of all rooms of a subscription. *)
Fixpoint old_rooms (env : oenv) (fuel : nat) (rooms : list string) : option (list string) :=
  match rooms with
  | [] => Some []
  | r :: rooms =>
      l ← chain env fuel (match o_room env r with Some q => q | None => None end);
      l' ← old_rooms env fuel rooms; Some (l ++ l')
  end.
(** Where a room's data in the response comes from: the subscription and whether it
    is the one for old rooms. getInitialRoomData gives an entry for each room ID it
    is called with (connstate.go:620-700), modelled as that note. *)
Notation source := (room_sub * bool)%type.
Definition put (src : source) (res : gmap string source) (room : string) : gmap string source := <[room := src]> res.
(** connstate.go:479-515: one built subscription. *)
Definition build_one (env : oenv) (fuel : nat) (res : gmap string source) (bs : room_sub * list string) : option (gmap string source) :=
  res ← match sub_old bs.1 with
        | Some old => l ← old_rooms env fuel bs.2; Some (fold_left (put (old, true)) l res)
        | None => Some res end;
  Some (fold_left (put (bs.1, false)) bs.2 res).
(** connstate.go:469-517, buildRooms. *)
Fixpoint build_rooms (env : oenv) (fuel : nat) (res : gmap string source) (subs : list (room_sub * list string)) : option (gmap string source) :=
  match subs with
  | [] => Some res
  | bs :: subs => res ← build_one env fuel res bs; build_rooms env fuel res subs
  end.
