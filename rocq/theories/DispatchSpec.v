(** Membership of a room according to the history of events, and vocabulary for
    who must be called. *)
From Verif Require Import Prelude TrackerModel DispatchModel.
Open Scope string_scope.
Open Scope list_scope.

(** What a member event does: target user and membership. *)
Definition member_change (ev : rawev) : option (string * string) :=
  if String.eqb (ev_type ev) "m.room.member"
  then match ev_skey ev with Some u => Some (u, ev_membership ev) | None => None end
  else None.

Definition is_leave (m : string) : Prop := m = "leave" \/ m = "ban".

(** Effect of one event on whether [u] is joined / invited. *)
Definition joined_by (ev : rawev) (u : string) (before : Prop) : Prop :=
  match member_change ev with
  | Some (v, m) =>
      (u = v /\ m = "join") \/ (~ (u = v /\ is_leave m) /\ before)
  | None => before
  end.

Definition invited_by (ev : rawev) (u : string) (before : Prop) : Prop :=
  match member_change ev with
  | Some (v, m) =>
      (u = v /\ m = "invite") \/ (~ (u = v /\ (m = "join" \/ is_leave m)) /\ before)
  | None => before
  end.

(** Effect of a list of events, oldest first. *)
Fixpoint joined_by_all (evs : list rawev) (u : string) (before : Prop) : Prop :=
  match evs with [] => before | ev :: evs' => joined_by_all evs' u (joined_by ev u before) end.
Fixpoint invited_by_all (evs : list rawev) (u : string) (before : Prop) : Prop :=
  match evs with [] => before | ev :: evs' => invited_by_all evs' u (invited_by ev u before) end.

(** The state block has a member event for [u] with membership [m]. *)
Definition state_says (st : list rawev) (u m : string) : Prop :=
  exists ev, ev ∈ st /\ member_change ev = Some (u, m).

(** Joined after the operations (newest first). An initial state block replaces
    nothing if somebody is already joined: its events are then live events. *)
Fixpoint h_joined (ops : list dop) (u r : string) : Prop :=
  match ops with
  | [] => False
  | DStartup m :: _ => exists us, (r, us) ∈ m /\ u ∈ us
  | DEvent room ev _ _ :: ops' =>
      if String.eqb r room then joined_by ev u (h_joined ops' u r) else h_joined ops' u r
  | DInitial room st :: ops' =>
      (r <> room /\ h_joined ops' u r) \/
      (r = room /\ (exists v, h_joined ops' v r) /\ joined_by_all st u (h_joined ops' u r)) \/
      (r = room /\ (~ exists v, h_joined ops' v r) /\ state_says st u "join")
  | DInvalidate room js _ :: ops' => (r = room /\ u ∈ js) \/ (r <> room /\ h_joined ops' u r)
  | (DReg _ | DEphemeral _ _ _ | DReceipt _ _ _) :: ops' => h_joined ops' u r
  end.

Fixpoint h_invited (ops : list dop) (u r : string) : Prop :=
  match ops with
  | [] => False
  | DEvent room ev _ _ :: ops' =>
      if String.eqb r room then invited_by ev u (h_invited ops' u r) else h_invited ops' u r
  | DInitial room st :: ops' =>
      (r <> room /\ h_invited ops' u r) \/
      (r = room /\ (exists v, h_joined ops' v r) /\ invited_by_all st u (h_invited ops' u r)) \/
      (r = room /\ (~ exists v, h_joined ops' v r) /\
         (state_says st u "invite" \/ (~ state_says st u "join" /\ h_invited ops' u r)))
  | DInvalidate room _ is :: ops' => (r = room /\ u ∈ is) \/ (r <> room /\ h_invited ops' u r)
  | (DStartup _ | DReg _ | DEphemeral _ _ _ | DReceipt _ _ _) :: ops' => h_invited ops' u r
  end.

Definition dop_wf (o : dop) : Prop :=
  match o with DStartup m => NoDup m.*1 | _ => True end.

(** The event is [u]'s own leave or ban and [u] knew the room before. *)
Definition own_leave (hist : list dop) (room : string) (ev : rawev) (u : string) : Prop :=
  exists m, member_change ev = Some (u, m) /\ is_leave m /\
    (h_joined hist u room \/ h_invited hist u room).

(** How often [u] is called. *)
Definition times_called (u : string) (calls : list call) : nat :=
  length (List.filter (fun c => String.eqb (cl_user c) u) calls).

(** A state block's events seen as live events. *)
Definition as_live (room : string) (evs : list rawev) : list dop :=
  map (fun ev => DEvent room ev 0 []) evs.
