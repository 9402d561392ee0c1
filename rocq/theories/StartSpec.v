(** What a restarted server should know, given the stored events. *)
From Verif Require Import Prelude AccumModel AccumSpec RoomNameModel StartModel.
From Verif Require GlobalSpec.
Open Scope string_scope. Open Scope list_scope. Open Scope Z_scope.

(** In the current state of the room the user has this membership; the column has "_"
    before it if the event did not change it. *)
Definition is_in (ms : string) (e : event) : Prop := e_member e = ms \/ e_member e = ("_" ++ ms)%string.
Definition has_membership (d : db) (rm user ms : string) : Prop :=
  exists e, latest_state (d_events d) rm e /\ e_type e = "m.room.member" /\ e_skey e = user /\ is_in ms e.
(** [users] are precisely the users with this membership. *)
Definition all_users (d : db) (rm ms : string) (users : list string) : Prop :=
  NoDup users /\ forall u, u ∈ users <-> has_membership d rm u ms.
(** The events by which those in the room or invited came, oldest first. *)
Definition arrivals (d : db) (rm : string) (l : list event) : Prop :=
  increasing l /\ forall e, e ∈ l <-> latest_state (d_events d) rm e /\ e_type e = "m.room.member" /\ (is_in "join" e \/ is_in "invite" e).
(** The event of this type and with an empty state key in the current state. *)
Definition current (d : db) (rm type : string) (e : event) : Prop :=
  latest_state (d_events d) rm e /\ e_type e = type /\ e_skey e = "".
(** The latest event of a type, state or not. *)
Definition latest_of_type (d : db) (rm type : string) (e : event) : Prop :=
  e ∈ d_events d /\ e_room e = rm /\ e_type e = type /\
  forall x, x ∈ d_events d -> e_room x = rm -> e_type x = type -> e_nid x <= e_nid e.
Definition any_ok (any : list event -> list event) : Prop := forall l, any l ≡ₚ l.
