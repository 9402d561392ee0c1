(** Declarative vocabulary for the queries on the event store. *)
From Verif Require Import Prelude AccumModel AccumSpec.
Open Scope string_scope.
Open Scope list_scope.
Open Scope Z_scope.

(** The event is among the requested types and state keys.  An empty map asks for
    everything, an empty list of keys for all of them. *)
Definition wanted (f : gmap string (list string)) (e : event) : Prop :=
  f = ∅ \/ exists ks, f !! e_type e = Some ks /\ (ks = [] \/ e_skey e ∈ ks).

(** [x] is the last stored event of the room up to position [p]. *)
Definition last_row (l : list event) (rm : string) (p : Z) (x : event) : Prop :=
  x ∈ l /\ e_room x = rm /\ e_nid x <= p /\
  forall y, y ∈ l -> e_room y = rm -> e_nid y <= p -> e_nid y <= e_nid x.

(** At position [p] the store has a membership event which gives the user membership [m]. *)
Definition member_at (l : list event) (user rm : string) (p : Z) (m : string) : Prop :=
  exists e, e ∈ l /\ e_nid e = p /\ e_room e = rm /\ e_type e = "m.room.member" /\ e_skey e = user /\
    r_mship (e_json e) = m.
Definition leaves (m : string) : Prop := m = "leave" \/ m = "ban".
(** At position [p] the user is in the room: they joined and have not left since. *)
Definition in_room (l : list event) (user rm : string) (p : Z) : Prop :=
  exists q, q <= p /\ member_at l user rm q "join" /\
    forall r m, member_at l user rm r m -> q < r <= p -> ~ leaves m.
(** The user joins at [q], having been out of the room. *)
Definition joins_at (l : list event) (user rm : string) (q : Z) : Prop :=
  member_at l user rm q "join" /\ ~ in_room l user rm (q - 1).
(** The user leaves at [q], having been in the room. *)
Definition leaves_at (l : list event) (user rm : string) (q : Z) : Prop :=
  in_room l user rm (q - 1) /\ exists m, leaves m /\ member_at l user rm q m.

(** A timeline event of the room between two positions. *)
Definition timeline_row (l : list event) (rm : string) (a b : Z) (e : event) : Prop :=
  e ∈ l /\ e_room e = rm /\ e_isstate e = false /\ a <= e_nid e <= b.
