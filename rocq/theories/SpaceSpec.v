(** What it means for a room to be in a user's space. *)
From Verif Require Import Prelude UserModel.
Open Scope string_scope. Open Scope list_scope. Open Scope Z_scope.

(** The user is joined: the latest of their member events which is a join, leave or ban is
    a join. Oldest first. *)
Definition own_change (user room : string) (e : uevent) : bool :=
  String.eqb (e_type e) "m.room.member" && String.eqb (e_room e) room && bool_decide (e_key e = Some user)
  && (String.eqb (e_membership e) "join" || String.eqb (e_membership e) "leave" || String.eqb (e_membership e) "ban").
Definition joined (user room : string) (l : list uevent) : bool :=
  match List.find (own_change user room) (rev l) with Some e => String.eqb (e_membership e) "join" | None => false end.

(** The room is a child of the space: the latest event about it in the space says so. *)
Definition about (space room : string) (e : uevent) : bool :=
  String.eqb (e_type e) "m.space.child" && String.eqb (e_room e) space && bool_decide (e_key e = Some room).
Definition is_child (space room : string) (l : list uevent) : bool :=
  match List.find (about space room) (rev l) with Some e => e_via e | None => false end.

(** The membership in the space does not change any more after [before]. *)
Definition stays (user space : string) (before later : list uevent) : Prop :=
  forall l1 l2, later = l1 ++ l2 -> joined user space (before ++ l1) = joined user space before.

(** What the user was last told: by the events about the room while they were joined to the
    space, and what they found when they were registered. *)
Definition last_told (user space room : string) (before later : list uevent) (b : bool) : Prop :=
  (forall l1 e l2, later = l1 ++ e :: l2 -> about space room e = true -> joined user space (before ++ l1) = true ->
     (forall m1 e' m2, l2 = m1 ++ e' :: m2 -> about space room e' = true -> joined user space (before ++ l1 ++ e :: m1) = false) ->
     b = e_via e)
  /\ ((forall l1 e l2, later = l1 ++ e :: l2 -> about space room e = true -> joined user space (before ++ l1) = false) ->
      b = joined user space before && is_child space room before).

Definition no_own_child (l : list uevent) : Prop :=
  forall e, In e l -> e_type e = "m.space.child" -> e_key e <> Some (e_room e).
