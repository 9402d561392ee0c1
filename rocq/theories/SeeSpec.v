(** Specification: what of a room a user may see. *)
From Verif Require Import Prelude SeeModel.
Open Scope string_scope. Open Scope list_scope. Open Scope Z_scope.

(** The user leaves, is kicked or is banned by this event. *)
Definition departs (e : ev) : Prop := e_own e = Some Leave \/ e_own e = Some Ban.
(** After the event at position [n] the user is in the room: they joined, at or before it, and
    did not depart since. *)
Definition inside (d : list ev) (r : string) (n : Z) : Prop :=
  exists e, e ∈ d /\ e_room e = r /\ e_own e = Some Join /\ e_nid e <= n /\
    forall e', e' ∈ d -> e_room e' = r -> departs e' -> ~ (e_nid e < e_nid e' <= n).
(** The user's departure from the room is at this position. *)
Definition departure (d : list ev) (r : string) (n : Z) : Prop :=
  exists e, e ∈ d /\ e_room e = r /\ e_nid e = n /\ departs e.

(** The user may see it: an event, and what the room is like after an event, if they are then in
    the room or the event is their departure; and what an invite of theirs says. *)
Definition may_see (d : list ev) (invs : list (string * string)) (x : shown) : Prop :=
  match x with
  | ShowEvent r n | ShowMeta r n | ShowState r n => inside d r n \/ departure d r n
  | ShowInvite r c => (r, c) ∈ invs
  | Crash _ => False
  end.

(** The user is in the room, invited to it, now, as far as events were handed out. *)
Definition is_in (s : st) (r : string) : Prop :=
  exists n, latest (s_done s) r = Some n /\ inside (s_db s) r n.
Definition is_invited (s : st) (r : string) : Prop := u_invite (udata s r) = true.
(** No event of the room is on its way to the connection. *)
Definition quiet (s : st) (r : string) : Prop :=
  (forall e, e ∈ s_todo s -> e_room e <> r) /\ (forall e u, UEvent e u ∈ s_buf s -> e_room e <> r).

(** Events stored before the connection is set up. *)
Definition stored (d : list ev) : Prop := StronglySorted Z.lt (map e_nid d) /\ Forall (fun e => 0 < e_nid e) d.

(** Nothing is asked of the server that tells about the room at a bad time. A room comes into
    view only while the user is invited, or in it with no event of it on its way. A room is
    subscribed to, or its parameters are changed, only while no event of it is on its way; this
    is not asked if the user is not in it. Account data, counts, receipts and typing
    notifications of a room arrive only while the user is in it. *)
Definition fit (s : st) (r : string) : Prop := is_invited s r \/ (is_in s r /\ quiet s r).
Definition in_time (s : st) (a : act) : Prop :=
  match a with
  | Request wins subs _ =>
      (forall r, r ∈ wins -> r ∈ s_listed s -> fit s r) /\ (forall r, r ∈ subs -> is_in s r -> fit s r)
  | Deliver n wins sub _ _ =>
      forall s', step s (Deliver n [] false false (fun _ => 0)) = Some s' ->
        (forall r, r ∈ wins -> r ∈ s_listed s \/ r ∈ s_listed s' -> fit s' r) /\
        (forall r, sub = true -> (exists x, s_buf s !! n = Some x /\ upd_room x = r) -> is_in s r -> fit s' r)
  | Note r => is_in s r
  | _ => True
  end.
Fixpoint all_in_time (s : st) (l : list act) : Prop :=
  match l with [] => True | a :: l => in_time s a /\ forall s', step s a = Some s' -> all_in_time s' l end.

(** The user stays in the room: never leaves it, nor is removed from it. *)
Definition stays_in (r : string) (a : act) : Prop :=
  match a with
  | Store e => e_room e = r -> ~ departs e
  | Left r' _ => r' <> r
  | _ => True
  end.
(** Account data, counts and the like of the room arrive only while the user is in it. *)
Fixpoint noted_in_time (r : string) (s : st) (l : list act) : Prop :=
  match l with
  | [] => True
  | a :: l => (a = Note r -> is_in s r) /\ forall s', step s a = Some s' -> noted_in_time r s' l
  end.
(** No update of the room is on its way. *)
Definition settled (s : st) (r : string) : Prop := forall x, x ∈ s_buf s -> upd_room x <> r.
Definition never_invited (r : string) (a : act) : Prop := match a with Invited r' _ => r' <> r | _ => True end.
Definition never_left (r : string) (a : act) : Prop := match a with Left r' _ => r' <> r | _ => True end.
