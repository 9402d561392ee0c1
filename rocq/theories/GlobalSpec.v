(** What the metadata of a room should be, given the events of the room. *)
From Verif Require Import Prelude RoomNameModel GlobalModel.
Open Scope string_scope. Open Scope list_scope. Open Scope Z_scope.

(** The events of one room, oldest first. *)
Definition room_events (room : string) (l : list gstep) : list gevent :=
  List.filter (fun e => String.eqb (g_room e) room) (omap (fun s => match s with GEvent e => Some e | _ => None end) l).
(** The room is not reloaded. *)
Definition never_reset (room : string) (l : list gstep) : Prop := forall evs, ~ In (GInvalidate room evs) l.

(** [e] is the latest event for which [P] holds. *)
Definition latest (P : gevent -> Prop) (l : list gevent) (e : gevent) : Prop :=
  exists l1 l2, l = l1 ++ e :: l2 /\ P e /\ forall x, In x l2 -> ~ P x.
Definition none (P : gevent -> Prop) (l : list gevent) : Prop := forall x, In x l -> ~ P x.
(** A value read in the latest event for which [P] holds, and [old] if there is none. *)
Definition as_latest {A} (P : gevent -> Prop) (l : list gevent) (read : gevent -> A) (old v : A) : Prop :=
  (forall e, latest P l e -> v = read e) /\ (none P l -> v = old).

Definition is_state (type key : string) (e : gevent) : Prop := g_type e = type /\ g_key e = Some key.
Definition non_empty (s : string) : option string := if String.eqb s "" then None else Some s.

(** Memberships. *)
Definition is_member (user : string) (e : gevent) : Prop := is_state "m.room.member" user e.
Definition comes (e : gevent) : Prop := g_membership e = "join" \/ g_membership e = "invite".
Definition goes (e : gevent) : Prop := g_membership e = "leave" \/ g_membership e = "ban".
(** The user comes in or changes profile, or goes out. *)
Definition moves (user : string) (e : gevent) : Prop :=
  is_member user e /\ (comes e \/ (g_change e = true /\ goes e)).
Definition membership_change (e : gevent) : Prop :=
  g_type e = "m.room.member" /\ (exists user, g_key e = Some user) /\ g_change e = true.
(** At most [n] users ever come in. *)
Definition few_users (n : nat) (l : list gevent) : Prop :=
  exists users, (length users <= n)%nat /\ forall e user, In e l -> is_member user e -> comes e -> In user users.
Definition hero_of (user : string) (e : gevent) : hero := mk_hero user (g_displayname e) (g_avatar e).

(** A snapshot has one event for each type and state key. *)
Definition snapshot_ok (evs : list gevent) : Prop := List.NoDup (map (fun e => (g_type e, g_key e)) evs) /\ Forall (fun e => g_key e <> None) evs.
Definition with_membership (ms : string) (evs : list gevent) : list gevent :=
  List.filter (fun e => String.eqb (g_type e) "m.room.member" && String.eqb (g_membership e) ms) evs.
Definition joined_or_invited (evs : list gevent) : list gevent :=
  List.filter (fun e => String.eqb (g_type e) "m.room.member" && (String.eqb (g_membership e) "join" || String.eqb (g_membership e) "invite")) evs.
(** The last [n]. *)
Definition last_n {A} (n : nat) (l : list A) : list A := drop (length l - n) l.
Definition resets_ok (l : list gstep) : Prop := forall room evs, In (GInvalidate room (Some evs)) l -> snapshot_ok evs.
