(** Specification of upgrade chains. *)
From Verif Require Import Prelude RequestModel OldModel.
Open Scope string_scope. Open Scope list_scope. Open Scope nat_scope.

(** [l] is the chain of rooms that [room] was upgraded from, nearest first, up to the
    first one the user is not joined to. *)
Inductive upgrades (env : oenv) : option string -> list string -> Prop :=
  | up_none : upgrades env None []
  | up_left p : o_joined env p = false -> upgrades env (Some p) []
  | up_joined p q l : o_joined env p = true -> o_room env p = Some q -> upgrades env q l -> upgrades env (Some p) (p :: l).
Definition predecessor (env : oenv) (room : string) : option string := default None (o_room env room).
(** [old] is one of the rooms that [room] was upgraded from. *)
Definition upgraded_from (env : oenv) (room old : string) : Prop :=
  exists l, upgrades env (predecessor env room) l /\ In old l.
(** A joined predecessor of a joined predecessor and so on. *)
Inductive reaches (env : oenv) : option string -> string -> Prop :=
  | reach_one p : o_joined env p = true -> reaches env (Some p) p
  | reach_more p q x : o_joined env p = true -> o_room env p = Some q -> reaches env q x -> reaches env (Some p) x.
(** The call comes back, whatever it returns. *)
Definition terminates (env : oenv) (subs : list (room_sub * list string)) : Prop :=
  exists fuel res, build_rooms env fuel ∅ subs = Some res.
