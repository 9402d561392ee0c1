(** What a room's memberships say, and what starting afresh means. *)
From Verif Require Import Prelude TrackerModel CmapModel CmapSpec InvalModel.
Open Scope string_scope. Open Scope list_scope. Open Scope nat_scope.

(** The room's members according to the rows: a membership may carry the mark "_"
    that the event did not change it. *)
Definition joined_in (rows : list row) (u : string) : Prop :=
  In (u, "join") rows \/ In (u, "_join") rows.
Definition invited_in (rows : list row) (u : string) : Prop :=
  In (u, "invite") rows \/ In (u, "_invite") rows.
(** Has some membership, be it that of somebody who left. *)
Definition involved_in (rows : list row) (u : string) : Prop := exists w, In (u, w) rows.

(** A user for whom nothing is kept: the next request starts a new connection. *)
Definition afresh (h : handler) (u : string) : Prop :=
  u ∉ h_receivers h /\ u ∉ h_caches h /\ forall c, x_user (x_id c) = u -> ~ usable (h_conns h) c.
