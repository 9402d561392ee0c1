(** Specification of the connection map. *)
From Verif Require Import Prelude RecvSpec CmapModel.
Open Scope string_scope. Open Scope list_scope. Open Scope nat_scope.

(** A connection that a client can use: looking up its ID returns it. *)
Definition usable (m : cmap) (c : conn) : Prop := (getConn m (x_id c)).2 = Some c.
Definition alive (m : cmap) (c : conn) : Prop := ~ In c (m_dead m).
(** A connection is registered for its user and under its ID. *)
Definition registered (m : cmap) (c : conn) : Prop :=
  m_byid m !! ckey c = Some c /\ In c (conns_of m (x_user (x_id c))).

(** IDs without the separator. *)
Definition plain (i : connid) : Prop := no_bar (x_user i) /\ no_bar (x_device i).
Definition plain_ops (os : list op) : Prop := forall i, In (Create i) os -> plain i.

(** No connection is created while an expiry callback for the same ID waits. *)
Definition quiet (os : list op) : Prop :=
  forall a i b, os = a ++ Create i :: b -> forall c, In c (m_pending (run cmap0 a)) -> x_id c <> i.
