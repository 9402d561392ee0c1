(** Model of what happens when a room's state was replaced: OnInvalidateRoom
    (sync3/handler/handler.go:829-877) with the functions it calls.

    Simplifications: logging, Sentry and metrics are dropped. The reload of the
    global cache (handler.go:834; global.go:380-395) is [GlobalModel.v]'s and the
    interleaving with one user's requests is [SetupModel.v]'s; here it is about
    all users, the tracker and the connection map. Receivers and user caches are
    the sets of their users' IDs. *)
From Verif Require Import Prelude TrackerModel CmapModel.
Open Scope string_scope. Open Scope list_scope. Open Scope nat_scope.

(** handler.go:44-71, dispatcher.go:32-36: the tracker, the users with a receiver
    registered at the dispatcher (userToReceiver), the users with a cache
    (userCaches), and the connections. *)
Record handler := mk_handler {
  h_tracker : tracker; h_receivers : gset string; h_caches : gset string; h_conns : cmap }.

(** A row of the query: the membership event's state key and membership column. *)
Definition row : Type := string * string.

(** state/storage.go:415-430, one iteration of FetchMemberships' loop. *)
Definition sort_row (acc : list string * list string * list string) (r : row)
  : list string * list string * list string :=
  let '(joins, invites, leaves) := acc in
  if bool_decide (r.2 = "_join") then (joins ++ [r.1], invites, leaves)
  else if bool_decide (r.2 = "join") then (joins ++ [r.1], invites, leaves)
  else if bool_decide (r.2 = "_invite") then (joins, invites ++ [r.1], leaves)
  else if bool_decide (r.2 = "invite") then (joins, invites ++ [r.1], leaves)
  else (joins, invites, leaves ++ [r.1]).

(** state/storage.go:395-432, FetchMemberships: the rows are those of the current
    snapshot's membership events, in the order the database gives them. *)
Definition fetch_memberships (rows : list row) : list string * list string * list string :=
  fold_left sort_row rows ([], [], []).

(** sync3/dispatcher.go:67-80, UnregisterBulk: the receivers left, and the users
    that were unregistered. *)
Definition unregister_bulk (receivers : gset string) (users : list string)
  : gset string * list string :=
  fold_left (fun '(rs, out) u =>
               if bool_decide (u ∈ rs) then (rs ∖ {[u]}, out ++ [u]) else (rs, out))
            users (receivers, []).

(** handler.go:829-877. [rows] is None if the query fails (843-854). [between] is
    what other goroutines do to the connection map after the receivers were
    unregistered and before the connections are closed. *)
Definition invalidate_room (h : handler) (room : string) (rows : option (list row)) (between : list op)
  : handler :=
  match rows with
  | None => mk_handler (h_tracker h) (h_receivers h) (h_caches h) (run (h_conns h) between)
  | Some rows =>
      let '(joins, invites, leaves) := fetch_memberships rows in
      let involved := joins ++ invites ++ leaves in
      (* dispatcher.go:296-299 *)
      let t := reload_memberships (h_tracker h) room joins invites in
      let '(rs, unregistered) := unregister_bulk (h_receivers h) involved in
      (* handler.go:862-864 *)
      let caches := fold_left (fun cs u => cs ∖ {[u]}) unregistered (h_caches h) in
      (* handler.go:868 *)
      mk_handler t rs caches (closeUsers (run (h_conns h) between) unregistered)
  end.
