(** What it means that a list shows the rooms its filters ask for, over time. *)
From Verif Require Import Prelude RangeModel RangeSpec OpsModel OpsSpec RoomNameModel ListsModel ListsSpec LiveListModel LiveListSpec.
Open Scope string_scope.
Open Scope list_scope.
Open Scope Z_scope.

(** The filters of a request that has none let every room pass. *)
Definition wanted (rq : req_list) : filters := default no_filters (q_filters rq).

(** sync3/request.go:90-105, FiltersChanged: it compares the filters as JSON, so it
    says yes whenever they differ (and may say yes for an empty field in place of
    none). Without a request before there were no filters. *)
Definition noticed (prev : option req_list) (next : req_list) (chg : bool) : Prop :=
  match prev with Some p => q_filters p | None => None end <> q_filters next -> chg = true.

(** The user is in the room, as far as the connection knows. *)
Definition joined_now (w : world) (x : string) : Prop :=
  exists n, l_all (w_lists w) !! x = Some n /\ c_left n = false /\ c_invite n = false.

(** One thing that happens to a connection (as in LiveListSpec.v). *)
Inductive step (lower : string -> string) : world -> world -> Prop :=
| step_update ord w r s' out :
    (forall l, ord l ≡ₚ l) ->
    live_update lower ord (w_lists w) (w_reqs w) r = Some (s', out) ->
    step lower w (mk_world s' (w_reqs w) (client_update (w_reqs w) (w_views w) out))
| step_request ord w key next chg s' ms subs :
    (forall l, ord l ≡ₚ l) ->
    good_request next -> (w_reqs w !! key = None -> q_sort next <> []) ->
    no_lone_window (w_reqs w !! key) next chg -> noticed (w_reqs w !! key) next chg ->
    list_request lower ord (w_lists w) key (w_reqs w !! key) next chg = Some (s', ms, subs) ->
    step lower w (mk_world s' (<[key := next]> (w_reqs w))
                   (set_view (w_views w) key (client_ranges (w_views w key) ms)))
| step_delete w key :
    step lower w (mk_world (delete_list (w_lists w) key) (delete key (w_reqs w)) (w_views w)).

(** The user does not come into or go from the room that replaces [x]. *)
Definition steady (x : string) (w w' : world) : Prop :=
  forall r next, l_all (w_lists w) !! x = Some r -> m_upgraded (c_meta r) = Some next ->
    (joined_now w' next <-> joined_now w next).

(** Any number of steps, all steady for [x]. *)
Inductive course (lower : string -> string) (x : string) : world -> world -> Prop :=
| course_nil w : course lower x w w
| course_step w1 w2 w3 : step lower w1 w2 -> steady x w1 w2 -> course lower x w2 w3 -> course lower x w1 w3.
