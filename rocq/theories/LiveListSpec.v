(** Declarative vocabulary for a connection's lists over time. *)
From Verif Require Import Prelude RangeModel RangeSpec OpsModel OpsSpec RoomNameModel ListsModel ListsSpec LiveListModel.
Open Scope string_scope.
Open Scope list_scope.
Open Scope Z_scope.

(** The client: SYNC writes the rooms of a range, INVALIDATE forgets a range, the
    rest is as in OpsSpec.v. *)
Definition client_range (v : view) (m : list_msg) : view :=
  match m with
  | MSync a b rooms => fun i => if (a <=? i) && (i <=? b) then get rooms (i - a) else v i
  | MInvalidate a b => fun i => if (a <=? i) && (i <=? b) then None else v i
  | MOp _ => v
  end.
Definition client_ranges (v : view) (ms : list list_msg) : view := foldl client_range v ms.

(** The server's lists, the effective request for each, and what the client
    knows of each. *)
Record world := mk_world {
  w_lists : rlists;
  w_reqs : gmap string req_list;
  w_views : string -> view
}.

Definition set_view (vs : string -> view) (key : string) (v : view) : string -> view :=
  fun k => if String.eqb k key then v else vs k.

(** The client applies the operations of every list. *)
Definition client_update (reqs : gmap string req_list) (vs : string -> view)
    (out : list (string * list resp_op)) : string -> view :=
  foldl (fun vs '(key, os) =>
    set_view vs key (client_apply (default [] (q_windows <$> reqs !! key)) (vs key) os)) vs out.

(** What the server requires of a window list and this theorem of a request: it
    is a request for windows (not for all rooms) with known sort orders. *)
Definition good_request (q : req_list) : Prop :=
  valid (q_windows q) = true /\ Forall known_sort (q_sort q) /\ q_all q = false.

(** A window of one position is only added where the old windows had it, or
    together with a change of sort order or filters (see C05). *)
Definition no_lone_window (prev : option req_list) (next : req_list) (chg : bool) : Prop :=
  match prev with
  | Some p => q_ranges p <> None -> q_sort p = q_sort next -> chg = false ->
              forall i, (i, i) ∈ q_windows next -> covers (q_windows p) i
  | None => True
  end.

(** One thing that happens: a room update, a request for one list (a request for
    several is one after another; a new list always has a sort order), or the
    deletion of a list. *)
Inductive happens (lower : string -> string) : world -> world -> Prop :=
| on_update ord w r s' out :
    (forall l, ord l ≡ₚ l) ->
    live_update lower ord (w_lists w) (w_reqs w) r = Some (s', out) ->
    happens lower w (mk_world s' (w_reqs w) (client_update (w_reqs w) (w_views w) out))
| on_request ord w key next chg s' ms subs :
    (forall l, ord l ≡ₚ l) ->
    good_request next -> (w_reqs w !! key = None -> q_sort next <> []) ->
    no_lone_window (w_reqs w !! key) next chg ->
    list_request lower ord (w_lists w) key (w_reqs w !! key) next chg = Some (s', ms, subs) ->
    happens lower w (mk_world s' (<[key := next]> (w_reqs w))
                      (set_view (w_views w) key (client_ranges (w_views w key) ms)))
| on_delete w key :
    happens lower w (mk_world (delete_list (w_lists w) key) (delete key (w_reqs w)) (w_views w)).

Inductive history (lower : string -> string) : world -> world -> Prop :=
| history_nil w : history lower w w
| history_step w1 w2 w3 : happens lower w1 w2 -> history lower w2 w3 -> history lower w1 w3.

(** A new connection. *)
Definition new_world : world := mk_world new_rlists ∅ (fun _ _ => None).

(** The client is right about every position in the windows of every list. *)
Definition client_right (w : world) : Prop :=
  forall key rq, w_reqs w !! key = Some rq ->
  exists fl, l_lists (w_lists w) !! key = Some fl /\
    agrees (q_windows rq) (s_ids (fl_rooms fl)) (w_views w key).
