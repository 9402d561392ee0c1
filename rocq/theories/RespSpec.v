(** What a client makes of whole responses. *)
From Verif Require Import Prelude RangeModel RangeSpec OpsModel OpsSpec RoomNameModel ListsModel ListsSpec LiveListModel LiveListSpec FltSpec RespModel.
Open Scope string_scope.
Open Scope list_scope.
Open Scope Z_scope.

(** The client applies the operations of each list in the response, from first to
    last, to what it knows of that list. *)
Definition read_response (reqs : gmap string req_list) (vs : string -> view) (resp : gmap string resp_list) : string -> view :=
  fun k => match resp !! k with
           | Some e => client_apply (default [] (q_windows <$> reqs !! k)) (client_ranges (vs k) (rl_ranges e)) (rl_ops e)
           | None => vs k
           end.

(** What C61 and C92 ask of requests, for all lists of a request at once. A request
    is about every list the connection has. *)
Definition good_changes (reqs : gmap string req_list) (cs : list change) : Prop :=
  NoDup (ch_key <$> cs) /\ (forall key, is_Some (reqs !! key) -> key ∈ ch_key <$> cs) /\
  forall c next, c ∈ cs -> ch_next c = Some next ->
    good_request next /\ (reqs !! ch_key c = None -> q_sort next <> []) /\
    no_lone_window (reqs !! ch_key c) next (ch_chg c) /\ noticed (reqs !! ch_key c) next (ch_chg c).

(** The server, what the client knows of the lists, and the counts of the last response. *)
Record talk_state := mk_talk { t_world : world; t_counts : gmap string nat }.

(** A connection that has had no request: the rooms may have been loaded. *)
Definition opening (Q : conn_room -> Prop) (t : talk_state) : Prop :=
  l_lists (w_lists (t_world t)) = ∅ /\ w_reqs (t_world t) = ∅ /\ t_counts t = ∅ /\
  forall x r, l_all (w_lists (t_world t)) !! x = Some r -> m_room (c_meta r) = x /\ Q r.

(** Any number of requests and responses, each of which takes in any number of
    updates for which [Q] holds. *)
Inductive talk (lower : string -> string) (Q : conn_room -> Prop) : talk_state -> talk_state -> Prop :=
| talk_nil t : talk lower Q t t
| talk_step t1 t2 ord cs us s' reqs' resp :
    talk lower Q t1 t2 ->
    (forall key l, ord key l ≡ₚ l) -> Forall (fun u => Q u.1 /\ forall l, u.2 l ≡ₚ l) us ->
    good_changes (w_reqs (t_world t2)) cs ->
    respond lower ord (w_lists (t_world t2)) (w_reqs (t_world t2)) cs us = Some (s', reqs', resp) ->
    talk lower Q t1 (mk_talk (mk_world s' reqs' (read_response reqs' (w_views (t_world t2)) resp)) (rl_count <$> resp)).

(** The room is not replaced by another. *)
Definition not_replaced (r : conn_room) : Prop := m_upgraded (c_meta r) = None.
