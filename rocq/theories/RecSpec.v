(** What it means that a list is sorted by recency. *)
From Verif Require Import Prelude RangeModel OpsModel RoomNameModel GlobalModel ListsModel ListsSpec LiveListModel LiveListSpec RecModel.
Open Scope string_scope.
Open Scope list_scope.
Open Scope Z_scope.

(** The client asks for these types of events; without types it wants all. *)
Definition interesting (types : list string) (e : gevent) : Prop := types = [] \/ g_type e ∈ types.
Global Instance interesting_dec types e : Decision (interesting types e).
Proof. unfold interesting. apply _. Defined.

(** The time of the latest interesting event of a room since the user joined it at
    [join] (NID and timestamp), or of the join. *)
Definition latest_interest (log : list gevent) (room : string) (join : Z * Z) (types : list string) : Z :=
  match last (filter (fun e => g_room e = room /\ join.1 < g_nid e /\ interesting types e) log) with
  | Some e => g_ts e
  | None => join.2
  end.

(** No update of the room is on its way. *)
Definition quiet (room : string) (s : st) : Prop := forall u, u ∈ s_queue s ++ s_held s -> u_of u <> room.

(** Maps are walked in some order; requests are as in C61: windows, with known sort
    orders, and a new list has one. *)
Definition fine (s : st) (a : act) : Prop :=
  match a with
  | ARequest ord key next chg _ =>
      (forall l, ord l ≡ₚ l) /\ good_request next /\ (w_reqs (s_world s) !! key = None -> q_sort next <> []) /\
      no_lone_window (w_reqs (s_world s) !! key) next chg
  | AProcess ord _ => forall l, ord l ≡ₚ l
  | _ => True
  end.

(** Everything that can happen, as long as [P] holds of it. *)
Inductive run (lower : string -> string) (P : st -> act -> Prop) : st -> st -> Prop :=
| run_nil s : run lower P s s
| run_step s1 s2 s3 a : run lower P s1 s2 -> fine s2 a -> P s2 a -> do lower s2 a = Some s3 -> run lower P s1 s3.

(** The client never asks for certain types of events in this list. *)
Definition plain (key : string) (s : st) (a : act) : Prop :=
  match a with
  | ALoad types _ => default [] (types !! key) = []
  | ARequest _ k _ _ types => k = key -> next_types (s_types s !! key) types = []
  | _ => True
  end.

(** The client asks for these types of events in this list, from the first request on,
    and does not delete the list. *)
Definition asks (key : string) (types : list string) (s : st) (a : act) : Prop :=
  match a with
  | ALoad ts _ => ts !! key = Some types
  | ARequest _ k _ _ ts => k = key -> next_types (s_types s !! key) ts = types
  | ADelete k => k <> key
  | _ => True
  end.

(** Until the connection is set up, timestamps of events in the room do not go back
    from the user's join on. *)
Definition rising_before_load (room : string) (s : st) (a : act) : Prop :=
  match a with
  | AEvent e _ _ => g_room e = room -> s_loaded s = false -> forall join e', s_join s !! room = Some join ->
      e' ∈ s_log s -> g_room e' = room -> join.1 <= g_nid e' -> g_ts e' <= g_ts e
  | _ => True
  end.

(** The room is not known to the connection before its join is: there is no update
    about the room that overtakes the join. *)
Definition join_first (room : string) (s : st) (a : act) : Prop :=
  match a with
  | AOther r => m_room (c_meta r) = room ->
      is_Some (s_join s !! room) /\ (s_loaded s = true -> is_Some (l_all (w_lists (s_world s)) !! room))
  | _ => True
  end.

(** The room is not sent as a whole while events that would be part of it are on
    their way. *)
Definition caught_up (room : string) (s : st) (a : act) : Prop :=
  match a with
  | AShow x n => x = room -> forall u nid t, u ∈ s_queue s ++ s_held s -> u_of u = room -> u_event u = Some (nid, t) ->
      nid < default 0 (s_pos s !! room) \/ n <= nid
  | _ => True
  end.

Definition calm (key : string) (types : list string) (room : string) (s : st) (a : act) : Prop :=
  asks key types s a /\ rising_before_load room s a /\ join_first room s a /\ caught_up room s a.

(** Timestamps of events in the room never go back, and none is negative. *)
Definition rising (room : string) (s : st) (a : act) : Prop :=
  match a with
  | AEvent e _ _ | AJoin e _ _ => g_room e = room -> 0 <= g_ts e /\
      forall e', e' ∈ s_log s -> g_room e' = room -> g_ts e' <= g_ts e
  | _ => True
  end.

(** The client wants this list sorted by recency first of all. *)
Definition sorted_by_recency (key : string) (s : st) : Prop :=
  exists rq rest, w_reqs (s_world s) !! key = Some rq /\ q_sort rq = "by_recency" :: rest.
(** In this list, [a] comes before [b]. *)
Definition listed_before (key : string) (s : st) (a b : string) : Prop :=
  exists fl (i j : nat), l_lists (w_lists (s_world s)) !! key = Some fl /\ (i < j)%nat /\
    s_ids (fl_rooms fl) !! i = Some a /\ s_ids (fl_rooms fl) !! j = Some b.
