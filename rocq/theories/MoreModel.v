(** Model of what a request gets sent: [sync3/handler/connstate.go] (onIncomingRequest,
    onIncomingListRequest, buildListSubscriptions, buildRoomSubscriptions) as far as it tells
    the rooms builder which rooms to load with which subscription.

    On the effective request of RequestModel.v, the lists of LiveListModel.v and the combining
    of SubModel.v. Simplifications: as there. What the builder makes of it is proved in C16 to
    be [sent], if no slice has spare capacity; which old rooms are loaded besides is C58; what is
    loaded of a room with a subscription is C17 and C28. *)
From Verif Require Import Prelude RangeModel OpsModel RoomNameModel ListsModel LiveListModel RequestModel SubModel.
Open Scope string_scope.
Open Scope list_scope.
Open Scope Z_scope.

(** sync3/request.go:52-60: a list of the effective request, its windows and its embedded
    RoomSubscription; 62-64, ShouldGetAllRooms. *)
Definition list_windows (l : rlist) : req_list :=
  mk_req (rl_ranges l) (default [] (rl_sort l)) (rl_filters l) (default false (rl_all l)).
Definition list_sub (l : rlist) : room_sub := mk_sub (rl_state l) (rl_limit l) (rl_old l) (rl_heroes l).

(** sync3/request.go:82-88, TimelineLimitChanged, for a list that was there. Simplification:
    int is as wide as int64. *)
Definition limit_changed (prev next : rlist) : bool := negb (rl_limit prev =? rl_limit next).

(** connstate.go:390-405: the subscription for what changed, if something did. *)
Definition new_sub (prev : option rlist) (next : rlist) (chg : bool) : option room_sub :=
  match prev with
  | None => None
  | Some p =>
      let lim := limit_changed p next in
      let st := state_changed (list_sub p) (list_sub next) in
      if negb (sort_changed (Some (list_windows p)) (list_windows next)) && negb chg && (lim || st)
      then Some (mk_sub (if st then rl_state next else None) (if lim then rl_limit next else 0) None None)
      else None
  end.

Notation adds := (list (room_sub * list string)).

Section more.
Context (lower : string -> string) (joined : string -> bool).

(** connstate.go:269-424, onIncomingListRequest: what is added to the builder. [list_request]
    is all but the subscription for what changed (390-418). *)
Definition list_adds (ord : list string -> list string) (s : rlists) (key : string)
    (prev : option rlist) (next : rlist) (chg : bool) : option (rlists * adds) :=
  match list_request lower ord s key (list_windows <$> prev) (list_windows next) chg with
  | None => None
  | Some (s', _, ids) =>
      (* 277-290: all rooms are sent, and nothing else *)
      if q_all (list_windows next) && (bool_decide (l_lists s !! key = None) || chg) then Some (s', [(list_sub next, ids)])
      else
        match new_sub prev next chg with
        | None => Some (s', [(list_sub next, ids)])
        | Some rs =>
            let rooms := match l_lists s' !! key with Some fl => s_ids (fl_rooms fl) | None => [] end in
            match slice_into (q_windows (list_windows next)) rooms with
            | None => None
            | Some ss => Some (s', [(list_sub next, ids); (rs, List.filter joined (concat ss))])
            end
        end
  end.

(** connstate.go:426-441, buildListSubscriptions. [chg] is FiltersChanged
    (request.go:90-105). *)
Fixpoint lists_add (ord : string -> list string -> list string) (chg : option rlist -> rlist -> bool) (s : rlists)
    (cs : list (string * (option rlist * option rlist))) : option (rlists * adds) :=
  match cs with
  | [] => Some (s, [])
  | (key, (_, None)) :: cs' => lists_add ord chg (delete_list s key) cs'
  | (key, (prev, Some next)) :: cs' =>
      match list_adds (ord key) s key prev next (chg prev next) with
      | None => None
      | Some (s1, a) =>
          match lists_add ord chg s1 cs' with
          | None => None
          | Some (s', a') => Some (s', a ++ a')
          end
      end
  end.

(** connstate.go:443-462, buildRoomSubscriptions. *)
Definition subs_add (muxed : gmap string room_sub) (subs : list string) : adds :=
  omap (fun x => if joined x then (fun s => (s, [x])) <$> (muxed !! x) else None) subs.

(** connstate.go:194-223, onIncomingRequest: the effective request, the lists and what the
    builder was told. [sord] and [lord] are the orders of iteration over maps. *)
Definition ask_for (sord : list (string * room_sub) -> list (string * room_sub))
    (lord : list (string * (option rlist * option rlist)) -> list (string * (option rlist * option rlist)))
    (ord : string -> list string -> list string) (chg : option rlist -> rlist -> bool)
    (m : option req) (s : rlists) (next : req) : option (req * rlists * adds) :=
  let '(m', d) := apply_delta sord m next in
  match lists_add ord chg s (lord (map_to_list (dl_lists d))) with
  | None => None
  | Some (s', a) => Some (m', s', subs_add (rq_subs m') (dl_subs d) ++ a)
  end.
End more.

(** rooms_builder.go:65-120: the subscription a room is loaded with, if it is, see C16. *)
Definition sent (a : adds) (x : string) : option room_sub :=
  match List.filter (fun p : room_sub * list string => bool_decide (x ∈ p.2)) a with
  | [] => None
  | p :: rest => Some (combine_all p.1 (map fst rest))
  end.
