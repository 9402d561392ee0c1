(** Model of a connection's lists over time: list requests
    ([sync3/handler/connstate.go]) and live updates
    ([sync3/handler/connstate_live.go]) on the real list state of ListsModel.v.

    Simplifications: room subscriptions produced on the way are returned as plain
    room IDs; metrics, tracing and logging are dropped. *)
From Verif Require Import Prelude RangeModel OpsModel RoomNameModel ListsModel.
Open Scope string_scope.
Open Scope list_scope.
Open Scope Z_scope.

(** sync3/request.go:52-60. [q_ranges] is None for a nil slice. The sort of an
    effective request is never nil: sync3/request.go:345-349, 361-364. *)
Record req_list := mk_req {
  q_ranges : option ranges;
  q_sort : list string;
  q_filters : option filters;
  q_all : bool                   (* ShouldGetAllRooms *)
}.
Definition q_windows (q : req_list) : ranges := default [] (q_ranges q).

(** sync3/response.go: the two kinds of operation. *)
Inductive list_msg :=
| MSync (first last : Z) (rooms : list string)
| MInvalidate (first last : Z)
| MOp (o : resp_op).

(** sync3/request.go:66-80, SortOrderChanged. *)
Definition sort_changed (prev : option req_list) (next : req_list) : bool :=
  match prev with
  | None => negb (length (q_sort next) =? 0)%nat
  | Some p => negb (bool_decide (q_sort p = q_sort next))
  end.

(** connstate.go:786-794, clampSliceRangeToListSize. The assertion only logs. *)
Definition clamp (sr : range) (n : Z) : range :=
  if sr.2 <=? n - 1 then sr else (sr.1, n - 1).

(** connstate.go:330-341 and 355-367: INVALIDATE for ranges the client knows. *)
Definition invalidate (r : ranges) (n : Z) : list list_msg :=
  omap (fun sr : range => if n <=? sr.1 then None
                  else Some (MInvalidate (clamp sr n).1 (clamp sr n).2)) r.

(** connstate.go:373-388: SYNC for the added ranges. None is a panic in Subslice. *)
Fixpoint sync_ranges (added : ranges) (l : list string) : option (list list_msg * list string) :=
  match added with
  | [] => Some ([], [])
  | sr :: added' =>
      match slice_into [sr] l, sync_ranges added' l with
      | Some [], Some (ms, subs) => Some (ms, subs)
      | Some (ids :: _), Some (ms, subs) =>
          let c := clamp sr (Z.of_nat (length l)) in
          Some (MSync c.1 c.2 ids :: ms, ids ++ subs)
      | _, _ => None
      end
  end.

Section lower.
Context (lower : string -> string).

Definition put_list (s : rlists) (key : string) (fl : flist) : rlists :=
  mk_rlists (l_all s) (<[key := fl]> (l_lists s)).

(** connstate.go:269-424, onIncomingListRequest, without the re-subscription for
    changed timeline limits (connstate.go:390-418), which sends no operations.
    [chg] is FiltersChanged, a comparison of the JSON of the filters. [ord] is
    the order of iteration over all rooms. Result: the state, the operations and
    the rooms subscribed to; None is a panic. *)
Definition list_request (ord : list string -> list string) (s : rlists) (key : string)
    (prev : option req_list) (next : req_list) (chg : bool)
    : option (rlists * list list_msg * list string) :=
  match assign_list lower ord s key (q_filters next) (Some (q_sort next)) false with
  | None => None
  | Some (s1, fl, created) =>
      if q_all next && (created || chg) then
        let ids := s_ids (fl_rooms fl) in
        Some (s1, [MSync 0 (Z.of_nat (length ids) - 1) ids], ids)
      else
        let prev_ranges := match prev with Some p => q_ranges p | None => None end in
        let added_removed :=
          match prev_ranges with
          | Some pr => (fun '(a, r, _) => (a, r)) <$> delta pr (q_windows next)
          | None => Some (q_windows next, [])
          end in
        match added_removed with
        | None => None
        | Some (added, removed) =>
            if sort_changed prev next || chg then
              let inv := match prev with
                         | Some _ => invalidate (default [] prev_ranges) (Z.of_nat (length (s_ids (fl_rooms fl))))
                         | None => []
                         end in
              let assigned :=
                if chg then assign_list lower ord s1 key (q_filters next) (Some (q_sort next)) true
                else Some (s1, fl, false) in
              match assigned with
              | None => None
              | Some (s2, fl2, _) =>
                  match s_sort (fun x => l_all s2 !! x) key (q_sort next) (fl_rooms fl2) with
                  | None => None
                  | Some (sr, _) =>
                      match sync_ranges (q_windows next) (s_ids sr) with
                      | None => None
                      | Some (ms, subs) => Some (put_list s2 key (mk_flist sr (fl_filter fl2)), inv ++ ms, subs)
                      end
                  end
              end
            else
              match sync_ranges added (s_ids (fl_rooms fl)) with
              | None => None
              | Some (ms, subs) =>
                  Some (s1, invalidate removed (Z.of_nat (length (s_ids (fl_rooms fl)))) ++ ms, subs)
              end
        end
  end.

(** The list operations of ops.go, sync3/lists.go. *)
Definition to_op (o : lop) : list_op :=
  match o with LAdd => OpAdd | LDel => OpDel | LChange => OpChange end.

(** sync3/ops.go:32-142 on the real list. The list is modified as the code does
    (filtered Add, index-based Remove, Sort); a sort error only logs. None is a
    panic. *)
Definition modify_list (find : string -> option conn_room) (key : string) (sorts : list string)
    (fl : flist) (room : string) (o : lop) : option flist :=
  match o with
  | LAdd =>
      match f_add lower find fl room with
      | None => None
      | Some (fl1, _) =>
          match s_sort find key sorts (fl_rooms fl1) with
          | None => None
          | Some (sr, _) => Some (mk_flist sr (fl_filter fl))
          end
      end
  | LDel => Some (mk_flist (s_remove (fl_rooms fl) room).1 (fl_filter fl))
  | LChange =>
      match s_sort find key sorts (fl_rooms fl) with
      | None => None
      | Some (sr, _) => Some (mk_flist sr (fl_filter fl))
      end
  end.

Definition list_ops (find : string -> option conn_room) (key : string) (rq : req_list)
    (fl : flist) (room : string) (o : lop) : option (flist * list resp_op * list string) :=
  let r := q_windows rq in
  match s_index_of (fl_rooms fl) room, o with
  | None, LDel | None, LChange => Some (fl, [], [])
  | ofrom, _ =>
      let from := match ofrom with Some i => Z.of_nat i | None => Z.of_nat (length (s_ids (fl_rooms fl))) end in
      let was := match o with
                 | LAdd => false
                 | _ => match inside r from with Some _ => true | None => false end
                 end in
      match modify_list find key (q_sort rq) fl room o with
      | None => None
      | Some fl1 =>
          let new := s_ids (fl_rooms fl1) in
          let to := match o with
                    | LDel => Z.of_nat (length new) - 1
                    | _ => match s_index_of (fl_rooms fl1) room with Some i => Z.of_nat i | None => 0 end
                    end in
          if to =? -1 then Some (fl1, [write_delete_op r 0], [])
          else match move_indexes r from to with
               | None => None
               | Some ms =>
                   match moves_ops r new room (to_op o) to was (length ms =? 1)%nat ms with
                   | Some (os, ss) => Some (fl1, os, ss)
                   | None => None
                   end
               end
      end
  end.

(** connstate_live.go:423-460, resort. *)
Definition resort (find : string -> option conn_room) (key : string) (rq : req_list)
    (fl : flist) (room : string) (o : lop) : option (flist * list resp_op * list string) :=
  if q_all rq then
    match o with
    | LAdd => match f_add lower find fl room with
              | Some (fl1, _) => Some (fl1, [], [room])
              | None => None
              end
    | LDel => Some (mk_flist (s_remove (fl_rooms fl) room).1 (fl_filter fl), [], [])
    | LChange => Some (fl, [], [])
    end
  else list_ops find key rq fl room o.

(** connstate_live.go:168-178: the loop over the lists an update concerns. A key
    without a list or request cannot occur; it is modelled as a panic. Result:
    the operations for each list. *)
Fixpoint run_deltas (s : rlists) (reqs : gmap string req_list) (room : string) (ds : list (string * lop))
    : option (rlists * list (string * list resp_op)) :=
  match ds with
  | [] => Some (s, [])
  | (key, o) :: ds' =>
      match l_lists s !! key, reqs !! key with
      | Some fl, Some rq =>
          match resort (fun x => l_all s !! x) key rq fl room o with
          | None => None
          | Some (fl1, os, _) =>
              match run_deltas (put_list s key fl1) reqs room ds' with
              | Some (s', out) => Some (s', (key, os) :: out)
              | None => None
              end
          end
      | _, _ => None
      end
  end.

(** connstate_live.go:130-180, processLiveUpdate, for a room update. *)
Definition live_update (ord : list (string * flist) -> list (string * flist)) (s : rlists)
    (reqs : gmap string req_list) (r : conn_room) : option (rlists * list (string * list resp_op)) :=
  let '(s1, d) := set_room lower ord s r in
  run_deltas s1 reqs (m_room (c_meta r)) (d_lists d).
End lower.
