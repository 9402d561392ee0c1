(** Model of lists of all rooms ([slow_get_all_rooms]): which rooms a list sends as a
    whole, on the list state and requests of LiveListModel.v.

    Simplifications: as in LiveListModel.v. Rooms added to the builder are sent in the
    same response (sync3/handler/rooms_builder.go, connstate.go:460-520). *)
From Verif Require Import Prelude RangeModel OpsModel RoomNameModel ListsModel LiveListModel.
Open Scope string_scope.
Open Scope list_scope.
Open Scope Z_scope.

Section lower.
Context (lower : string -> string).

(** sync3/handler/connstate_live.go:168-178 and 423-460: the loop over the lists an update
    concerns, as [run_deltas]; the result has the rooms each list subscribes to. *)
Fixpoint run_subs (s : rlists) (reqs : gmap string req_list) (room : string) (ds : list (string * lop))
    : option (rlists * list (string * list string)) :=
  match ds with
  | [] => Some (s, [])
  | (key, o) :: ds' =>
      match l_lists s !! key, reqs !! key with
      | Some fl, Some rq =>
          match resort lower (fun x => l_all s !! x) key rq fl room o with
          | None => None
          | Some (fl1, _, subs) =>
              match run_subs (put_list s key fl1) reqs room ds' with
              | Some (s', out) => Some (s', (key, subs) :: out)
              | None => None
              end
          end
      | _, _ => None
      end
  end.

(** connstate_live.go:130-180, processLiveUpdate, for a room update. *)
Definition update_subs (ord : list (string * flist) -> list (string * flist)) (s : rlists)
    (reqs : gmap string req_list) (r : conn_room) : option (rlists * list (string * list string)) :=
  let '(s1, d) := set_room lower ord s r in
  run_subs s1 reqs (m_room (c_meta r)) (d_lists d).
End lower.
