(** Model of one request and its response as far as lists go: [sync3/handler/connstate.go]
    (onIncomingRequest, buildListSubscriptions) and [sync3/handler/connstate_live.go]
    (liveUpdate), on the lists of LiveListModel.v.

    Simplifications: as in LiveListModel.v. How many updates a response takes in is
    arbitrary (see C72 for when the server waits), and so is what is in it besides
    lists. Updates that are not about a room do not change lists (connstate_live.go:404-409). *)
From Verif Require Import Prelude RangeModel OpsModel RoomNameModel ListsModel LiveListModel.
Open Scope string_scope.
Open Scope list_scope.
Open Scope Z_scope.

(** sync3/request.go:300-309 and 418-432: one list of the request: its effective request, or
    None if the client deletes it, and whether the filters changed. *)
Record change := mk_change { ch_key : string; ch_next : option req_list; ch_chg : bool }.

(** sync3/response.go:29-32: the operations, those of the request first, and the count. *)
Record resp_list := mk_resp { rl_ranges : list list_msg; rl_ops : list resp_op; rl_count : nat }.

Section lower.
Context (lower : string -> string).

(** connstate.go:426-441, buildListSubscriptions: one list after the other, in any order
    (a map). The effective request has been replaced before (connstate.go:198); as each
    list is there once, doing it on the way is the same. *)
Fixpoint ask (ord : string -> list string -> list string) (s : rlists) (reqs : gmap string req_list) (cs : list change)
    : option (rlists * gmap string req_list * gmap string resp_list) :=
  match cs with
  | [] => Some (s, reqs, ∅)
  | c :: cs' =>
      let key := ch_key c in
      match ch_next c with
      | None => ask ord (delete_list s key) (delete key reqs) cs'
      | Some next =>
          match list_request lower (ord key) s key (reqs !! key) next (ch_chg c) with
          | Some (s1, ms, _) =>
              match ask ord s1 (<[key := next]> reqs) cs' with
              | Some (s', reqs', resp) => Some (s', reqs', <[key := mk_resp ms [] 0]> resp)
              | None => None
              end
          | None => None
          end
      end
  end.

(** connstate_live.go:168-180 and 413: the operations of an update are appended. *)
Definition add_ops (resp : gmap string resp_list) (out : list (string * list resp_op)) : gmap string resp_list :=
  foldl (fun (resp : gmap string resp_list) '(key, os) =>
    let e := default (mk_resp [] [] 0) (resp !! key) in
    <[key := mk_resp (rl_ranges e) (rl_ops e ++ os) (rl_count e)]> resp) resp out.

(** connstate_live.go:66-109: updates are taken in. *)
Fixpoint take_in (s : rlists) (reqs : gmap string req_list) (resp : gmap string resp_list)
    (us : list (conn_room * (list (string * flist) -> list (string * flist)))) : option (rlists * gmap string resp_list) :=
  match us with
  | [] => Some (s, resp)
  | (r, ord) :: us' =>
      match live_update lower ord s reqs r with
      | Some (s1, out) => take_in s1 reqs (add_ops resp out) us'
      | None => None
      end
  end.

(** connstate.go:254-259: the counts, at the end. A list that does not exist would be a
    panic; here it has no rooms. *)
Definition counted (s : rlists) (resp : gmap string resp_list) : gmap string resp_list :=
  map_imap (fun key e => Some (mk_resp (rl_ranges e) (rl_ops e)
    (match l_lists s !! key with Some fl => length (s_ids (fl_rooms fl)) | None => 0%nat end))) resp.

(** connstate.go:194-266, onIncomingRequest. *)
Definition respond (ord : string -> list string -> list string) (s : rlists) (reqs : gmap string req_list) (cs : list change)
    (us : list (conn_room * (list (string * flist) -> list (string * flist))))
    : option (rlists * gmap string req_list * gmap string resp_list) :=
  match ask ord s reqs cs with
  | Some (s1, reqs', resp) =>
      match take_in s1 reqs' resp us with
      | Some (s', resp') => Some (s', reqs', counted s' resp')
      | None => None
      end
  | None => None
  end.
End lower.
