(** Model of sticky requests: [sync3/request.go] (ApplyDelta),
    [sync3/extensions/extensions.go], and what a connection does with the room
    subscriptions ([sync3/handler/connstate.go]).
    A JSON field that is absent and one that is null are the same Go value; where
    Go tells nil from empty, the model uses [option]. *)
From Verif Require Import Prelude RangeModel RoomNameModel ListsModel.
Open Scope string_scope.
Open Scope list_scope.
Open Scope Z_scope.

(** sync3/request.go:568-573, RoomSubscription. *)
Inductive room_sub := mk_sub {
  sub_state : option (list (string * string));
  sub_limit : Z;
  sub_old : option room_sub;
  sub_heroes : option bool
}.
Definition state_of (s : room_sub) : list (string * string) := default [] (sub_state s).

(** sync3/request.go:52-60, RequestList with its embedded RoomSubscription. *)
Record rlist := mk_rlist {
  rl_state : option (list (string * string));
  rl_limit : Z;
  rl_old : option room_sub;
  rl_heroes : option bool;
  rl_ranges : option ranges;
  rl_sort : option (list string);
  rl_filters : option filters;
  rl_all : option bool;          (* slow_get_all_rooms *)
  rl_deleted : bool;
  rl_bump : option (list string)
}.

(** sync3/extensions/extensions.go:64-70 with todevice.go:22-27. All five
    extensions share this record: limit and since are only ever non-zero for
    to_device, and for zero values todevice.go:33-42 does what Core does. *)
Record ext := mk_ext {
  e_enabled : option bool;
  e_lists : option (list string);
  e_rooms : option (list string);
  e_limit : Z;
  e_since : string
}.
(** sync3/extensions/extensions.go:164-174. *)
Inductive ext_kind := EToDevice | EE2EE | EAccountData | ETyping | EReceipts.
Definition exts := ext_kind -> option ext.

(** sync3/request.go:29-40, Request. Dropped: conn_id and txn_id, which are not
    sticky, and the position and timeout (see ConnModel.v). *)
Record req := mk_rq {
  rq_lists : gmap string rlist;
  rq_subs : gmap string room_sub;
  rq_unsubs : list string;
  rq_exts : exts
}.
(** &Request{} *)
Definition empty_req : req := mk_rq ∅ ∅ [] (fun _ => None).

(** "Use the newer values unless they aren't specified." *)
Definition newer {A} (next old : option A) : option A :=
  match next with Some v => Some v | None => old end.

(** extensions.go:88-97, Core.InterpretAsInitial. *)
Definition as_initial (e : ext) : ext :=
  mk_ext (e_enabled e) (newer (e_lists e) (Some ["*"])) (newer (e_rooms e) (Some ["*"])) (e_limit e) (e_since e).
(** extensions.go:99-116, Core.ApplyDelta, and todevice.go:33-42. *)
Definition ext_delta (e next : ext) : ext :=
  mk_ext (newer (e_enabled next) (e_enabled e)) (newer (e_lists next) (e_lists e)) (newer (e_rooms next) (e_rooms e))
    (if e_limit next =? 0 then e_limit e else e_limit next)
    (if String.eqb (e_since next) "" then e_since e else e_since next).
(** extensions.go:205-232, Request.ApplyDelta. *)
Definition exts_delta (r next : exts) : exts := fun k =>
  match next k, r k with
  | None, e => e
  | Some n, None => Some (as_initial n)
  | Some n, Some e => Some (ext_delta e n)
  end.
(** extensions.go:234-250, Request.InterpretAsInitial. *)
Definition exts_initial (e : exts) : exts := fun k => as_initial <$> e k.

(** request.go:344-349: a list the connection did not have. *)
Definition new_rlist (l : rlist) : rlist :=
  if (length (default [] (rl_sort l)) =? 0)%nat
  then mk_rlist (rl_state l) (rl_limit l) (rl_old l) (rl_heroes l) (rl_ranges l) (Some ["by_recency"])
         (rl_filters l) (rl_all l) (rl_deleted l) (rl_bump l)
  else l.
(** request.go:358-409: the combined list. *)
Definition list_merge (e n : rlist) : rlist :=
  mk_rlist (newer (rl_state n) (rl_state e)) (if rl_limit n =? 0 then rl_limit e else rl_limit n)
    (newer (rl_old n) (rl_old e)) (newer (rl_heroes n) (rl_heroes e))
    (newer (rl_ranges n) (rl_ranges e)) (newer (rl_sort n) (rl_sort e))
    (newer (rl_filters n) (rl_filters e)) (newer (rl_all n) (rl_all e)) false
    (newer (rl_bump n) (rl_bump e)).
(** request.go:336-410: one list key. *)
Definition list_result (existing next : option rlist) : option rlist :=
  match existing, next with
  | e, None => e
  | None, Some n => Some (new_rlist n)
  | Some e, Some n => if rl_deleted n then None else Some (list_merge e n)
  end.

(** request.go:295-310. Lists: what was there before, what is there now. *)
Record req_delta := mk_rdelta {
  dl_subs : list string;
  dl_unsubs : list string;
  dl_lists : gmap string (option rlist * option rlist)
}.

(** request.go:575-585, RequiredStateChanged. *)
Definition state_changed (a b : room_sub) : bool := negb (bool_decide (state_of a = state_of b)).

(** request.go:440-455: unsubscribing. Result: what is left and the reported unsubs. *)
Fixpoint unsub (next_subs : gmap string room_sub) (subs : gmap string room_sub) (rooms : list string)
    : gmap string room_sub * list string :=
  match rooms with
  | [] => (subs, [])
  | x :: rooms' =>
      let '(subs', out) := unsub next_subs (delete x subs) rooms' in
      (subs', match subs !! x, next_subs !! x with
              | Some _, None => x :: out
              | _, _ => out
              end)
  end.

(** request.go:458-472: the reported subs; [ord] is the order of iteration. *)
Definition new_subs (ord : list (string * room_sub) -> list (string * room_sub))
    (old result : gmap string room_sub) : list string :=
  omap (fun '(x, s) =>
    match old !! x with
    | Some o => if state_changed o s || negb (sub_limit o =? sub_limit s) then Some x else None
    | None => Some x
    end) (ord (map_to_list result)).

(** request.go:314-476, ApplyDelta. A nil receiver is None. The unsubscriptions
    of the old request (request.go:434-440) are those of an effective request,
    which are always empty: only [result.RoomSubscriptions] etc. are set; they are
    applied all the same. *)
Definition apply_delta (ord : list (string * room_sub) -> list (string * room_sub))
    (r : option req) (next : req) : req * req_delta :=
  let ex := match r with
            | None => exts_initial (rq_exts next)
            | Some r => exts_delta (rq_exts r) (rq_exts next)
            end in
  let r := default empty_req r in
  let lists := merge list_result (rq_lists r) (rq_lists next) in
  let dlists := merge (fun p c : option rlist => match p, c with None, None => None | _, _ => Some (p, c) end)
                  (rq_lists r) lists in
  let '(subs0, out0) := unsub ∅ (rq_subs r) (rq_unsubs r) in
  let '(subs, out) := unsub (rq_subs next) (rq_subs next ∪ subs0) (rq_unsubs next) in
  (mk_rq lists subs [] ex, mk_rdelta (new_subs ord (rq_subs r) subs) (out0 ++ out) dlists).

(** The effective request after a sequence of requests, oldest first
    (connstate.go:199). *)
Definition effective_from (ord : list (string * room_sub) -> list (string * room_sub))
    (r : option req) (reqs : list req) : option req :=
  foldl (fun r next => Some (apply_delta ord r next).1) r reqs.
Definition effective ord (reqs : list req) : option req := effective_from ord None reqs.

(** connstate.go:443-467, buildRoomSubscriptions: the subscriptions that are
    active on the connection. [joined] is the join checker. Dropped: the builder
    (see SubModel.v). *)
Definition build_room_subs (joined : string -> bool) (muxed : gmap string room_sub)
    (active : gmap string room_sub) (subs unsubs : list string) : gmap string room_sub :=
  let a := foldl (fun a x => if joined x then
                    match muxed !! x with Some s => <[x := s]> a | None => a end
                  else a) active subs in
  foldl (fun a x => delete x a) a unsubs.

(** The part of a connection concerned with subscriptions, and one request with
    the rooms joined at that time (connstate.go:195-219). *)
Record sub_conn := mk_sub_conn { sc_muxed : option req; sc_active : gmap string room_sub }.
Definition sub_request ord (c : sub_conn) (next : req) (joined : string -> bool) : sub_conn :=
  let '(m, d) := apply_delta ord (sc_muxed c) next in
  mk_sub_conn (Some m) (build_room_subs joined (rq_subs m) (sc_active c) (dl_subs d) (dl_unsubs d)).
Definition sub_requests ord (reqs : list (req * (string -> bool))) : sub_conn :=
  foldl (fun c '(next, joined) => sub_request ord c next joined) (mk_sub_conn None ∅) reqs.
