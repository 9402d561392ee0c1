(** Model of responses as far as they decide whether a request waits: [sync3/response.go],
    [sync3/extensions/] (HasData), used in [sync3/handler/connstate_live.go] 67.

    Simplifications: what is said of a room is one string; list operations, account data and
    receipts are those of LiveListModel.v, ExtModel.v and ReceiptModel.v, and the position,
    which no decision depends on, is dropped. *)
From Verif Require Import Prelude RangeModel OpsModel RoomNameModel ListsModel LiveListModel RequestModel ExtModel ReceiptModel DeviceModel LoopModel.
Open Scope string_scope.
Open Scope list_scope.
Open Scope Z_scope.

(** sync3/response.go:28-31, ResponseList. *)
Record resp_list := mk_resp_list { p_ops : list list_msg; p_count : Z }.
(** sync3/extensions/todevice.go:46-49, ToDeviceResponse. *)
Record td_resp := mk_td { t_next : string; t_events : list string }.
(** sync3/response.go:18-26, Response, with sync3/extensions/extensions.go:249-256. None is a
    nil pointer. *)
Record resp := mk_resp {
  p_lists : gmap string resp_list;
  p_rooms : gmap string string;
  p_todevice : option td_resp;
  p_e2ee : option E2EEResponse;
  p_acct : option aresp;
  p_typing : option (gmap string string);
  p_receipts : option (gmap string edu)
}.

(** sync3/response.go:38-46, ListOps. *)
Definition list_count (r : resp) : Z :=
  fold_left (fun n (l : string * resp_list) =>
    if 0 <? Z.of_nat (length (p_ops l.2)) then n + Z.of_nat (length (p_ops l.2)) else n) (map_to_list (p_lists r)) 0.

(** todevice.go:51-53; account_data.go:29-34; typing.go:24-29; receipts.go:27-32, HasData. *)
Definition td_data (t : td_resp) : bool := 0 <? Z.of_nat (length (t_events t)).
Definition acct_data (initial : bool) (a : aresp) : bool :=
  if initial then true else (0 <? Z.of_nat (size (a_rooms a))) || (0 <? Z.of_nat (length (a_global a))).
Definition rooms_data {A} (initial : bool) (m : gmap string A) : bool :=
  if initial then true else 0 <? Z.of_nat (size m).

(** extensions.go:258-276, fields and HasData: one after the other, but for those that are
    nil. *)
Definition ext_data (initial : bool) (r : resp) : bool :=
  existsb id [
    match p_todevice r with Some t => td_data t | None => false end;
    match p_e2ee r with Some e => HasData initial e | None => false end;
    match p_acct r with Some a => acct_data initial a | None => false end;
    match p_typing r with Some m => rooms_data initial m | None => false end;
    match p_receipts r with Some m => rooms_data initial m | None => false end].

(** connstate_live.go:67, negated: the request does not wait. The request is given as whether
    it is the first of its connection, and the response so far. *)
Definition enough (x : bool * resp) : bool :=
  negb ((list_count x.2 =? 0) && (Z.of_nat (size (p_rooms x.2)) =? 0) && negb (ext_data x.1 x.2)).
