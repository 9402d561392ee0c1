(** Vocabulary for C99. *)
From Verif Require Import Prelude RangeModel OpsModel RoomNameModel ListsModel LiveListModel RequestModel ExtModel ReceiptModel DeviceModel WakeModel.
Open Scope string_scope.
Open Scope list_scope.
Open Scope Z_scope.

(** The response tells the client something, apart from the counts of its lists. *)
Inductive tells (r : resp) : Prop :=
| tells_op key l o : p_lists r !! key = Some l -> o ∈ p_ops l -> tells r
| tells_room x d : p_rooms r !! x = Some d -> tells r
| tells_message t m : p_todevice r = Some t -> m ∈ t_events t -> tells r
| tells_devices e l : p_e2ee r = Some e -> x_lists e = Some l -> tells r
| tells_fallback e l : p_e2ee r = Some e -> x_fallback e = Some l -> tells r
| tells_keys e m k n : p_e2ee r = Some e -> x_otk e = Some m -> m !! k = Some n -> tells r
| tells_data a d : p_acct r = Some a -> d ∈ a_global a -> tells r
| tells_room_data a x d : p_acct r = Some a -> a_rooms a !! x = Some d -> tells r
| tells_typing m x d : p_typing r = Some m -> m !! x = Some d -> tells r
| tells_receipts m x d : p_receipts r = Some m -> m !! x = Some d -> tells r.

(** An extension that answers the first request with as little as an empty object. *)
Definition opens (r : resp) : Prop :=
  is_Some (p_e2ee r) \/ is_Some (p_acct r) \/ is_Some (p_typing r) \/ is_Some (p_receipts r).
