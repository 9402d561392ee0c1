(** Vocabulary for C98. *)
From Verif Require Import Prelude RangeModel RangeSpec OpsModel RoomNameModel ListsModel LiveListModel RequestModel RequestSpec SubModel MoreModel.
Open Scope string_scope.
Open Scope list_scope.
Open Scope Z_scope.

(** The room is at a position the windows cover. *)
Definition in_windows (r : ranges) (l : list string) (x : string) : Prop :=
  exists i : Z, covers r i /\ 0 <= i /\ l !! Z.to_nat i = Some x.

(** The windows and rooms of a list. *)
Definition windows (l : rlist) : ranges := default [] (rl_ranges l).
Definition rooms_of (s : rlists) (key : string) : list string :=
  match l_lists s !! key with Some fl => s_ids (fl_rooms fl) | None => [] end.

(** What the client asks of a list, before and after the request. *)
Definition asked (m : option req) (key : string) : option rlist := match m with Some r => rq_lists r !! key | None => None end.


(** The room is sent, with at least so many events; with at least this state. *)
Definition sent_limit (a : adds) (x : string) (n : Z) : Prop := exists s, sent a x = Some s /\ n <= sub_limit s.
Definition sent_state (a : adds) (x : string) (st : list tuple) : Prop := exists s, sent a x = Some s /\ forall t, t ∈ st -> t ∈ state_of s.

(** The order or the choice of rooms is different. *)
Definition rearranged (chg : option rlist -> rlist -> bool) (p n : rlist) : Prop :=
  default [] (rl_sort p) <> default [] (rl_sort n) \/ chg (Some p) n = true.

(** Something new is asked of the room by the list [n], formerly [p], whose rooms are [l]. A
    room which was in view already has to be joined. *)
Definition news (joined : string -> bool) (chg : option rlist -> rlist -> bool) (p : option rlist) (n : rlist) (l : list string) (x : string) : Prop :=
  match p with
  | None => x ∈ l
  | Some p => rearranged chg p n /\ x ∈ l \/
      joined x = true /\ in_windows (windows n) l x /\ (rl_limit p <> rl_limit n \/ default [] (rl_state p) <> default [] (rl_state n)) \/
      windows p <> windows n /\ x ∈ l
  end.
