(** Declarative vocabulary for sorted and filtered lists. *)
From Verif Require Import Prelude RoomNameModel ListsModel OpsModel OpsSpec.
Open Scope string_scope.
Open Scope list_scope.
Open Scope Z_scope.

(** ** Order *)

(** How much attention a room wants. *)
Definition level (r : conn_room) : Z :=
  if 0 <? c_highlight r then 3
  else if 0 <? c_notif r then (if m_encrypted (c_meta r) then 2 else 1) else 0.

(** Under sort order [s] (of list [key]) room [a] comes before [b]. *)
Definition before (key s : string) (a b : conn_room) : Prop :=
  (s = "by_name" /\ String.compare (c_canon a) (c_canon b) = Lt) \/
  (s = "by_recency" /\ get_ts key a > get_ts key b) \/
  (s = "by_highlight_count" /\ c_highlight a > c_highlight b) \/
  (s = "by_notification_count" /\ c_notif a > c_notif b) \/
  (s = "by_notification_level" /\ level a > level b).

(** Several sort orders: the first that tells the rooms apart decides. *)
Fixpoint goes_first (key : string) (sorts : list string) (a b : conn_room) : Prop :=
  match sorts with
  | [] => False
  | s :: rest => before key s a b \/ (~ before key s b a /\ goes_first key rest a b)
  end.

Definition known_sort (s : string) : Prop :=
  s ∈ ["by_name"; "by_recency"; "by_highlight_count"; "by_notification_count"; "by_notification_level"].

(** A list of rooms is in order: no later room should go before an earlier one. *)
Definition in_order (find : string -> option conn_room) (key : string) (sorts : list string) (l : list string) : Prop :=
  forall (i j : nat) x y a b, (i < j)%nat -> l !! i = Some x -> l !! j = Some y ->
  find x = Some a -> find y = Some b -> ~ goes_first key sorts b a.

(** The index agrees with the list. *)
Definition index_ok (s : srooms) : Prop :=
  forall x i, s_idx s !! x = Some i <-> s_ids s !! i = Some x.

(** ** Filters *)

(** The user has joined the room that replaces this one. *)
Definition replaced (r : conn_room) (find : string -> option conn_room) : Prop :=
  exists next n, m_upgraded (c_meta r) = Some next /\ find next = Some n /\ c_left n = false /\ c_invite n = false.

Definition substring (sub s : string) : Prop := exists p q, s = (p ++ sub ++ q)%string.

(** Every field apart from [spaces]. *)
Definition satisfies_but_spaces (lower : string -> string) (f : filters) (r : conn_room) (find : string -> option conn_room) : Prop :=
  ~ replaced r find /\
  (forall b, f_encrypted f = Some b -> m_encrypted (c_meta r) = b) /\
  (forall b, f_tombstoned f = Some b -> (b = true <-> m_upgraded (c_meta r) <> None)) /\
  (forall b, f_dm f = Some b -> c_dm r = b) /\
  (forall b, f_invite f = Some b -> c_invite r = b) /\
  (f_name f <> "" -> substring (lower (f_name f)) (lower (display_name (c_meta r)))) /\
  (forall t, t ∈ f_not_tags f -> t ∉ c_tags r) /\
  (f_tags f <> [] -> exists t, t ∈ f_tags f /\ t ∈ c_tags r) /\
  m_type (c_meta r) ∉ f_not_types f /\
  (f_types f <> [] -> m_type (c_meta r) ∈ f_types f).
Definition in_spaces (f : filters) (r : conn_room) : Prop :=
  f_spaces f <> [] -> exists s, s ∈ f_spaces f /\ s ∈ c_spaces r.
Definition satisfies lower f r find : Prop := satisfies_but_spaces lower f r find /\ in_spaces f r.

(** What the filters mean in this program (compare [satisfies]; see C08). *)
Definition accepted lower f r find : Prop :=
  satisfies_but_spaces lower f r find /\ (f_types f = [] -> in_spaces f r).

(** ** Histories of one list *)
Inductive list_action :=
| DoAdd (room : string)
| DoRemove (room : string)
| DoSort (find : string -> option conn_room) (key : string) (sorts : list string).

Definition act (s : srooms) (a : list_action) : option srooms :=
  match a with
  | DoAdd x => Some (s_add s x).1
  | DoRemove x => Some (s_remove s x).1
  | DoSort find key sorts => fst <$> s_sort find key sorts s
  end.
Fixpoint acts (s : srooms) (l : list list_action) : option srooms :=
  match l with
  | [] => Some s
  | a :: l' => match act s a with Some s' => acts s' l' | None => None end
  end.

(** The rooms a list should have after some actions. *)
Definition rooms_after (before : gset string) (a : list_action) : gset string :=
  match a with
  | DoAdd x => before ∪ {[ x ]}
  | DoRemove x => before ∖ {[ x ]}
  | DoSort _ _ _ => before
  end.
