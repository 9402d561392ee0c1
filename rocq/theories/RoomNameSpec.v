(** Declarative vocabulary for room names. *)
From Verif Require Import Prelude RoomNameModel.
From stdpp Require Import pretty.
Open Scope string_scope.
Open Scope list_scope.
Open Scope Z_scope.

(** The display names of the heroes: a hero's own name (or ID when they have
    none), with the ID added for those who share it with another hero. *)
Definition shown_name (heroes : list hero) (h : hero) : string :=
  if (length (filter (fun g => hero_name g = hero_name h) heroes) =? 1)%nat
  then hero_name h else full_name h.
Definition shown_names (heroes : list hero) : list string := map (shown_name heroes) heroes.

(** "a, b and c". *)
Definition and_list (front : list string) (final : string) : string :=
  (go_join ", " front ++ " and " ++ final)%string.

(** The name of a room, by the rules of the Matrix specification as the comments
    in the code quote them. [others] is the number of other members. *)
Inductive name_is (m : room_meta) (limit : Z) : string -> Prop :=
| name_explicit :
    m_name m <> "" -> name_is m limit (m_name m)
| name_alias :
    m_name m = "" -> m_alias m <> "" -> name_is m limit (m_alias m)
| name_empty :
    m_name m = "" -> m_alias m = "" -> m_heroes m = [] -> m_join m + m_invite m <= 1 ->
    name_is m limit "Empty Room"
| name_one_hero h :
    m_name m = "" -> m_alias m = "" -> m_heroes m = [h] -> m_join m + m_invite m - 1 <= 1 ->
    name_is m limit (hero_name h)
| name_all_heroes front final :
    m_name m = "" -> m_alias m = "" -> shown_names (m_heroes m) = front ++ [final] -> front <> [] ->
    1 < m_join m + m_invite m <= Z.of_nat (length (m_heroes m)) + 1 ->
    name_is m limit (and_list front final)
| name_was front final :
    m_name m = "" -> m_alias m = "" -> shown_names (m_heroes m) = front ++ [final] -> front <> [] ->
    m_join m + m_invite m <= 1 ->
    name_is m limit ("Empty Room (was " ++ and_list front final ++ ")")%string
| name_some_heroes k :
    m_name m = "" -> m_alias m = "" ->
    Z.of_nat (length (m_heroes m)) < m_join m + m_invite m - 1 ->
    Z.of_nat k = Z.min (Z.of_nat (length (m_heroes m))) limit ->
    name_is m limit (and_list (take k (shown_names (m_heroes m)))
      (pretty (m_join m + m_invite m - 1 - Z.of_nat k) ++ " others"))%string.
