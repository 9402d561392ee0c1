(** Properties of room names (C45). *)
From Verif Require Import Prelude RoomNameModel RoomNameSpec RoomNameProofs.
From stdpp Require Import pretty.
Open Scope string_scope.
Open Scope list_scope.
Open Scope Z_scope.

(** C45. For every metadata, every hero limit that is not negative and every
    order of map iteration the name is computed without a panic, and is the one
    the rules of [name_is] give. *)
Theorem C45_name_follows_the_rules :
  forall ord m limit, (forall l, ord l ≡ₚ l) -> 0 <= limit ->
  exists s b, room_name ord m limit = Some (s, b) /\ name_is m limit s.
Proof. exact name_ok. Qed.
Print Assumptions C45_name_follows_the_rules.

(** C45. The rules leave no choice. *)
Theorem C45_rules_are_deterministic :
  forall m limit s1 s2, 0 <= limit -> name_is m limit s1 -> name_is m limit s2 -> s1 = s2.
Proof. exact name_unique. Qed.
Print Assumptions C45_rules_are_deterministic.

(** C45. When the server finds that nothing relevant to the name changed, the
    name is indeed the same. *)
Theorem C45_unchanged_fields_unchanged_name :
  forall ord m o limit, (forall l, ord l ≡ₚ l) ->
  same_room_name m o = true -> room_name ord m limit = room_name ord o limit.
Proof. exact same_room_name_same. Qed.
Print Assumptions C45_unchanged_fields_unchanged_name.

Definition people (l : list (string * string)) (j i : Z) : room_meta :=
  mk_meta "!r" (map (fun '(a, b) => mk_hero a b "") l) "" "" "" j i 0 ∅ false None None None ∅.

Example C45_example :
  map (fun m => room_name id m 2)
    [people [("@a", "Al"); ("@b", "Bo"); ("@c", "Al")] 4 0;
     people [("@a", "Al"); ("@b", ""); ("@c", "Al")] 9 2;
     people [("@a", "Al"); ("@b", "Bo")] 1 0;
     people [] 1 0; people [] 3 0]
  = [Some ("Al (@a), Bo and Al (@c)", true);
     Some ("Al (@a), @b and 8 others", true);
     Some ("Empty Room (was Al and Bo)", true);
     Some ("Empty Room", false);
     Some (" and 2 others", true)].
Proof. vm_compute. done. Qed.

(** C45 as written is false twice. First: the limit on names is not applied when
    all other members are heroes. *)
Theorem C45_limit_on_names_refuted :
  exists m, length (m_heroes m) = 3%nat /\ room_name id m 2 = Some ("A, B and C", true).
Proof. exists (people [("@a", "A"); ("@b", "B"); ("@c", "C")] 4 0). vm_compute. done. Qed.
Print Assumptions C45_limit_on_names_refuted.

(** Second: a room in which the user is alone and which has one hero is named
    after that hero, not "Empty Room (was ...)". *)
Theorem C45_alone_with_one_hero_refuted :
  exists m, m_join m + m_invite m <= 1 /\ length (m_heroes m) = 1%nat /\
  room_name id m 5 = Some ("Al", true).
Proof. exists (people [("@a", "Al")] 1 0). vm_compute. done. Qed.
Print Assumptions C45_alone_with_one_hero_refuted.
