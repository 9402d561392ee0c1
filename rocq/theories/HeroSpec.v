(** What is said about connections of one user that handle the same update. *)
From Verif Require Import Prelude HeroModel.
Open Scope string_scope. Open Scope list_scope. Open Scope nat_scope.

(** The heroes of a room for a user are the others. *)
Definition others (user : string) (heroes : list hero) : list hero := filter (fun h => h.1 <> user) heroes.
(** Nothing went wrong for connection [k]: it did not crash, if it told the client the room's heroes these were the
    others, and so were those the name was made of, and if it did not, the client knew. *)
Definition right (user : string) (heroes : list hero) (stored : nat -> list hero) (s : shared) (k : nat) : Prop :=
  match where_ s k with
  | Panicked => False
  | Sent named hs => named = others user heroes /\ hs = others user heroes
  | Same => stored k = others user heroes
  | _ => True
  end.
(** The connection is at work on the update: it has begun, and its response is not yet ready to be sent. *)
Definition busy (s : shared) (k : nat) : Prop :=
  match where_ s k with Start | Named _ _ | Sent _ _ | Same | Panicked => False | _ => True end.
(** At no time are two connections at work on it. *)
Definition in_turn (user : string) (stored : nat -> list hero) (s : shared) (l : list nat) : Prop :=
  forall l1 l2, l = l1 ++ l2 -> forall k k', busy (steps user stored s l1) k -> busy (steps user stored s l1) k' -> k = k'.
