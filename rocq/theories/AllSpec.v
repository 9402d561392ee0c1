(** What it means that a client gets all rooms of a list. *)
From Verif Require Import Prelude RangeModel OpsModel RoomNameModel ListsModel ListsSpec LiveListModel LiveListSpec FltSpec AllModel.
Open Scope string_scope.
Open Scope list_scope.
Open Scope Z_scope.

(** The lists, the effective requests, and the rooms the client was sent as a whole for
    each list since the list was made. *)
Record aworld := mk_aworld {
  a_lists : rlists;
  a_reqs : gmap string req_list;
  a_sent : string -> list string
}.
Definition new_aworld : aworld := mk_aworld new_rlists ∅ (fun _ => []).

Definition add_sent (sent : string -> list string) (out : list (string * list string)) : string -> list string :=
  fun k => sent k ++ concat (map snd (filter (fun p : string * list string => p.1 = k) out)).

(** One thing that happens. A request is told apart by its list and what it asks for. *)
Inductive goes (lower : string -> string) : aworld -> option (string * req_list) -> aworld -> Prop :=
| goes_update ord w r s' out :
    (forall l, ord l ≡ₚ l) ->
    update_subs lower ord (a_lists w) (a_reqs w) r = Some (s', out) ->
    goes lower w None (mk_aworld s' (a_reqs w) (add_sent (a_sent w) out))
| goes_request ord w key next chg s' ms subs :
    (forall l, ord l ≡ₚ l) ->
    list_request lower ord (a_lists w) key (a_reqs w !! key) next chg = Some (s', ms, subs) ->
    goes lower w (Some (key, next))
      (mk_aworld s' (<[key := next]> (a_reqs w))
         (fun k => if String.eqb k key
                   then match l_lists (a_lists w) !! key with Some _ => a_sent w key ++ subs | None => subs end
                   else a_sent w k))
| goes_delete w key :
    goes lower w None (mk_aworld (delete_list (a_lists w) key) (delete key (a_reqs w))
                         (fun k => if String.eqb k key then [] else a_sent w k)).

(** Any number of steps, all of which are fine with [P]. *)
Inductive tale (lower : string -> string) (P : aworld -> option (string * req_list) -> aworld -> Prop) : aworld -> aworld -> Prop :=
| tale_nil w : tale lower P w w
| tale_step w1 w2 w3 l : tale lower P w1 w2 -> goes lower w2 l w3 -> P w2 l w3 -> tale lower P w1 w3.

(** The client always asks for all rooms of this list, in an order that exists. *)
Definition all_rooms (key : string) (w : aworld) (l : option (string * req_list)) (w' : aworld) : Prop :=
  match l with Some (k, next) => k = key -> q_all next = true /\ Forall known_sort (q_sort next) | None => True end.
(** The client always asks for the same filters in this list. *)
Definition same_filters (key : string) (f : filters) (w : aworld) (l : option (string * req_list)) (w' : aworld) : Prop :=
  match l with Some (k, next) => k = key -> wanted next = f | None => True end.
(** The user does not come into or go from the room that replaces [x] (as in C92). *)
Definition no_successor (x : string) (w : aworld) (l : option (string * req_list)) (w' : aworld) : Prop :=
  steady x (mk_world (a_lists w) ∅ (fun _ _ => None)) (mk_world (a_lists w') ∅ (fun _ _ => None)).
