(** Declarative vocabulary for list operations: the client and the change of
    the list. *)
From Verif Require Import Prelude RangeModel RangeSpec OpsModel.
Open Scope Z_scope.

(** What the client holds at each position, if anything. *)
Definition view := Z -> option string.

(** The client is right about every position in its windows: it holds the room
    the server's list has there. *)
Definition agrees (r : ranges) (l : list string) (v : view) : Prop :=
  forall i, covers r i -> i < Z.of_nat (length l) -> v i = get l i.

(** ** The client, as in MSC3575 / the JS SDK: a DELETE leaves a gap; an INSERT
    at an occupied position moves the rooms between that position and the gap
    one step towards the gap; a gap nobody fills is closed by moving all later
    rooms down. Only positions in the windows are kept. *)
Definition in_windows (r : ranges) (i : Z) : bool :=
  existsb (fun sr => (sr.1 <=? i) && (i <=? sr.2)) r.

Definition close_gap (r : ranges) (v : view) (gap : option Z) : view :=
  match gap with
  | None => v
  | Some g => fun i => if (g <=? i) && in_windows r i then v (i + 1) else v i
  end.

Definition client_op (r : ranges) (st : view * option Z) (o : resp_op) : view * option Z :=
  match o with
  | ONull => st
  | ODelete i =>
      let v := close_gap r st.1 st.2 in
      (fun j => if j =? i then None else v j, Some i)
  | OInsert i room =>
      let v := st.1 in
      let v' :=
        match v i, st.2 with
        | Some _, Some g =>
            fun j => if (i <? j) && (j <=? g) && in_windows r j then v (j - 1)
                     else if (g <=? j) && (j <? i) && in_windows r j then v (j + 1)
                     else v j
        | Some _, None =>
            fun j => if (i <? j) && in_windows r j then v (j - 1) else v j
        | None, _ => v
        end in
      (fun j => if j =? i then Some room else v' j, None)
  end.

(** One response. *)
Definition client_apply (r : ranges) (v : view) (os : list resp_op) : view :=
  let st := foldl (client_op r) (v, None) os in close_gap r st.1 st.2.

(** ** The change of the list: only [room] is added, removed or moved. *)
Inductive one_room_change (room : string) : list_op -> list string -> list string -> Prop :=
| change_add p q :
    room ∉ p ++ q -> one_room_change room OpAdd (p ++ q) (p ++ room :: q)
| change_del p q :
    room ∉ p ++ q -> one_room_change room OpDel (p ++ room :: q) (p ++ q)
| change_move p q p' q' :
    room ∉ p ++ q -> p ++ q = p' ++ q' ->
    one_room_change room OpChange (p ++ room :: q) (p' ++ room :: q').

(** [sort] does not disturb the order of the rooms other than [room]: what a
    stable sort does when only [room] changed since the last sort (C06). *)
Definition sort_moves_only (sort : list string -> list string) (l : list string)
    (room : string) (op : list_op) : Prop :=
  match op with
  | OpAdd => room ∉ l /\ one_room_change room OpChange (l ++ [room]) (sort (l ++ [room]))
  | OpDel => room ∈ l
  | OpChange => one_room_change room OpChange l (sort l)
  end.

(** A room is visible to the client: it is at a position in some window. *)
Definition visible (r : ranges) (l : list string) (room : string) : Prop :=
  exists i, covers r i /\ get l i = Some room.

(** A session: the list changes one room at a time, the client applies each
    response. *)
Inductive session (r : ranges) : list string -> view -> list string -> view -> Prop :=
| session_nil l v : session r l v l v
| session_step l v l1 os ss l2 v2 sort room op :
    sort_moves_only sort l room op ->
    calculate_list_ops r sort l room op = Some (l1, os, ss) ->
    session r l1 (client_apply r v os) l2 v2 ->
    session r l v l2 v2.
