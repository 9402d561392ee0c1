(** Model of live list operations: [sync3/ops.go] and the index arithmetic of
    [sync3/request.go].

    Simplifications: Go's [int]/[int64] are unbounded integers (a list index
    cannot overflow). The list is given by the room IDs in order; that its
    index map agrees with the order is C06 (SortProps.v). *)
From Verif Require Import Prelude RangeModel.
Open Scope Z_scope.

(** sync3/lists.go:18-27, ListOp. *)
Inductive list_op := OpAdd | OpDel | OpChange.
Global Instance list_op_eq_dec : EqDecision list_op.
Proof. solve_decision. Defined.

(** sync3/response.go ResponseOpSingle. [ONull] is the nil pointer which
    WriteDeleteOp / WriteInsertOp return (JSON null). *)
Inductive resp_op := ODelete (i : Z) | OInsert (i : Z) (room : string) | ONull.

(** sort.go:32-35, IndexOf. *)
Fixpoint index_of (l : list string) (room : string) : option Z :=
  match l with
  | [] => None
  | x :: l' => if String.eqb x room then Some 0 else option_map (Z.add 1) (index_of l' room)
  end.

(** sort.go:56-60, Get. None: index out of range (a panic). *)
Definition get (l : list string) (i : Z) : option string :=
  if 0 <=? i then l !! Z.to_nat i else None.

(** sort.go:46-54, Add: appends, unless the room is there. The filter of
    FilteredSortableRooms.Add (sort.go:240-246) is evaluated by the caller
    (lists.go:126) on the same room and is true here. *)
Definition list_add (l : list string) (room : string) : list string :=
  if index_of l room then l else l ++ [room].

(** sort.go:62-75, Remove. *)
Definition list_remove (l : list string) (room : string) : list string :=
  match index_of l room with
  | Some i => take (Z.to_nat i) l ++ drop (Z.to_nat i + 1) l
  | None => l
  end.

(** request.go:126-139, WriteDeleteOp. *)
Definition write_delete_op (r : ranges) (i : Z) : resp_op :=
  if i <? 0 then ONull
  else match inside r i with Some _ => ODelete i | None => ONull end.

(** request.go:247-261, WriteSwapOp: never nil. *)
Definition write_swap_op (room : string) (from to : Z) : list resp_op :=
  [ODelete from; OInsert to room].

(** request.go:222-235, jumpedOverRanges. *)
Definition jumped_over (r : ranges) (from to : Z) : ranges :=
  let hi := if from <? to then to else from in
  let lo := if from <? to then from else to in
  List.filter (fun sr => (lo <? sr.1) && (sr.1 <? hi) && (lo <? sr.2) && (sr.2 <? hi)) r.

(** request.go:173-178 and 205-210: the indexes for a jumped over range. *)
Definition jump_index (from to : Z) (sr : range) : Z * Z :=
  if to <? from then (sr.2, sr.1) else (sr.1, sr.2).

(** request.go:143-220, CalculateMoveIndexes. None: ClosestInDirection indexes
    an empty slice (a panic). *)
Definition move_indexes (r : ranges) (from to : Z) : option (list (Z * Z)) :=
  let jumps := map (jump_index from to) (jumped_over r from to) in
  match inside r from, inside r to with
  | None, None => Some jumps                                        (* case C *)
  | Some fr, Some tr =>
      if bool_decide (fr = tr) then Some [(from, to)]               (* case A *)
      else match closest_in_direction r from (to <? from),
                 closest_in_direction r to (from <? to) with
           | Some a, Some b => Some ((from, a) :: (b, to) :: jumps)
           | _, _ => None
           end
  | Some _, None => match closest_in_direction r from (to <? from) with
                    | Some a => Some ((from, a) :: jumps)
                    | None => None
                    end
  | None, Some _ => match closest_in_direction r to (from <? to) with
                    | Some b => Some ((b, to) :: jumps)
                    | None => None
                    end
  end.

(** ops.go:83-139: the loop body. [new] is the modified list, [single] is
    len(listFromTos) == 1. [swapOp == nil] (ops.go:136) never holds.
    None: Get panics. *)
Definition move_ops (r : ranges) (new : list string) (room : string) (op : list_op)
    (to : Z) (was : bool) (single : bool) (m : Z * Z) : option (list resp_op * list string) :=
  let inserted := m.2 =? to in
  match get new m.2 with
  | None => None
  | Some to_room =>
      if String.eqb to_room room && (m.1 =? m.2) && bool_decide (op = OpChange) && was && single
      then Some ([], [])
      else if inserted && bool_decide (op = OpDel) &&
           (String.eqb to_room room ||
            ((m.2 =? Z.of_nat (length new) - 1) &&
             match inside r (Z.of_nat (length new)) with Some _ => true | None => false end))
      then Some ([write_delete_op r m.1], [])
      else
        let added := negb inserted || negb was in
        Some (write_swap_op to_room m.1 m.2,
              (if added then [to_room] else []) ++
              (if inserted && bool_decide (op = OpAdd) && negb added then [to_room] else []))
  end.

Fixpoint moves_ops (r : ranges) (new : list string) (room : string) (op : list_op)
    (to : Z) (was : bool) (single : bool) (ms : list (Z * Z)) : option (list resp_op * list string) :=
  match ms with
  | [] => Some ([], [])
  | m :: ms' =>
      match move_ops r new room op to was single m, moves_ops r new room op to was single ms' with
      | Some (o, s), Some (os, ss) => Some (o ++ os, s ++ ss)
      | _, _ => None
      end
  end.

(** ops.go:32-142, CalculateListOps. [sort] is the effect of list.Sort on the
    order of the rooms. Result: the modified list, the operations and the new
    room subscriptions; None is a panic. *)
Definition calculate_list_ops (r : ranges) (sort : list string -> list string)
    (l : list string) (room : string) (op : list_op)
    : option (list string * list resp_op * list string) :=
  match index_of l room, op with
  | None, OpDel | None, OpChange => Some (l, [], [])
  | ofrom, _ =>
      let from := default (Z.of_nat (length l)) ofrom in
      let was := match op with
                 | OpAdd => false
                 | _ => match inside r from with Some _ => true | None => false end
                 end in
      let new := match op with
                 | OpAdd => sort (list_add l room)
                 | OpDel => list_remove l room
                 | OpChange => sort l
                 end in
      let to := match op with
                | OpDel => Z.of_nat (length new) - 1
                | _ => default 0 (index_of new room)
                end in
      if to =? -1 then Some (new, [write_delete_op r 0], [])       (* ops.go:61-65 *)
      else match move_indexes r from to with
           | None => None
           | Some ms =>
               match moves_ops r new room op to was (length ms =? 1)%nat ms with
               | Some (os, ss) => Some (new, os, ss)
               | None => None
               end
           end
  end.
