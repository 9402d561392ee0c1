(** Model of windows: [sync3/range.go]. *)
From Verif Require Import Prelude.
Open Scope Z_scope.

(** sync3/range.go:14, SliceRanges: pairs [a, b]. *)
Notation range := (Z * Z)%type.
Notation ranges := (list range).

(** range.go:28-38: the two inner loops comparing [sr] with a later range. *)
Definition overlaps_check (sr tr : range) : bool :=
  existsb (fun v => (tr.1 <=? v) && (v <=? tr.2)) [sr.1; sr.2] ||
  existsb (fun v => (sr.1 <=? v) && (v <=? sr.2)) [tr.1; tr.2].

(** range.go:16-42, Valid. *)
Fixpoint valid (r : ranges) : bool :=
  match r with
  | [] => true
  | sr :: r' =>
      if sr.2 <? sr.1 then false
      else if sr.1 <? 0 then false
      else if existsb (overlaps_check sr) r' then false
      else valid r'
  end.

(** range.go:45-52, Inside. *)
Fixpoint inside (r : ranges) (i : Z) : option range :=
  match r with
  | [] => None
  | sr :: r' => if (sr.1 <=? i) && (i <=? sr.2) then Some sr else inside r' i
  end.

(** range.go:68-74: the boundaries in ascending order (sort.Slice of integers:
    the sorted permutation is unique). *)
Definition boundaries (r : ranges) : list Z :=
  merge_sort Z.le (concat (map (fun sr => [sr.1; sr.2]) r)).

(** range.go:78-92: loop towards zero. [j] is the loop index, [prev] is
    [indexes[j-1]] if j > 0. *)
Fixpoint closest_down (i : Z) (j : nat) (prev : option Z) (indexes : list Z) : option Z :=
  match indexes with
  | [] => prev              (* range.go:93: indexes[len(indexes)-1]; panics if empty *)
  | x :: rest =>
      if i <=? x then
        match prev with
        | None => if x =? i then Some x else Some (-1)
        | Some p => if Nat.even j && (x =? i) then Some x else Some p
        end
      else closest_down i (S j) (Some x) rest
  end.

(** range.go:96-112: loop towards infinity, over the reversed boundaries; [j]
    counts down and [next] is [indexes[j+1]] if there is one. *)
Fixpoint closest_up (i : Z) (next : option Z) (rev_indexes : list Z) : option Z :=
  match rev_indexes with
  | [] => next              (* range.go:113: indexes[0]; panics if empty *)
  | x :: rest =>
      if x <=? i then
        match next with
        | None => if x =? i then Some x else Some (-1)
        | Some n => if Nat.odd (length rest) && (x =? i) then Some x else Some n
        end
      else closest_up i (Some x) rest
  end.

(** range.go:66-115, ClosestInDirection; None is the panic for no ranges. *)
Definition closest_in_direction (r : ranges) (i : Z) (towards_zero : bool) : option Z :=
  if towards_zero then closest_down i 0 None (boundaries r)
  else closest_up i None (reverse (boundaries r)).

(** range.go:117-125, pointInfo. *)
Record point := mk_point { pt_x : Z; pt_old : bool; pt_open : bool }.

Definition point_same (p o : point) : bool :=
  (pt_x p =? pt_x o) && Bool.eqb (pt_old p) (pt_old o) && Bool.eqb (pt_open p) (pt_open o).

(** range.go:153-177: the points of old and new ranges. *)
Definition points_of (r : ranges) (old : bool) : list point :=
  concat (map (fun sr => [mk_point sr.1 old true; mk_point sr.2 old false]) r).

(** range.go:321-354, sortPoints: by x, opens before closes, old before new.
    Points which compare equal are identical, so sorting by this key is the
    result of any sorting algorithm. *)
Definition point_key (p : point) : Z :=
  4 * pt_x p + (if pt_open p then 0 else 2) + (if pt_old p then 0 else 1).
Definition point_le (p q : point) : Prop := point_key p <= point_key q.
Global Instance point_le_dec p q : Decision (point_le p q) := Z_le_dec _ _.
Definition sort_points (ps : list point) : list point := merge_sort point_le ps.

(** range.go:288-319, createRange. *)
Definition create_range (p last : point) (last_merged : option range) : option range :=
  if pt_x p <=? pt_x last then None
  else
    let start :=
      match last_merged with
      | Some m => if pt_x last <=? m.2 then pt_x last + 1
                  else if negb (pt_open last) then pt_x last + 1 else pt_x last
      | None => if negb (pt_open last) then pt_x last + 1 else pt_x last
      end in
    Some (start, if pt_open p then pt_x p - 1 else pt_x p).

(** The variables of the sweep loop (range.go:180-184); open points matter only
    by being nil or not. *)
Record sweep := mk_sweep {
  sw_old : bool; sw_new : bool; sw_last : option point; sw_merged : option range;
  sw_added : ranges; sw_removed : ranges; sw_same : ranges }.

(** range.go:207-227: emit a range. None: nil dereference of lastPoint. *)
Definition sweep_emit (s : sweep) (p : point) : option sweep :=
  if sw_new s && sw_old s then
    match sw_last s with
    | Some lp => let m := (pt_x lp, pt_x p) in
        Some (mk_sweep (sw_old s) (sw_new s) (sw_last s) (Some m)
               (sw_added s) (sw_removed s) (sw_same s ++ [m]))
    | None => None
    end
  else if sw_new s then
    match sw_last s with
    | Some lp =>
        match create_range p lp (sw_merged s) with
        | Some m => Some (mk_sweep (sw_old s) (sw_new s) (sw_last s) (Some m)
                           (sw_added s ++ [m]) (sw_removed s) (sw_same s))
        | None => Some s
        end
    | None => None
    end
  else if sw_old s then
    match sw_last s with
    | Some lp =>
        match create_range p lp (sw_merged s) with
        | Some m => Some (mk_sweep (sw_old s) (sw_new s) (sw_last s) (Some m)
                           (sw_added s) (sw_removed s ++ [m]) (sw_same s))
        | None => Some s
        end
    | None => None
    end
  else Some s.

(** range.go:230-252: remember the point. None: one of the two panics. *)
Definition sweep_remember (s : sweep) (p : point) : option sweep :=
  let set o n := Some (mk_sweep o n (Some p) (sw_merged s) (sw_added s) (sw_removed s) (sw_same s)) in
  if pt_open p then
    if (pt_old p && sw_old s) || (negb (pt_old p) && sw_new s) then None
    else if pt_old p then set true (sw_new s) else set (sw_old s) true
  else
    if (pt_old p && negb (sw_old s)) || (negb (pt_old p) && negb (sw_new s)) then None
    else if pt_old p then set false (sw_new s) else set (sw_old s) false.

(** range.go:186-253: one iteration. *)
Definition sweep_step (s : sweep) (p : point) : option sweep :=
  if match sw_last s with Some lp => point_same p lp | None => false end then Some s
  else match sweep_emit s p with
       | Some s1 => sweep_remember s1 p
       | None => None
       end.

Fixpoint sweep_run (s : sweep) (ps : list point) : option sweep :=
  match ps with
  | [] => Some s
  | p :: ps' => match sweep_step s p with Some s' => sweep_run s' ps' | None => None end
  end.

(** range.go:129-255, Delta: (added, removed, same); None is a panic. *)
Definition delta (r next : ranges) : option (ranges * ranges * ranges) :=
  if bool_decide (r = next) then Some ([], [], next)      (* range.go:134-146 *)
  else match sweep_run (mk_sweep false false None None [] [] [])
               (sort_points (points_of r true ++ points_of next false)) with
       | Some s => Some (sw_added s, sw_removed s, sw_same s)
       | None => None
       end.

(** Go's slice expression [s[i:j]]; None is the out-of-range panic. *)
Definition go_slice {A} (l : list A) (i j : Z) : option (list A) :=
  if (0 <=? i) && (i <=? j) && (j <=? Z.of_nat (length l))
  then Some (take (Z.to_nat (j - i)) (drop (Z.to_nat i) l)) else None.

(** sync3/sort.go:80-87, Subslice. The Assert (i < j within bounds) panics only
    in debug mode; it is modelled as a panic. *)
Definition subslice {A} (l : list A) (i j : Z) : option (list A) :=
  if (i <? j) && (i <? Z.of_nat (length l)) && (j <=? Z.of_nat (length l))
  then go_slice l i j else None.

(** range.go:258-282, SliceInto. *)
Fixpoint slice_into {A} (r : ranges) (l : list A) : option (list (list A)) :=
  match r with
  | [] => Some []
  | sr :: r' =>
      let n := Z.of_nat (length l) in
      if n =? 0 then slice_into r' l
      else if (n <=? sr.1) && (n <=? sr.2) then slice_into r' l
      else
        let a := if n <=? sr.1 then n - 1 else sr.1 in
        let b := if n <=? sr.2 then n - 1 else sr.2 in
        match subslice l a (b + 1), slice_into r' l with
        | Some s, Some rest => Some (s :: rest)
        | _, _ => None
        end
  end.
