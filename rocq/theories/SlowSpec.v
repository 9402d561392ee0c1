(** What a client relies on whose neighbours do not read their connections. *)
From Verif Require Import Prelude SlowModel.
Open Scope string_scope. Open Scope list_scope. Open Scope nat_scope.

(** The updates connection [k] is to get: the numbers of the notifications, as often as they
    have updates for it, in order. *)
Fixpoint meant_for (k : string) (l : list (nat * note)) : list nat :=
  match l with
  | [] => []
  | (_, o) :: l => map (fun _ => o_id o) (List.filter (fun k' => bool_decide (k' = k)) (o_to o)) ++ meant_for k l
  end.
(** Who does not read. *)
Definition silent (cs : gmap string conn) (k : string) : Prop := exists c, cs !! k = Some c /\ n_reads c = false /\ n_full c = false.
(** The calls come one after the other: none begins before the one before has returned. *)
Fixpoint one_by_one (returned : nat) (l : list (nat * note)) (rs : list (nat * bool)) : Prop :=
  match l, rs with
  | (now, _) :: l, (t, _) :: rs => returned <= now /\ one_by_one t l rs
  | _, _ => True
  end.
(** The calls are in the order of their times. *)
Fixpoint in_order (t : nat) (l : list (nat * note)) : Prop :=
  match l with [] => True | (now, _) :: l => t <= now /\ in_order now l end.
(** All notifications got in. *)
Definition none_refused (rs : list (nat * bool)) : Prop := Forall (fun r => r.2 = true) rs.
(** Handling a notification that got in never takes longer than a call of Notify waits. *)
Fixpoint quick (size room : nat) (s : state) (l : list (nat * note)) : Prop :=
  match l with
  | [] => True
  | (now, o) :: l =>
      (let '(s', r) := notify size room s now o in r.2 = true -> s_free s' <= hd 0 (s_taken s') + 5000) /\
      quick size room (notify size room s now o).1 l
  end.

(** How many connections are not read and not yet full. *)
Definition is_silent (kc : string * conn) : Prop := n_reads kc.2 = false /\ n_full kc.2 = false.
Global Instance is_silent_dec kc : Decision (is_silent kc).
Proof. unfold is_silent. apply _. Defined.
Definition silents (cs : gmap string conn) : nat := size (filter is_silent cs).
(** How long the handling of the notifications waits for connections that are not read. *)
Fixpoint waiting (size room : nat) (s : state) (l : list (nat * note)) : nat :=
  match l with
  | [] => 0
  | (now, o) :: l =>
      (if (notify size room s now o).2.2 then (emit size (s_conns s) (o_id o) (o_to o)).2 else 0) + waiting size room (notify size room s now o).1 l
  end.
