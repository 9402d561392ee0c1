(** Declarative vocabulary for windows. *)
From Verif Require Import Prelude RangeModel.
Open Scope Z_scope.

(** Position [i] is in some window. *)
Definition covers (r : ranges) (i : Z) : Prop := exists sr, sr ∈ r /\ sr.1 <= i <= sr.2.

(** What the API documents as acceptable windows: ordered, non-negative, and no
    position is in two of the list's windows. *)
Definition windows_ok (r : ranges) : Prop :=
  (forall sr, sr ∈ r -> 0 <= sr.1 <= sr.2) /\
  (forall (m n : nat) sr tr i, r !! m = Some sr -> r !! n = Some tr ->
     sr.1 <= i <= sr.2 -> tr.1 <= i <= tr.2 -> m = n).

(** The positions of the list covered by a window, in order of the window. *)
Definition window_positions (len : nat) (sr : range) : list Z :=
  filter (fun i => sr.1 <= i <= sr.2) (map Z.of_nat (seq 0 len)).

(** A window of one position which the other window set does not cover. *)
Definition lone (r other : ranges) (i : Z) : Prop := (i, i) ∈ r /\ ~ covers other i.

(** The positions of a list covered by some window. *)
Definition covered_positions (len : nat) (r : ranges) : list Z :=
  List.filter (fun i => existsb (fun sr => (sr.1 <=? i) && (i <=? sr.2)) r) (map Z.of_nat (seq 0 len)).
