(** Properties of windows (C04, C05). *)
From Verif Require Import Prelude RangeModel RangeSpec RangeProofs.
Open Scope Z_scope.

(** C04. The validation accepts exactly the ordered, non-negative window lists
    in which no position is in two windows. *)
Theorem C04_validation_is_exact : forall r, valid r = true <-> windows_ok r.
Proof. exact valid_spec. Qed.
Print Assumptions C04_validation_is_exact.

(** C04. Looking up the window of a position finds one exactly when it is covered. *)
Theorem C04_inside_is_exact :
  forall r i, match inside r i with
              | Some sr => sr ∈ r /\ sr.1 <= i <= sr.2
              | None => ~ covers r i
              end.
Proof. exact inside_spec. Qed.
Print Assumptions C04_inside_is_exact.

(** C04. Slicing by accepted windows is never out of bounds, and gives for each
    window that starts inside the list the rooms at its positions in order. *)
Theorem C04_slices_are_the_windows :
  forall (A : Type) (r : ranges) (l : list A), valid r = true ->
  slice_into r l =
    Some (map (fun sr => omap (fun i => l !! Z.to_nat i) (window_positions (length l) sr))
              (filter (fun sr => sr.1 < Z.of_nat (length l)) r)).
Proof. intros A r l Hv. apply slice_into_spec. by apply valid_spec. Qed.
Print Assumptions C04_slices_are_the_windows.

(** C04. All slices together hold each covered position of the list exactly once. *)
Theorem C04_every_covered_position_once :
  forall (A : Type) (r : ranges) (l : list A) ss, valid r = true -> slice_into r l = Some ss ->
  concat ss ≡ₚ omap (fun i => l !! Z.to_nat i) (covered_positions (length l) r).
Proof. intros A r l ss Hv. apply slices_cover_once. by apply valid_spec. Qed.
Print Assumptions C04_every_covered_position_once.

Example C04_example :
  valid [(5, 9); (0, 1); (20, 30)] = true /\ valid [(0, 5); (5, 9)] = false /\
  valid [(3, 2)] = false /\ valid [(-1, 2)] = false /\
  slice_into [(5, 9); (0, 1); (20, 30)] [10; 11; 12; 13; 14; 15; 16] = Some [[15; 16]; [10; 11]].
Proof. vm_compute. done. Qed.

(** C05, exact characterisation. For every pair of accepted window lists the
    computation does not panic; "same" is exactly the common positions, and
    "added" ("removed") exactly the positions only in the new (old) windows,
    except those that form a window of their own of one position. *)
Theorem C05_delta_characterisation :
  forall r nx, valid r = true -> valid nx = true ->
  exists added removed same,
    delta r nx = Some (added, removed, same) /\
    (forall i, covers added i <-> (covers nx i /\ ~ covers r i) /\ ~ lone nx r i) /\
    (forall i, covers removed i <-> (covers r i /\ ~ covers nx i) /\ ~ lone r nx i) /\
    (forall i, covers same i <-> covers r i /\ covers nx i).
Proof. intros r nx H1 H2. apply delta_spec_full; by apply valid_spec. Qed.
Print Assumptions C05_delta_characterisation.

(** C05 at full strength holds when no one-position window lies wholly outside
    the other window list. Missing: those windows (see the refutation). *)
Theorem C05_delta_exact_partial :
  forall r nx, valid r = true -> valid nx = true ->
  (forall i, (i, i) ∈ nx -> covers r i) -> (forall i, (i, i) ∈ r -> covers nx i) ->
  exists added removed same,
    delta r nx = Some (added, removed, same) /\
    (forall i, covers added i <-> covers nx i /\ ~ covers r i) /\
    (forall i, covers removed i <-> covers r i /\ ~ covers nx i) /\
    (forall i, covers same i <-> covers r i /\ covers nx i).
Proof. intros r nx H1 H2. apply delta_exact_wide; by apply valid_spec. Qed.
Print Assumptions C05_delta_exact_partial.

Example C05_example :
  (valid [(0, 20); (40, 60)] && valid [(10, 30); (60, 60); (61, 70)],
   delta [(0, 20); (40, 60)] [(10, 30); (60, 60); (61, 70)])
  = (true, Some ([(21, 30); (61, 70)], [(0, 9); (40, 59)], [(10, 20); (60, 60)])).
Proof. vm_compute. done. Qed.

(** C05 is false in general: adding a one-position window reports nothing added,
    so the client never gets the rooms of that window. *)
Theorem C05_one_position_window_refuted :
  exists r nx added removed same i,
    valid r = true /\ valid nx = true /\ delta r nx = Some (added, removed, same) /\
    covers nx i /\ ~ covers r i /\ ~ covers added i.
Proof.
  exists [(0, 3)], [(0, 3); (5, 5)], [], [], [(0, 3)], 5.
  split_and!; [vm_compute; done..| | |].
  - exists (5, 5). cbn. split; [set_solver|lia].
  - intros (sr & Hin & H). apply elem_of_list_singleton in Hin as ->. cbn in H. lia.
  - apply covers_nil.
Qed.
Print Assumptions C05_one_position_window_refuted.
