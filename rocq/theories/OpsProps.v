(** Properties of live list operations (C01, C02, C03, C60). *)
From Verif Require Import Prelude RangeModel RangeSpec RangeProofs OpsModel OpsSpec OpsProofs2.
Open Scope Z_scope.

(** C01, one change. Take any accepted windows, any list without duplicates and
    any add, remove or re-sort of one room. If the server answers, the list it
    now has differs from the old one only by that room, and a client which was
    right about all positions in its windows and applies the answer is right
    about all of them again. *)
Theorem C01_client_matches_server_after_one_change :
  forall r sort l room op l1 os ss v,
  valid r = true -> NoDup l -> sort_moves_only sort l room op ->
  calculate_list_ops r sort l room op = Some (l1, os, ss) ->
  one_room_change room op l l1 /\
  (agrees r l v -> agrees r l1 (client_apply r v os)).
Proof.
  intros r sort l room op l1 os ss v Hv Hnd Hs Hc. apply valid_spec in Hv.
  destruct (calc_ok r sort l room op l1 os ss Hv Hnd Hs Hc) as (H1 & H2 & _). split; [done|by apply H2].
Qed.
Print Assumptions C01_client_matches_server_after_one_change.

(** C01, whole history. After any number of answered changes the client is
    still right about every position in its windows. *)
Theorem C01_client_matches_server_forever :
  forall r l v l' v',
  valid r = true -> NoDup l -> session r l v l' v' -> agrees r l v -> agrees r l' v'.
Proof. intros r l v l' v' Hv. apply session_agrees. by apply valid_spec. Qed.
Print Assumptions C01_client_matches_server_forever.

(** A removal or re-sort of a room that is not listed changes and sends nothing. *)
Theorem C01_unlisted_room_changes_nothing :
  forall r sort l room op, room ∉ l -> op <> OpAdd ->
  calculate_list_ops r sort l room op = Some (l, [], []).
Proof. exact calc_absent. Qed.
Print Assumptions C01_unlisted_room_changes_nothing.

Definition to_front (room : string) (l : list string) : list string :=
  room :: filter (fun x => x <> room) l.

(** A bump to the top across two windows with a gap between them. *)
Example C01_example :
  valid [(0, 1); (3, 4)] = true /\
  calculate_list_ops [(0, 1); (3, 4)] (to_front "f") ["a"; "b"; "c"; "d"; "e"; "f"]%string "f"%string OpChange =
  Some (["f"; "a"; "b"; "c"; "d"; "e"]%string,
        [ODelete 1; OInsert 0 "f"; ODelete 4; OInsert 3 "c"]%string, ["f"; "c"]%string) /\
  let l := ["a"; "b"; "c"; "d"; "e"; "f"]%string in
  map (client_apply [(0, 1); (3, 4)] (get l) [ODelete 1; OInsert 0 "f"; ODelete 4; OInsert 3 "c"]%string) [0; 1; 3; 4]
  = [Some "f"; Some "a"; Some "c"; Some "d"]%string.
Proof. vm_compute. done. Qed.

Example C01_example_hypotheses :
  NoDup ["a"; "b"; "c"; "d"; "e"; "f"]%string /\
  sort_moves_only (to_front "f") ["a"; "b"; "c"; "d"; "e"; "f"]%string "f"%string OpChange.
Proof.
  split; [by apply (bool_decide_unpack _)|].
  change (one_room_change "f"%string OpChange (["a"; "b"; "c"; "d"; "e"]%string ++ "f"%string :: [])
            ([] ++ "f"%string :: ["a"; "b"; "c"; "d"; "e"]%string)).
  constructor; [by apply (bool_decide_unpack _)|done].
Qed.

(** C02, soundness. Every room the server starts sending details for because of
    a change is at a position in the client's windows. *)
Theorem C02_new_subscriptions_are_visible :
  forall r sort l room op l1 os ss x,
  valid r = true -> NoDup l -> sort_moves_only sort l room op ->
  calculate_list_ops r sort l room op = Some (l1, os, ss) -> x ∈ ss -> visible r l1 x.
Proof.
  intros r sort l room op l1 os ss x Hv Hnd Hs Hc. apply valid_spec in Hv.
  destruct (calc_ok r sort l room op l1 os ss Hv Hnd Hs Hc) as (_ & _ & H & _). apply H.
Qed.
Print Assumptions C02_new_subscriptions_are_visible.

(** C02, completeness. A room that comes into view gets its details sent.
    Missing: removal of a visible room where the last room of the list is in
    view and the old last position was not (see the refutation). *)
Theorem C02_rooms_coming_into_view_are_announced_partial :
  forall r sort l room op l1 os ss x,
  valid r = true -> NoDup l -> sort_moves_only sort l room op ->
  calculate_list_ops r sort l room op = Some (l1, os, ss) ->
  ~ (op = OpDel /\ visible r l room /\
     covers r (Z.of_nat (length l1) - 1) /\ ~ covers r (Z.of_nat (length l1))) ->
  visible r l1 x -> ~ visible r l x -> x ∈ ss.
Proof.
  intros r sort l room op l1 os ss x Hv Hnd Hs Hc Hex Hx Hnx. apply valid_spec in Hv.
  destruct (calc_ok r sort l room op l1 os ss Hv Hnd Hs Hc) as (_ & _ & _ & H & _).
  apply H; [done|done|]. intros (Hop & (f & Hf & Hcf) & H1 & H2). apply Hex.
  split_and!; [done| |done|done]. exists f. done.
Qed.
Print Assumptions C02_rooms_coming_into_view_are_announced_partial.

(** The refutation: window 0-2 over a, b, c, d. The client's user leaves a. The
    answer puts d at position 2 but d is not announced: the client has a room ID
    in its window and never gets that room's details. *)
Theorem C02_missing_announcement_refuted :
  exists r sort l room op l1 os ss x,
  valid r = true /\ NoDup l /\ sort_moves_only sort l room op /\
  calculate_list_ops r sort l room op = Some (l1, os, ss) /\
  visible r l1 x /\ ~ visible r l x /\ x ∉ ss.
Proof.
  exists [(0, 2)], id, ["a"; "b"; "c"; "d"]%string, "a"%string, OpDel, ["b"; "c"; "d"]%string,
    [ODelete 0; OInsert 2 "d"]%string, [], "d"%string.
  split_and!; [done|by apply (bool_decide_unpack _)|by left|by vm_compute|..].
  - exists 2. split; [|done]. exists (0, 2). split; [by left|cbn; lia].
  - intros (i & (sr & Hsr & Hi) & Hg). apply elem_of_list_singleton in Hsr as ->. cbn in Hi.
    assert (i = 0 \/ i = 1 \/ i = 2) as [->|[->| ->]] by lia; done.
  - apply not_elem_of_nil.
Qed.
Print Assumptions C02_missing_announcement_refuted.

(** C03, exact characterisation. Computing the answer crashes exactly when the
    removed room is the last of several and a window starts at its position. *)
Theorem C03_crash_characterisation :
  forall r sort l room op,
  valid r = true -> NoDup l -> sort_moves_only sort l room op ->
  calculate_list_ops r sort l room op = None <->
  op = OpDel /\ (1 < length l)%nat /\ get l (Z.of_nat (length l) - 1) = Some room /\
  exists sr, sr ∈ r /\ sr.1 = Z.of_nat (length l) - 1.
Proof. intros r sort l room op Hv. apply calc_panic. by apply valid_spec. Qed.
Print Assumptions C03_crash_characterisation.

(** C03 holds for every add and re-sort, and for every removal when all windows
    start at position 0 or after the end of the list. Missing: windows which
    start at the last room of the list when that room is removed. *)
Theorem C03_never_crashes_partial :
  forall r sort l room op,
  valid r = true -> NoDup l -> sort_moves_only sort l room op ->
  (op = OpDel -> forall sr, sr ∈ r -> sr.1 = 0 \/ Z.of_nat (length l) <= sr.1) ->
  exists l1 os ss, calculate_list_ops r sort l room op = Some (l1, os, ss).
Proof.
  intros r sort l room op Hv Hnd Hs Hw.
  destruct (calculate_list_ops r sort l room op) as [[[l1 os] ss]|] eqn:E; [eauto|].
  apply valid_spec in Hv. apply calc_panic in E as (Hop & Hlen & _ & sr & Hsr & H1); [|done..].
  destruct (Hw Hop sr Hsr); lia.
Qed.
Print Assumptions C03_never_crashes_partial.

Theorem C03_crash_refuted :
  exists r sort l room op,
  valid r = true /\ NoDup l /\ sort_moves_only sort l room op /\
  calculate_list_ops r sort l room op = None.
Proof.
  exists [(0, 0); (2, 5)], id, ["a"; "b"; "c"]%string, "c"%string, OpDel.
  split_and!; [done|by apply (bool_decide_unpack _)| |by vm_compute].
  right. right. by left.
Qed.
Print Assumptions C03_crash_refuted.

(** C60. Every operation sent is a DELETE at a position in the windows or an
    INSERT at a position in the windows of the room the list has there; a null
    operation appears only when the only room is removed and position 0 is not
    in the windows. *)
Theorem C60_operations_characterisation :
  forall r sort l room op l1 os ss o,
  valid r = true -> NoDup l -> sort_moves_only sort l room op ->
  calculate_list_ops r sort l room op = Some (l1, os, ss) -> o ∈ os ->
  match o with
  | ODelete i => covers r i
  | OInsert i x => covers r i /\ get l1 i = Some x
  | ONull => op = OpDel /\ l = [room] /\ ~ covers r 0
  end.
Proof.
  intros r sort l room op l1 os ss o Hv Hnd Hs Hc. apply valid_spec in Hv.
  destruct (calc_ok r sort l room op l1 os ss Hv Hnd Hs Hc) as (_ & _ & _ & _ & H). apply H.
Qed.
Print Assumptions C60_operations_characterisation.

(** C60 at full strength, when position 0 is in the windows. Missing: clients
    whose windows leave out position 0. *)
Theorem C60_operations_are_well_formed_partial :
  forall r sort l room op l1 os ss o,
  valid r = true -> NoDup l -> sort_moves_only sort l room op -> covers r 0 ->
  calculate_list_ops r sort l room op = Some (l1, os, ss) -> o ∈ os ->
  match o with
  | ODelete i => covers r i
  | OInsert i x => covers r i /\ get l1 i = Some x
  | ONull => False
  end.
Proof.
  intros r sort l room op l1 os ss o Hv Hnd Hs H0 Hc Ho.
  pose proof (C60_operations_characterisation r sort l room op l1 os ss o Hv Hnd Hs Hc Ho) as H.
  destruct o; [done|done|]. by destruct H as (_ & _ & H).
Qed.
Print Assumptions C60_operations_are_well_formed_partial.

(** C60 is false in general: the answer then holds a JSON null. *)
Theorem C60_null_operation_refuted :
  exists r sort l room op l1 ss,
  valid r = true /\ NoDup l /\ sort_moves_only sort l room op /\
  calculate_list_ops r sort l room op = Some (l1, [ONull], ss).
Proof.
  exists [(3, 5)], id, ["a"]%string, "a"%string, OpDel, [], [].
  split_and!; [done|by apply (bool_decide_unpack _)|by left|by vm_compute].
Qed.
Print Assumptions C60_null_operation_refuted.
