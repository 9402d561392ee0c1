(** Properties of a connection's lists over time (C61). *)
From Verif Require Import Prelude RangeModel RangeSpec OpsModel OpsSpec RoomNameModel ListsModel ListsSpec
  LiveListModel LiveListSpec LiveListProofs LiveListProofs2.
Open Scope string_scope.
Open Scope list_scope.
Open Scope Z_scope.

(** C61. Start from a new connection, and let any number of room updates, list
    requests and list deletions happen in any order, for any number of lists and
    rooms. A client that applies what it is sent is then right about every
    position in the windows of every list it has.
    Missing, because false (see below and C03, C05, C06): requests with unknown
    sort orders, with slow_get_all_rooms, or which add a window of one position;
    updates on which the server crashes have no answer and so do not happen. *)
Theorem C61_client_is_right_about_every_list_partial :
  forall lower w, history lower new_world w -> client_right w.
Proof. intros lower w H. apply world_ok_right. apply (history_ok lower _ _ H). apply new_world_ok. Qed.
Print Assumptions C61_client_is_right_about_every_list_partial.

(** C61, the state of the server's own lists after any such history: no room is
    listed twice, the index is right, and the list is in the order the client
    asked for last. *)
Theorem C61_lists_stay_sorted :
  forall lower w key rq, history lower new_world w -> w_reqs w !! key = Some rq ->
  exists fl, l_lists (w_lists w) !! key = Some fl /\ NoDup (s_ids (fl_rooms fl)) /\ index_ok (fl_rooms fl) /\
    in_order (fun x => l_all (w_lists w) !! x) key (q_sort rq) (s_ids (fl_rooms fl)).
Proof.
  intros lower w key rq H Hrq. pose proof (history_ok lower _ _ H new_world_ok) as [Hdom Hok].
  destruct (proj1 (Hdom key)) as [fl Hfl]; [by exists rq|]. exists fl.
  destruct (Hok key rq fl Hrq Hfl) as (_ & [Hi _] & Ho & _). split_and!; [done| |done|done].
  by apply ListsProofs.index_ok_NoDup.
Qed.
Print Assumptions C61_lists_stay_sorted.

(** C61, several updates in one response: the operations of a later update can
    be appended to those of earlier ones; applying them all at once is the same
    as applying them one response at a time. *)
Theorem C61_updates_can_share_a_response :
  forall r sort l room op l1 os ss v earlier,
  calculate_list_ops r sort l room op = Some (l1, os, ss) ->
  client_apply r v (earlier ++ os) = client_apply r (client_apply r v earlier) os.
Proof. intros r sort l room op l1 os ss v earlier H. apply client_apply_clean. by eapply calc_clean. Qed.
Print Assumptions C61_updates_can_share_a_response.

(** A run of the model. *)
Inductive action := AUpdate (r : conn_room) | ARequest (key : string) (q : req_list) (chg : bool) | ADelete (key : string).
Definition play1 (w : world) (a : action) : option world :=
  match a with
  | AUpdate r =>
      match live_update id id (w_lists w) (w_reqs w) r with
      | Some (s', out) => Some (mk_world s' (w_reqs w) (client_update (w_reqs w) (w_views w) out))
      | None => None
      end
  | ARequest key q chg =>
      match list_request id id (w_lists w) key (w_reqs w !! key) q chg with
      | Some (s', ms, _) => Some (mk_world s' (<[key := q]> (w_reqs w))
                              (set_view (w_views w) key (client_ranges (w_views w key) ms)))
      | None => None
      end
  | ADelete key => Some (mk_world (delete_list (w_lists w) key) (delete key (w_reqs w)) (w_views w))
  end.
Fixpoint play (w : world) (l : list action) : option world :=
  match l with [] => Some w | a :: l' => match play1 w a with Some w' => play w' l' | None => None end end.
Definition observe (key : string) (pos : list Z) (o : option world) : option (option (list string) * list (option string)) :=
  match o with
  | Some w => Some ((fun fl => s_ids (fl_rooms fl)) <$> l_lists (w_lists w) !! key, map (w_views w key) pos)
  | None => None
  end.

Definition rm (x : string) (ts : Z) (dm : bool) : conn_room :=
  mk_conn_room (mk_meta x [] x "" "" 2 0 ts ∅ false None None None ∅) dm false false 0 0 "" ∅ ∅
    (<["k" := ts]> (<["d" := ts]> ∅)).
Definition win (r : ranges) (sorts : list string) (dm : option bool) (all : bool) : req_list :=
  mk_req (Some r) sorts (match dm with Some b => Some (mk_filters [] (Some b) None None None [] [] "" [] []) | None => None end) all.

Definition script : list action :=
  [AUpdate (rm "a" 1 false); AUpdate (rm "b" 2 true); AUpdate (rm "c" 3 false);
   ARequest "k" (win [(0, 1)] ["by_recency"] None false) false;
   ARequest "d" (win [(0, 4)] ["by_name"] (Some true) false) true;
   AUpdate (rm "a" 9 true);
   ARequest "k" (win [(0, 2)] ["by_recency"] None false) false;
   AUpdate (rm "b" 10 true);
   ARequest "k" (win [(0, 2)] ["by_name"] None false) false;
   AUpdate (rm "d" 11 false)].
Example C61_example :
  (observe "k" [0; 1] (play new_world (take 5 script)), observe "k" [0; 1] (play new_world (take 6 script)),
   observe "d" [0; 1] (play new_world (take 6 script)), observe "k" [0; 1; 2] (play new_world (take 8 script)),
   observe "k" [0; 1; 2] (play new_world script)) =
  (Some (Some ["c"; "b"; "a"], [Some "c"; Some "b"]), Some (Some ["a"; "c"; "b"], [Some "a"; Some "c"]),
   Some (Some ["a"; "b"], [Some "a"; Some "b"]), Some (Some ["b"; "a"; "c"], [Some "b"; Some "a"; Some "c"]),
   Some (Some ["a"; "b"; "c"; "d"], [Some "a"; Some "b"; Some "c"])).
Proof. vm_compute. done. Qed.

(** The script is a history in the sense of the theorem. *)
Lemma play1_happens w a w' :
  play1 w a = Some w' ->
  match a with
  | ARequest key q chg => good_request q /\ (w_reqs w !! key = None -> q_sort q <> []) /\
      no_lone_window (w_reqs w !! key) q chg
  | _ => True
  end -> happens id w w'.
Proof.
  destruct a as [r|key q chg|key]; cbn [play1]; intros H Hg.
  - destruct (live_update id id (w_lists w) (w_reqs w) r) as [[s' out]|] eqn:E; [|done]. injection H as <-.
    by apply (on_update id id w r).
  - destruct (list_request id id (w_lists w) key (w_reqs w !! key) q chg) as [[[s' ms] subs]|] eqn:E; [|done].
    injection H as <-. destruct Hg as (H1 & H2 & H3). by apply (on_request id id w key q chg s' ms subs).
  - injection H as <-. apply on_delete.
Qed.
Definition legal (a : action) : bool :=
  match a with
  | ARequest _ q _ => valid (q_windows q) && negb (q_all q) && negb (bool_decide (q_sort q = [])) &&
      forallb (fun x => bool_decide (known_sort x)) (q_sort q) && forallb (fun '(i, j) => negb (i =? j)) (q_windows q)
  | _ => true
  end.
Lemma play_history l : forall w w', forallb legal l = true -> play w l = Some w' -> history id w w'.
Proof.
  induction l as [|a l IH]; intros w w' Hl H.
  { injection H as <-. constructor. }
  cbn in Hl, H. apply andb_prop in Hl as [Ha Hl]. destruct (play1 w a) as [w1|] eqn:E; [|done].
  apply (history_step id w w1 w'); [|by apply IH]. apply (play1_happens w a w1 E).
  destruct a as [|key q chg|]; [done| |done]. unfold legal in Ha.
  repeat match goal with H : _ && _ = true |- _ => apply andb_prop in H as [? ?] end.
  match goal with H : forallb _ (q_windows q) = true |- _ => rename H into Hw end.
  match goal with H : forallb _ (q_sort q) = true |- _ => rename H into Hs end.
  split_and!.
  - split_and!; [done| |by destruct (q_all q)]. apply Forall_forall. intros x Hx.
    rewrite forallb_forall in Hs. apply elem_of_list_In in Hx. specialize (Hs x Hx).
    by apply bool_decide_eq_true in Hs.
  - intros _ Hq. by rewrite Hq in *.
  - unfold no_lone_window. destruct (w_reqs w !! key) as [p|]; [|done]. intros _ _ _ i Hi.
    rewrite forallb_forall in Hw. apply elem_of_list_In in Hi. specialize (Hw (i, i) Hi). cbn in Hw. lia.
Qed.
Example C61_example_is_a_history : exists w, history id new_world w /\ play new_world script = Some w.
Proof.
  assert (Hl : forallb legal script = true) by (vm_compute; reflexivity).
  assert (Hx : match observe "k" [] (play new_world script) with Some _ => true | None => false end = true)
    by (vm_compute; reflexivity).
  revert Hx. generalize (fun w => play_history script new_world w Hl). intros Hp.
  destruct (play new_world script) as [w|]; intros Hx; [|discriminate Hx].
  exists w. split; [exact (Hp w eq_refl)|exact eq_refl].
Qed.

(** C61 is false for a new window of one position (C05): the client has never
    been told the room at position 2. *)
Theorem C61_one_position_window_refuted :
  observe "k" [0; 2] (play new_world
    [AUpdate (rm "a" 1 false); AUpdate (rm "b" 2 true); AUpdate (rm "c" 3 false);
     ARequest "k" (win [(0, 0)] ["by_recency"] None false) false;
     ARequest "k" (win [(0, 0); (2, 2)] ["by_recency"] None false) false])
  = Some (Some ["c"; "b"; "a"], [Some "c"; None]).
Proof. vm_compute. done. Qed.
Print Assumptions C61_one_position_window_refuted.

(** C61 is false after slow_get_all_rooms is switched off: the list was not kept
    sorted, so the next update re-sorts it and moves several rooms, but only one
    move is sent. *)
Theorem C61_leaving_get_all_rooms_refuted :
  observe "k" [0; 1; 2] (play new_world
    [AUpdate (rm "a" 1 false); AUpdate (rm "b" 2 false); AUpdate (rm "c" 3 false);
     ARequest "k" (mk_req None ["by_recency"] None true) false;
     AUpdate (rm "b" 4 false); AUpdate (rm "a" 5 false);
     ARequest "k" (win [(0, 2)] ["by_recency"] None false) false;
     AUpdate (rm "c" 3 false)])
  = Some (Some ["a"; "b"; "c"], [Some "b"; Some "a"; Some "c"]).
Proof. vm_compute. done. Qed.
Print Assumptions C61_leaving_get_all_rooms_refuted.

(** C61 is false for an unknown sort order (C06): the room is listed twice after
    its next update. *)
Theorem C61_unknown_sort_order_refuted :
  observe "k" [0; 1] (play new_world
    [AUpdate (rm "a" 1 false);
     ARequest "k" (win [(0, 5)] ["by_magic"] None false) false;
     AUpdate (rm "a" 2 false)])
  = Some (Some ["a"; "a"], [Some "a"; Some "a"]).
Proof. vm_compute. done. Qed.
Print Assumptions C61_unknown_sort_order_refuted.
