(** Properties of sorted, filtered lists (C06, C07, C08, C62). *)
From Verif Require Import Prelude RoomNameModel ListsModel ListsSpec SortProofs ListsProofs ListsProofs2.
From Verif Require OpsModel OpsSpec.
Open Scope string_scope.
Open Scope list_scope.
Open Scope Z_scope.

(** C06, sorting. Take any list of distinct known rooms and any known sort
    orders. Sorting succeeds, keeps exactly the same rooms, puts them in the
    requested order, leaves an index that agrees with the positions, and keeps
    the order of any two rooms the sort orders do not tell apart. Missing: sort
    orders the server does not know, which it accepts (see the refutation). *)
Theorem C06_sort_partial :
  forall find key sorts s,
  Forall known_sort sorts -> all_known find (s_ids s) -> NoDup (s_ids s) ->
  (forall x, is_Some (s_idx s !! x) -> x ∈ s_ids s) ->
  exists s', s_sort find key sorts s = Some (s', true) /\
    s_ids s' ≡ₚ s_ids s /\ in_order find key sorts (s_ids s') /\ index_ok s' /\
    (forall x y a b, find x = Some a -> find y = Some b -> same_place key sorts a b ->
       (exists i j : nat, (i < j)%nat /\ s_ids s !! i = Some x /\ s_ids s !! j = Some y) ->
       (exists i j : nat, (i < j)%nat /\ s_ids s' !! i = Some x /\ s_ids s' !! j = Some y)).
Proof. exact s_sort_full. Qed.
Print Assumptions C06_sort_partial.

(** C06, any stable sorting algorithm gives this result: a list which is in
    order and has tied elements in the original order is the one computed. (The
    model uses insertion sort where Go uses sort.SliceStable.) *)
Theorem C06_stable_sort_is_unique :
  forall (less : string -> string -> bool) (l l2 : list string),
  (forall x y, less x y = true -> less y x = false) ->
  (forall x y z, less y x = false -> less z y = false -> less z x = false) ->
  StronglySorted (fun a b => less b a = false) l2 ->
  (forall k, filter (fun x => less k x = false /\ less x k = false) l2 =
             filter (fun x => less k x = false /\ less x k = false) l) ->
  l2 = isort less l.
Proof.
  intros less l l2 H1 H2 H3 H4. apply isort_unique; [done|done|done|]. intros k.
  specialize (H4 k). unfold tied.
  rewrite (list_filter_iff (fun x => less k x = false /\ less x k = false) (fun x => less k x = false /\ less x k = false) l2) in H4 by done.
  rewrite (list_filter_iff (fun x => less k x = false /\ less x k = false) (fun x => less k x = false /\ less x k = false) l) in H4 by done.
  exact H4.
Qed.
Print Assumptions C06_stable_sort_is_unique.

(** C06, the requested orders really are orders: of three rooms, a room never
    goes before itself, and "does not go after" is transitive. *)
Theorem C06_sort_orders_are_consistent :
  forall key sorts a b c, Forall known_sort sorts ->
  ~ goes_first key sorts a a /\
  (~ goes_first key sorts b a -> ~ goes_first key sorts c b -> ~ goes_first key sorts c a).
Proof.
  intros key sorts a b c H. apply (mapM_comparator_known key) in H as [cs Hcs].
  destruct (sort_less_spec key sorts cs Hcs) as (H1 & H2 & H3 & _). rewrite <- !H1, !not_true_iff_false.
  split; [|apply H3]. destruct (sort_less cs a a) eqn:E; [|done]. by rewrite (H2 a a E) in E.
Qed.
Print Assumptions C06_sort_orders_are_consistent.

(** C06, adding and removing one room. *)
Theorem C06_add :
  forall s x, index_ok s ->
  index_ok (s_add s x).1 /\
  s_ids (s_add s x).1 = (if decide (x ∈ s_ids s) then s_ids s else s_ids s ++ [x]).
Proof. intros s x H. by destruct (s_add_spec s x H) as (? & ? & _). Qed.
Print Assumptions C06_add.
Theorem C06_remove :
  forall s x, index_ok s ->
  index_ok (s_remove s x).1 /\ s_ids (s_remove s x).1 = filter (fun y => y <> x) (s_ids s).
Proof. intros s x H. by destruct (s_remove_spec s x H) as (? & ? & _). Qed.
Print Assumptions C06_remove.

(** C06, whole histories. After any sequence of additions, removals and sorts
    (also failing ones, with metadata changing in between) the index agrees with
    the positions, no room is listed twice, and the rooms listed are those added
    and not removed since. *)
Theorem C06_history :
  forall s l s', index_ok s -> acts s l = Some s' ->
  index_ok s' /\ NoDup (s_ids s') /\
  list_to_set (s_ids s') = foldl rooms_after (list_to_set (s_ids s) : gset string) l.
Proof. intros s l s'. apply acts_ok. Qed.
Print Assumptions C06_history.

(** C06 and C01: in a sorted list in which the metadata of one room changed (or
    to which one room was appended), a re-sort moves only that room. This is what
    C01 assumes of the sort. *)
Theorem C06_resort_moves_only_the_changed_room :
  forall find find' key sorts s room s',
  Forall known_sort sorts -> in_order find key sorts (s_ids s) -> all_known find (s_ids s) -> index_ok s ->
  room ∈ s_ids s -> is_Some (find' room) -> (forall x, x <> room -> find' x = find x) ->
  s_sort find' key sorts s = Some (s', true) ->
  OpsSpec.one_room_change room OpsModel.OpChange (s_ids s) (s_ids s').
Proof.
  intros find find' key sorts s room s' Hs Ho Hk Hi Hr Hr' Hf Hsort.
  apply (mapM_comparator_known key) in Hs as [cs Hcs].
  assert (Hk' : all_known find' (s_ids s)).
  { intros x Hx. destruct (decide (x = room)) as [->|Hn]; [done|]. rewrite Hf by done. by apply Hk. }
  rewrite (s_sort_eq find' key sorts cs s Hcs Hk') in Hsort. injection Hsort as <-. cbn [s_ids].
  apply (resort_is_one_room_change find find' key sorts cs); try done. by apply index_ok_NoDup.
Qed.
Print Assumptions C06_resort_moves_only_the_changed_room.

Definition sample (name : string) (ts hl nt : Z) (enc : bool) : conn_room :=
  mk_conn_room (mk_meta name [] name "" "" 2 0 ts ∅ enc None None None ∅) false false false nt hl name ∅ ∅ ∅.
Definition sample_find (x : string) : option conn_room :=
  if String.eqb x "a" then Some (sample "a" 10 0 1 false)
  else if String.eqb x "b" then Some (sample "b" 30 0 0 false)
  else if String.eqb x "c" then Some (sample "c" 20 0 3 true)
  else if String.eqb x "d" then Some (sample "d" 5 2 2 false) else None.

Example C06_example :
  map (fun sorts => (fun '(s, b) => (s_ids s, map (s_index_of s) ["a"; "d"; "x"], b)) <$>
         s_sort sample_find "k" sorts (new_srooms ["a"; "b"; "c"; "d"]))
    [["by_recency"]; ["by_notification_level"; "by_name"]; ["by_highlight_count"; "by_recency"]]
  = [Some (["b"; "c"; "a"; "d"], [Some 2%nat; Some 3%nat; None], true);
     Some (["d"; "c"; "a"; "b"], [Some 2%nat; Some 0%nat; None], true);
     Some (["d"; "b"; "c"; "a"], [Some 3%nat; Some 0%nat; None], true)].
Proof. vm_compute. done. Qed.

Example C06_example_hypotheses :
  Forall known_sort ["by_notification_level"; "by_name"] /\
  all_known sample_find ["a"; "b"; "c"; "d"] /\ NoDup ["a"; "b"; "c"; "d"].
Proof.
  split_and!.
  - repeat constructor; unfold known_sort; set_solver.
  - intros x Hx. repeat (apply elem_of_cons in Hx as [->|Hx]; [by eexists|]). by apply elem_of_nil in Hx.
  - by apply (bool_decide_unpack _).
Qed.

(** C06 fails for a sort order the server does not know: requests are not
    checked for it, the sort is refused, and the new list has no index at all. *)
Theorem C06_unknown_sort_order_refuted :
  exists s', s_sort sample_find "k" ["by_magic"] (new_srooms ["a"; "b"]) = Some (s', false) /\
  s_ids s' = ["a"; "b"] /\ s_index_of s' "a" = None.
Proof. eexists. vm_compute. done. Qed.
Print Assumptions C06_unknown_sort_order_refuted.

(** C07. Take any room update and any list whose index is right. The update is
    reported to the list as an addition, removal or change exactly according to
    whether the room is listed, whether the filter accepts it now, and whether
    the user left it; otherwise nothing is reported. Missing: lists whose index
    is not right because of an unknown sort order (see the refutation). *)
Theorem C07_reported_operation_is_exact_partial :
  forall lower ord s r key fl op,
  (forall l, ord l ≡ₚ l) -> l_lists s !! key = Some fl -> index_ok (fl_rooms fl) ->
  let '(s', d) := set_room lower ord s r in
  (key, op) ∈ d_lists d <->
  let was := m_room (c_meta r) ∈ s_ids (fl_rooms fl) in
  let should := accepted lower (fl_filter fl) r (fun x => l_all s' !! x) /\ c_left r = false in
  match op with
  | LAdd => ~ was /\ should
  | LDel => was /\ ~ should
  | LChange => was /\ should
  end.
Proof.
  intros lower ord s r key fl op Ho Hl Hi. pose proof (reported_operation lower ord s r key fl op Ho Hl Hi) as H.
  by destruct (set_room lower ord s r) as [s' d].
Qed.
Print Assumptions C07_reported_operation_is_exact_partial.

Theorem C07_each_list_is_told_at_most_once_and_exists :
  forall lower ord s r, (forall l, ord l ≡ₚ l) ->
  let d := (set_room lower ord s r).2 in
  NoDup (d_lists d).*1 /\ forall key op, (key, op) ∈ d_lists d -> is_Some (l_lists s !! key).
Proof.
  intros lower ord s r Ho. split; [by apply delta_lists_NoDup|].
  intros key op H. apply delta_lists_elem in H as (fl & Hl & _); [by exists fl|done].
Qed.
Print Assumptions C07_each_list_is_told_at_most_once_and_exists.

(** C07. The update touches the stored metadata of this room only, stores what
    the update says, and keeps the name used for sorting in line with the name. *)
Theorem C07_update_is_stored :
  forall lower ord s r,
  let s' := (set_room lower ord s r).1 in
  (forall x, x <> m_room (c_meta r) -> l_all s' !! x = l_all s !! x) /\
  (exists r', l_all s' !! m_room (c_meta r) = Some r' /\ c_meta r' = c_meta r /\
     c_dm r' = c_dm r /\ c_invite r' = c_invite r /\ c_left r' = c_left r /\ c_notif r' = c_notif r /\
     c_highlight r' = c_highlight r /\ c_spaces r' = c_spaces r /\ c_tags r' = c_tags r /\
     ((forall x e, l_all s !! x = Some e -> c_canon e = canonical_name lower (c_meta e)) ->
      c_canon r' = canonical_name lower (c_meta r))) /\
  l_lists s' = l_lists s.
Proof.
  intros lower ord s r. cbn zeta. split_and!.
  - intros x Hx. rewrite set_room_all. by destruct (decide (x = m_room (c_meta r))).
  - exists (stored_room lower s r). rewrite set_room_all.
    destruct (decide (m_room (c_meta r) = m_room (c_meta r))) as [_|]; [|done].
    unfold stored_room at 1. destruct (l_all s !! m_room (c_meta r)) as [e|] eqn:E;
      (split_and!; [unfold stored_room; by rewrite E|unfold stored_room; by rewrite E..|]).
    + intros H. pose proof (canon_ok_set lower ord s r H (m_room (c_meta r)) (stored_room lower s r)) as Hc.
      rewrite set_room_all in Hc. destruct (decide (m_room (c_meta r) = m_room (c_meta r))) as [_|]; [|done].
      rewrite Hc by done. by rewrite stored_meta.
    + intros _. unfold stored_room. by rewrite E.
  - done.
Qed.
Print Assumptions C07_update_is_stored.

(** The list timestamps of an updated room: a bumped list takes the new time; a
    list that is not bumped keeps the time it had. *)
Theorem C07_bump_timestamps :
  forall lower ord s r e key fl,
  l_all s !! m_room (c_meta r) = Some e -> l_lists s !! key = Some fl ->
  exists r', l_all (set_room lower ord s r).1 !! m_room (c_meta r) = Some r' /\
  get_ts key r' = match c_ts r !! key with Some t => t | None => get_ts key e end.
Proof.
  intros lower ord s r e key fl He Hl. exists (stored_room lower s r). rewrite set_room_all.
  destruct (decide (m_room (c_meta r) = m_room (c_meta r))) as [_|]; [|done]. split; [done|].
  unfold stored_room. rewrite He. unfold get_ts. cbn. unfold merge_ts. rewrite map_lookup_imap, Hl. cbn.
  by destruct (c_ts r !! key).
Qed.
Print Assumptions C07_bump_timestamps.

Definition two_lists : rlists :=
  mk_rlists ∅ (<["all" := mk_flist (mk_srooms [] ∅) no_filters]>
              (<["dms" := mk_flist (mk_srooms [] ∅) (mk_filters [] (Some true) None None None [] [] "" [] [])]> ∅)).
Example C07_example :
  map (fun r => d_lists (set_room id id two_lists r).2)
    [sample "a" 1 0 0 false;
     mk_conn_room (new_meta "b") true false false 0 0 "" ∅ ∅ ∅;
     mk_conn_room (new_meta "c") true false true 0 0 "" ∅ ∅ ∅]
  = [[("all", LAdd)]; [("dms", LAdd); ("all", LAdd)]; []].
Proof. vm_compute. done. Qed.
Example C07_example_hypotheses : index_ok (mk_srooms [] ∅).
Proof. intros x i. cbn. rewrite lookup_empty. done. Qed.

(** C07 fails after an unknown sort order: a listed room is reported as added. *)
Theorem C07_unknown_sort_order_refuted :
  exists s s1 fl, assign_list id id s "k" None (Some ["by_magic"]) true = Some (s1, fl, true) /\
  s_ids (fl_rooms fl) = ["a"] /\
  d_lists (set_room id id s1 (sample "a" 2 0 0 false)).2 = [("k", LAdd)].
Proof.
  exists (mk_rlists (<["a" := sample "a" 1 0 0 false]> ∅) ∅). eexists. eexists. split; [reflexivity|].
  vm_compute. done.
Qed.
Print Assumptions C07_unknown_sort_order_refuted.

(** C07 fails for rooms the user has left: a list created afterwards contains
    the room, although every update of it says it should not be there. *)
Theorem C07_new_list_contains_left_room_refuted :
  exists s r s1 fl, l_all s !! "a" = Some r /\ c_left r = true /\
  assign_list id id s "k" None (Some ["by_name"]) true = Some (s1, fl, true) /\
  s_ids (fl_rooms fl) = ["a"] /\ d_lists (set_room id id s1 r).2 = [("k", LDel)].
Proof.
  exists (mk_rlists (<["a" := mk_conn_room (new_meta "a") false false true 0 0 "" ∅ ∅ ∅]> ∅) ∅).
  exists (mk_conn_room (new_meta "a") false false true 0 0 "" ∅ ∅ ∅). eexists. eexists.
  split; [done|]. split; [done|]. split; [reflexivity|]. vm_compute. done.
Qed.
Print Assumptions C07_new_list_contains_left_room_refuted.

(** C08, exact characterisation: the filter accepts a room when every set field
    apart from [spaces] is satisfied, and [spaces] is too unless room types are
    also asked for. *)
Theorem C08_filter_characterisation :
  forall lower f r find,
  include lower f r find = true <->
  satisfies_but_spaces lower f r find /\ (f_types f = [] -> in_spaces f r).
Proof. exact include_spec. Qed.
Print Assumptions C08_filter_characterisation.

(** C08 at full strength, for filters which do not combine [spaces] with
    [room_types]. Missing: those which do. *)
Theorem C08_filter_is_conjunction_partial :
  forall lower f r find, f_types f = [] \/ f_spaces f = [] ->
  include lower f r find = true <-> satisfies lower f r find.
Proof.
  intros lower f r find H. rewrite include_spec. unfold satisfies. split; intros [H1 H2]; (split; [done|]).
  - destruct H as [H|H]; [by apply H2|]. intros Hn. congruence.
  - intros _. done.
Qed.
Print Assumptions C08_filter_is_conjunction_partial.

(** A new list has exactly the known rooms its filter accepts (also those the
    user has left, see C07), each once. *)
Theorem C08_new_list_contents :
  forall lower ord s key f sorts s1 fl, (forall l, ord l ≡ₚ l) ->
  assign_list lower ord s key f sorts true = Some (s1, fl, true) ->
  l_lists s1 !! key = Some fl /\ NoDup (s_ids (fl_rooms fl)) /\
  forall x, x ∈ s_ids (fl_rooms fl) <->
    exists r, l_all s !! x = Some r /\ accepted lower (default no_filters f) r (fun y => l_all s !! y).
Proof.
  intros lower ord s key f sorts s1 fl Ho H.
  destruct (new_list_contents lower ord s key f sorts s1 fl true Ho (or_introl eq_refl) H) as (H1 & _ & H2 & _ & H3).
  split_and!; [|done|done]. rewrite H1. by rewrite lookup_insert.
Qed.
Print Assumptions C08_new_list_contents.

Definition space_child : conn_room :=
  mk_conn_room (mk_meta "r" [] "Lunch" "" "" 2 0 0 ∅ true None None None ∅) false false false 0 0 "" {[ "!s" ]} {[ "m.fav" ]} ∅.
Example C08_example :
  map (fun f => include id f space_child (fun _ => None))
    [no_filters;
     mk_filters ["!s"; "!t"] (Some false) (Some true) None (Some false) [] [Some "m.space"] "unch" ["m.fav"] ["m.low"];
     mk_filters ["!t"] None None None None [] [] "" [] [];
     mk_filters [] None None None None [Some "m.space"] [] "" [] [];
     mk_filters [] None None None None [] [None] "" [] [];
     mk_filters [] None None (Some true) None [] [] "" [] []]
  = [true; true; false; false; false; false].
Proof. vm_compute. done. Qed.

(** The replaced room is hidden exactly while the user is in the new one. *)
Example C08_example_upgrade :
  map (fun n => include id no_filters
          (mk_conn_room (mk_meta "r" [] "Old" "" "" 2 0 0 ∅ false None (Some "n") None ∅) false false false 0 0 "" ∅ ∅ ∅)
          (fun x => if String.eqb x "n" then n else None))
    [None; Some (mk_conn_room (new_meta "n") false false false 0 0 "" ∅ ∅ ∅);
     Some (mk_conn_room (new_meta "n") false true false 0 0 "" ∅ ∅ ∅);
     Some (mk_conn_room (new_meta "n") false false true 0 0 "" ∅ ∅ ∅)]
  = [true; false; true; true].
Proof. vm_compute. done. Qed.

(** C08 is false for a filter with both spaces and room types: the room is
    accepted although it is in none of the spaces. *)
Theorem C08_spaces_ignored_with_types_refuted :
  exists f r, include id f r (fun _ => None) = true /\ f_spaces f = ["!t"] /\ "!t" ∉ c_spaces r.
Proof.
  exists (mk_filters ["!t"] None None None None [None] [] "" [] []), space_child.
  split; [by vm_compute|]. split; [done|]. cbn. rewrite elem_of_singleton. done.
Qed.
Print Assumptions C08_spaces_ignored_with_types_refuted.

(** C62. For a room the connection already knows, the changes reported with an
    update are right: counts are reported as changed exactly when they differ; if
    no new name is reported the name is the same; if no new avatar is reported
    and the room did not change between direct and other, the avatar is the same.
    Missing: avatars when the room stops being a direct chat. *)
Theorem C62_changes_are_reported_partial :
  forall lower ord s r e,
  l_all s !! m_room (c_meta r) = Some e ->
  let d := (set_room lower ord s r).2 in
  (d_join d = true <-> m_join (c_meta e) <> m_join (c_meta r)) /\
  (d_invite d = true <-> m_invite (c_meta e) <> m_invite (c_meta r)) /\
  (d_notif d = true <-> c_notif e <> c_notif r) /\
  (d_highlight d = true <-> c_highlight e <> c_highlight r) /\
  (d_name d = false -> display_name (c_meta e) = display_name (c_meta r)) /\
  (d_avatar d = false -> c_dm e = c_dm r ->
   calc_avatar (c_meta e) (c_dm e) = calc_avatar (c_meta r) (c_dm r)).
Proof. exact flags_ok. Qed.
Print Assumptions C62_changes_are_reported_partial.

Definition chat (dm : bool) (j : Z) : conn_room :=
  mk_conn_room (mk_meta "r" [mk_hero "@b" "Bo" "mxc://b"] "" "" "" j 0 0 ∅ false None None None ∅) dm false false 0 0 "" ∅ ∅ ∅.
Example C62_example :
  let d := (set_room id id (mk_rlists (<["r" := chat true 2]> ∅) ∅) (chat true 3)).2 in
  (d_name d, d_avatar d, d_join d, d_invite d, d_notif d, d_highlight d) = (true, false, true, false, false, false).
Proof. vm_compute. done. Qed.

(** C62 is false when a direct chat becomes an ordinary room: the avatar (that
    of the other person) disappears and no change is reported. *)
Theorem C62_avatar_change_missed_refuted :
  exists s r e, l_all s !! m_room (c_meta r) = Some e /\ d_avatar (set_room id id s r).2 = false /\
  calc_avatar (c_meta e) (c_dm e) = "mxc://b" /\ calc_avatar (c_meta r) (c_dm r) = "".
Proof.
  exists (mk_rlists (<["r" := chat true 2]> ∅) ∅), (chat false 2), (chat true 2). by vm_compute.
Qed.
Print Assumptions C62_avatar_change_missed_refuted.
