(** Lemmas about a connection's lists over time. *)
From Verif Require Import Prelude RangeModel RangeSpec RangeProofs OpsModel OpsSpec OpsProofs OpsProofs2
  RoomNameModel ListsModel ListsSpec SortProofs ListsProofs ListsProofs2 LiveListModel LiveListSpec.
Open Scope string_scope.
Open Scope list_scope.
Open Scope Z_scope.

(** ** The real list refines the plain list of OpsModel *)
Lemma index_of_ok s x : index_ok s -> index_of (s_ids s) x = Z.of_nat <$> s_index_of s x.
Proof.
  intros H. unfold s_index_of. destruct (s_idx s !! x) as [i|] eqn:E; cbn.
  - apply H in E as Hi. pose proof (take_drop_middle _ _ _ Hi) as Hs.
    pose proof (index_ok_NoDup s H) as Hnd. rewrite <- Hs in Hnd.
    apply NoDup_app in Hnd as (_ & Hd & _).
    rewrite <- Hs, index_of_app.
    + f_equal. f_equal. apply take_length_le. apply lookup_lt_Some in Hi. lia.
    + intros Hx. apply (Hd x Hx). by left.
  - apply index_of_None. rewrite (index_ok_elem s x H), E. by intros [? ?].
Qed.

Lemma list_remove_ok s x : index_ok s -> s_ids (s_remove s x).1 = list_remove (s_ids s) x.
Proof.
  intros H. unfold list_remove. rewrite (index_of_ok s x H). unfold s_remove, s_index_of.
  destruct (s_idx s !! x) as [i|]; cbn; [|done]. rewrite Nat2Z.id. by rewrite Nat.add_1_r.
Qed.

Definition list_fine (all : gmap string conn_room) (fl : flist) : Prop :=
  index_ok (fl_rooms fl) /\ all_known (fun x => all !! x) (s_ids (fl_rooms fl)).

Lemma list_ops_refines lower (all : gmap string conn_room) key rq fl room o cs fl1 os ss r0 :
  list_fine all fl -> mapM (comparator key) (q_sort rq) = Some cs ->
  all !! room = Some r0 ->
  (o = LAdd -> include lower (fl_filter fl) r0 (fun x => all !! x) = true) ->
  list_ops lower (fun x => all !! x) key rq fl room o = Some (fl1, os, ss) ->
  calculate_list_ops (q_windows rq) (isort (list_less (fun x => all !! x) cs)) (s_ids (fl_rooms fl)) room (to_op o)
    = Some (s_ids (fl_rooms fl1), os, ss) /\
  list_fine all fl1 /\ fl_filter fl1 = fl_filter fl /\
  (o <> LDel -> room ∈ s_ids (fl_rooms fl1) \/ s_index_of (fl_rooms fl) room = None /\ o = LChange).
Proof.
  intros [Hi Hk] Hcs Hr Hinc. unfold list_ops, calculate_list_ops. rewrite (index_of_ok _ room Hi).
  set (find := fun x => all !! x) in *.
  destruct (s_index_of (fl_rooms fl) room) as [i|] eqn:Ei.
  - (* listed *)
    assert (Hin : room ∈ s_ids (fl_rooms fl)) by (apply (index_ok_elem _ _ Hi); by exists i).
    assert (Hmod : exists fl2, modify_list lower find key (q_sort rq) fl room o = Some fl2 /\
        list_fine all fl2 /\ fl_filter fl2 = fl_filter fl /\
        s_ids (fl_rooms fl2) = match to_op o with
           | OpAdd => isort (list_less find cs) (list_add (s_ids (fl_rooms fl)) room)
           | OpDel => list_remove (s_ids (fl_rooms fl)) room
           | OpChange => isort (list_less find cs) (s_ids (fl_rooms fl)) end /\
        (o <> LDel -> room ∈ s_ids (fl_rooms fl2))).
    { destruct o; cbn [modify_list to_op].
      - unfold f_add. unfold find at 1. rewrite Hr. rewrite (Hinc eq_refl).
        destruct (s_add_spec (fl_rooms fl) room Hi) as (Ha1 & Ha2 & _).
        destruct (s_add (fl_rooms fl) room) as [sa b]. cbn [fst] in Ha1, Ha2. cbn [fl_rooms].
        destruct (decide (room ∈ s_ids (fl_rooms fl))) as [_|]; [|done].
        rewrite (s_sort_eq find key (q_sort rq) cs sa Hcs) by (rewrite Ha2; done).
        eexists. split; [done|]. cbn [fl_rooms fl_filter s_ids].
        assert (Hls : list_add (s_ids (fl_rooms fl)) room = s_ids sa).
        { unfold list_add. rewrite (index_of_ok _ room Hi), Ei. cbn. done. }
        rewrite Hls. split_and!; [|done|done|intros _; by rewrite isort_perm, Ha2].
        split; [|intros x; cbn; rewrite isort_perm, Ha2; apply Hk].
        eapply index_ok_written; [|..|done].
        + rewrite isort_perm. by apply index_ok_NoDup.
        + intros x Hx. rewrite isort_perm. by apply index_ok_elem.
      - destruct (s_remove_spec (fl_rooms fl) room Hi) as (Hr1 & Hr2 & _).
        eexists. split; [done|]. cbn [fl_rooms fl_filter]. split_and!; [|done|by apply list_remove_ok|done].
        split; [done|]. intros x. cbn. rewrite Hr2. intros Hx. apply elem_of_list_filter in Hx as [_ Hx]. by apply Hk.
      - rewrite (s_sort_eq find key (q_sort rq) cs _ Hcs Hk). eexists. split; [done|]. cbn [fl_rooms fl_filter s_ids].
        split_and!; [|done|done|intros _; by rewrite isort_perm].
        split; [|intros x; cbn; rewrite isort_perm; apply Hk].
        eapply index_ok_written; [|..|done].
        + rewrite isort_perm. by apply index_ok_NoDup.
        + intros x Hx. rewrite isort_perm. by apply index_ok_elem. }
    destruct Hmod as (fl2 & Hm & Hf & Hfil & Hids & Hmem). rewrite Hm. cbn [fmap option_fmap option_map].
    assert (Hto : match o with
                  | LDel => Z.of_nat (length (s_ids (fl_rooms fl2))) - 1
                  | _ => match s_index_of (fl_rooms fl2) room with Some i => Z.of_nat i | None => 0 end
                  end = match to_op o with
                  | OpDel => Z.of_nat (length (s_ids (fl_rooms fl2))) - 1
                  | _ => default 0 (index_of (s_ids (fl_rooms fl2)) room)
                  end).
    { destruct Hf as [Hf _]. rewrite (index_of_ok _ room Hf). by destruct o; destruct (s_index_of (fl_rooms fl2) room). }
    assert (Hwas : match o with
                 | LAdd => false
                 | _ => match inside (q_windows rq) (Z.of_nat i) with Some _ => true | None => false end
                 end = match to_op o with
                 | OpAdd => false
                 | _ => match inside (q_windows rq) (default (Z.of_nat (length (s_ids (fl_rooms fl)))) (Some (Z.of_nat i))) with Some _ => true | None => false end
                 end) by (by destruct o).
    intros H.
    assert (Hgoal : (let r := q_windows rq in
        let to := match to_op o with
                  | OpDel => Z.of_nat (length (s_ids (fl_rooms fl2))) - 1
                  | _ => default 0 (index_of (s_ids (fl_rooms fl2)) room)
                  end in
        let was := match to_op o with
                 | OpAdd => false
                 | _ => match inside (q_windows rq) (default (Z.of_nat (length (s_ids (fl_rooms fl)))) (Some (Z.of_nat i))) with Some _ => true | None => false end
                 end in
        if to =? -1 then Some (s_ids (fl_rooms fl2), [write_delete_op r 0], [])
        else match move_indexes r (Z.of_nat i) to with
           | None => None
           | Some ms =>
               match moves_ops r (s_ids (fl_rooms fl2)) room (to_op o) to was (length ms =? 1)%nat ms with
               | Some (os, ss) => Some (s_ids (fl_rooms fl2), os, ss)
               | None => None
               end
           end) = Some (s_ids (fl_rooms fl1), os, ss) /\ fl1 = fl2).
    { cbn zeta. rewrite <- Hto, <- Hwas. destruct o; cbn [to_op] in *;
        (destruct (_ =? -1); [by injection H as <- <- <-|]);
        (destruct (move_indexes _ _ _) as [ms|]; [|done]);
        (destruct (moves_ops _ _ _ _ _ _ _ _) as [[os' ss']|]; [|done]); by injection H as <- <- <-. }
    destruct Hgoal as [Hgoal ->].
    split_and!; [|done|done|intros Ho; left; by apply Hmem].
    rewrite <- Hgoal. destruct o; cbn [to_op] in *; rewrite <- Hids; done.
  - (* not listed *)
    assert (Hnin : room ∉ s_ids (fl_rooms fl)) by (rewrite (index_ok_elem _ _ Hi); unfold s_index_of in Ei; rewrite Ei; by intros [? ?]).
    cbn [fmap option_fmap option_map].
    destruct o; cbn [to_op]; [|by intros [= <- <- <-]; split_and!; try done|intros [= <- <- <-]; split_and!; try done; intros _; by right].
    cbn [modify_list]. unfold f_add. unfold find at 1. rewrite Hr. rewrite (Hinc eq_refl).
    destruct (s_add_spec (fl_rooms fl) room Hi) as (Ha1 & Ha2 & _).
    destruct (s_add (fl_rooms fl) room) as [sa b]. cbn [fst] in Ha1, Ha2. cbn [fl_rooms].
    destruct (decide (room ∈ s_ids (fl_rooms fl))) as [|_]; [done|].
    assert (Hka : all_known find (s_ids sa)).
    { rewrite Ha2. intros x Hx. apply elem_of_app in Hx as [Hx|Hx]; [by apply Hk|].
      apply elem_of_list_singleton in Hx as ->. unfold find. by rewrite Hr. }
    rewrite (s_sort_eq find key (q_sort rq) cs sa Hcs Hka). cbn [fl_rooms fl_filter s_ids].
    assert (Hls : list_add (s_ids (fl_rooms fl)) room = s_ids sa).
    { unfold list_add. rewrite (index_of_ok _ room Hi), Ei. cbn. done. }
    rewrite Hls.
    set (ids := isort (list_less find cs) (s_ids sa)).
    set (fl2 := mk_flist (mk_srooms ids (write_index 0 ids (s_idx sa))) (fl_filter fl)).
    assert (Hi2 : index_ok (mk_srooms ids (write_index 0 ids (s_idx sa)))).
    { eapply index_ok_written; [|..|done].
      - unfold ids. rewrite isort_perm. by apply index_ok_NoDup.
      - intros x Hx. unfold ids. rewrite isort_perm. by apply index_ok_elem. }
    assert (Hidx : index_of ids room = Z.of_nat <$> s_index_of (mk_srooms ids (write_index 0 ids (s_idx sa))) room)
      by (apply (index_of_ok _ room Hi2)).
    rewrite Hidx.
    assert (Hin : is_Some (s_index_of (mk_srooms ids (write_index 0 ids (s_idx sa))) room)).
    { apply (index_ok_elem _ room Hi2). cbn. unfold ids. rewrite isort_perm, Ha2. set_solver. }
    destruct Hin as [k Hin]. rewrite Hin. cbn [fmap option_fmap option_map].
    change (default 0 (Some (Z.of_nat k))) with (Z.of_nat k).
    change (default (Z.of_nat (length (s_ids (fl_rooms fl)))) None) with (Z.of_nat (length (s_ids (fl_rooms fl)))).
    set (to := Z.of_nat k).
    intros H.
    assert (Hgoal : fl1 = fl2 /\ (if to =? -1 then Some (ids, [write_delete_op (q_windows rq) 0], [])
      else match move_indexes (q_windows rq) (Z.of_nat (length (s_ids (fl_rooms fl)))) to with
           | None => None
           | Some ms =>
               match moves_ops (q_windows rq) ids room OpAdd to false (length ms =? 1)%nat ms with
               | Some (os, ss) => Some (ids, os, ss)
               | None => None
               end
           end) = Some (ids, os, ss)).
    { destruct (to =? -1); [by injection H as <- <- <-|].
      destruct (move_indexes _ _ _) as [ms|]; [|done].
      destruct (moves_ops _ _ _ _ _ _ _ _) as [[os' ss']|]; [|done]. by injection H as <- <- <-. }
    destruct Hgoal as [-> Hgoal]. cbn [fl2 fl_rooms s_ids fl_filter].
    split_and!; [exact Hgoal| |done|].
    + split; [done|]. intros x. cbn. unfold ids. rewrite isort_perm. apply Hka.
    + intros _. left. unfold ids. rewrite isort_perm, Ha2. set_solver.
Qed.

(** ** Order *)
Lemma in_order_ext find find' key sorts l :
  (forall x, x ∈ l -> find' x = find x) -> in_order find key sorts l -> in_order find' key sorts l.
Proof.
  intros Hf Ho i j x y a b Hij Hx Hy Ha Hb.
  rewrite Hf in Ha by (by eapply elem_of_list_lookup_2). rewrite Hf in Hb by (by eapply elem_of_list_lookup_2).
  by apply (Ho i j x y).
Qed.
Lemma in_order_isort find key sorts cs l :
  mapM (comparator key) sorts = Some cs -> all_known find l ->
  in_order find key sorts (isort (list_less find cs) l).
Proof.
  intros Hcs Hk. destruct (list_less_weak find key sorts cs Hcs) as [Ha Ht].
  apply (in_order_sorted find key sorts cs _ Hcs).
  - intros x Hx. rewrite isort_perm in Hx. by apply Hk.
  - by apply isort_sorted.
Qed.
Lemma in_order_remove find key sorts l room :
  Forall known_sort sorts -> all_known find l ->
  in_order find key sorts l -> in_order find key sorts (filter (fun y => y <> room) l).
Proof.
  intros Hs Hk Ho. apply (mapM_comparator_known key) in Hs as [cs Hcs].
  apply (in_order_sorted find key sorts cs _ Hcs).
  - intros x Hx. apply elem_of_list_filter in Hx as [_ Hx]. by apply Hk.
  - apply (in_order_sorted find key sorts cs _ Hcs Hk) in Ho. clear -Ho. induction Ho as [|x l Ho IH Hx]; [constructor|].
    rewrite filter_cons. destruct (decide (x <> room)); [|done]. constructor; [done|].
    apply Forall_forall. intros y Hy. apply elem_of_list_filter in Hy as [_ Hy].
    by apply (proj1 (Forall_forall _ _) Hx y Hy).
Qed.

(** ** One list, one update *)
Definition list_ok (all : gmap string conn_room) (key : string) (rq : req_list) (fl : flist) (v : view) : Prop :=
  good_request rq /\ list_fine all fl /\
  in_order (fun x => all !! x) key (q_sort rq) (s_ids (fl_rooms fl)) /\
  agrees (q_windows rq) (s_ids (fl_rooms fl)) v.

Lemma list_fine_insert all fl room r0 : list_fine all fl -> list_fine (<[room := r0]> all) fl.
Proof.
  intros [Hi Hk]. split; [done|]. intros x Hx. cbn. destruct (decide (x = room)) as [->|Hn].
  - by rewrite lookup_insert.
  - rewrite lookup_insert_ne by done. by apply Hk.
Qed.

Lemma step_unlisted all key rq fl v room r0 :
  list_ok all key rq fl v -> room ∉ s_ids (fl_rooms fl) -> list_ok (<[room := r0]> all) key rq fl v.
Proof.
  intros (Hg & Hf & Ho & Ha) Hn. split_and!; [done|by apply list_fine_insert| |done].
  eapply in_order_ext; [|exact Ho]. intros x Hx. cbn. apply lookup_insert_ne. intros <-. done.
Qed.

Lemma step_listed lower all key rq fl v r0 o fl1 os ss :
  let room := m_room (c_meta r0) in
  let all' := <[room := r0]> all in
  list_ok all key rq fl v ->
  list_delta lower all' r0 fl = Some o ->
  resort lower (fun x => all' !! x) key rq fl room o = Some (fl1, os, ss) ->
  list_ok all' key rq fl1 (client_apply (q_windows rq) v os) /\ fl_filter fl1 = fl_filter fl.
Proof.
  intros room all' (Hg & Hf & Ho & Ha) Hd Hl.
  destruct Hg as (Hv & Hs & Hall). unfold resort in Hl. rewrite Hall in Hl.
  apply (mapM_comparator_known key) in Hs as Hs'. destruct Hs' as [cs Hcs].
  destruct Hf as [Hi Hk].
  assert (Hf' : list_fine all' fl) by (by apply list_fine_insert).
  apply (list_delta_spec lower all' r0 fl o Hi) in Hd. cbn zeta in Hd. fold room in Hd.
  assert (Hr : all' !! room = Some r0) by apply lookup_insert.
  assert (Hinc : o = LAdd -> include lower (fl_filter fl) r0 (fun x => all' !! x) = true).
  { intros ->. by destruct Hd as [_ [? _]]. }
  destruct (list_ops_refines lower all' key rq fl room o cs fl1 os ss r0 Hf' Hcs Hr Hinc Hl) as (Hc & Hf1 & Hfil & _).
  split; [|done].
  assert (Hnd : NoDup (s_ids (fl_rooms fl))) by (by apply index_ok_NoDup).
  assert (Hother : forall x, x <> room -> all' !! x = all !! x).
  { intros x Hx. unfold all'. by rewrite lookup_insert_ne. }
  assert (Hsm : sort_moves_only (isort (list_less (fun x => all' !! x) cs)) (s_ids (fl_rooms fl)) room (to_op o)).
  { destruct o; cbn [to_op sort_moves_only].
    - destruct Hd as [Hn _]. split; [done|].
      by apply (add_then_sort_is_one_room_change (fun x => all !! x) _ key (q_sort rq) cs).
    - by destruct Hd.
    - destruct Hd as [Hn _]. by apply (resort_is_one_room_change (fun x => all !! x) _ key (q_sort rq) cs). }
  apply valid_spec in Hv as Hw.
  destruct (calc_ok _ _ _ _ _ _ _ _ Hw Hnd Hsm Hc) as (_ & Hagree & _).
  split_and!; [done|done| |by apply Hagree].
  assert (Hids : s_ids (fl_rooms fl1) = match o with
      | LAdd => isort (list_less (fun x => all' !! x) cs) (s_ids (fl_rooms fl) ++ [room])
      | LDel => filter (fun y => y <> room) (s_ids (fl_rooms fl))
      | LChange => isort (list_less (fun x => all' !! x) cs) (s_ids (fl_rooms fl))
      end).
  { destruct Hf' as [Hi' _]. destruct (s_remove_spec (fl_rooms fl) room Hi) as (_ & Hrem & _).
    rewrite (list_remove_ok _ _ Hi) in Hrem.
    unfold calculate_list_ops in Hc. destruct (index_of (s_ids (fl_rooms fl)) room) as [z|] eqn:Ez.
    - destruct o; cbn [to_op] in Hc; cbn [to_op sort_moves_only] in Hsm.
      + destruct Hsm as [Hsm _]. apply index_of_None in Hsm. congruence.
      + destruct (_ =? -1); [injection Hc as <- _ _; done|]. destruct (move_indexes _ _ _); [|done].
        destruct (moves_ops _ _ _ _ _ _ _ _) as [[? ?]|]; [|done]. by injection Hc as <- _ _.
      + destruct (_ =? -1); [injection Hc as <- _ _; done|]. destruct (move_indexes _ _ _); [|done].
        destruct (moves_ops _ _ _ _ _ _ _ _) as [[? ?]|]; [|done]. by injection Hc as <- _ _.
    - apply index_of_None in Ez as Hn. destruct o; cbn [to_op] in Hc; [|by destruct Hd|by destruct Hd].
      unfold list_add in Hc. rewrite Ez in Hc.
      destruct (_ =? -1); [injection Hc as <- _ _; done|]. destruct (move_indexes _ _ _); [|done].
      destruct (moves_ops _ _ _ _ _ _ _ _) as [[? ?]|]; [|done]. by injection Hc as <- _ _. }
  rewrite Hids. destruct o.
  - apply in_order_isort; [done|]. intros x Hx. destruct (decide (x = room)) as [->|Hx']; [by rewrite Hr|].
    rewrite Hother by done. apply Hk. set_solver.
  - apply (in_order_ext (fun x => all !! x)).
    + intros x Hx. apply elem_of_list_filter in Hx as [Hx _]. by apply Hother.
    + by apply in_order_remove.
  - apply in_order_isort; [done|]. by destruct Hf'.
Qed.

(** ** All lists, one update *)
Lemma client_update_cons reqs vs key os out :
  client_update reqs vs ((key, os) :: out) =
  client_update reqs (set_view vs key (client_apply (default [] (q_windows <$> reqs !! key)) (vs key) os)) out.
Proof. done. Qed.
Lemma set_view_eq vs key v : set_view vs key v key = v.
Proof. unfold set_view. by rewrite String.eqb_refl. Qed.
Lemma set_view_ne vs key v k : k <> key -> set_view vs key v k = vs k.
Proof. intros H. unfold set_view. destruct (String.eqb_spec k key); done. Qed.

Lemma run_deltas_ok lower all reqs r0 :
  let room := m_room (c_meta r0) in
  let all' := <[room := r0]> all in
  forall ds s vs s' out,
  l_all s = all' -> run_deltas lower s reqs room ds = Some (s', out) -> NoDup ds.*1 ->
  (forall key o, (key, o) ∈ ds -> exists fl rq, l_lists s !! key = Some fl /\ reqs !! key = Some rq /\
     list_ok all key rq fl (vs key) /\ list_delta lower all' r0 fl = Some o) ->
  l_all s' = all' /\
  (forall key, key ∉ ds.*1 -> l_lists s' !! key = l_lists s !! key /\ client_update reqs vs out key = vs key) /\
  (forall key, key ∈ ds.*1 -> exists fl rq, l_lists s' !! key = Some fl /\ reqs !! key = Some rq /\
     list_ok all' key rq fl (client_update reqs vs out key)).
Proof.
  intros room all' ds. induction ds as [|[key o] ds IH]; intros s vs s' out Hall Hrun Hnd Hpre.
  - cbn in Hrun. injection Hrun as <- <-. split_and!; [done|done|]. intros key Hk. by apply elem_of_nil in Hk.
  - cbn [run_deltas] in Hrun.
    destruct (Hpre key o) as (fl & rq & Hl & Hq & Hok & Hd); [by left|].
    rewrite Hl, Hq in Hrun. rewrite Hall in Hrun.
    destruct (resort lower (fun x => all' !! x) key rq fl room o) as [[[fl1 os] ss]|] eqn:E; [|done].
    destruct (run_deltas lower (put_list s key fl1) reqs room ds) as [[s2 out2]|] eqn:E2; [|done].
    injection Hrun as <- <-.
    destruct (step_listed lower all key rq fl (vs key) r0 o fl1 os ss Hok Hd E) as [Hok1 _].
    cbn [fmap list_fmap fst] in Hnd. apply NoDup_cons in Hnd as [Hnin Hnd].
    set (vs1 := set_view vs key (client_apply (default [] (q_windows <$> reqs !! key)) (vs key) os)).
    destruct (IH (put_list s key fl1) vs1 s2 out2) as (I1 & I2 & I3); [done|done|done| |].
    { intros k o' Hin. destruct (Hpre k o') as (fl' & rq' & Hl' & Hq' & Hok' & Hd'); [by right|].
      assert (k <> key). { intros ->. apply Hnin. apply elem_of_list_fmap. by exists (key, o'). }
      exists fl', rq'. cbn [put_list l_lists]. rewrite lookup_insert_ne by done.
      unfold vs1. rewrite set_view_ne by done. done. }
    rewrite client_update_cons. fold vs1. split_and!; [done|..].
    + intros k Hk. cbn [fmap list_fmap fst] in Hk. apply not_elem_of_cons in Hk as [Hne Hk].
      destruct (I2 k Hk) as [I2a I2b]. split.
      * rewrite I2a. cbn. by rewrite lookup_insert_ne.
      * rewrite I2b. unfold vs1. by rewrite set_view_ne.
    + intros k Hk. cbn [fmap list_fmap fst] in Hk. apply elem_of_cons in Hk as [->|Hk]; [|by apply I3].
      destruct (I2 key Hnin) as [I2a I2b]. exists fl1, rq. rewrite I2a. cbn [put_list l_lists]. rewrite lookup_insert.
      split_and!; [done|done|]. rewrite I2b. unfold vs1. rewrite set_view_eq, Hq. exact Hok1.
Qed.

Definition world_ok (w : world) : Prop :=
  (forall key, is_Some (w_reqs w !! key) <-> is_Some (l_lists (w_lists w) !! key)) /\
  forall key rq fl, w_reqs w !! key = Some rq -> l_lists (w_lists w) !! key = Some fl ->
    list_ok (l_all (w_lists w)) key rq fl (w_views w key).

Lemma update_ok lower ord w r s' out :
  (forall l, ord l ≡ₚ l) -> world_ok w ->
  live_update lower ord (w_lists w) (w_reqs w) r = Some (s', out) ->
  world_ok (mk_world s' (w_reqs w) (client_update (w_reqs w) (w_views w) out)).
Proof.
  intros Hord [Hdom Hok] Hl. unfold live_update in Hl.
  pose proof (delta_lists_NoDup lower ord (w_lists w) r Hord) as Hnd.
  pose proof (fun key op => delta_lists_elem lower ord (w_lists w) r key op Hord) as Hel.
  set (r' := stored_room lower (w_lists w) r) in *.
  assert (Hroom : m_room (c_meta r) = m_room (c_meta r')) by (unfold r'; by rewrite stored_meta).
  assert (Hall : l_all (set_room lower ord (w_lists w) r).1 = <[m_room (c_meta r') := r']> (l_all (w_lists w))).
  { unfold set_room. cbn [fst l_all]. rewrite Hroom. done. }
  pose proof (set_room_lists lower ord (w_lists w) r) as Hlists.
  destruct (set_room lower ord (w_lists w) r) as [s1 d] eqn:E. cbn [fst snd] in *.
  rewrite Hroom in Hl. rewrite Hall in Hel.
  destruct (run_deltas_ok lower (l_all (w_lists w)) (w_reqs w) r' (d_lists d) s1 (w_views w) s' out Hall Hl Hnd) as (I1 & I2 & I3).
  { intros key o Hin. apply Hel in Hin as (fl & Hfl & Hd). rewrite Hlists.
    destruct (proj2 (Hdom key)) as [rq Hrq]; [by exists fl|]. exists fl, rq.
    split_and!; [done|done| |done]. by apply Hok. }
  split; cbn [w_reqs w_lists w_views].
  - intros key. destruct (decide (key ∈ (d_lists d).*1)) as [Hin|Hin].
    + destruct (I3 key Hin) as (fl & rq & -> & -> & _). split; eauto.
    + destruct (I2 key Hin) as [-> _]. rewrite Hlists. apply Hdom.
  - intros key rq fl Hrq Hfl. rewrite I1. destruct (decide (key ∈ (d_lists d).*1)) as [Hin|Hin].
    + destruct (I3 key Hin) as (fl' & rq' & H1 & H2 & H3). rewrite H1 in Hfl. rewrite H2 in Hrq.
      injection Hfl as <-. injection Hrq as <-. done.
    + destruct (I2 key Hin) as [H1 H2]. rewrite H2. rewrite H1, Hlists in Hfl.
      apply step_unlisted; [by apply Hok|].
      intros Hlisted. destruct (Hok key rq fl Hrq Hfl) as (_ & [Hi _] & _).
      assert (Hsome : is_Some (list_delta lower (<[m_room (c_meta r'):=r']> (l_all (w_lists w))) r' fl)).
      { apply (index_ok_elem _ _ Hi) in Hlisted as [i Hlisted]. unfold list_delta. rewrite Hlisted.
        destruct (_ && _); eauto. }
      destruct Hsome as [o Ho]. apply Hin. apply elem_of_list_fmap. exists (key, o). split; [done|].
      apply Hel. by exists fl.
Qed.
