(** C92: at every moment a list shows exactly the rooms that its filters ask for. *)
From Verif Require Import Prelude RangeModel RangeSpec OpsModel OpsSpec RoomNameModel ListsModel ListsSpec SortProofs ListsProofs ListsProofs2
  ListsProps LiveListModel LiveListSpec LiveListProofs LiveListProofs2 LiveListProps FltSpec.
Open Scope string_scope.
Open Scope list_scope.
Open Scope Z_scope.

Local Instance filters_dec : EqDecision filters.
Proof. solve_decision. Defined.

Lemma step_happens lower w w' : step lower w w' -> happens lower w w'.
Proof.
  intros [ord w0 r s' out Ho Hl|ord w0 key next chg s' ms subs Ho Hg Hn Hlo _ Hr|w0 key].
  - by apply (on_update lower ord w0 r).
  - by apply (on_request lower ord w0 key next chg s' ms subs).
  - apply on_delete.
Qed.

(** * Which rooms a list has after one change *)

Lemma s_sort_same find key sorts s s' b x : s_sort find key sorts s = Some (s', b) -> x ∈ s_ids s' <-> x ∈ s_ids s.
Proof.
  unfold s_sort. destruct (mapM _ _) as [cs|]; [|by intros [= <- _]].
  destruct (_ || _ || _); [|done]. intros [= <- _]. cbn [s_ids]. by rewrite isort_perm.
Qed.

Lemma modify_content lower (all : gmap string conn_room) key sorts fl room o fl1 r0 x :
  index_ok (fl_rooms fl) -> all !! room = Some r0 ->
  (o = LAdd -> include lower (fl_filter fl) r0 (fun y => all !! y) = true) ->
  (o = LChange -> room ∈ s_ids (fl_rooms fl)) ->
  modify_list lower (fun y => all !! y) key sorts fl room o = Some fl1 ->
  fl_filter fl1 = fl_filter fl /\ (x <> room -> (x ∈ s_ids (fl_rooms fl1) <-> x ∈ s_ids (fl_rooms fl)))
  /\ (room ∈ s_ids (fl_rooms fl1) <-> o <> LDel).
Proof.
  intros Hi Hr Hinc Hch. destruct o; cbn [modify_list].
  - unfold f_add. rewrite Hr, (Hinc eq_refl). destruct (s_add_spec (fl_rooms fl) room Hi) as (_ & Ha & _).
    destruct (s_add (fl_rooms fl) room) as [sa b]. cbn [fst] in Ha. cbn [fl_rooms].
    destruct (s_sort _ key sorts sa) as [[sr ok]|] eqn:E; [|done]. intros [= <-]. cbn [fl_rooms fl_filter].
    split; [done|]. rewrite !(s_sort_same _ _ _ _ _ _ _ E), Ha.
    destruct (decide (room ∈ s_ids (fl_rooms fl))); [naive_solver|]. rewrite !elem_of_app, !elem_of_list_singleton. naive_solver.
  - destruct (s_remove_spec (fl_rooms fl) room Hi) as (_ & Hrm & _). intros [= <-]. cbn [fl_rooms fl_filter]. split; [done|].
    rewrite Hrm, !elem_of_list_filter. naive_solver.
  - specialize (Hch eq_refl). destruct (s_sort _ key sorts (fl_rooms fl)) as [[sr ok]|] eqn:E; [|done].
    intros [= <-]. cbn [fl_rooms fl_filter]. split; [done|]. rewrite !(s_sort_same _ _ _ _ _ _ _ E). naive_solver.
Qed.

Lemma resort_content lower (all : gmap string conn_room) key rq fl r0 o fl1 os ss x :
  let room := m_room (c_meta r0) in
  q_all rq = false -> index_ok (fl_rooms fl) -> all !! room = Some r0 -> list_delta lower all r0 fl = Some o ->
  resort lower (fun y => all !! y) key rq fl room o = Some (fl1, os, ss) ->
  fl_filter fl1 = fl_filter fl /\ (x <> room -> (x ∈ s_ids (fl_rooms fl1) <-> x ∈ s_ids (fl_rooms fl)))
  /\ (room ∈ s_ids (fl_rooms fl1) <-> o <> LDel).
Proof.
  intros room Hall Hi Hr Hd Hres. apply (list_delta_spec lower all r0 fl o Hi) in Hd. cbn zeta in Hd. fold room in Hd.
  unfold resort in Hres. rewrite Hall in Hres. unfold list_ops in Hres.
  assert (Hm : modify_list lower (fun y => all !! y) key (q_sort rq) fl room o = Some fl1).
  { destruct (s_index_of (fl_rooms fl) room) as [i|] eqn:Ei.
    - destruct (modify_list _ _ _ _ _ _ _) as [fl2|]; [|by destruct o].
      assert (G : Some fl2 = Some fl1); [|done].
      destruct o; (destruct (_ =? -1); [by injection Hres as -> _ _|]; destruct (move_indexes _ _ _); [|done];
        destruct (moves_ops _ _ _ _ _ _ _ _) as [[? ?]|]; [|done]; by injection Hres as -> _ _).
    - assert (Hni : room ∉ s_ids (fl_rooms fl)).
      { rewrite (index_ok_elem _ _ Hi). unfold s_index_of in Ei. rewrite Ei. by intros [? ?]. }
      destruct o; [|by destruct Hd|by destruct Hd].
      destruct (modify_list _ _ _ _ _ _ _) as [fl2|]; [|done].
      assert (G : Some fl2 = Some fl1); [|done].
      destruct (_ =? -1); [by injection Hres as -> _ _|]; destruct (move_indexes _ _ _); [|done];
        destruct (moves_ops _ _ _ _ _ _ _ _) as [[? ?]|]; [|done]; by injection Hres as -> _ _. }
  apply (modify_content lower all key (q_sort rq) fl room o fl1 r0); [done|done| | |done].
  - intros ->. by destruct Hd as [_ [? _]].
  - intros ->. by destruct Hd.
Qed.

Lemma run_deltas_content lower all' reqs room : forall ds s s' out,
  l_all s = all' -> run_deltas lower s reqs room ds = Some (s', out) -> NoDup ds.*1 ->
  l_all s' = all' /\ (forall key, key ∉ ds.*1 -> l_lists s' !! key = l_lists s !! key)
  /\ (forall key o, (key, o) ∈ ds -> exists fl rq fl1 os ss, l_lists s !! key = Some fl /\ reqs !! key = Some rq
        /\ resort lower (fun y => all' !! y) key rq fl room o = Some (fl1, os, ss) /\ l_lists s' !! key = Some fl1).
Proof.
  induction ds as [|[key o] ds IH]; intros s s' out Hall Hrun Hnd.
  - cbn in Hrun. injection Hrun as <- _. split_and!; [done|done|]. intros k o Hk. by apply elem_of_nil in Hk.
  - cbn [run_deltas] in Hrun. destruct (l_lists s !! key) as [fl|] eqn:El; [|done].
    destruct (reqs !! key) as [rq|] eqn:Er; [|done]. rewrite Hall in Hrun.
    destruct (resort lower (fun y => all' !! y) key rq fl room o) as [[[fl1 os] ss]|] eqn:E; [|done].
    destruct (run_deltas lower (put_list s key fl1) reqs room ds) as [[s2 out2]|] eqn:E2; [|done].
    injection Hrun as <- <-. cbn [fmap list_fmap fst] in Hnd. apply NoDup_cons in Hnd as [Hnin Hnd].
    destruct (IH (put_list s key fl1) s2 out2) as (I1 & I2 & I3); [done|done|done|]. split_and!; [done|..].
    + intros k Hk. cbn [fmap list_fmap fst] in Hk. apply not_elem_of_cons in Hk as [Hne Hk]. rewrite (I2 k Hk).
      cbn. by rewrite lookup_insert_ne.
    + intros k o' Hk. apply elem_of_cons in Hk as [Ek|Hk].
      * injection Ek as -> ->. exists fl, rq, fl1, os, ss. split_and!; [done..|]. rewrite (I2 key Hnin).
        cbn. by rewrite lookup_insert.
      * assert (k <> key). { intros ->. apply Hnin. apply elem_of_list_fmap. by exists (key, o'). }
        destruct (I3 k o' Hk) as (fl' & rq' & fl1' & os' & ss' & H1 & H2 & H3 & H4).
        cbn [put_list l_lists] in H1. rewrite lookup_insert_ne in H1 by done. by exists fl', rq', fl1', os', ss'.
Qed.

(** An update of a room: its own place in every list is right afterwards, and no
    list changes otherwise. *)
Lemma update_content lower ord w r s' out key rq fl1 :
  (forall l, ord l ≡ₚ l) -> world_ok w ->
  live_update lower ord (w_lists w) (w_reqs w) r = Some (s', out) ->
  w_reqs w !! key = Some rq -> l_lists s' !! key = Some fl1 ->
  let room := m_room (c_meta r) in
  l_all s' = <[room := stored_room lower (w_lists w) r]> (l_all (w_lists w))
  /\ exists fl, l_lists (w_lists w) !! key = Some fl /\ fl_filter fl1 = fl_filter fl
     /\ (forall x, x <> room -> (x ∈ s_ids (fl_rooms fl1) <-> x ∈ s_ids (fl_rooms fl)))
     /\ (room ∈ s_ids (fl_rooms fl1) <->
           include lower (fl_filter fl) (stored_room lower (w_lists w) r) (fun y => l_all s' !! y) = true /\ c_left r = false).
Proof.
  intros Hord [Hdom Hok] Hl Hrq Hfl1 room. unfold live_update in Hl.
  pose proof (delta_lists_NoDup lower ord (w_lists w) r Hord) as Hnd.
  pose proof (fun key op => delta_lists_elem lower ord (w_lists w) r key op Hord) as Hel.
  pose proof (stored_left lower (w_lists w) r) as Hleft.
  set (r' := stored_room lower (w_lists w) r) in *.
  assert (Hroom : room = m_room (c_meta r')) by (unfold r', room; by rewrite stored_meta).
  assert (Hall : l_all (set_room lower ord (w_lists w) r).1 = <[room := r']> (l_all (w_lists w))) by done.
  pose proof (set_room_lists lower ord (w_lists w) r) as Hlists.
  destruct (set_room lower ord (w_lists w) r) as [s1 d] eqn:E. cbn [fst snd] in *.
  rewrite Hall in Hel. fold room in Hl.
  destruct (run_deltas_content lower (<[room := r']> (l_all (w_lists w))) (w_reqs w) room (d_lists d) s1 s' out Hall Hl Hnd) as (I1 & I2 & I3).
  split; [exact I1|]. destruct (proj1 (Hdom key)) as [fl Hfl]; [by exists rq|]. exists fl. split; [done|].
  destruct (Hok key rq fl Hrq Hfl) as ((_ & _ & Hqa) & [Hi _] & _).
  rewrite I1. set (all' := <[room := r']> (l_all (w_lists w))) in *.
  destruct (list_delta lower all' r' fl) as [o|] eqn:Ed.
  - destruct (I3 key o) as (fl0 & rq0 & fl2 & os & ss & H1 & H2 & H3 & H4); [apply Hel; by exists fl|].
    rewrite Hlists, Hfl in H1. injection H1 as <-. rewrite Hrq in H2. injection H2 as <-. rewrite Hfl1 in H4. injection H4 as <-.
    rewrite Hroom in H3.
    assert (Hr : all' !! m_room (c_meta r') = Some r') by (rewrite <- Hroom; unfold all'; by rewrite lookup_insert).
    split; [exact (proj1 (resort_content lower all' key rq fl r' o fl1 os ss "" Hqa Hi Hr Ed H3))|]. split.
    + intros x Hx. rewrite Hroom in Hx. by apply (resort_content lower all' key rq fl r' o fl1 os ss x Hqa Hi Hr Ed H3).
    + rewrite Hroom. destruct (resort_content lower all' key rq fl r' o fl1 os ss "" Hqa Hi Hr Ed H3) as (_ & _ & Hin). rewrite Hin.
      apply (list_delta_spec lower all' r' fl o Hi) in Ed. cbn zeta in Ed. rewrite <- Hleft. destruct o; naive_solver.
  - assert (Hk : key ∉ (d_lists d).*1).
    { intros Hk. apply elem_of_list_fmap in Hk as ([k o] & -> & Hk). apply Hel in Hk as (fl' & Hfl' & Hd').
      cbn [fst] in Hfl. rewrite Hfl in Hfl'. injection Hfl' as <-. congruence. }
    rewrite (I2 key Hk), Hlists, Hfl in Hfl1. injection Hfl1 as <-. split; [done|]. split; [done|].
    rewrite Hroom, <- Hleft. rewrite (index_ok_elem _ _ Hi).
    unfold list_delta in Ed. destruct (s_idx (fl_rooms fl) !! m_room (c_meta r')) as [i|].
    { by destruct (include _ _ _ _ && _). }
    destruct (include lower (fl_filter fl) r' (fun y => all' !! y)) eqn:Ei; cbn [andb] in Ed.
    + destruct (c_left r'); [|done]. split; [by intros [? ?]|by intros [_ ?]].
    + split; [by intros [? ?]|by intros [? _]].
Qed.

(** A request: the list is made anew from all rooms, or keeps its rooms. *)
Lemma request_content lower ord w key next chg s' ms subs :
  (forall l, ord l ≡ₚ l) -> world_ok w -> good_request next ->
  (w_reqs w !! key = None -> q_sort next <> []) ->
  list_request lower ord (w_lists w) key (w_reqs w !! key) next chg = Some (s', ms, subs) ->
  forall fl, l_lists s' !! key = Some fl ->
  (fl_filter fl = wanted next /\
     forall x, x ∈ s_ids (fl_rooms fl) <->
       exists r, l_all (w_lists w) !! x = Some r /\ accepted lower (wanted next) r (fun y => l_all (w_lists w) !! y))
  \/ (chg = false /\ exists p fl0, w_reqs w !! key = Some p /\ l_lists (w_lists w) !! key = Some fl0
        /\ fl_filter fl = fl_filter fl0 /\ forall x, x ∈ s_ids (fl_rooms fl) <-> x ∈ s_ids (fl_rooms fl0)).
Proof.
  intros Hord [Hdom Hok] (Hv & Hs & Hall) Hnew H fl Hfl. unfold list_request in H.
  assert (Hnewlist : forall s b s1 fl1 c, l_all s = l_all (w_lists w) -> (b = true \/ l_lists s !! key = None) ->
    assign_list lower ord s key (q_filters next) (Some (q_sort next)) b = Some (s1, fl1, c) ->
    l_all s1 = l_all (w_lists w) /\ l_lists s1 !! key = Some fl1 /\ fl_filter fl1 = wanted next /\
    forall x, x ∈ s_ids (fl_rooms fl1) <->
       exists r, l_all (w_lists w) !! x = Some r /\ accepted lower (wanted next) r (fun y => l_all (w_lists w) !! y)).
  { intros s b s1 fl1 c Es Hb EA. rewrite assign_new in EA by done. cbn zeta in EA.
    destruct (all_rooms_order ord s Hord) as [Hn Hr].
    set (rooms := ord (elements (dom (l_all s)))) in *.
    destruct (base_rooms_spec lower s rooms (q_filters next) Hn Hr) as [_ Hbase].
    unfold new_flist in EA. cbn zeta in EA. fold (base_rooms lower s rooms (q_filters next)) in EA. cbn [fl_rooms fl_filter] in EA.
    destruct (s_sort _ key (q_sort next) _) as [[sr ok]|] eqn:E; [|done]. injection EA as <- <- _. cbn [l_all l_lists fl_filter fl_rooms].
    split; [done|]. split; [by rewrite lookup_insert|]. split; [done|]. intros x.
    rewrite (s_sort_same _ _ _ _ _ _ _ E). cbn [new_srooms s_ids]. rewrite Hbase, Es. done. }
  destruct (assign_list lower ord (w_lists w) key (q_filters next) (Some (q_sort next)) false) as [[[s1 fl1] created]|] eqn:EA; [|done].
  rewrite Hall in H. cbn [andb] in H.
  assert (Hstart : l_all s1 = l_all (w_lists w) /\ l_lists s1 !! key = Some fl1 /\
     ((fl_filter fl1 = wanted next /\ forall x, x ∈ s_ids (fl_rooms fl1) <->
         exists r, l_all (w_lists w) !! x = Some r /\ accepted lower (wanted next) r (fun y => l_all (w_lists w) !! y))
      \/ exists p, w_reqs w !! key = Some p /\ l_lists (w_lists w) !! key = Some fl1)).
  { destruct (w_reqs w !! key) as [p|] eqn:Ep.
    - destruct (proj1 (Hdom key)) as [fl0 Hfl0]; [by exists p|].
      unfold assign_list in EA. rewrite Hfl0 in EA. injection EA as <- <- _. split_and!; [done|done|]. right. by exists p.
    - assert (Hnone : l_lists (w_lists w) !! key = None).
      { destruct (l_lists (w_lists w) !! key) eqn:El; [|done]. destruct (proj2 (Hdom key)) as [? ?]; [by eexists|]. congruence. }
      destruct (Hnewlist _ _ _ _ _ eq_refl (or_intror Hnone) EA) as (H1 & H2 & H3 & H4). split_and!; [done|done|]. by left. }
  clear EA. destruct Hstart as (Hall1 & Hl1 & Hcont).
  match type of H with match ?M with _ => _ end = _ => destruct M as [[added removed]|]; [|done] end.
  destruct (sort_changed (w_reqs w !! key) next || chg) eqn:Echg.
  - assert (Hassigned : exists s2 fl2 c, (if chg then assign_list lower ord s1 key (q_filters next) (Some (q_sort next)) true
              else Some (s1, fl1, false)) = Some (s2, fl2, c) /\
              ((fl_filter fl2 = wanted next /\ forall x, x ∈ s_ids (fl_rooms fl2) <->
                  exists r, l_all (w_lists w) !! x = Some r /\ accepted lower (wanted next) r (fun y => l_all (w_lists w) !! y))
               \/ (chg = false /\ exists p, w_reqs w !! key = Some p /\ l_lists (w_lists w) !! key = Some fl2))).
    { destruct chg.
      - destruct (assign_list lower ord s1 key (q_filters next) (Some (q_sort next)) true) as [[[s2 fl2] c]|] eqn:E2; [|done].
        destruct (Hnewlist _ _ _ _ _ Hall1 (or_introl eq_refl) E2) as (H1 & H2 & H3 & H4). exists s2, fl2, c. split; [done|]. by left.
      - exists s1, fl1, false. split; [done|]. destruct Hcont as [?|?]; [by left|by right]. }
    destruct Hassigned as (s2 & fl2 & c & EA & Hcont2). rewrite EA in H.
    destruct (s_sort _ key (q_sort next) (fl_rooms fl2)) as [[sr ok]|] eqn:ES; [|done].
    destruct (sync_ranges (q_windows next) (s_ids sr)) as [[ms1 subs1]|]; [|done].
    injection H as <- _ _. cbn [put_list l_lists] in Hfl. rewrite lookup_insert in Hfl. injection Hfl as <-. cbn [fl_filter fl_rooms].
    destruct Hcont2 as [[Hf Hx]|[-> (p & Hp & Hl)]].
    + left. split; [done|]. intros x. by rewrite (s_sort_same _ _ _ _ _ _ _ ES).
    + right. split; [done|]. exists p, fl2. split_and!; [done..|]. intros x. by rewrite (s_sort_same _ _ _ _ _ _ _ ES).
  - apply orb_false_iff in Echg as [_ ->].
    destruct (sync_ranges added (s_ids (fl_rooms fl1))) as [[ms1 subs1]|]; [|done].
    injection H as <- _ _. rewrite Hl1 in Hfl. injection Hfl as <-.
    destruct Hcont as [?|(p & Hp & Hl)]; [by left|]. right. split; [done|]. by exists p, fl1.
Qed.

(** * The invariant *)

(** The filters only look at whether the user joined the successor. *)
Lemma accepted_find lower f r find find' :
  (forall next, m_upgraded (c_meta r) = Some next ->
     ((exists n, find next = Some n /\ c_left n = false /\ c_invite n = false) <->
      (exists n, find' next = Some n /\ c_left n = false /\ c_invite n = false))) ->
  accepted lower f r find <-> accepted lower f r find'.
Proof.
  intros H. unfold accepted, satisfies_but_spaces.
  assert (E : replaced r find <-> replaced r find').
  { unfold replaced. split; intros (next & n & Hu & Hn); destruct (H next Hu) as [H1 H2].
    - destruct H1 as (n' & Hn'); [by exists n|]. by exists next, n'.
    - destruct H2 as (n' & Hn'); [by exists n|]. by exists next, n'. }
  rewrite E. done.
Qed.

Definition shown_ok (lower : string -> string) (x : string) (w : world) : Prop :=
  forall key rq fl, w_reqs w !! key = Some rq -> l_lists (w_lists w) !! key = Some fl ->
    fl_filter fl = wanted rq /\
    forall r, l_all (w_lists w) !! x = Some r -> c_left r = false ->
      (x ∈ s_ids (fl_rooms fl) <-> accepted lower (wanted rq) r (fun y => l_all (w_lists w) !! y)).

Lemma step_shown lower x w w' : step lower w w' -> steady x w w' -> world_ok w -> shown_ok lower x w -> shown_ok lower x w'.
Proof.
  intros [ord w0 r s' out Ho Hl|ord w0 key next chg s' ms subs Ho Hg Hn Hlo Hch Hr|w0 key] Hst Hw Hs.
  - intros key rq fl1 Hrq Hfl1. cbn [w_reqs w_lists] in *.
    destruct (update_content lower ord w0 r s' out key rq fl1 Ho Hw Hl Hrq Hfl1) as (Hall & fl & Hfl & Hf & Hoth & Hroom).
    destruct (Hs key rq fl Hrq Hfl) as [Hf0 Hx]. rewrite Hf, Hf0 in *. split; [done|]. intros rx Hrx Hleft.
    destruct (decide (x = m_room (c_meta r))) as [->|Hne].
    + rewrite Hroom. unfold accepted. rewrite <- include_spec.
      assert (Ex : rx = stored_room lower (w_lists w0) r).
      { rewrite Hall, lookup_insert in Hrx. by injection Hrx. }
      subst rx. rewrite stored_left in Hleft. rewrite Hleft. tauto.
    + rewrite (Hoth x Hne). assert (Hrx0 : l_all (w_lists w0) !! x = Some rx).
      { rewrite Hall, lookup_insert_ne in Hrx by done. done. }
      rewrite (Hx rx Hrx0 Hleft). apply accepted_find. intros nx Hnx.
      pose proof (Hst rx nx Hrx0 Hnx) as Hj. unfold joined_now in Hj. cbn [w_lists] in Hj. symmetry. exact Hj.
  - destruct (request_ok lower ord w0 key next chg s' ms subs Ho Hw Hg Hn Hlo Hr) as (Hall & fl & Hlists & _).
    intros k rq fl1 Hrq Hfl1. cbn [w_reqs w_lists] in *. rewrite Hall.
    destruct (decide (k = key)) as [->|Hne].
    + rewrite lookup_insert in Hrq. injection Hrq as <-.
      destruct (request_content lower ord w0 key next chg s' ms subs Ho Hw Hg Hn Hr fl1 Hfl1) as [[Hf Hx]|(-> & p & fl0 & Hp & Hl0 & Hf & Hx)].
      * split; [done|]. intros r Hrx _. rewrite Hx. split; [|intros Ha; by exists r].
        intros (r2 & Hr2 & Ha). rewrite Hrx in Hr2. by injection Hr2 as ->.
      * destruct (Hs key p fl0 Hp Hl0) as [Hf0 Hx0].
        assert (Ew : wanted p = wanted next).
        { unfold wanted. f_equal. rewrite Hp in Hch. unfold noticed in Hch.
          destruct (decide (q_filters p = q_filters next)) as [E|Hd]; [exact E|]. by specialize (Hch Hd). }
        rewrite <- Ew. split; [by rewrite Hf|]. intros r Hrx Hleft. rewrite Hx. by apply Hx0.
    + rewrite lookup_insert_ne in Hrq by done. rewrite Hlists, lookup_insert_ne in Hfl1 by done. by apply (Hs k).
  - intros k rq fl Hrq Hfl. cbn [w_reqs w_lists delete_list l_lists l_all] in *.
    apply lookup_delete_Some in Hrq as [Hne Hrq]. apply lookup_delete_Some in Hfl as [_ Hfl].
    destruct (Hs k rq fl Hrq Hfl) as [Hf Hx]. split; [done|]. intros r Hrx Hleft.
    rewrite lookup_fmap in Hrx. destruct (l_all (w_lists w0) !! x) as [r0|] eqn:Er0; [|done]. cbn in Hrx. injection Hrx as <-.
    rewrite (Hx r0 eq_refl) by exact Hleft.
    assert (Ea : forall f find, accepted lower f r0 find <->
       accepted lower f (mk_conn_room (c_meta r0) (c_dm r0) (c_invite r0) (c_left r0) (c_notif r0) (c_highlight r0) (c_canon r0)
          (c_spaces r0) (c_tags r0) (delete key (c_ts r0))) find) by done.
    rewrite Ea. apply accepted_find. intros nx Hnx. rewrite lookup_fmap. split.
    + intros (n & Hn & H1 & H2). rewrite Hn. cbn. eexists. split; [done|]. done.
    + intros (n & Hn & H1 & H2). destruct (l_all (w_lists w0) !! nx) as [n0|]; [|done]. cbn in Hn. injection Hn as <-. by exists n0.
Qed.

Lemma course_shown lower x w w' : course lower x w w' -> world_ok w -> shown_ok lower x w -> world_ok w' /\ shown_ok lower x w'.
Proof.
  induction 1 as [|w1 w2 w3 H Hst _ IH]; [done|]. intros Hw Hs. apply IH.
  - apply (happens_ok lower w1); [by apply step_happens|done].
  - by apply (step_shown lower x w1).
Qed.

(** * C92 *)

(** From a new connection on, through any number of updates of any rooms, list
    requests, changes of filters and deletions: a room the user has not left is
    in a list exactly if it now passes the filters the client asked for last, a
    room the connection does not know is in none, and the client knows what is at
    the positions of its windows.
    Missing, because false (see below): rooms the user left; rooms for which the
    user comes into or goes from the room that replaces them; requests for all
    rooms, or with what C61 excludes. *)
Theorem C92_shown_partial lower x w key rq :
  course lower x new_world w -> w_reqs w !! key = Some rq ->
  exists fl, l_lists (w_lists w) !! key = Some fl
    /\ (forall r, l_all (w_lists w) !! x = Some r -> c_left r = false ->
          (x ∈ s_ids (fl_rooms fl) <-> accepted lower (wanted rq) r (fun y => l_all (w_lists w) !! y)))
    /\ (l_all (w_lists w) !! x = None -> x ∉ s_ids (fl_rooms fl))
    /\ agrees (q_windows rq) (s_ids (fl_rooms fl)) (w_views w key).
Proof.
  intros Hc Hrq. destruct (course_shown lower x _ _ Hc new_world_ok) as [[Hdom Hok] Hs].
  { intros k q fl H. cbn in H. by rewrite lookup_empty in H. }
  destruct (proj1 (Hdom key)) as [fl Hfl]; [by exists rq|]. exists fl. split; [done|].
  destruct (Hok key rq fl Hrq Hfl) as (_ & [_ Hk] & _ & Ha). split_and!; [|intros Hn Hin; apply Hk in Hin; cbn in Hin; rewrite Hn in Hin; by destruct Hin|done].
  intros r. by apply (Hs key rq fl Hrq Hfl).
Qed.

(** What an update says about its room holds in every list at once; in particular
    a room that it says the user left is in none. *)
Theorem C92_updated lower w ord r s' out key rq fl :
  history lower new_world w -> (forall l, ord l ≡ₚ l) ->
  live_update lower ord (w_lists w) (w_reqs w) r = Some (s', out) ->
  w_reqs w !! key = Some rq -> l_lists s' !! key = Some fl ->
  (m_room (c_meta r) ∈ s_ids (fl_rooms fl) <->
     c_left r = false /\ accepted lower (fl_filter fl) r (fun y => l_all s' !! y))
  /\ forall x fl0, x <> m_room (c_meta r) -> l_lists (w_lists w) !! key = Some fl0 ->
       (x ∈ s_ids (fl_rooms fl) <-> x ∈ s_ids (fl_rooms fl0)).
Proof.
  intros Hh Ho Hl Hrq Hfl. pose proof (history_ok lower _ _ Hh new_world_ok) as Hw.
  destruct (update_content lower ord w r s' out key rq fl Ho Hw Hl Hrq Hfl) as (Hall & fl0 & Hfl0 & Hf & Hoth & Hroom). split.
  - rewrite Hroom, Hf, include_stored. unfold accepted. rewrite <- include_spec. tauto.
  - intros x fl1 Hx Hfl1. rewrite Hfl0 in Hfl1. injection Hfl1 as <-. by apply Hoth.
Qed.

(** * Where it is false *)

Definition upgraded_to (x next : string) (ts : Z) : conn_room :=
  mk_conn_room (mk_meta x [] x "" "" 2 0 ts ∅ false None (Some next) None ∅) false false false 0 0 "" ∅ ∅
    (<["k" := ts]> (<["d" := ts]> ∅)).
Definition left_now (r : conn_room) : conn_room :=
  mk_conn_room (c_meta r) (c_dm r) (c_invite r) true (c_notif r) (c_highlight r) (c_canon r) (c_spaces r) (c_tags r) (c_ts r).

(** The user joins the room that replaces "old": the old room, which the filters
    hide, stays in the list - and once it is hidden, it stays so when the user
    leaves the new one. *)
Definition joining : list action :=
  [AUpdate (upgraded_to "old" "new" 1); ARequest "k" (win [(0, 5)] ["by_recency"] None false) false; AUpdate (rm "new" 2 false)].
Definition leaving : list action :=
  [AUpdate (upgraded_to "old" "new" 1); AUpdate (rm "new" 2 false); ARequest "k" (win [(0, 5)] ["by_recency"] None false) false;
   AUpdate (left_now (rm "new" 3 false))].
Theorem C92_successor_refuted :
  observe "k" [0; 1] (play new_world joining) = Some (Some ["new"; "old"], [Some "new"; Some "old"])
  /\ observe "k" [0; 1] (play new_world leaving) = Some (Some [], [None; None])
  /\ forallb legal joining = true /\ forallb legal leaving = true
  /\ (forall find, find "new" = Some (rm "new" 2 false) -> ~ accepted id no_filters (upgraded_to "old" "new" 1) find)
  /\ (forall find, find "new" = Some (left_now (rm "new" 3 false)) -> accepted id no_filters (upgraded_to "old" "new" 1) find).
Proof.
  split; [vm_compute; reflexivity|]. split; [vm_compute; reflexivity|]. split; [vm_compute; reflexivity|].
  split; [vm_compute; reflexivity|]. split.
  - intros find Hf [[Hr _] _]. apply Hr. exists "new", (rm "new" 2 false). done.
  - intros find Hf. unfold accepted. rewrite <- include_spec. unfold include. cbn [upgraded_to c_meta m_upgraded]. rewrite Hf.
    vm_compute. reflexivity.
Qed.

(** A room the user left is in a list that is made afterwards. *)
Theorem C92_left_refuted :
  observe "k" [0] (play new_world
    [AUpdate (rm "a" 1 false); AUpdate (left_now (rm "a" 2 false)); ARequest "k" (win [(0, 5)] ["by_recency"] None false) false])
  = Some (Some ["a"], [Some "a"]).
Proof. vm_compute. reflexivity. Qed.

(** A list of all rooms: other filters are never applied. The client asks for
    direct messages only and is sent the list of before; so it stays. *)
Definition everything (dm : option bool) : req_list := win [(0, 20)] ["by_recency"] dm true.
Definition refilter : list action :=
  [AUpdate (rm "a" 1 false); AUpdate (rm "b" 2 true); ARequest "k" (everything None) false;
   ARequest "k" (everything (Some true)) true].
Theorem C92_all_rooms_refuted :
  observe "k" [0; 1] (play new_world refilter) = Some (Some ["b"; "a"], [Some "b"; Some "a"])
  /\ observe "k" [0; 1; 2] (play new_world (refilter ++ [AUpdate (rm "c" 3 false); ARequest "k" (everything (Some true)) false]))
     = Some (Some ["b"; "a"; "c"], [Some "b"; Some "a"; None])
  /\ forall find, ~ accepted id (wanted (everything (Some true))) (rm "a" 1 false) find.
Proof.
  split; [vm_compute; reflexivity|]. split; [vm_compute; reflexivity|].
  intros find [(_ & _ & _ & Hd & _) _]. specialize (Hd true eq_refl). discriminate Hd.
Qed.

(** * A case *)

(** The script of C61 is a course for every room: no room in it is replaced. *)
Definition c92_script : list action :=
  [AUpdate (rm "a" 1 false); AUpdate (rm "b" 2 true); AUpdate (upgraded_to "o" "a" 3);
   ARequest "k" (win [(0, 4)] ["by_recency"] None false) false;
   ARequest "k" (win [(0, 4)] ["by_recency"] (Some true) false) true;
   AUpdate (rm "a" 9 true); AUpdate (rm "b" 10 false)].
Definition no_change (q : option req_list) (n : req_list) : bool := 
  match match q with Some p => q_filters p | None => None end, q_filters n with
  | None, None => true
  | _, _ => false
  end.
Definition joined_b (w : world) (x : string) : bool :=
  match l_all (w_lists w) !! x with Some n => negb (c_left n) && negb (c_invite n) | None => false end.
Definition steady_b (x : string) (w w' : world) : bool :=
  match l_all (w_lists w) !! x with
  | Some r => match m_upgraded (c_meta r) with Some nx => Bool.eqb (joined_b w nx) (joined_b w' nx) | None => true end
  | None => true
  end.
Definition legal_in (w : world) (a : action) : bool :=
  legal a && match a with ARequest key q chg => chg || no_change (w_reqs w !! key) q | _ => true end.
Fixpoint play_b (x : string) (w : world) (l : list action) : option world :=
  match l with
  | [] => Some w
  | a :: l => if legal_in w a then
                match play1 w a with Some w' => if steady_b x w w' then play_b x w' l else None | None => None end
              else None
  end.
Lemma joined_b_ok w x : joined_b w x = true <-> joined_now w x.
Proof.
  unfold joined_b, joined_now. destruct (l_all (w_lists w) !! x) as [n|]; [|split; [done|by intros (? & ? & _)]].
  split.
  - intros H. exists n. destruct (c_left n), (c_invite n); done.
  - intros (n' & [= <-] & H1 & H2). by rewrite H1, H2.
Qed.
Lemma steady_b_ok x w w' : steady_b x w w' = true -> steady x w w'.
Proof.
  unfold steady_b, steady. intros H r nx Hr Hu. rewrite Hr, Hu in H. apply Bool.eqb_prop in H.
  rewrite <- !joined_b_ok, H. done.
Qed.
Lemma play_b_course x l : forall w w', play_b x w l = Some w' -> course id x w w'.
Proof.
  induction l as [|a l IH]; intros w w' H; cbn [play_b] in H.
  { injection H as <-. constructor. }
  destruct (legal_in w a) eqn:El; [|done]. destruct (play1 w a) as [w1|] eqn:E; [|done].
  destruct (steady_b x w w1) eqn:Es; [|done].
  apply (course_step id x w w1 w'); [|by apply steady_b_ok|by apply IH].
  unfold legal_in in El. apply andb_prop in El as [El Ec].
  assert (Hh : match a with
    | ARequest key q chg => good_request q /\ (w_reqs w !! key = None -> q_sort q <> []) /\ no_lone_window (w_reqs w !! key) q chg
    | _ => True end).
  { destruct a as [|key q chg|]; [done| |done]. unfold legal in El.
    repeat match goal with H : _ && _ = true |- _ => apply andb_prop in H as [? ?] end.
    match goal with H : forallb _ (q_windows q) = true |- _ => rename H into Hw end.
    match goal with H : forallb _ (q_sort q) = true |- _ => rename H into Hs end.
    split_and!.
    - split_and!; [done| |by destruct (q_all q)]. apply Forall_forall. intros y Hy.
      rewrite forallb_forall in Hs. apply elem_of_list_In in Hy. specialize (Hs y Hy).
      by apply bool_decide_eq_true in Hs.
    - intros _ Hq. by rewrite Hq in *.
    - unfold no_lone_window. destruct (w_reqs w !! key) as [p|]; [|done]. intros _ _ _ i Hi.
      rewrite forallb_forall in Hw. apply elem_of_list_In in Hi. specialize (Hw (i, i) Hi). cbn in Hw. lia. }
  destruct a as [r|key q chg|key]; cbn [play1] in E.
  - destruct (live_update id id (w_lists w) (w_reqs w) r) as [[s' out]|] eqn:Eu; [|done]. injection E as <-.
    by apply (step_update id id w r).
  - destruct (list_request id id (w_lists w) key (w_reqs w !! key) q chg) as [[[s' ms] subs]|] eqn:Eu; [|done].
    injection E as <-. destruct Hh as (H1 & H2 & H3). apply (step_request id id w key q chg s' ms subs); try done.
    unfold noticed. intros Hd. destruct chg; [done|]. cbn [orb] in Ec. exfalso. apply Hd. unfold no_change in Ec.
    destruct (match w_reqs w !! key with Some p => q_filters p | None => None end), (q_filters q); done.
  - injection E as <-. apply step_delete.
Qed.
Example C92_example :
  let names l := observe "k" [0; 1; 2] (play_b "o" new_world (take l c92_script)) in
  names 4%nat = Some (Some ["b"; "a"], [Some "b"; Some "a"; None])
  /\ names 5%nat = Some (Some ["b"], [Some "b"; None; None])
  /\ names 6%nat = Some (Some ["a"; "b"], [Some "a"; Some "b"; None])
  /\ names 7%nat = Some (Some ["a"], [Some "a"; None; None]).
Proof. cbn zeta. split; [vm_compute; reflexivity|]. split; [vm_compute; reflexivity|]. split; vm_compute; reflexivity. Qed.
Example C92_example_is_a_course : exists w, course id "o" new_world w /\ play_b "o" new_world c92_script = Some w.
Proof.
  assert (Hx : match observe "k" [] (play_b "o" new_world c92_script) with Some _ => true | None => false end = true)
    by (vm_compute; reflexivity).
  revert Hx. generalize (fun w => play_b_course "o" c92_script new_world w). intros Hp.
  destruct (play_b "o" new_world c92_script) as [w|]; intros Hx; [|discriminate Hx].
  exists w. split; [exact (Hp w eq_refl)|exact eq_refl].
Qed.

Print Assumptions C92_shown_partial.
Print Assumptions C92_updated.
Print Assumptions C92_successor_refuted.
Print Assumptions C92_left_refuted.
Print Assumptions C92_all_rooms_refuted.
