(** C94: a client that asks for all rooms of a list gets them. *)
From Verif Require Import Prelude RangeModel RangeSpec OpsModel OpsSpec RoomNameModel ListsModel ListsSpec SortProofs ListsProofs ListsProofs2
  ListsProps LiveListModel LiveListSpec LiveListProofs LiveListProofs2 LiveListProps FltSpec FltProps AllModel AllSpec.
Open Scope string_scope.
Open Scope list_scope.
Open Scope Z_scope.

Lemma run_subs_content lower all' reqs room : forall ds s s' out,
  l_all s = all' -> run_subs lower s reqs room ds = Some (s', out) -> NoDup ds.*1 ->
  l_all s' = all' /\ (forall key, key ∉ ds.*1 -> l_lists s' !! key = l_lists s !! key)
  /\ (forall key subs, (key, subs) ∈ out -> key ∈ ds.*1)
  /\ (forall key o, (key, o) ∈ ds -> exists fl rq fl1 os ss, l_lists s !! key = Some fl /\ reqs !! key = Some rq
        /\ resort lower (fun y => all' !! y) key rq fl room o = Some (fl1, os, ss) /\ l_lists s' !! key = Some fl1 /\ (key, ss) ∈ out).
Proof.
  induction ds as [|[key o] ds IH]; intros s s' out Hall Hrun Hnd.
  - cbn in Hrun. injection Hrun as <- <-. split_and!; [done|done| |]; intros k o Hk; by apply elem_of_nil in Hk.
  - cbn [run_subs] in Hrun. destruct (l_lists s !! key) as [fl|] eqn:El; [|done].
    destruct (reqs !! key) as [rq|] eqn:Er; [|done]. rewrite Hall in Hrun.
    destruct (resort lower (fun y => all' !! y) key rq fl room o) as [[[fl1 os] ss]|] eqn:E; [|done].
    destruct (run_subs lower (put_list s key fl1) reqs room ds) as [[s2 out2]|] eqn:E2; [|done].
    injection Hrun as <- <-. cbn [fmap list_fmap fst] in Hnd. apply NoDup_cons in Hnd as [Hnin Hnd].
    destruct (IH (put_list s key fl1) s2 out2) as (I1 & I2 & I4 & I3); [done|done|done|]. split_and!; [done|..].
    + intros k Hk. cbn [fmap list_fmap fst] in Hk. apply not_elem_of_cons in Hk as [Hne Hk]. rewrite (I2 k Hk).
      cbn. by rewrite lookup_insert_ne.
    + intros k subs Hk. cbn. apply elem_of_cons in Hk as [Ek|Hk]; [injection Ek as -> _; left|right; by eapply I4].
    + intros k o' Hk. apply elem_of_cons in Hk as [Ek|Hk].
      * injection Ek as -> ->. exists fl, rq, fl1, os, ss. split_and!; [done..| |left]. rewrite (I2 key Hnin).
        cbn. by rewrite lookup_insert.
      * assert (k <> key). { intros ->. apply Hnin. apply elem_of_list_fmap. by exists (key, o'). }
        destruct (I3 k o' Hk) as (fl' & rq' & fl1' & os' & ss' & H1 & H2 & H3 & H4 & H5).
        cbn [put_list l_lists] in H1. rewrite lookup_insert_ne in H1 by done. exists fl', rq', fl1', os', ss'. split_and!; [done..|by right].
Qed.

(** The updates are those of C61. *)
Lemma run_subs_same lower reqs room : forall ds s,
  fst <$> run_subs lower s reqs room ds = fst <$> run_deltas lower s reqs room ds.
Proof.
  induction ds as [|[key o] ds IH]; intros s; [done|]. cbn [run_subs run_deltas].
  destruct (l_lists s !! key); [|done]. destruct (reqs !! key); [|done].
  destruct (resort _ _ _ _ _ _ _) as [[[fl1 os] ss]|]; [|done]. specialize (IH (put_list s key fl1)).
  destruct (run_subs _ _ _ _ _) as [[? ?]|], (run_deltas _ _ _ _ _) as [[? ?]|]; done.
Qed.

(** One update of a list of all rooms. *)
Lemma resort_all lower (all : gmap string conn_room) key rq fl r0 o fl1 os ss :
  let room := m_room (c_meta r0) in
  q_all rq = true -> index_ok (fl_rooms fl) -> all !! room = Some r0 -> list_delta lower all r0 fl = Some o ->
  resort lower (fun y => all !! y) key rq fl room o = Some (fl1, os, ss) ->
  fl_filter fl1 = fl_filter fl /\ index_ok (fl_rooms fl1) /\
  (forall x, x <> room -> (x ∈ s_ids (fl_rooms fl1) <-> x ∈ s_ids (fl_rooms fl))) /\
  (room ∈ s_ids (fl_rooms fl1) <-> include lower (fl_filter fl) r0 (fun y => all !! y) = true /\ c_left r0 = false) /\
  (room ∈ s_ids (fl_rooms fl1) -> room ∈ s_ids (fl_rooms fl) \/ room ∈ ss).
Proof.
  intros room Hall Hi Hr Hd Hres. apply (list_delta_spec lower all r0 fl o Hi) in Hd. cbn zeta in Hd. fold room in Hd.
  unfold resort in Hres. rewrite Hall in Hres. destruct o.
  - destruct Hd as [Hnot [Hinc Hleft]]. unfold f_add in Hres. rewrite Hr, Hinc in Hres.
    destruct (s_add_spec (fl_rooms fl) room Hi) as (Hi1 & Ha & _). destruct (s_add (fl_rooms fl) room) as [sa b]. cbn [fst] in *.
    injection Hres as <- _ <-. cbn [fl_rooms fl_filter]. split_and!; [done|done| | |].
    + intros x Hx. rewrite Ha. destruct (decide _); [done|]. rewrite elem_of_app, elem_of_list_singleton. naive_solver.
    + rewrite Ha. destruct (decide _); [done|]. rewrite elem_of_app, elem_of_list_singleton. split; [done|]. intros _. by right.
    + intros _. right. left.
  - destruct Hd as [Hin Hnot]. injection Hres as <- _ <-. destruct (s_remove_spec (fl_rooms fl) room Hi) as (Hi1 & Hrm & _).
    cbn [fl_rooms fl_filter]. rewrite Hrm. split_and!; [done|done| | |].
    + intros x Hx. rewrite elem_of_list_filter. tauto.
    + rewrite elem_of_list_filter. split; [by intros [? _]|]. intros Hs. by destruct (Hnot Hs).
    + rewrite elem_of_list_filter. by intros [? _].
  - destruct Hd as [Hin Hs]. injection Hres as <- _ <-. split_and!; [done|done|done|by split|by left].
Qed.

(** What is known of the list. *)
Definition kept (key : string) (w : aworld) : Prop :=
  forall fl, l_lists (a_lists w) !! key = Some fl ->
    index_ok (fl_rooms fl) /\ (exists rq, a_reqs w !! key = Some rq /\ q_all rq = true) /\
    forall x, x ∈ s_ids (fl_rooms fl) -> x ∈ a_sent w key /\ is_Some (l_all (a_lists w) !! x).

Lemma update_kept lower ord w r s' out key fl1 :
  (forall l, ord l ≡ₚ l) -> kept key w ->
  update_subs lower ord (a_lists w) (a_reqs w) r = Some (s', out) -> l_lists s' !! key = Some fl1 ->
  let room := m_room (c_meta r) in
  l_all s' = <[room := stored_room lower (a_lists w) r]> (l_all (a_lists w)) /\
  exists fl, l_lists (a_lists w) !! key = Some fl /\ fl_filter fl1 = fl_filter fl /\ index_ok (fl_rooms fl1) /\
    (forall x, x <> room -> (x ∈ s_ids (fl_rooms fl1) <-> x ∈ s_ids (fl_rooms fl))) /\
    (room ∈ s_ids (fl_rooms fl1) <->
       include lower (fl_filter fl) (stored_room lower (a_lists w) r) (fun y => l_all s' !! y) = true /\ c_left r = false) /\
    (room ∈ s_ids (fl_rooms fl1) -> room ∈ s_ids (fl_rooms fl) \/ exists ss, (key, ss) ∈ out /\ room ∈ ss).
Proof.
  intros Hord HK Hl Hfl1 room. unfold update_subs in Hl.
  pose proof (delta_lists_NoDup lower ord (a_lists w) r Hord) as Hnd.
  pose proof (fun key op => delta_lists_elem lower ord (a_lists w) r key op Hord) as Hel.
  pose proof (stored_left lower (a_lists w) r) as Hleft.
  set (r' := stored_room lower (a_lists w) r) in *.
  assert (Hroom : room = m_room (c_meta r')) by (unfold r', room; by rewrite stored_meta).
  assert (Hall : l_all (set_room lower ord (a_lists w) r).1 = <[room := r']> (l_all (a_lists w))) by done.
  pose proof (set_room_lists lower ord (a_lists w) r) as Hlists.
  destruct (set_room lower ord (a_lists w) r) as [s1 d] eqn:E. cbn [fst snd] in *.
  rewrite Hall in Hel. fold room in Hl.
  destruct (run_subs_content lower (<[room := r']> (l_all (a_lists w))) (a_reqs w) room (d_lists d) s1 s' out Hall Hl Hnd) as (I1 & I2 & _ & I3).
  split; [exact I1|]. rewrite I1. set (all' := <[room := r']> (l_all (a_lists w))) in *.
  assert (Hr : all' !! m_room (c_meta r') = Some r') by (rewrite <- Hroom; unfold all'; by rewrite lookup_insert).
  destruct (decide (key ∈ (d_lists d).*1)) as [Hk|Hk].
  - apply elem_of_list_fmap in Hk as ([k o] & -> & Hk). cbn [fst] in *.
    destruct (I3 k o Hk) as (fl & rq & fl2 & os & ss & H1 & H2 & H3 & H4 & H5). apply Hel in Hk as (fl' & Hfl' & Hd).
    rewrite Hlists in H1. rewrite Hfl' in H1. injection H1 as ->. rewrite Hfl1 in H4. injection H4 as <-.
    destruct (HK fl Hfl') as (Hi & (rq0 & Hrq0 & Hqa) & _). rewrite H2 in Hrq0. injection Hrq0 as <-. rewrite Hroom in H3.
    destruct (resort_all lower all' k rq fl r' o fl1 os ss Hqa Hi Hr Hd H3) as (J1 & J2 & J3 & J4 & J5). rewrite <- Hroom in *.
    exists fl. rewrite <- Hleft. split_and!; [done|done|done|done|done|]. intros HH. destruct (J5 HH); [by left|]. right. by exists ss.
  - rewrite (I2 key Hk), Hlists in Hfl1. exists fl1. destruct (HK fl1 Hfl1) as (Hi & _ & _).
    split_and!; [done|done|done|done| |by left].
    destruct (list_delta lower all' r' fl1) as [o|] eqn:Ed.
    { exfalso. apply Hk. apply elem_of_list_fmap. exists (key, o). split; [done|]. apply Hel. by exists fl1. }
    rewrite Hroom, <- Hleft, (index_ok_elem _ _ Hi).
    unfold list_delta in Ed. destruct (s_idx (fl_rooms fl1) !! m_room (c_meta r')) as [i|].
    { by destruct (include _ _ _ _ && _). }
    destruct (include lower (fl_filter fl1) r' (fun y => all' !! y)) eqn:Ei; cbn [andb] in Ed.
    + destruct (c_left r'); [|done]. split; [by intros [? ?]|by intros [_ ?]].
    + split; [by intros [? ?]|by intros [? _]].
Qed.

Lemma assign_frame lower ord s key f so b s1 fl c :
  assign_list lower ord s key f so b = Some (s1, fl, c) ->
  l_all s1 = l_all s /\ l_lists s1 !! key = Some fl /\ forall k, k <> key -> l_lists s1 !! k = l_lists s !! k.
Proof.
  intros H. unfold assign_list in H. cbn zeta in H.
  assert (G : forall fl0, match so with
      | None => Some (mk_rlists (l_all s) (<[key := fl0]> (l_lists s)), fl0, true)
      | Some so0 => match s_sort (fun x => l_all s !! x) key so0 (fl_rooms fl0) with
                    | None => None
                    | Some (sr, _) => Some (mk_rlists (l_all s) (<[key := mk_flist sr (fl_filter fl0)]> (l_lists s)), mk_flist sr (fl_filter fl0), true)
                    end end = Some (s1, fl, c) ->
    l_all s1 = l_all s /\ l_lists s1 !! key = Some fl /\ forall k, k <> key -> l_lists s1 !! k = l_lists s !! k).
  { clear H. intros fl0 E. destruct so as [so0|].
    - destruct (s_sort (fun x => l_all s !! x) key so0 (fl_rooms fl0)) as [[sr ok]|]; [|done]. injection E as <- <- _. cbn. split_and!; [done|by rewrite lookup_insert|].
      intros k Hk. by rewrite lookup_insert_ne.
    - injection E as <- <- _. cbn. split_and!; [done|by rewrite lookup_insert|]. intros k Hk. by rewrite lookup_insert_ne. }
  destruct (l_lists s !! key) as [fl0|] eqn:E0; [destruct b|].
  - by eapply G.
  - injection H as <- <- _. done.
  - by eapply G.
Qed.

(** A request changes its own list only. *)
Lemma request_frame lower ord s key prev next chg s' ms subs :
  list_request lower ord s key prev next chg = Some (s', ms, subs) ->
  l_all s' = l_all s /\ is_Some (l_lists s' !! key) /\ forall k, k <> key -> l_lists s' !! k = l_lists s !! k.
Proof.
  intros H. unfold list_request in H.
  destruct (assign_list lower ord s key (q_filters next) (Some (q_sort next)) false) as [[[s1 fl1] created]|] eqn:EA; [|done].
  apply assign_frame in EA as (A1 & A2 & A3).
  destruct (q_all next && (created || chg)). { injection H as <- _ _. rewrite A2. split_and!; [done|done|done]. }
  match type of H with match ?M with _ => _ end = _ => destruct M as [[added removed]|]; [|done] end.
  destruct (sort_changed prev next || chg).
  - match type of H with match ?M with _ => _ end = _ => destruct M as [[[s2 fl2] c2]|] eqn:E2; [|done] end.
    assert (B : l_all s2 = l_all s /\ forall k, k <> key -> l_lists s2 !! k = l_lists s !! k).
    { destruct chg.
      - apply assign_frame in E2 as (B1 & _ & B3). split; [congruence|]. intros k Hk. rewrite (B3 k Hk). by apply A3.
      - injection E2 as <- _ _. done. }
    destruct B as [B1 B2]. destruct (s_sort _ key (q_sort next) (fl_rooms fl2)) as [[sr ok]|]; [|done].
    destruct (sync_ranges (q_windows next) (s_ids sr)) as [[ms1 subs1]|]; [|done]. injection H as <- _ _. cbn.
    rewrite lookup_insert. split_and!; [done|done|]. intros k Hk. rewrite lookup_insert_ne by done. by apply B2.
  - destruct (sync_ranges added (s_ids (fl_rooms fl1))) as [[ms1 subs1]|]; [|done]. injection H as <- _ _. rewrite A2. done.
Qed.

(** A request for all rooms makes the list and sends it all, or keeps its rooms. *)
Lemma request_all lower ord s key prev next chg s' ms subs fl :
  (forall l, ord l ≡ₚ l) -> q_all next = true -> Forall known_sort (q_sort next) ->
  (forall fl0, l_lists s !! key = Some fl0 -> index_ok (fl_rooms fl0)) ->
  list_request lower ord s key prev next chg = Some (s', ms, subs) -> l_lists s' !! key = Some fl ->
  index_ok (fl_rooms fl) /\
  ((l_lists s !! key = None /\ fl_filter fl = wanted next /\ subs = s_ids (fl_rooms fl) /\
      forall x, x ∈ s_ids (fl_rooms fl) <->
        exists r, l_all s !! x = Some r /\ accepted lower (wanted next) r (fun y => l_all s !! y)) \/
   (exists fl0, l_lists s !! key = Some fl0 /\ fl_filter fl = fl_filter fl0 /\
      forall x, x ∈ s_ids (fl_rooms fl) <-> x ∈ s_ids (fl_rooms fl0))).
Proof.
  intros Hord Hall Hso Hi H Hfl. unfold list_request in H. rewrite Hall in H. cbn [andb] in H.
  destruct (l_lists s !! key) as [fl0|] eqn:El.
  - assert (EA : assign_list lower ord s key (q_filters next) (Some (q_sort next)) false = Some (s, fl0, false))
      by (unfold assign_list; by rewrite El).
    rewrite EA in H. cbn [orb] in H. specialize (Hi fl0 eq_refl). destruct chg.
    { injection H as <- _ _. rewrite El in Hfl. injection Hfl as <-. split; [done|]. right. by exists fl0. }
    match type of H with match ?M with _ => _ end = _ => destruct M as [[added removed]|]; [|done] end.
    rewrite orb_false_r in H. destruct (sort_changed prev next).
    + destruct (s_sort _ key (q_sort next) (fl_rooms fl0)) as [[sr ok]|] eqn:ES; [|done].
      destruct (sync_ranges (q_windows next) (s_ids sr)) as [[ms1 subs1]|]; [|done]. injection H as <- _ _.
      cbn [put_list l_lists] in Hfl. rewrite lookup_insert in Hfl. injection Hfl as <-. cbn [fl_rooms fl_filter].
      destruct (s_sort_index _ _ _ _ _ _ Hi ES) as [Hi' Hp]. split; [done|]. right. exists fl0. split_and!; [done..|].
      intros x. by rewrite Hp.
    + destruct (sync_ranges added (s_ids (fl_rooms fl0))) as [[ms1 subs1]|]; [|done]. injection H as <- _ _.
      rewrite El in Hfl. injection Hfl as <-. split; [done|]. right. by exists fl0.
  - rewrite assign_new in H by (by right). cbn zeta in H.
    destruct (all_rooms_order ord s Hord) as [Hn Hr]. set (rooms := ord (elements (dom (l_all s)))) in *.
    destruct (base_rooms_spec lower s rooms (q_filters next) Hn Hr) as [Hbn Hbase].
    unfold new_flist in H. cbn zeta in H. fold (base_rooms lower s rooms (q_filters next)) in H. cbn [fl_rooms fl_filter] in H.
    destruct (s_sort_full (fun x => l_all s !! x) key (q_sort next) (new_srooms (base_rooms lower s rooms (q_filters next))) Hso)
      as (sr & E & Hp & _ & Hi' & _).
    { intros x Hx. cbn [new_srooms s_ids] in Hx. apply Hbase in Hx as (r & Hx & _). cbn. rewrite Hx. by eexists. }
    { exact Hbn. } { intros x [i Hx]. cbn in Hx. by rewrite lookup_empty in Hx. }
    rewrite E in H. cbn [orb] in H. injection H as <- _ <-. cbn [l_lists] in Hfl. rewrite lookup_insert in Hfl. injection Hfl as <-.
    cbn [fl_rooms fl_filter]. split; [done|]. left. split_and!; [done..|]. intros x. rewrite Hp. apply Hbase.
Qed.

(** * The invariants *)

Lemma add_sent_elem sent out k x :
  x ∈ add_sent sent out k <-> x ∈ sent k \/ exists ss, (k, ss) ∈ out /\ x ∈ ss.
Proof.
  unfold add_sent. rewrite elem_of_app. split; intros [H|H]; [by left| |by left|]; right.
  - apply elem_of_list_In, in_concat in H as (ss & H1 & H2). apply elem_of_list_In, elem_of_list_fmap in H1 as ([k' ss'] & -> & H1).
    apply elem_of_list_filter in H1 as [H0 H1]. cbn in H0. subst k'. exists ss'. split; [done|]. by apply elem_of_list_In.
  - destruct H as (ss & H1 & H2). apply elem_of_list_In, in_concat. exists ss. split; [|by apply elem_of_list_In].
    apply elem_of_list_In, elem_of_list_fmap. exists (k, ss). split; [done|]. by apply elem_of_list_filter.
Qed.

Lemma goes_kept lower key w l w' : goes lower w l w' -> all_rooms key w l w' -> kept key w -> kept key w'.
Proof.
  intros [ord w0 r s' out Ho Hl|ord w0 k next chg s' ms subs Ho Hr|w0 k] Hg HK fl1 Hfl1; cbn [a_lists a_reqs a_sent] in *.
  - destruct (update_kept lower ord w0 r s' out key fl1 Ho HK Hl Hfl1) as (Hall & fl & Hfl & _ & Hi & Hoth & _ & Hsent).
    destruct (HK fl Hfl) as (_ & Hrq & Hin). split; [done|]. split; [done|]. intros x Hx. rewrite add_sent_elem, Hall.
    destruct (decide (x = m_room (c_meta r))) as [->|Hne].
    + rewrite lookup_insert. split; [|by eexists]. destruct (Hsent Hx) as [Hx0|Hs]; [left; by apply Hin|by right].
    + rewrite lookup_insert_ne by done. apply (Hoth x Hne) in Hx. destruct (Hin x Hx). split; [by left|done].
  - destruct (request_frame lower ord _ _ _ _ _ _ _ _ Hr) as (Hall & _ & Hoth). cbn [all_rooms] in Hg. rewrite Hall.
    destruct (decide (k = key)) as [->|Hne].
    + destruct (Hg eq_refl) as [Hqa Hso]. rewrite lookup_insert. rewrite String.eqb_refl.
      destruct (request_all lower ord _ _ _ _ _ _ _ _ fl1 Ho Hqa Hso (fun fl0 H0 => proj1 (HK fl0 H0)) Hr Hfl1) as [Hi [(Hn & _ & -> & Hx)|(fl0 & Hl0 & _ & Hx)]].
      * split; [done|]. split; [by exists next|]. intros x Hin. rewrite Hn. split; [done|]. apply Hx in Hin as (r & Hin & _). by eexists.
      * split; [done|]. split; [by exists next|]. intros x Hin. rewrite Hl0, elem_of_app. apply Hx in Hin. destruct (HK fl0 Hl0) as (_ & _ & HH).
        destruct (HH x Hin). split; [by left|done].
    + rewrite (Hoth key) in Hfl1 by done. rewrite lookup_insert_ne by done. destruct (String.eqb_spec key k); [congruence|]. by apply HK.
  - cbn [delete_list l_lists l_all] in *. apply lookup_delete_Some in Hfl1 as [Hne Hfl1]. destruct (HK fl1 Hfl1) as (Hi & Hrq & Hin).
    split; [done|]. rewrite lookup_delete_ne by done. split; [done|]. intros x Hx. destruct (String.eqb_spec key k); [congruence|].
    rewrite lookup_fmap, fmap_is_Some. by apply Hin.
Qed.

(** Members of the list, given its filters. *)
Definition members (lower : string -> string) (key x : string) (f : filters) (w : aworld) : Prop :=
  forall fl, l_lists (a_lists w) !! key = Some fl -> fl_filter fl = f /\
    forall r, l_all (a_lists w) !! x = Some r -> c_left r = false ->
      (x ∈ s_ids (fl_rooms fl) <-> accepted lower f r (fun y => l_all (a_lists w) !! y)).

Lemma goes_members lower key x f w l w' :
  goes lower w l w' -> all_rooms key w l w' -> same_filters key f w l w' -> no_successor x w l w' ->
  kept key w -> members lower key x f w -> members lower key x f w'.
Proof.
  intros [ord w0 r s' out Ho Hl|ord w0 k next chg s' ms subs Ho Hr|w0 k] Hg Hf Hst HK HM fl1 Hfl1; cbn [a_lists a_reqs a_sent] in *.
  - destruct (update_kept lower ord w0 r s' out key fl1 Ho HK Hl Hfl1) as (Hall & fl & Hfl & Hf1 & _ & Hoth & Hroom & _).
    destruct (HM fl Hfl) as [Hf0 Hx]. rewrite Hf1, Hf0 in *. split; [done|]. intros rx Hrx Hleft.
    destruct (decide (x = m_room (c_meta r))) as [->|Hne].
    + rewrite Hroom. unfold accepted. rewrite <- include_spec.
      assert (Ex : rx = stored_room lower (a_lists w0) r).
      { rewrite Hall, lookup_insert in Hrx. by injection Hrx. }
      subst rx. rewrite stored_left in Hleft. rewrite Hleft. tauto.
    + rewrite (Hoth x Hne). assert (Hrx0 : l_all (a_lists w0) !! x = Some rx).
      { rewrite Hall, lookup_insert_ne in Hrx by done. done. }
      rewrite (Hx rx Hrx0 Hleft). apply accepted_find. intros nx Hnx.
      pose proof (Hst rx nx Hrx0 Hnx) as Hj. unfold joined_now in Hj. cbn [w_lists a_lists] in Hj. symmetry. exact Hj.
  - destruct (request_frame lower ord _ _ _ _ _ _ _ _ Hr) as (Hall & _ & Hoth). cbn [all_rooms same_filters] in Hg, Hf. rewrite Hall.
    destruct (decide (k = key)) as [->|Hne].
    + destruct (Hg eq_refl) as [Hqa Hso]. specialize (Hf eq_refl).
      destruct (request_all lower ord _ _ _ _ _ _ _ _ fl1 Ho Hqa Hso (fun fl0 H0 => proj1 (HK fl0 H0)) Hr Hfl1) as [_ [(_ & Hff & _ & Hx)|(fl0 & Hl0 & Hff & Hx)]].
      * rewrite Hf in *. split; [done|]. intros r Hrx _. rewrite Hx. split; [|intros Ha; by exists r].
        intros (r2 & Hr2 & Ha). rewrite Hrx in Hr2. by injection Hr2 as ->.
      * destruct (HM fl0 Hl0) as [Hf0 Hx0]. split; [by rewrite Hff|]. intros r Hrx Hleft. rewrite Hx. by apply Hx0.
    + rewrite (Hoth key) in Hfl1 by done. by apply HM.
  - cbn [delete_list l_lists l_all] in *. apply lookup_delete_Some in Hfl1 as [Hne Hfl1]. destruct (HM fl1 Hfl1) as [Hf1 Hx].
    split; [done|]. intros r Hrx Hleft.
    rewrite lookup_fmap in Hrx. destruct (l_all (a_lists w0) !! x) as [r0|] eqn:Er0; [|done]. cbn in Hrx. injection Hrx as <-.
    rewrite (Hx r0 eq_refl) by exact Hleft.
    assert (Ea : forall f find, accepted lower f r0 find <->
       accepted lower f (mk_conn_room (c_meta r0) (c_dm r0) (c_invite r0) (c_left r0) (c_notif r0) (c_highlight r0) (c_canon r0)
          (c_spaces r0) (c_tags r0) (delete k (c_ts r0))) find) by done.
    rewrite Ea. apply accepted_find. intros nx Hnx. rewrite lookup_fmap. split.
    + intros (n & Hn & H1 & H2). rewrite Hn. cbn. eexists. split; [done|]. done.
    + intros (n & Hn & H1 & H2). destruct (l_all (a_lists w0) !! nx) as [n0|]; [|done]. cbn in Hn. injection Hn as <-. by exists n0.
Qed.

Lemma new_kept key : kept key new_aworld.
Proof. intros fl H. cbn in H. by rewrite lookup_empty in H. Qed.

Lemma tale_kept lower key w : tale lower (all_rooms key) new_aworld w -> kept key w.
Proof.
  remember new_aworld as w0 eqn:E. induction 1 as [w|w1 w2 w3 l _ IH Hg HP]; [subst; apply new_kept|].
  by apply (goes_kept lower key w2 l w3); [..|apply IH].
Qed.

(** * C94 *)

(** From a new connection on, through any number of updates of any rooms, requests
    and deletions of lists, as long as every request for this list asks for all
    rooms: each room that the list has was sent to the client as a whole for this
    list, since the list was made. *)
Theorem C94_sent_partial lower key w fl :
  tale lower (all_rooms key) new_aworld w -> l_lists (a_lists w) !! key = Some fl ->
  forall x, x ∈ s_ids (fl_rooms fl) -> x ∈ a_sent w key.
Proof. intros Ht Hfl x Hx. by apply (tale_kept lower key w Ht fl Hfl). Qed.

(** If its filters stay the same too, this list has exactly the rooms that pass
    them, of those the user has not left, and so all of these were sent. *)
Theorem C94_all_rooms_partial lower key f x w fl r :
  tale lower (fun w l w' => all_rooms key w l w' /\ same_filters key f w l w' /\ no_successor x w l w') new_aworld w ->
  l_lists (a_lists w) !! key = Some fl -> l_all (a_lists w) !! x = Some r -> c_left r = false ->
  (x ∈ s_ids (fl_rooms fl) <-> accepted lower f r (fun y => l_all (a_lists w) !! y)) /\
  (accepted lower f r (fun y => l_all (a_lists w) !! y) -> x ∈ a_sent w key).
Proof.
  intros Ht Hfl Hr Hleft.
  assert (G : kept key w /\ members lower key x f w).
  { clear Hfl Hr. remember new_aworld as w0 eqn:E. induction Ht as [w|w1 w2 w3 l _ IH Hg (P1 & P2 & P3)].
    - subst. split; [apply new_kept|]. intros fl0 H. cbn in H. by rewrite lookup_empty in H.
    - destruct (IH E) as [HK HM]. split; [by apply (goes_kept lower key w2 l w3)|by apply (goes_members lower key x f w2 l w3)]. }
  destruct G as [HK HM]. destruct (HM fl Hfl) as [_ Hx]. specialize (Hx r Hr Hleft). split; [done|].
  intros Ha. apply Hx in Ha. by apply (HK fl Hfl).
Qed.

(** An update takes its room into the list and sends it, or takes it out, and
    leaves the other rooms of the list as they were. *)
Theorem C94_updated_partial lower key w ord r s' out fl :
  tale lower (all_rooms key) new_aworld w -> (forall l, ord l ≡ₚ l) ->
  update_subs lower ord (a_lists w) (a_reqs w) r = Some (s', out) -> l_lists s' !! key = Some fl ->
  exists fl0, l_lists (a_lists w) !! key = Some fl0 /\
    (m_room (c_meta r) ∈ s_ids (fl_rooms fl) <->
       c_left r = false /\ accepted lower (fl_filter fl0) r (fun y => l_all s' !! y)) /\
    (m_room (c_meta r) ∈ s_ids (fl_rooms fl) -> m_room (c_meta r) ∉ s_ids (fl_rooms fl0) ->
       exists ss, (key, ss) ∈ out /\ m_room (c_meta r) ∈ ss) /\
    forall x, x <> m_room (c_meta r) -> (x ∈ s_ids (fl_rooms fl) <-> x ∈ s_ids (fl_rooms fl0)).
Proof.
  intros Ht Ho Hl Hfl. pose proof (tale_kept lower key w Ht) as HK.
  destruct (update_kept lower ord w r s' out key fl Ho HK Hl Hfl) as (Hall & fl0 & Hfl0 & Hf & _ & Hoth & Hroom & Hs).
  exists fl0. split; [done|]. split; [|split; [|done]].
  - rewrite Hroom, include_stored. unfold accepted. rewrite <- include_spec. tauto.
  - intros H1 H2. by destruct (Hs H1).
Qed.

(** * Playing a story *)

Inductive cmd := CUpdate (r : conn_room) | CRequest (key : string) (q : req_list) (chg : bool) | CDelete (key : string).
Definition label (c : cmd) : option (string * req_list) := match c with CRequest k q _ => Some (k, q) | _ => None end.
Definition act1 (w : aworld) (c : cmd) : option aworld :=
  match c with
  | CUpdate r => match update_subs id id (a_lists w) (a_reqs w) r with
                 | Some (s', out) => Some (mk_aworld s' (a_reqs w) (add_sent (a_sent w) out))
                 | None => None
                 end
  | CRequest key next chg =>
      match list_request id id (a_lists w) key (a_reqs w !! key) next chg with
      | Some (s', ms, subs) =>
          Some (mk_aworld s' (<[key := next]> (a_reqs w))
            (fun k => if String.eqb k key
                      then match l_lists (a_lists w) !! key with Some _ => a_sent w key ++ subs | None => subs end
                      else a_sent w k))
      | None => None
      end
  | CDelete key => Some (mk_aworld (delete_list (a_lists w) key) (delete key (a_reqs w))
                         (fun k => if String.eqb k key then [] else a_sent w k))
  end.
Fixpoint act_all (w : aworld) (cs : list cmd) : option aworld :=
  match cs with [] => Some w | c :: cs' => match act1 w c with Some w' => act_all w' cs' | None => None end end.
(** Every state on the way passes [chk]. *)
Fixpoint checked (chk : aworld -> bool) (w : aworld) (cs : list cmd) : bool :=
  match cs with [] => true | c :: cs' => chk w && match act1 w c with Some w' => checked chk w' cs' | None => false end end.

Lemma act1_goes w c w' : act1 w c = Some w' -> goes id w (label c) w'.
Proof.
  intros H. destruct c as [r|key next chg|key]; cbn [act1 label] in *.
  - destruct (update_subs id id (a_lists w) (a_reqs w) r) as [[s' out]|] eqn:E; [|done]. injection H as <-.
    by apply (goes_update id id w r).
  - destruct (list_request id id (a_lists w) key (a_reqs w !! key) next chg) as [[[s' ms] subs]|] eqn:E; [|done].
    injection H as <-. by apply (goes_request id id w key next chg s' ms subs).
  - injection H as <-. apply goes_delete.
Qed.

Lemma act_all_tale (P : aworld -> option (string * req_list) -> aworld -> Prop) chk : forall cs w0 w,
  (forall w c w', c ∈ cs -> chk w = true -> act1 w c = Some w' -> P w (label c) w') ->
  tale id P w0 w -> checked chk w cs = true -> exists w', act_all w cs = Some w' /\ tale id P w0 w'.
Proof.
  induction cs as [|c cs IH]; intros w0 w HP Ht H; cbn [act_all checked] in *; [by exists w|].
  apply andb_true_iff in H as [Hc H]. destruct (act1 w c) as [w1|] eqn:E; [|done]. apply (IH w0 w1).
  - intros w2 c2 w3 Hc2. apply HP. by right.
  - apply (tale_step id P w0 w w1 (label c)); [done|by apply act1_goes|]. apply HP; [left|done|done].
  - done.
Qed.

(** What the list "k" has and which rooms were sent for it. *)
Definition seen (ow : option aworld) : option (option (list string) * list string) :=
  (fun w => ((fun fl => s_ids (fl_rooms fl)) <$> l_lists (a_lists w) !! "k", a_sent w "k")) <$> ow.

(** * Where it is false *)

(** Turning the option on for a list that exists sends nothing. *)
Definition switched_on : list cmd :=
  [CUpdate (rm "a" 1 false); CUpdate (rm "b" 2 false); CUpdate (rm "c" 3 false);
   CRequest "k" (win [(0, 0)] ["by_recency"] None false) false;
   CRequest "k" (win [(0, 0)] ["by_recency"] None true) false].
Theorem C94_switched_on_refuted : seen (act_all new_aworld switched_on) = Some (Some ["c"; "b"; "a"], ["c"]).
Proof. vm_compute. reflexivity. Qed.

(** A room leaves the list of all rooms: the response has no operation for the list. *)
Theorem C94_gone_refuted :
  match act_all new_aworld [CUpdate (rm "a" 1 false); CUpdate (rm "b" 2 false);
          CRequest "k" (win [(0, 20)] ["by_recency"] None true) false] with
  | Some w => (fun '(s', out) => ((fun fl => s_ids (fl_rooms fl)) <$> l_lists s' !! "k", out))
                <$> live_update id id (a_lists w) (a_reqs w) (left_now (rm "b" 3 false))
  | None => None
  end = Some (Some ["a"], [("k", [])]).
Proof. vm_compute. reflexivity. Qed.

(** * A case *)

(** Of three rooms two pass the filters; a fourth comes, one changes so that it
    passes and one is left. *)
Definition dms : req_list := win [(0, 0)] ["by_recency"] (Some true) true.
Definition c94_story : list cmd :=
  [CUpdate (rm "a" 1 true); CUpdate (rm "b" 2 true); CUpdate (rm "c" 3 false); CRequest "k" dms true;
   CRequest "j" (win [(0, 9)] ["by_name"] None false) false;
   CUpdate (rm "d" 4 true); CUpdate (rm "c" 5 true); CUpdate (left_now (rm "a" 6 true)); CRequest "k" dms false].
Example C94_example :
  seen (act_all new_aworld (take 4 c94_story)) = Some (Some ["b"; "a"], ["b"; "a"])
  /\ seen (act_all new_aworld (take 6 c94_story)) = Some (Some ["b"; "a"; "d"], ["b"; "a"; "d"])
  /\ seen (act_all new_aworld c94_story) = Some (Some ["b"; "d"; "c"], ["b"; "a"; "d"; "c"]).
Proof. split; [vm_compute; reflexivity|]. split; vm_compute; reflexivity. Qed.

Example C94_example_is_a_tale : exists w, act_all new_aworld c94_story = Some w /\
  tale id (fun w l w' => all_rooms "k" w l w' /\ same_filters "k" (wanted dms) w l w' /\ no_successor "d" w l w') new_aworld w.
Proof.
  destruct (act_all_tale (fun w l w' => all_rooms "k" w l w' /\ same_filters "k" (wanted dms) w l w' /\ no_successor "d" w l w')
    (fun w => match l_all (a_lists w) !! "d" with Some r => bool_decide (m_upgraded (c_meta r) = None) | None => true end)
    c94_story new_aworld new_aworld) as (w & Hw & Ht); [|apply tale_nil|vm_compute; reflexivity|exists w; split; [exact Hw|exact Ht]].
  intros w c w' Hc Hchk _. split; [|split].
  - unfold c94_story in Hc. rewrite !elem_of_cons, elem_of_nil in Hc.
    repeat (destruct Hc as [->|Hc]; [cbn [label all_rooms]; first [exact I|intros Hk; first [discriminate Hk|split; [reflexivity|]; repeat constructor]]|]).
    destruct Hc.
  - unfold c94_story in Hc. rewrite !elem_of_cons, elem_of_nil in Hc.
    repeat (destruct Hc as [->|Hc]; [cbn [label same_filters]; first [exact I|intros Hk; first [discriminate Hk|reflexivity]]|]). destruct Hc.
  - intros r next Hr Hu. cbn [w_lists] in Hr. rewrite Hr in Hchk. apply bool_decide_eq_true in Hchk. rewrite Hchk in Hu. discriminate Hu.
Qed.

Print Assumptions C94_sent_partial.
Print Assumptions C94_all_rooms_partial.
Print Assumptions C94_updated_partial.
Print Assumptions C94_switched_on_refuted.
Print Assumptions C94_gone_refuted.
