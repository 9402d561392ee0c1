(** Lemmas about filters and about storing a room. *)
From Verif Require Import Prelude RoomNameModel RoomNameProofs ListsModel ListsSpec SortProofs ListsProofs.
Open Scope string_scope.
Open Scope list_scope.
Open Scope Z_scope.

(** ** Substrings *)
Lemma is_prefix_spec p s : is_prefix p s = true <-> exists q, s = (p ++ q)%string.
Proof.
  revert s; induction p as [|a p IH]; intros s; cbn.
  - split; [|done]. intros _. by exists s.
  - destruct s as [|b s]; [split; [done|by intros [q Hq]]|].
    rewrite andb_true_iff, IH, Ascii.eqb_eq. split.
    + intros [-> [q ->]]. by exists q.
    + intros [q Hq]. injection Hq as -> ->. split; [done|]. by exists q.
Qed.
Lemma contains_spec s sub : contains s sub = true <-> substring sub s.
Proof.
  unfold substring. induction s as [|a s IH]; cbn [contains]; rewrite orb_true_iff, is_prefix_spec.
  - split.
    + intros [[q Hq]|]; [|done]. exists "", q. done.
    + intros (p & q & Hpq). left. destruct p; [|done]. by exists q.
  - rewrite IH. split.
    + intros [[q Hq]|(p & q & ->)]; [by exists "", q|]. by exists (String a p), q.
    + intros (p & q & Hpq). destruct p as [|b p].
      * left. by exists q.
      * right. injection Hpq as -> ->. by exists p, q.
Qed.

Lemma nullable_exists_spec arr x : nullable_exists arr x = true <-> x ∈ arr.
Proof.
  unfold nullable_exists. rewrite existsb_exists. split.
  - intros (a & Ha & Hx). apply elem_of_list_In in Ha.
    destruct x as [x|], a as [y|]; try done. apply String.eqb_eq in Hx as ->. done.
  - intros Hx. exists x. split; [by apply elem_of_list_In|]. destruct x; [apply String.eqb_refl|done].
Qed.

Lemma bool_differs_spec f v : bool_differs f v = false <-> forall b, f = Some b -> v = b.
Proof.
  destruct f as [b|]; cbn; [|split; [by intros _ b|done]].
  split.
  - intros H b' [= <-]. destruct b, v; done.
  - intros H. rewrite (H b eq_refl). by destruct b.
Qed.

Lemma existsb_in_set l (t : gset string) :
  existsb (fun x => bool_decide (x ∈ t)) l = true <-> exists x, x ∈ l /\ x ∈ t.
Proof.
  rewrite existsb_exists. split; intros (x & Hx & Ht); exists x; (split; [by apply elem_of_list_In|]).
  - by apply bool_decide_eq_true in Ht.
  - by apply bool_decide_eq_true.
Qed.

Lemma length_zero_eqb {A} (l : list A) : negb (length l =? 0)%nat = true <-> l <> [].
Proof. destruct l; cbn; split; done. Qed.

Lemma if_false_then (b c : bool) : (if b then false else c) = true <-> b = false /\ c = true.
Proof. destruct b; split; try done; intros [??]; done. Qed.

Lemma and_iff (A A' B B' : Prop) : (A <-> A') -> (B <-> B') -> (A /\ B <-> A' /\ B').
Proof. tauto. Qed.

Lemma include_spec lower f r find :
  include lower f r find = true <->
  satisfies_but_spaces lower f r find /\ (f_types f = [] -> in_spaces f r).
Proof.
  unfold include, satisfies_but_spaces. cbn zeta. rewrite !if_false_then.
  rewrite !Coq.Init.Logic.and_assoc.
  apply and_iff.
  { unfold replaced. destruct (m_upgraded (c_meta r)) as [next|].
    - destruct (find next) as [n|] eqn:En.
      + split.
        * intros H (nx & n' & [= <-] & Hf & Hl & Hi). rewrite En in Hf. injection Hf as <-. by rewrite Hl, Hi in H.
        * intros H. destruct (c_left n) eqn:El; [done|]. destruct (c_invite n) eqn:Ei; [done|].
          destruct H. exists next, n. done.
      + split; [|done]. intros _ (nx & n' & [= <-] & Hf & _). congruence.
    - split; [|done]. intros _ (nx & n' & H & _). done. }
  apply and_iff; [apply bool_differs_spec|].
  apply and_iff.
  { rewrite bool_differs_spec. split; intros H b Hb; specialize (H b Hb).
    - destruct (m_upgraded (c_meta r)); subst b; split; done.
    - destruct (m_upgraded (c_meta r)), b; try done.
      + symmetry. by apply H.
      + by destruct (proj1 H eq_refl). }
  apply and_iff; [apply bool_differs_spec|].
  apply and_iff; [apply bool_differs_spec|].
  apply and_iff.
  { rewrite andb_false_iff, !negb_false_iff, String.eqb_eq, contains_spec. split.
    - intros [H|H] Hn; done.
    - intros H. destruct (String.eqb_spec (f_name f) "") as [He|Hn]; [by left|right; by apply H]. }
  apply and_iff.
  { rewrite <- not_true_iff_false, existsb_in_set. split.
    - intros H t Ht Hc. apply H. by exists t.
    - intros H (t & Ht & Hc). by apply (H t). }
  apply and_iff.
  { rewrite andb_false_iff, !negb_false_iff, existsb_in_set. split.
    - intros [H|H] Hn; [|done]. by destruct (f_tags f).
    - intros H. destruct (f_tags f) as [|t l] eqn:Et; [by left|]. right. by apply H. }
  rewrite <- not_true_iff_false, nullable_exists_spec.
  apply and_iff; [done|].
  unfold in_spaces.
  destruct (f_types f) as [|t l] eqn:Et; cbn.
  - destruct (f_spaces f) as [|s ls] eqn:Es; [cbn; split; [|done]; intros _; split; done|].
    cbn [negb length Nat.eqb]. rewrite existsb_in_set. split; [|intros [_ H]; by apply H].
    intros H. split; done.
  - pose proof (nullable_exists_spec (t :: l) (m_type (c_meta r))) as Hn. cbn in Hn. rewrite Hn.
    split; [intros H; split; [by intros _|done]|]. intros [H _]. by apply H.
Qed.

(** ** Storing a room *)
Lemma stored_meta lower s r : c_meta (stored_room lower s r) = c_meta r.
Proof. unfold stored_room. by destruct (l_all s !! m_room (c_meta r)). Qed.
Lemma stored_left lower s r : c_left (stored_room lower s r) = c_left r.
Proof. unfold stored_room. by destruct (l_all s !! m_room (c_meta r)). Qed.

Lemma include_stored lower s f r find : include lower f (stored_room lower s r) find = include lower f r find.
Proof. unfold include, stored_room. by destruct (l_all s !! m_room (c_meta r)). Qed.

Lemma set_room_all lower ord s r x :
  l_all (set_room lower ord s r).1 !! x =
  if decide (x = m_room (c_meta r)) then Some (stored_room lower s r) else l_all s !! x.
Proof.
  unfold set_room. cbn. destruct (decide (x = m_room (c_meta r))) as [->|Hn].
  - by rewrite lookup_insert.
  - by rewrite lookup_insert_ne.
Qed.
Lemma set_room_lists lower ord s r : l_lists (set_room lower ord s r).1 = l_lists s.
Proof. done. Qed.

Lemma delta_lists_eq lower ord s r :
  d_lists (set_room lower ord s r).2 =
  omap (fun '(key, fl) => (fun op => (key, op)) <$>
          list_delta lower (l_all (set_room lower ord s r).1) (stored_room lower s r) fl)
       (ord (map_to_list (l_lists s))).
Proof. unfold set_room. cbn. by destruct (l_all s !! m_room (c_meta r)). Qed.

Lemma delta_lists_elem lower ord s r key op :
  (forall l, ord l ≡ₚ l) ->
  (key, op) ∈ d_lists (set_room lower ord s r).2 <->
  exists fl, l_lists s !! key = Some fl /\
    list_delta lower (l_all (set_room lower ord s r).1) (stored_room lower s r) fl = Some op.
Proof.
  intros Ho. rewrite delta_lists_eq, elem_of_list_omap. split.
  - intros ([k fl] & Hin & He). rewrite Ho in Hin. apply elem_of_map_to_list in Hin.
    destruct (list_delta _ _ _ _) as [o|] eqn:E; [|done]. cbn in He. injection He as -> ->. by exists fl.
  - intros (fl & Hl & He). exists (key, fl). rewrite Ho, elem_of_map_to_list. split; [done|]. by rewrite He.
Qed.

Lemma omap_keys_NoDup {A B} (f : string -> A -> option B) (l : list (string * A)) :
  NoDup l.*1 -> NoDup (omap (fun '(k, a) => (fun b => (k, b)) <$> f k a) l).*1.
Proof.
  induction l as [|[k a] l IH]; cbn; [constructor|]. intros Hnd. apply NoDup_cons in Hnd as [Hk Hnd].
  destruct (f k a) as [b|]; cbn; [|by apply IH]. constructor; [|by apply IH].
  intros Hin. apply Hk. apply elem_of_list_fmap in Hin as ([k' b'] & -> & Hin).
  apply elem_of_list_omap in Hin as ([k2 a2] & Hin & He). destruct (f k2 a2); [|done].
  cbn in He. injection He as -> ->. apply elem_of_list_fmap. by exists (k', a2).
Qed.

Lemma delta_lists_NoDup lower ord s r :
  (forall l, ord l ≡ₚ l) -> NoDup (d_lists (set_room lower ord s r).2).*1.
Proof.
  intros Ho. rewrite delta_lists_eq.
  apply (omap_keys_NoDup (fun _ fl => list_delta lower (l_all (set_room lower ord s r).1) (stored_room lower s r) fl)).
  rewrite (Permutation_map fst (Ho _)). apply NoDup_fst_map_to_list.
Qed.

(** What one list is told, by membership. *)
Lemma list_delta_spec lower all r fl op :
  index_ok (fl_rooms fl) ->
  list_delta lower all r fl = Some op <->
  let was := m_room (c_meta r) ∈ s_ids (fl_rooms fl) in
  let should := include lower (fl_filter fl) r (fun x => all !! x) = true /\ c_left r = false in
  match op with
  | LAdd => ~ was /\ should
  | LDel => was /\ ~ should
  | LChange => was /\ should
  end.
Proof.
  intros Hi. cbn zeta. unfold list_delta.
  pose proof (index_ok_elem _ (m_room (c_meta r)) Hi) as Hw.
  assert (Hs : (include lower (fl_filter fl) r (fun x => all !! x) = true /\ c_left r = false) <->
    include lower (fl_filter fl) r (fun x => all !! x) && negb (c_left r) = true).
  { rewrite andb_true_iff, negb_true_iff. done. }
  set (W := m_room (c_meta r) ∈ s_ids (fl_rooms fl)) in *.
  set (S := include lower (fl_filter fl) r (fun x => all !! x) = true /\ c_left r = false) in *.
  clearbody W S.
  destruct (include lower (fl_filter fl) r (fun x => all !! x) && negb (c_left r));
    destruct (s_idx (fl_rooms fl) !! m_room (c_meta r)) as [i|].
  - assert W by (apply Hw; eauto). assert S by (by apply Hs). destruct op; split; try done; tauto.
  - assert (~ W) by (intros HW; apply Hw in HW as [? ?]; done). assert S by (by apply Hs).
    destruct op; split; try done; tauto.
  - assert W by (apply Hw; eauto). assert (~ S) by (intros HS; by apply Hs in HS). destruct op; split; try done; tauto.
  - assert (~ W) by (intros HW; apply Hw in HW as [? ?]; done). assert (~ S) by (intros HS; by apply Hs in HS).
    destruct op; split; try done; tauto.
Qed.

(** ** The sort name *)
Definition canon_ok lower (s : rlists) : Prop :=
  forall x r, l_all s !! x = Some r -> c_canon r = canonical_name lower (c_meta r).

Lemma same_room_name_display m o : same_room_name m o = true -> display_name m = display_name o.
Proof. intros H. unfold display_name. by rewrite (same_room_name_same id m o 5 (fun l => Permutation_refl l) H). Qed.

Lemma canon_ok_set lower ord s r : canon_ok lower s -> canon_ok lower (set_room lower ord s r).1.
Proof.
  intros H x r0. rewrite set_room_all. destruct (decide (x = m_room (c_meta r))) as [->|Hn]; [|apply H].
  intros [= <-]. unfold stored_room. destruct (l_all s !! m_room (c_meta r)) as [e|] eqn:E; [|done].
  cbn. destruct (same_room_name (c_meta e) (c_meta r)) eqn:Es; [|done].
  rewrite (H _ _ E). unfold canonical_name. by rewrite (same_room_name_display _ _ Es).
Qed.
Lemma canon_ok_delete lower s key : canon_ok lower s -> canon_ok lower (delete_list s key).
Proof.
  intros H x r0. unfold delete_list. cbn. rewrite lookup_fmap. destruct (l_all s !! x) as [e|] eqn:E; [|done].
  cbn. intros [= <-]. cbn. by apply (H x).
Qed.

(** ** Histories *)
Lemma s_sort_index find key sorts s s' b :
  index_ok s -> s_sort find key sorts s = Some (s', b) -> index_ok s' /\ s_ids s' ≡ₚ s_ids s.
Proof.
  intros Hi. unfold s_sort. destruct (mapM (comparator key) sorts) as [cs|]; [|by intros [= <- <-]].
  destruct (_ || _); [|done]. intros [= <- _].
  set (ids := isort _ (s_ids s)). assert (Hp : ids ≡ₚ s_ids s) by apply isort_perm.
  split; [|done]. apply (index_ok_written _ ids (s_idx s)); [|intros x Hx|done].
  - rewrite Hp. by apply index_ok_NoDup.
  - rewrite Hp. by apply index_ok_elem.
Qed.

Lemma act_ok s a s' :
  index_ok s -> act s a = Some s' ->
  index_ok s' /\ list_to_set (s_ids s') = rooms_after (list_to_set (s_ids s)) a.
Proof.
  intros Hi. destruct a as [x|x|find key sorts]; cbn [act].
  - intros [= <-]. destruct (s_add_spec s x Hi) as (H1 & H2 & _). split; [done|]. rewrite H2. cbn.
    destruct (decide (x ∈ s_ids s)); [set_solver|]. rewrite list_to_set_app_L. set_solver.
  - intros [= <-]. destruct (s_remove_spec s x Hi) as (H1 & H2 & _). split; [done|]. rewrite H2. cbn.
    apply set_eq. intros y. rewrite elem_of_list_to_set, elem_of_list_filter, elem_of_difference, elem_of_list_to_set, elem_of_singleton. tauto.
  - destruct (s_sort find key sorts s) as [[s1 b]|] eqn:E; [|done]. cbn. intros [= <-].
    destruct (s_sort_index _ _ _ _ _ _ Hi E) as [H1 H2]. split; [done|]. apply set_eq. intros y.
    by rewrite !elem_of_list_to_set, H2.
Qed.

Lemma acts_ok l s s' :
  index_ok s -> acts s l = Some s' ->
  index_ok s' /\ NoDup (s_ids s') /\
  list_to_set (s_ids s') = foldl rooms_after (list_to_set (s_ids s)) l.
Proof.
  revert s; induction l as [|a l IH]; intros s Hi; cbn [acts].
  - intros [= <-]. split_and!; [done|by apply index_ok_NoDup|done].
  - destruct (act s a) as [s1|] eqn:E; [|done]. destruct (act_ok s a s1 Hi E) as [H1 H2].
    intros H. destruct (IH s1 H1 H) as (H3 & H4 & H5). split_and!; [done|done|]. by rewrite H5, H2.
Qed.

(** ** What a re-sort after one room changed does, in the terms of C01 *)
Lemma resort_is_one_room_change find find' key sorts cs l room :
  mapM (comparator key) sorts = Some cs ->
  in_order find key sorts l -> all_known find l -> NoDup l -> room ∈ l ->
  (forall x, x <> room -> find' x = find x) ->
  OpsSpec.one_room_change room OpsModel.OpChange l (isort (list_less find' cs) l).
Proof.
  intros Hcs Ho Hk Hnd Hr Hf. apply (resort_moves_one find find' key sorts cs l room Hcs Ho Hk Hnd Hf); [|done].
  apply elem_of_list_split in Hr as (p & q & ->). rewrite <- Permutation_middle in Hnd.
  apply NoDup_cons in Hnd as [Hn Hnd]. rewrite <- Permutation_middle at 1. f_equiv.
  rewrite filter_app, filter_cons. destruct (decide (room <> room)); [done|]. rewrite <- filter_app.
  clear -Hn. induction (p ++ q) as [|y l IH]; [done|]. apply not_elem_of_cons in Hn as [Hne Hl].
  rewrite filter_cons. destruct (decide (y <> room)) as [|Hc]; [|by destruct Hc].
  f_equiv. by apply IH.
Qed.
Lemma add_then_sort_is_one_room_change find find' key sorts cs l room :
  mapM (comparator key) sorts = Some cs ->
  in_order find key sorts l -> all_known find l -> NoDup l -> room ∉ l ->
  (forall x, x <> room -> find' x = find x) ->
  OpsSpec.one_room_change room OpsModel.OpChange (l ++ [room]) (isort (list_less find' cs) (l ++ [room])).
Proof.
  intros Hcs Ho Hk Hnd Hr Hf.
  assert (Hfl : filter (fun y => y <> room) l = l).
  { clear -Hr. induction l as [|y l IH]; [done|]. apply not_elem_of_cons in Hr as [Hne Hl].
    rewrite filter_cons. destruct (decide (y <> room)) as [|Hc]; [|by destruct Hc]. by rewrite IH. }
  apply (resort_moves_one find find' key sorts cs l room Hcs Ho Hk Hnd Hf).
  - rewrite Hfl. by rewrite Permutation_app_comm.
  - rewrite filter_app, Hfl, filter_cons. destruct (decide (room <> room)); [done|]. by rewrite filter_nil, app_nil_r.
Qed.

(** ** Change flags *)
Lemma same_room_avatar_same e r :
  same_room_avatar e r = true -> c_dm e = c_dm r ->
  calc_avatar (c_meta e) (c_dm e) = calc_avatar (c_meta r) (c_dm r).
Proof.
  unfold same_room_avatar, calc_avatar. intros H ->. destruct (c_dm r).
  - apply andb_true_iff in H as [H Hl]. apply andb_true_iff in H as [Ha Hh].
    apply String.eqb_eq in Ha as <-. destruct (m_heroes (c_meta r)) as [|h [|? ?]]; try done.
    destruct (m_heroes (c_meta e)) as [|g [|? ?]]; try done; cbn in Hh.
    + apply andb_true_iff in Hh as [Hh _]. apply andb_true_iff in Hh as [_ Hh]. by apply String.eqb_eq in Hh as <-.
    + apply andb_true_iff in Hh as [_ Hh]. done.
  - apply String.eqb_eq in H as <-. destruct (negb (m_avatar (c_meta e) =? "")%string); [done|].
    destruct (m_heroes (c_meta e)) as [|? [|? ?]], (m_heroes (c_meta r)) as [|? [|? ?]]; done.
Qed.

Lemma negb_Zeqb x y : negb (x =? y) = true <-> x <> y.
Proof. rewrite negb_true_iff. apply Z.eqb_neq. Qed.

Lemma flags_ok lower ord s r e :
  l_all s !! m_room (c_meta r) = Some e ->
  let d := (set_room lower ord s r).2 in
  (d_join d = true <-> m_join (c_meta e) <> m_join (c_meta r)) /\
  (d_invite d = true <-> m_invite (c_meta e) <> m_invite (c_meta r)) /\
  (d_notif d = true <-> c_notif e <> c_notif r) /\
  (d_highlight d = true <-> c_highlight e <> c_highlight r) /\
  (d_name d = false -> display_name (c_meta e) = display_name (c_meta r)) /\
  (d_avatar d = false -> c_dm e = c_dm r -> calc_avatar (c_meta e) (c_dm e) = calc_avatar (c_meta r) (c_dm r)).
Proof.
  intros He. unfold set_room. cbn [snd]. rewrite He. cbn [d_join d_invite d_notif d_highlight d_name d_avatar].
  rewrite !negb_Zeqb. split_and!; try done.
  - rewrite negb_false_iff. apply same_room_name_display.
  - rewrite negb_false_iff. apply same_room_avatar_same.
Qed.

Lemma reported_operation lower ord s r key fl op :
  (forall l, ord l ≡ₚ l) -> l_lists s !! key = Some fl -> index_ok (fl_rooms fl) ->
  (key, op) ∈ d_lists (set_room lower ord s r).2 <->
  let was := m_room (c_meta r) ∈ s_ids (fl_rooms fl) in
  let should := accepted lower (fl_filter fl) r (fun x => l_all (set_room lower ord s r).1 !! x) /\ c_left r = false in
  match op with
  | LAdd => ~ was /\ should
  | LDel => was /\ ~ should
  | LChange => was /\ should
  end.
Proof.
  intros Ho Hl Hi. rewrite (delta_lists_elem lower ord s r key op Ho).
  set (all := l_all (set_room lower ord s r).1). clearbody all.
  transitivity (list_delta lower all (stored_room lower s r) fl = Some op).
  { split; [|intros H; by exists fl]. intros (fl' & Hl' & H). rewrite Hl in Hl'. by injection Hl' as <-. }
  rewrite (list_delta_spec lower all _ fl op Hi). cbn zeta.
  rewrite include_stored, stored_left, stored_meta.
  pose proof (include_spec lower (fl_filter fl) r (fun x => all !! x)) as Hs. unfold accepted.
  destruct op; rewrite Hs; done.
Qed.

Definition base_rooms lower (s : rlists) (rooms : list string) (f : option filters) : list string :=
  omap (fun x => match l_all s !! x with
                 | Some r => if include lower (default no_filters f) r (fun y => l_all s !! y) then Some x else None
                 | None => None
                 end) rooms.

Lemma base_rooms_spec lower s rooms f :
  NoDup rooms -> (forall x, x ∈ rooms <-> is_Some (l_all s !! x)) ->
  NoDup (base_rooms lower s rooms f) /\
  forall x, x ∈ base_rooms lower s rooms f <->
    exists r, l_all s !! x = Some r /\ accepted lower (default no_filters f) r (fun y => l_all s !! y).
Proof.
  intros Hnd Hr. split.
  - clear Hr. unfold base_rooms. induction Hnd as [|x l Hx Hnd IH]; [constructor|]. cbn [omap list_omap].
    destruct (l_all s !! x) as [r|]; [|done]. destruct (include _ _ _ _); [|done].
    constructor; [|done]. intros Hin. apply Hx. apply elem_of_list_omap in Hin as (y & Hy & He).
    destruct (l_all s !! y); [|done]. destruct (include _ _ _ _); [|done]. by injection He as <-.
  - intros x. unfold base_rooms. rewrite elem_of_list_omap. split.
    + intros (y & Hy & He). destruct (l_all s !! y) as [r|] eqn:E; [|done].
      destruct (include _ _ _ _) eqn:Ei; [|done]. injection He as <-. exists r. split; [done|]. by apply include_spec.
    + intros (r & E & Ha). exists x. rewrite Hr, E. split; [done|].
      apply include_spec in Ha. by rewrite Ha.
Qed.

Lemma all_rooms_order (ord : list string -> list string) (s : rlists) :
  (forall l, ord l ≡ₚ l) ->
  NoDup (ord (elements (dom (l_all s)))) /\
  forall x, x ∈ ord (elements (dom (l_all s))) <-> is_Some (l_all s !! x).
Proof.
  intros Ho. split; [rewrite Ho; apply NoDup_elements|]. intros x. by rewrite Ho, elem_of_elements, elem_of_dom.
Qed.

Lemma assign_new lower ord s key f sorts b :
  (b = true \/ l_lists s !! key = None) ->
  assign_list lower ord s key f sorts b =
  let fl := new_flist lower (fun x => l_all s !! x) (ord (elements (dom (l_all s)))) f in
  match sorts with
  | None => Some (mk_rlists (l_all s) (<[key := fl]> (l_lists s)), fl, true)
  | Some so =>
      match s_sort (fun x => l_all s !! x) key so (fl_rooms fl) with
      | None => None
      | Some (sr, _) =>
          let fl := mk_flist sr (fl_filter fl) in
          Some (mk_rlists (l_all s) (<[key := fl]> (l_lists s)), fl, true)
      end
  end.
Proof. intros H. unfold assign_list. destruct H as [->| ->]; [by destruct (l_lists s !! key)|done]. Qed.

Lemma new_list_contents lower ord s key f sorts s1 fl b :
  (forall l, ord l ≡ₚ l) -> (b = true \/ l_lists s !! key = None) ->
  assign_list lower ord s key f sorts b = Some (s1, fl, true) ->
  l_lists s1 = <[key := fl]> (l_lists s) /\ l_all s1 = l_all s /\ NoDup (s_ids (fl_rooms fl)) /\
  fl_filter fl = default no_filters f /\
  forall x, x ∈ s_ids (fl_rooms fl) <->
    exists r, l_all s !! x = Some r /\ accepted lower (default no_filters f) r (fun y => l_all s !! y).
Proof.
  intros Ho Hb. rewrite assign_new by done. cbn zeta.
  set (rooms := ord (elements (dom (l_all s)))).
  destruct (all_rooms_order ord s Ho) as [Hn Hr]. fold rooms in Hn, Hr.
  destruct (base_rooms_spec lower s rooms f Hn Hr) as [H1 H2].
  unfold new_flist. cbn zeta. fold (base_rooms lower s rooms f). cbn [fl_rooms fl_filter].
  destruct sorts as [so|].
  - destruct (s_sort _ _ _ _) as [[sr ok]|] eqn:E; [|done]. intros [= <- <-]. cbn [fl_rooms l_lists l_all fl_filter].
    assert (Hp : s_ids sr ≡ₚ base_rooms lower s rooms f).
    { unfold s_sort in E. destruct (mapM _ so) as [cs|]; [|by injection E as <- _].
      destruct (_ || _); [|done]. injection E as <- _. cbn [s_ids]. apply isort_perm. }
    split_and!; [done|done|by rewrite Hp|done|]. intros x. by rewrite Hp.
  - intros [= <- <-]. cbn [fl_rooms l_lists l_all fl_filter new_srooms s_ids]. done.
Qed.
