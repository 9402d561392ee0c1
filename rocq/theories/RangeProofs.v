From Verif Require Import Prelude RangeModel RangeSpec.
Open Scope Z_scope.

Lemma covers_cons sr r i : covers (sr :: r) i <-> sr.1 <= i <= sr.2 \/ covers r i.
Proof. unfold covers. setoid_rewrite elem_of_cons. naive_solver. Qed.

Lemma inside_Some r i sr : inside r i = Some sr -> sr ∈ r /\ sr.1 <= i <= sr.2.
Proof.
  induction r as [|x r IH]; cbn; [done|].
  destruct (_ && _) eqn:E; [intros [= <-]; split; [set_solver|lia]|].
  intros H. apply IH in H. set_solver.
Qed.

Lemma inside_None r i : inside r i = None <-> ~ covers r i.
Proof.
  induction r as [|x r IH]; cbn.
  - split; [|done]. intros _ (sr & Hin & _). set_solver.
  - rewrite covers_cons. destruct (_ && _) eqn:E; [split; [done|lia]|].
    rewrite IH. split; [|naive_solver]. intros H [?|?]; [lia|done].
Qed.

Lemma inside_is_Some r i : is_Some (inside r i) <-> covers r i.
Proof.
  rewrite <- not_eq_None_Some, inside_None. split; [|tauto].
  intros H. destruct (inside r i) as [sr|] eqn:E.
  - apply inside_Some in E. exists sr. done.
  - by apply inside_None in E.
Qed.

Lemma covers_dec r i : Decision (covers r i).
Proof.
  destruct (inside r i) eqn:E.
  - left. apply inside_is_Some. eauto.
  - right. by apply inside_None.
Defined.

Lemma overlaps_check_spec sr tr :
  sr.1 <= sr.2 -> tr.1 <= tr.2 ->
  overlaps_check sr tr = true <-> exists i, sr.1 <= i <= sr.2 /\ tr.1 <= i <= tr.2.
Proof.
  intros H1 H2. unfold overlaps_check. cbn. split.
  - intros H. assert (Hc : tr.1 <= sr.1 <= tr.2 \/ tr.1 <= sr.2 <= tr.2 \/
      sr.1 <= tr.1 <= sr.2 \/ sr.1 <= tr.2 <= sr.2) by lia.
    destruct Hc as [?|[?|[?|?]]]; [exists sr.1|exists sr.2|exists tr.1|exists tr.2]; lia.
  - intros (i & ? & ?). lia.
Qed.

(** Pairwise disjointness in list form. *)
Fixpoint disjoint_list (r : ranges) : Prop :=
  match r with
  | [] => True
  | sr :: r' => 0 <= sr.1 <= sr.2 /\
      (forall tr, tr ∈ r' -> sr.2 < tr.1 \/ tr.2 < sr.1) /\ disjoint_list r'
  end.

Lemma disjoint_list_ok r : disjoint_list r <-> windows_ok r.
Proof.
  unfold windows_ok. induction r as [|sr r IH]; cbn.
  - split; [|done]. split; [set_solver|]. intros m n sr tr i Hm. by rewrite lookup_nil in Hm.
  - rewrite IH. clear IH. split.
    + intros (Hb & Hd & Hall & Huniq). split; [set_solver|].
      intros m n sr' tr' i Hm Hn Hi Hi'.
      destruct m as [|m], n as [|n]; cbn in Hm, Hn; [done| | |].
      * injection Hm as <-. apply elem_of_list_lookup_2 in Hn. specialize (Hd _ Hn). lia.
      * injection Hn as <-. apply elem_of_list_lookup_2 in Hm. specialize (Hd _ Hm). lia.
      * f_equal. eauto.
    + intros [Hall Huniq]. split; [apply Hall; set_solver|]. split; [|split].
      * intros tr Hin. apply elem_of_list_lookup in Hin as [n Hn].
        assert (Hb1 : 0 <= sr.1 <= sr.2) by (apply Hall; set_solver).
        assert (Hb2 : 0 <= tr.1 <= tr.2) by (apply Hall, elem_of_list_further, elem_of_list_lookup_2 with n, Hn).
        destruct (decide (sr.2 < tr.1)); [by left|]. destruct (decide (tr.2 < sr.1)); [by right|].
        specialize (Huniq 0%nat (S n) sr tr (Z.max sr.1 tr.1) eq_refl Hn). lia.
      * set_solver.
      * intros m n a b i Hm Hn Hi Hj.
        assert (S m = S n) by (eapply (Huniq (S m) (S n)); eauto). lia.
Qed.

Lemma valid_spec r : valid r = true <-> windows_ok r.
Proof.
  rewrite <- disjoint_list_ok. induction r as [|sr r IH]; cbn; [done|].
  destruct (sr.2 <? sr.1) eqn:E1; [split; [done|lia]|].
  destruct (sr.1 <? 0) eqn:E2; [split; [done|lia]|].
  destruct (existsb (overlaps_check sr) r) eqn:E3.
  - split; [done|]. intros (_ & Hd & Hl).
    apply existsb_exists in E3 as (tr & Hin & Ho). apply elem_of_list_In in Hin.
    apply disjoint_list_ok in Hl as [Hall _]. specialize (Hall _ Hin).
    apply overlaps_check_spec in Ho as (i & ? & ?); [|lia..]. specialize (Hd _ Hin). lia.
  - rewrite IH. split; [|naive_solver]. intros Hl. split; [lia|]. split; [|done].
    intros tr Hin. apply disjoint_list_ok in Hl as [Hall _]. specialize (Hall _ Hin).
    destruct (decide (sr.2 < tr.1)); [by left|]. destruct (decide (tr.2 < sr.1)); [by right|].
    assert (Hf : overlaps_check sr tr = true).
    { apply overlaps_check_spec; [lia..|]. exists (Z.max sr.1 tr.1). lia. }
    assert (existsb (overlaps_check sr) r = true) by (apply existsb_exists; exists tr; rewrite <- elem_of_list_In; done).
    congruence.
Qed.

(** Two windows sharing a position are the same pair. *)
Lemma windows_same r sr tr i :
  windows_ok r -> sr ∈ r -> tr ∈ r -> sr.1 <= i <= sr.2 -> tr.1 <= i <= tr.2 -> sr = tr.
Proof.
  intros [_ Hu] H1 H2 Hi Hj.
  apply elem_of_list_lookup in H1 as [m Hm]. apply elem_of_list_lookup in H2 as [n Hn].
  assert (m = n) by (eapply Hu; eauto). subst. congruence.
Qed.

Lemma windows_bounds r sr : windows_ok r -> sr ∈ r -> 0 <= sr.1 <= sr.2.
Proof. intros [H _]. apply H. Qed.

Lemma inside_unique r i sr :
  windows_ok r -> inside r i = Some sr <-> sr ∈ r /\ sr.1 <= i <= sr.2.
Proof.
  intros Hok. split; [apply inside_Some|]. intros [Hin Hi].
  destruct (inside r i) as [tr|] eqn:E.
  - apply inside_Some in E as [Hin' Hi']. f_equal. by eapply windows_same.
  - apply inside_None in E. destruct E. exists sr. done.
Qed.

(** ** ClosestInDirection *)

(** Windows sorted by their start. *)
Definition range_le (a b : range) : Prop := a.1 <= b.1.
Global Instance range_le_dec a b : Decision (range_le a b) := Z_le_dec _ _.
Global Instance range_le_total : Total range_le.
Proof. intros a b. unfold range_le. lia. Qed.
Global Instance range_le_trans : Transitive range_le.
Proof. intros a b c. unfold range_le. lia. Qed.

Definition flat (r : ranges) : list Z := concat (map (fun sr => [sr.1; sr.2]) r).

(** Ascending disjoint windows. *)
Fixpoint ascending (lo : Z) (r : ranges) : Prop :=
  match r with
  | [] => True
  | sr :: r' => lo < sr.1 /\ sr.1 <= sr.2 /\ ascending sr.2 r'
  end.

Lemma windows_ok_perm r r' : r ≡ₚ r' -> windows_ok r -> windows_ok r'.
Proof.
  rewrite <- !disjoint_list_ok. induction 1 as [|x l l' Hp IH|x y l|l l' l'' H1 IH1 H2 IH2]; cbn.
  - done.
  - intros (Hb & Hd & Hl). split; [done|]. split; [|auto]. intros tr. rewrite <- Hp. apply Hd.
  - intros (Hb & Hd & Hb' & Hd' & Hl). split_and!; [lia|lia| |lia|lia| |done].
    + intros tr Htr. apply elem_of_cons in Htr as [->|Htr]; [|by apply Hd'].
      specialize (Hd x). destruct Hd as [?|?]; [set_solver|by right|by left].
    + intros tr Htr. apply Hd. set_solver.
  - auto.
Qed.

Lemma sorted_ascending r lo :
  StronglySorted range_le r -> windows_ok r -> (forall sr, sr ∈ r -> lo < sr.1) -> ascending lo r.
Proof.
  rewrite <- disjoint_list_ok. revert lo; induction r as [|sr r IH]; intros lo Hs Hd Hlo; cbn; [done|].
  apply StronglySorted_inv in Hs as [Hs Hf]. destruct Hd as (Hb & Hd & Hl).
  split; [apply Hlo; set_solver|]. split; [lia|]. apply IH; [done..|].
  intros tr Htr. rewrite Forall_forall in Hf. specialize (Hf _ Htr). unfold range_le in Hf.
  specialize (Hd _ Htr).
  apply disjoint_list_ok in Hl as [Hall _]. specialize (Hall _ Htr). lia.
Qed.

Lemma ascending_elem lo r sr : ascending lo r -> sr ∈ r -> lo < sr.1 /\ sr.1 <= sr.2.
Proof.
  revert lo; induction r as [|x r IH]; intros lo Ha Hin; [set_solver|].
  destruct Ha as (H1 & H2 & H3). apply elem_of_cons in Hin as [->|Hin]; [lia|].
  specialize (IH _ H3 Hin). lia.
Qed.

Lemma flat_elem r x : x ∈ flat r -> exists sr, sr ∈ r /\ (x = sr.1 \/ x = sr.2).
Proof.
  unfold flat. intros H. apply elem_of_list_In, in_concat in H as (l & Hl & Hx).
  apply in_map_iff in Hl as (sr & <- & Hsr). exists sr. rewrite elem_of_list_In. split; [done|].
  destruct Hx as [?|[?|[]]]; naive_solver.
Qed.

Lemma ascending_flat_sorted lo r : ascending lo r -> StronglySorted Z.le (flat r).
Proof.
  revert lo; induction r as [|sr r IH]; intros lo Ha; cbn; [constructor|].
  destruct Ha as (H1 & H2 & H3).
  assert (Hf : Forall (Z.le sr.2) (flat r)).
  { apply Forall_forall. intros x Hx. apply flat_elem in Hx as (tr & Htr & Hx).
    pose proof (ascending_elem _ _ _ H3 Htr). lia. }
  constructor; [constructor; [by eapply IH|done]|].
  constructor; [done|]. eapply Forall_impl; [exact Hf|]. intros x. cbn. lia.
Qed.

Lemma flat_perm r r' : r ≡ₚ r' -> flat r ≡ₚ flat r'.
Proof.
  unfold flat. induction 1 as [|x l l' Hp IH|x y l|l l' l'' H1 IH1 H2 IH2]; cbn; [done|by rewrite IH| |by rewrite IH1].
  exact (Permutation_app_swap_app [y.1; y.2] [x.1; x.2] (concat (map (fun sr => [sr.1; sr.2]) l))).
Qed.

Lemma boundaries_flat r :
  windows_ok r -> exists r', r' ≡ₚ r /\ ascending (-1) r' /\ boundaries r = flat r'.
Proof.
  intros Hok. exists (merge_sort range_le r).
  pose proof (merge_sort_Permutation range_le r) as Hp.
  assert (Hs : StronglySorted range_le (merge_sort range_le r)).
  { apply (StronglySorted_merge_sort range_le). }
  assert (Ha : ascending (-1) (merge_sort range_le r)).
  { apply sorted_ascending; [done| |].
    - eapply windows_ok_perm; [symmetry; exact Hp|done].
    - intros sr Hsr. rewrite Hp in Hsr. pose proof (windows_bounds _ _ Hok Hsr). lia. }
  split_and!; [done|done|].
  unfold boundaries. fold (flat r).
  apply (StronglySorted_unique Z.le).
  - apply (StronglySorted_merge_sort Z.le).
  - by eapply ascending_flat_sorted.
  - rewrite merge_sort_Permutation. symmetry. by apply flat_perm.
Qed.

Lemma closest_down_flat i lo sr r (j : nat) prev :
  ascending lo r -> sr ∈ r -> sr.1 <= i <= sr.2 -> Nat.even j = true -> (prev = None -> j = 0%nat) ->
  closest_down i j prev (flat r) = Some sr.1.
Proof.
  revert lo j prev; induction r as [|x r IH]; intros lo j prev Ha Hin Hi Hj Hprev; [set_solver|].
  destruct Ha as (H1 & H2 & H3). cbn [flat map concat app].
  apply elem_of_cons in Hin as [->|Hin].
  - cbn [closest_down]. destruct (i <=? x.1) eqn:E.
    + assert (x.1 =? i = true) as -> by lia. destruct prev; rewrite ?Hj; done.
    + assert (i <=? x.2 = true) as -> by lia.
      assert (Nat.even (S j) = false) as ->; [|done].
      rewrite Nat.even_succ, <- Nat.negb_even, Hj. done.
  - pose proof (ascending_elem _ _ _ H3 Hin) as Hx. cbn [closest_down].
    assert (i <=? x.1 = false) as -> by lia. assert (i <=? x.2 = false) as -> by lia.
    eapply IH; [exact H3|done|done| |done]. by rewrite Nat.even_succ_succ.
Qed.

Lemma closest_down_inside r i sr :
  windows_ok r -> sr ∈ r -> sr.1 <= i <= sr.2 ->
  closest_in_direction r i true = Some sr.1.
Proof.
  intros Hok Hin Hi. unfold closest_in_direction.
  destruct (boundaries_flat r Hok) as (r' & Hp & Ha & ->).
  eapply closest_down_flat; [done|by rewrite Hp|done|done|done].
Qed.

Lemma flat_app r r' : flat (r ++ r') = flat r ++ flat r'.
Proof. unfold flat. by rewrite map_app, concat_app. Qed.

Lemma flat_even r : Nat.even (length (flat r)) = true.
Proof. induction r as [|x r IH]; [done|]. cbn [flat map concat app length]. by rewrite Nat.even_succ_succ. Qed.

Lemma ascending_app lo r x :
  ascending lo (r ++ [x]) -> ascending lo r /\ (forall sr, sr ∈ r -> sr.2 < x.1) /\ x.1 <= x.2.
Proof.
  revert lo; induction r as [|y r IH]; intros lo; cbn.
  - intros (? & ? & _). split_and!; [done|set_solver|done].
  - intros (H1 & H2 & H3). pose proof (IH _ H3) as (H4 & H5 & H6). split_and!; [done..| |done].
    intros sr Hsr. apply elem_of_cons in Hsr as [->|Hsr]; [|by apply H5].
    destruct r as [|z r]; cbn in H3; [lia|]. destruct H3 as (H3 & H3' & _).
    specialize (H5 z ltac:(set_solver)). lia.
Qed.

Lemma closest_up_flat i lo sr r next :
  ascending lo r -> sr ∈ r -> sr.1 <= i <= sr.2 ->
  closest_up i next (reverse (flat r)) = Some sr.2.
Proof.
  revert lo next; induction r as [|x r IH] using rev_ind; intros lo next Ha Hin Hi; [set_solver|].
  apply ascending_app in Ha as (Ha & Hlt & Hx).
  rewrite flat_app, reverse_app. unfold flat at 1. cbn [map concat app].
  change (reverse [x.1; x.2]) with [x.2; x.1]. cbn [app].
  apply elem_of_app in Hin as [Hin|Hin].
  - specialize (Hlt _ Hin). cbn [closest_up].
    assert (x.2 <=? i = false) as -> by lia. assert (x.1 <=? i = false) as -> by lia.
    eapply IH; [exact Ha|done|done].
  - apply elem_of_list_singleton in Hin as ->. cbn [closest_up].
    destruct (x.2 <=? i) eqn:E.
    + assert (x.2 =? i = true) as -> by lia.
      assert (Nat.odd (length (x.1 :: reverse (flat r))) = true) as ->.
      { cbn [length]. rewrite reverse_length, Nat.odd_succ. apply flat_even. }
      by destruct next.
    + assert (x.1 <=? i = true) as -> by lia.
      assert (Nat.odd (length (reverse (flat r))) = false) as ->; [|done].
      rewrite reverse_length, <- Nat.negb_even, flat_even. done.
Qed.

Lemma closest_up_inside r i sr :
  windows_ok r -> sr ∈ r -> sr.1 <= i <= sr.2 ->
  closest_in_direction r i false = Some sr.2.
Proof.
  intros Hok Hin Hi. unfold closest_in_direction.
  destruct (boundaries_flat r Hok) as (r' & Hp & Ha & ->).
  eapply closest_up_flat; [done|by rewrite Hp|done].
Qed.

(** ** Delta *)
Lemma covers_app r r' i : covers (r ++ r') i <-> covers r i \/ covers r' i.
Proof. unfold covers. setoid_rewrite elem_of_app. naive_solver. Qed.
Lemma covers_one m i : covers [m] i <-> m.1 <= i <= m.2.
Proof. unfold covers. setoid_rewrite elem_of_list_singleton. naive_solver. Qed.
Lemma covers_nil i : ~ covers [] i.
Proof. intros (sr & Hin & _). set_solver. Qed.

Lemma point_key_inj p q : point_key p = point_key q -> p = q.
Proof.
  destruct p as [x o op], q as [y o' op']. unfold point_key. cbn.
  destruct o, op, o', op'; intros H; f_equal; lia.
Qed.

Section delta.
  Context (r nx : ranges).
  Context (Hr : windows_ok r) (Hnx : windows_ok nx).

  Definition all_points : list point := points_of r true ++ points_of nx false.

  Lemma points_of_elem l old p :
    p ∈ points_of l old <->
    exists sr, sr ∈ l /\ (p = mk_point sr.1 old true \/ p = mk_point sr.2 old false).
  Proof.
    unfold points_of. rewrite elem_of_list_In, in_concat. setoid_rewrite in_map_iff. split.
    - intros (ps & (sr & <- & Hsr) & Hp). exists sr. rewrite elem_of_list_In.
      destruct Hp as [?|[?|[]]]; naive_solver.
    - intros (sr & Hsr & Hp). exists [mk_point sr.1 old true; mk_point sr.2 old false].
      split; [exists sr; rewrite <- elem_of_list_In; done|]. cbn. naive_solver.
  Qed.

  Definition Ob (k : Z) : bool := existsb (fun sr => (4 * sr.1 <=? k) && (k <? 4 * sr.2 + 2)) r.
  Definition Nb (k : Z) : bool := existsb (fun sr => (4 * sr.1 + 1 <=? k) && (k <? 4 * sr.2 + 3)) nx.

  Lemma Ob_true k : Ob k = true <-> exists sr, sr ∈ r /\ 4 * sr.1 <= k < 4 * sr.2 + 2.
  Proof.
    unfold Ob. rewrite existsb_exists. setoid_rewrite <- elem_of_list_In.
    split; intros (sr & Hin & H); exists sr; (split; [done|lia]).
  Qed.
  Lemma Nb_true k : Nb k = true <-> exists sr, sr ∈ nx /\ 4 * sr.1 + 1 <= k < 4 * sr.2 + 3.
  Proof.
    unfold Nb. rewrite existsb_exists. setoid_rewrite <- elem_of_list_In.
    split; intros (sr & Hin & H); exists sr; (split; [done|lia]).
  Qed.

  Lemma covers_Ob y : covers r y <-> Ob (4 * y + 1) = true.
  Proof. rewrite Ob_true. unfold covers. split; intros (sr & Hin & H); exists sr; (split; [done|lia]). Qed.
  Lemma covers_Nb y : covers nx y <-> Nb (4 * y + 1) = true.
  Proof. rewrite Nb_true. unfold covers. split; intros (sr & Hin & H); exists sr; (split; [done|lia]). Qed.

  (** The keys of the points. *)
  Lemma key_old_open sr : sr ∈ r -> exists p, p ∈ all_points /\ point_key p = 4 * sr.1.
  Proof.
    intros Hin. exists (mk_point sr.1 true true). split; [|unfold point_key; cbn; lia].
    apply elem_of_app. left. apply points_of_elem. eauto.
  Qed.
  Lemma key_old_close sr : sr ∈ r -> exists p, p ∈ all_points /\ point_key p = 4 * sr.2 + 2.
  Proof.
    intros Hin. exists (mk_point sr.2 true false). split; [|unfold point_key; cbn; lia].
    apply elem_of_app. left. apply points_of_elem. eauto.
  Qed.
  Lemma key_new_open sr : sr ∈ nx -> exists p, p ∈ all_points /\ point_key p = 4 * sr.1 + 1.
  Proof.
    intros Hin. exists (mk_point sr.1 false true). split; [|unfold point_key; cbn; lia].
    apply elem_of_app. right. apply points_of_elem. eauto.
  Qed.
  Lemma key_new_close sr : sr ∈ nx -> exists p, p ∈ all_points /\ point_key p = 4 * sr.2 + 3.
  Proof.
    intros Hin. exists (mk_point sr.2 false false). split; [|unfold point_key; cbn; lia].
    apply elem_of_app. right. apply points_of_elem. eauto.
  Qed.

  (** No point has a key strictly between. *)
  Definition quiet (k k' : Z) : Prop := forall p, p ∈ all_points -> ~ (k < point_key p < k').

  Lemma quiet_r k k' sr : quiet k k' -> sr ∈ r -> ~ (k < 4 * sr.1 < k') /\ ~ (k < 4 * sr.2 + 2 < k').
  Proof.
    intros Hq Hin. split.
    - destruct (key_old_open _ Hin) as (p & Hp & <-). by apply Hq.
    - destruct (key_old_close _ Hin) as (p & Hp & <-). by apply Hq.
  Qed.
  Lemma quiet_nx k k' sr : quiet k k' -> sr ∈ nx -> ~ (k < 4 * sr.1 + 1 < k') /\ ~ (k < 4 * sr.2 + 3 < k').
  Proof.
    intros Hq Hin. split.
    - destruct (key_new_open _ Hin) as (p & Hp & <-). by apply Hq.
    - destruct (key_new_close _ Hin) as (p & Hp & <-). by apply Hq.
  Qed.

  Lemma Ob_const k k' z : quiet k k' -> k <= z < k' -> Ob z = Ob k.
  Proof.
    intros Hq Hz. apply eq_true_iff_eq. rewrite !Ob_true.
    split; intros (sr & Hin & H); exists sr; (split; [done|]);
      pose proof (quiet_r _ _ _ Hq Hin) as [? ?]; lia.
  Qed.
  Lemma Nb_const k k' z : quiet k k' -> k <= z < k' -> Nb z = Nb k.
  Proof.
    intros Hq Hz. apply eq_true_iff_eq. rewrite !Nb_true.
    split; intros (sr & Hin & H); exists sr; (split; [done|]);
      pose proof (quiet_nx _ _ _ Hq Hin) as [? ?]; lia.
  Qed.

  (** What each point does to the open flags. *)
  Lemma old_open_flags k sr :
    quiet k (4 * sr.1) -> k < 4 * sr.1 -> sr ∈ r ->
    Ob k = false /\ Ob (4 * sr.1) = true /\ Nb (4 * sr.1) = Nb k.
  Proof.
    intros Hq Hk Hin. pose proof (windows_bounds _ _ Hr Hin) as Hb. split_and!.
    - apply not_true_iff_false. rewrite Ob_true. intros (tr & Htr & Ht).
      pose proof (quiet_r _ _ _ Hq Htr) as [? ?]. pose proof (windows_bounds _ _ Hr Htr).
      assert (sr = tr) as <- by (apply (windows_same r sr tr sr.1); [done..|lia|lia]). lia.
    - apply Ob_true. exists sr. split; [done|lia].
    - apply eq_true_iff_eq. rewrite !Nb_true. split; intros (tr & Htr & Ht); exists tr; (split; [done|]);
        pose proof (quiet_nx _ _ _ Hq Htr) as [? ?]; lia.
  Qed.
  Lemma old_close_flags k sr :
    quiet k (4 * sr.2 + 2) -> k < 4 * sr.2 + 2 -> sr ∈ r ->
    Ob k = true /\ Ob (4 * sr.2 + 2) = false /\ Nb (4 * sr.2 + 2) = Nb k.
  Proof.
    intros Hq Hk Hin. pose proof (windows_bounds _ _ Hr Hin) as Hb.
    pose proof (quiet_r _ _ _ Hq Hin) as [? ?]. split_and!.
    - apply Ob_true. exists sr. split; [done|lia].
    - apply not_true_iff_false. rewrite Ob_true. intros (tr & Htr & Ht).
      pose proof (windows_bounds _ _ Hr Htr).
      assert (sr = tr) as <- by (apply (windows_same r sr tr sr.2); [done..|lia|lia]). lia.
    - apply eq_true_iff_eq. rewrite !Nb_true. split; intros (tr & Htr & Ht); exists tr; (split; [done|]);
        pose proof (quiet_nx _ _ _ Hq Htr) as [? ?]; lia.
  Qed.
  Lemma new_open_flags k sr :
    quiet k (4 * sr.1 + 1) -> k < 4 * sr.1 + 1 -> sr ∈ nx ->
    Nb k = false /\ Nb (4 * sr.1 + 1) = true /\ Ob (4 * sr.1 + 1) = Ob k.
  Proof.
    intros Hq Hk Hin. pose proof (windows_bounds _ _ Hnx Hin) as Hb. split_and!.
    - apply not_true_iff_false. rewrite Nb_true. intros (tr & Htr & Ht).
      pose proof (quiet_nx _ _ _ Hq Htr) as [? ?]. pose proof (windows_bounds _ _ Hnx Htr).
      assert (sr = tr) as <- by (apply (windows_same nx sr tr sr.1); [done..|lia|lia]). lia.
    - apply Nb_true. exists sr. split; [done|lia].
    - apply eq_true_iff_eq. rewrite !Ob_true. split; intros (tr & Htr & Ht); exists tr; (split; [done|]);
        pose proof (quiet_r _ _ _ Hq Htr) as [? ?]; lia.
  Qed.
  Lemma new_close_flags k sr :
    quiet k (4 * sr.2 + 3) -> k < 4 * sr.2 + 3 -> sr ∈ nx ->
    Nb k = true /\ Nb (4 * sr.2 + 3) = false /\ Ob (4 * sr.2 + 3) = Ob k.
  Proof.
    intros Hq Hk Hin. pose proof (windows_bounds _ _ Hnx Hin) as Hb.
    pose proof (quiet_nx _ _ _ Hq Hin) as [? ?]. split_and!.
    - apply Nb_true. exists sr. split; [done|lia].
    - apply not_true_iff_false. rewrite Nb_true. intros (tr & Htr & Ht).
      pose proof (windows_bounds _ _ Hnx Htr).
      assert (sr = tr) as <- by (apply (windows_same nx sr tr sr.2); [done..|lia|lia]). lia.
    - apply eq_true_iff_eq. rewrite !Ob_true. split; intros (tr & Htr & Ht); exists tr; (split; [done|]);
        pose proof (quiet_r _ _ _ Hq Htr) as [? ?]; lia.
  Qed.

  (** The intended outputs, position by position. *)
  Definition is_added (y : Z) : Prop := covers nx y /\ ~ covers r y /\ (y, y) ∉ nx.
  Definition is_removed (y : Z) : Prop := covers r y /\ ~ covers nx y /\ (y, y) ∉ r.
  Definition is_same (y : Z) : Prop := covers r y /\ covers nx y.

  Definition decided (k : Z) (out : ranges) (spec : Z -> Prop) : Prop :=
    (forall y, 4 * y + 2 <= k -> covers out y <-> spec y) /\
    (forall y, k < 4 * y + 2 -> ~ covers out y).

  Record sinv (k : Z) (s : sweep) : Prop := {
    si_old : sw_old s = Ob k;
    si_new : sw_new s = Nb k;
    si_last : match sw_last s with
              | Some lp => lp ∈ all_points /\ point_key lp = k
              | None => k = -1
              end;
    si_merged : forall m, sw_merged s = Some m -> 4 * m.2 + 2 <= k;
    si_added : decided k (sw_added s) is_added;
    si_removed : decided k (sw_removed s) is_removed;
    si_same : decided k (sw_same s) is_same }.

  Lemma decided_keep k k' out (spec : Z -> Prop) :
    k <= k' -> decided k out spec ->
    (forall y, k < 4 * y + 2 <= k' -> ~ spec y) -> decided k' out spec.
  Proof.
    intros Hk [H1 H2] Hn. split.
    - intros y Hy. destruct (decide (4 * y + 2 <= k)); [by apply H1|].
      specialize (H2 y ltac:(lia)). specialize (Hn y ltac:(lia)). naive_solver.
    - intros y Hy. apply H2. lia.
  Qed.

  Lemma decided_add k k' out m (spec : Z -> Prop) :
    k <= k' -> decided k out spec ->
    (forall y, m.1 <= y <= m.2 <-> k < 4 * y + 2 <= k') ->
    (forall y, k < 4 * y + 2 <= k' -> spec y) -> decided k' (out ++ [m]) spec.
  Proof.
    intros Hk [H1 H2] Hm Hs. split.
    - intros y Hy. rewrite covers_app, covers_one, Hm.
      destruct (decide (4 * y + 2 <= k)).
      + rewrite H1 by done. intuition lia.
      + specialize (H2 y ltac:(lia)). specialize (Hs y ltac:(lia)). intuition lia.
    - intros y Hy. rewrite covers_app, covers_one, Hm. specialize (H2 y ltac:(lia)). intuition lia.
  Qed.

  Lemma spec_between k k' y :
    quiet k k' -> k < 4 * y + 2 <= k' ->
    (covers r y <-> Ob k = true) /\ (covers nx y <-> Nb k = true).
  Proof.
    intros Hq Hy. rewrite covers_Ob, covers_Nb.
    rewrite (Ob_const k k' (4 * y + 1)), (Nb_const k k' (4 * y + 1)); [done|done|lia|done|lia].
  Qed.

  (** The four kinds of points. *)
  Lemma point_kind p :
    p ∈ all_points ->
    (exists sr, sr ∈ r /\ p = mk_point sr.1 true true) \/
    (exists sr, sr ∈ r /\ p = mk_point sr.2 true false) \/
    (exists sr, sr ∈ nx /\ p = mk_point sr.1 false true) \/
    (exists sr, sr ∈ nx /\ p = mk_point sr.2 false false).
  Proof.
    unfold all_points. rewrite elem_of_app, !points_of_elem. naive_solver.
  Qed.

  (** The flags just after a point with that key. *)
  Lemma flags_after p :
    p ∈ all_points ->
    if pt_open p
    then (if pt_old p then Ob (point_key p) = true else Nb (point_key p) = true)
    else (if pt_old p then Ob (point_key p) = false else Nb (point_key p) = false).
  Proof.
    intros Hp. destruct (point_kind p Hp) as [(sr & Hin & ->)|[(sr & Hin & ->)|[(sr & Hin & ->)|(sr & Hin & ->)]]];
      unfold point_key; cbn [pt_open pt_old pt_x].
    - replace (4 * sr.1 + 0 + 0) with (4 * sr.1) by lia.
      pose proof (windows_bounds _ _ Hr Hin). apply Ob_true. exists sr. split; [done|lia].
    - replace (4 * sr.2 + 2 + 0) with (4 * sr.2 + 2) by lia.
      apply (old_close_flags (4 * sr.2 + 1)); [|lia|done]. intros p' _. lia.
    - replace (4 * sr.1 + 0 + 1) with (4 * sr.1 + 1) by lia.
      pose proof (windows_bounds _ _ Hnx Hin). apply Nb_true. exists sr. split; [done|lia].
    - replace (4 * sr.2 + 2 + 1) with (4 * sr.2 + 3) by lia.
      apply (new_close_flags (4 * sr.2 + 2)); [|lia|done]. intros p' _. lia.
  Qed.

  (** How the flags change at a point. *)
  Lemma flags_step k p :
    p ∈ all_points -> k < point_key p -> quiet k (point_key p) ->
    Ob (point_key p) = (if pt_old p then pt_open p else Ob k) /\
    Nb (point_key p) = (if pt_old p then Nb k else pt_open p) /\
    (if pt_old p then Ob k else Nb k) = negb (pt_open p).
  Proof.
    intros Hp Hk Hq. destruct (point_kind p Hp) as [(sr & Hin & ->)|[(sr & Hin & ->)|[(sr & Hin & ->)|(sr & Hin & ->)]]];
      unfold point_key in *; cbn [pt_open pt_old pt_x negb] in *.
    - replace (4 * sr.1 + 0 + 0) with (4 * sr.1) in * by lia.
      destruct (old_open_flags k sr) as (? & ? & ?); done.
    - replace (4 * sr.2 + 2 + 0) with (4 * sr.2 + 2) in * by lia.
      destruct (old_close_flags k sr) as (? & ? & ?); done.
    - replace (4 * sr.1 + 0 + 1) with (4 * sr.1 + 1) in * by lia.
      destruct (new_open_flags k sr) as (? & ? & ?); done.
    - replace (4 * sr.2 + 2 + 1) with (4 * sr.2 + 3) in * by lia.
      destruct (new_close_flags k sr) as (? & ? & ?); done.
  Qed.

  Lemma key_x p : 4 * pt_x p <= point_key p <= 4 * pt_x p + 3 /\
    (pt_open p = true <-> point_key p < 4 * pt_x p + 2).
  Proof. unfold point_key. destruct (pt_open p), (pt_old p); split; lia. Qed.

  (** The emission. *)
  Lemma create_range_spec k s lp p m :
    sinv k s -> sw_last s = Some lp -> create_range p lp (sw_merged s) = Some m ->
    (forall y, m.1 <= y <= m.2 <-> k < 4 * y + 2 <= point_key p) /\ 4 * m.2 + 2 <= point_key p /\ pt_x lp < pt_x p.
  Proof.
    intros [_ _ Hl Hm _ _ _] Hlp Hc. rewrite Hlp in Hl. destruct Hl as [Hin Hk].
    unfold create_range in Hc. destruct (pt_x p <=? pt_x lp) eqn:E; [done|].
    pose proof (key_x lp) as [Hx Hx']. pose proof (key_x p) as [Hy Hy'].
    injection Hc as <-. cbn [fst snd].
    assert (Hstart : (match sw_merged s with
      | Some m => if pt_x lp <=? m.2 then pt_x lp + 1
                  else if negb (pt_open lp) then pt_x lp + 1 else pt_x lp
      | None => if negb (pt_open lp) then pt_x lp + 1 else pt_x lp
      end) = if pt_open lp then pt_x lp else pt_x lp + 1).
    { destruct (sw_merged s) as [m|] eqn:Em; [|by destruct (pt_open lp)].
      specialize (Hm m eq_refl). destruct (pt_open lp) eqn:Eo; cbn [negb].
      - assert (pt_x lp <=? m.2 = false) as -> by lia. done.
      - destruct (pt_x lp <=? m.2); done. }
    rewrite Hstart. split; [|split; [|lia]].
    - intros y. destruct (pt_open lp) eqn:E1, (pt_open p) eqn:E2; lia.
    - destruct (pt_open p) eqn:E2; lia.
  Qed.

  Lemma key_open p : pt_open p = true -> point_key p < 4 * pt_x p + 2.
  Proof. unfold point_key. intros ->. destruct (pt_old p); lia. Qed.
  Lemma key_close p : pt_open p = false -> 4 * pt_x p + 2 <= point_key p.
  Proof. unfold point_key. intros ->. destruct (pt_old p); lia. Qed.

  (** [lia] without the boolean facts, which slow it down. *)
  Ltac zl := repeat match goal with
    | H : @eq bool _ _ |- _ => clear H
    | H : @eq sweep _ _ |- _ => clear H
    | H : _ <-> _ |- _ => clear H
    | H : sinv _ _ |- _ => clear H
    | H : forall _, _ |- _ => clear H
    | H : decided _ _ _ |- _ => clear H
    | H : _ ∈ _ |- _ => clear H
    end; lia.

  Lemma sweep_step_inv k s p :
    sinv k s -> p ∈ all_points -> k < point_key p -> quiet k (point_key p) ->
    exists s', sweep_step s p = Some s' /\ sinv (point_key p) s'.
  Proof.
    intros Hinv Hp Hk Hq.
    pose proof (flags_step k p Hp Hk Hq) as (HO & HN & Hown).
    pose proof (key_x p) as [Hy _].
    assert (Hbetween := fun y Hy => spec_between k (point_key p) y Hq Hy).
    set (k' := point_key p) in *.
    unfold sweep_step.
    assert (Hsame : (match sw_last s with Some lp => point_same p lp | None => false end) = false).
    { destruct (sw_last s) as [lp|] eqn:El; [|done].
      pose proof (si_last _ _ Hinv) as Hl. rewrite El in Hl. destruct Hl as [_ Hl].
      apply not_true_iff_false. intros Hs. unfold point_same in Hs.
      apply andb_true_iff in Hs as [Hs H3]. apply andb_true_iff in Hs as [H1 H2].
      apply Bool.eqb_prop in H2, H3. apply Z.eqb_eq in H1.
      assert (p = lp) by (destruct p, lp; cbn in *; congruence). subst. zl. }
    rewrite Hsame.
    (* after the emission everything up to [k'] is decided *)
    assert (Hemit : exists s1, sweep_emit s p = Some s1 /\
      sw_old s1 = Ob k /\ sw_new s1 = Nb k /\
      (forall m, sw_merged s1 = Some m -> 4 * m.2 + 2 <= k') /\
      decided k' (sw_added s1) is_added /\ decided k' (sw_removed s1) is_removed /\
      decided k' (sw_same s1) is_same).
    { pose proof Hinv as [Ho Hn Hl Hm Ha Hrm Hsm]. unfold sweep_emit. rewrite Ho, Hn.
      destruct (Nb k) eqn:EN, (Ob k) eqn:EO; cbn [andb].
      - (* both open: p is a close *)
        destruct (sw_last s) as [lp|] eqn:El; [|subst k; exfalso; apply Ob_true in EO as (sr & Hin & ?);
          pose proof (windows_bounds _ _ Hr Hin); zl].
        destruct Hl as [Hlin Hlk].
        assert (Hpc : pt_open p = false) by (destruct (pt_old p); by destruct (pt_open p)).
        assert (Hlo : pt_open lp = true).
        { pose proof (flags_after lp Hlin) as Hf. rewrite Hlk, EN, EO in Hf.
          destruct (pt_open lp); [done|]. by destruct (pt_old lp). }
        pose proof (key_x lp) as [Hlx _].
        pose proof (key_close p Hpc) as Hyc. pose proof (key_open lp Hlo) as Hlc. fold k' in Hyc.
        eexists. split; [done|]. cbn. split_and!; [congruence|congruence| | | |].
        + intros m [= <-]. cbn. zl.
        + apply decided_keep with k; [zl|done|]. intros y Hyy [_ [Hc _]]. apply Hc, Hbetween; [zl|done].
        + apply decided_keep with k; [zl|done|]. intros y Hyy [_ [Hc _]]. apply Hc, Hbetween; [zl|done].
        + apply decided_add with k; [zl|done| |].
          * intros y. cbn. zl.
          * intros y Hyy. split; apply Hbetween; [zl|done|zl|done].
      - (* new only *)
        destruct (sw_last s) as [lp|] eqn:El; [|subst k; exfalso; apply Nb_true in EN as (sr & Hin & ?);
          pose proof (windows_bounds _ _ Hnx Hin); zl].
        destruct Hl as [Hlin Hlk]. pose proof (key_x lp) as [Hlx _].
        destruct (create_range p lp (sw_merged s)) as [m|] eqn:Ec.
        + destruct (create_range_spec k s lp p m Hinv El Ec) as (Hm1 & Hm2 & Hm3).
          eexists. split; [done|]. cbn. split_and!; [congruence|congruence| | | |].
          * intros m' [= <-]. done.
          * apply decided_add with k; [zl|done|done|]. intros y Hyy.
            split_and!; [apply Hbetween; [zl|done]| |].
            -- intros Hc. apply Hbetween in Hc; [congruence|zl].
            -- intros Hc. pose proof (quiet_nx _ _ _ Hq Hc) as [H1 H2]. cbn in H1, H2. zl.
          * apply decided_keep with k; [zl|done|]. intros y Hyy [Hc _].
            apply Hbetween in Hc; [congruence|zl].
          * apply decided_keep with k; [zl|done|]. intros y Hyy [Hc _].
            apply Hbetween in Hc; [congruence|zl].
        + assert (Hle : pt_x p <= pt_x lp).
          { unfold create_range in Ec. destruct (Z.leb_spec (pt_x p) (pt_x lp)); [done|discriminate]. }
          eexists. split; [done|]. split_and!; [congruence|congruence| | | |].
          * intros m Em. specialize (Hm _ Em). zl.
          * apply decided_keep with k; [zl|done|]. intros y Hyy (Hc1 & Hc2 & Hc3).
            (* the lone window *)
            assert (Hpo : pt_open p = false).
            { destruct (pt_open p) eqn:Ex; [|done]. pose proof (key_open p Ex) as Hko. fold k' in Hko. zl. }
            assert (Hlo : pt_open lp = true).
            { destruct (pt_open lp) eqn:Ex; [done|]. pose proof (key_close lp Ex) as Hko. zl. }
            assert (Hpold : pt_old p = false) by (destruct (pt_old p); [rewrite Hpo in Hown; done|done]).
            assert (Hlold : pt_old lp = false).
            { pose proof (flags_after lp Hlin) as Hf. rewrite Hlk, EN, EO, Hlo in Hf. by destruct (pt_old lp). }
            destruct (point_kind p Hp) as [(sr & Hin & ->)|[(sr & Hin & ->)|[(sr & Hin & ->)|(sr & Hin & ->)]]];
              cbn in Hpo, Hpold; try done.
            destruct (point_kind lp Hlin) as [(tr & Hint & ->)|[(tr & Hint & ->)|[(tr & Hint & ->)|(tr & Hint & ->)]]];
              cbn in Hlo, Hlold; try done.
            cbn in Hle, Hlx, Hy. pose proof (windows_bounds _ _ Hnx Hin). pose proof (windows_bounds _ _ Hnx Hint).
            assert (sr = tr) as <-.
            { apply (windows_same nx sr tr sr.2); [done..|zl|]. zl. }
            apply Hc3. replace (y, y) with sr; [done|]. destruct sr as [a b]. cbn in *. f_equal; zl.
          * apply decided_keep with k; [zl|done|]. intros y Hyy [Hc _].
            apply Hbetween in Hc; [congruence|zl].
          * apply decided_keep with k; [zl|done|]. intros y Hyy [Hc _].
            apply Hbetween in Hc; [congruence|zl].
      - (* old only *)
        destruct (sw_last s) as [lp|] eqn:El; [|subst k; exfalso; apply Ob_true in EO as (sr & Hin & ?);
          pose proof (windows_bounds _ _ Hr Hin); zl].
        destruct Hl as [Hlin Hlk]. pose proof (key_x lp) as [Hlx _].
        destruct (create_range p lp (sw_merged s)) as [m|] eqn:Ec.
        + destruct (create_range_spec k s lp p m Hinv El Ec) as (Hm1 & Hm2 & Hm3).
          eexists. split; [done|]. cbn. split_and!; [congruence|congruence| | | |].
          * intros m' [= <-]. done.
          * apply decided_keep with k; [zl|done|]. intros y Hyy [Hc _].
            apply Hbetween in Hc; [congruence|zl].
          * apply decided_add with k; [zl|done|done|]. intros y Hyy.
            split_and!; [apply Hbetween; [zl|done]| |].
            -- intros Hc. apply Hbetween in Hc; [congruence|zl].
            -- intros Hc. pose proof (quiet_r _ _ _ Hq Hc) as [H1 H2]. cbn in H1, H2. zl.
          * apply decided_keep with k; [zl|done|]. intros y Hyy [_ Hc].
            apply Hbetween in Hc; [congruence|zl].
        + assert (Hle : pt_x p <= pt_x lp).
          { unfold create_range in Ec. destruct (Z.leb_spec (pt_x p) (pt_x lp)); [done|discriminate]. }
          eexists. split; [done|]. split_and!; [congruence|congruence| | | |].
          * intros m Em. specialize (Hm _ Em). zl.
          * apply decided_keep with k; [zl|done|]. intros y Hyy [Hc _].
            apply Hbetween in Hc; [congruence|zl].
          * apply decided_keep with k; [zl|done|]. intros y Hyy (Hc1 & Hc2 & Hc3).
            assert (Hpo : pt_open p = false).
            { destruct (pt_open p) eqn:Ex; [|done]. pose proof (key_open p Ex) as Hko. fold k' in Hko. zl. }
            assert (Hlo : pt_open lp = true).
            { destruct (pt_open lp) eqn:Ex; [done|]. pose proof (key_close lp Ex) as Hko. zl. }
            assert (Hpold : pt_old p = true) by (destruct (pt_old p); [done|rewrite Hpo in Hown; done]).
            assert (Hlold : pt_old lp = true).
            { pose proof (flags_after lp Hlin) as Hf. rewrite Hlk, EN, EO, Hlo in Hf. by destruct (pt_old lp). }
            destruct (point_kind p Hp) as [(sr & Hin & ->)|[(sr & Hin & ->)|[(sr & Hin & ->)|(sr & Hin & ->)]]];
              cbn in Hpo, Hpold; try done.
            destruct (point_kind lp Hlin) as [(tr & Hint & ->)|[(tr & Hint & ->)|[(tr & Hint & ->)|(tr & Hint & ->)]]];
              cbn in Hlo, Hlold; try done.
            cbn in Hle, Hlx, Hy. pose proof (windows_bounds _ _ Hr Hin). pose proof (windows_bounds _ _ Hr Hint).
            assert (sr = tr) as <-.
            { apply (windows_same r sr tr sr.2); [done..|zl|]. zl. }
            apply Hc3. replace (y, y) with sr; [done|]. destruct sr as [a b]. cbn in *. f_equal; zl.
          * apply decided_keep with k; [zl|done|]. intros y Hyy [_ Hc].
            apply Hbetween in Hc; [congruence|zl].
      - eexists. split; [done|]. split_and!; [congruence|congruence| | | |].
        + intros m Em. specialize (Hm _ Em). zl.
        + apply decided_keep with k; [zl|done|]. intros y Hyy [Hc _]. apply Hbetween in Hc; [congruence|zl].
        + apply decided_keep with k; [zl|done|]. intros y Hyy [Hc _]. apply Hbetween in Hc; [congruence|zl].
        + apply decided_keep with k; [zl|done|]. intros y Hyy [Hc _]. apply Hbetween in Hc; [congruence|zl]. }
    destruct Hemit as (s1 & -> & Ho1 & Hn1 & Hm1 & Ha1 & Hr1 & Hs1).
    unfold sweep_remember. rewrite Ho1, Hn1.
    destruct (pt_open p) eqn:Epo, (pt_old p) eqn:Epold; cbn [negb andb orb] in *; rewrite Hown;
      cbn [negb andb orb]; eexists; (split; [reflexivity|]);
      (split; cbn; [congruence|congruence|done|done|done|done|done]).
  Qed.

  Lemma sweep_run_inv todo k s :
    sinv k s ->
    StronglySorted (fun p q => point_key p < point_key q) todo ->
    (forall p, p ∈ todo -> p ∈ all_points /\ k < point_key p) ->
    (forall p, p ∈ all_points -> k < point_key p -> p ∈ todo) ->
    exists s' k', sweep_run s todo = Some s' /\ sinv k' s' /\ k <= k' /\
      (forall p, p ∈ all_points -> point_key p <= k').
  Proof.
    revert k s; induction todo as [|p todo IH]; intros k s Hinv Hs Hsound Hcomp; cbn [sweep_run].
    - exists s, k. split_and!; [done|done|lia|]. intros p Hp.
      destruct (decide (k < point_key p)); [|lia]. by apply Hcomp in Hp; [set_solver|].
    - apply StronglySorted_inv in Hs as [Hs Hf]. rewrite Forall_forall in Hf.
      destruct (Hsound p) as [Hp Hk]; [set_solver|].
      destruct (sweep_step_inv k s p Hinv Hp Hk) as (s1 & Hs1 & Hinv1).
      { intros q Hq Hc. assert (Hqt : q ∈ p :: todo) by (apply Hcomp; [done|lia]).
        apply elem_of_cons in Hqt as [->|Hqt]; [lia|]. specialize (Hf _ Hqt). lia. }
      rewrite Hs1. destruct (IH (point_key p) s1 Hinv1 Hs) as (s' & k' & Hr' & Hi' & Hk' & Hall).
      + intros q Hq. split; [apply Hsound; set_solver|by apply Hf].
      + intros q Hq Hkq. assert (Hqt : q ∈ p :: todo) by (apply Hcomp; [done|lia]).
        apply elem_of_cons in Hqt as [->|Hqt]; [lia|done].
      + exists s', k'. split_and!; [done|done|lia|done].
  Qed.

  Lemma sinv_init : sinv (-1) (mk_sweep false false None None [] [] []).
  Proof.
    assert (HO : Ob (-1) = false).
    { apply not_true_iff_false. rewrite Ob_true. intros (sr & Hin & ?). pose proof (windows_bounds _ _ Hr Hin). lia. }
    assert (HN : Nb (-1) = false).
    { apply not_true_iff_false. rewrite Nb_true. intros (sr & Hin & ?). pose proof (windows_bounds _ _ Hnx Hin). lia. }
    split; cbn; [done|done|done|done|..];
      (split; [|intros y _ Hc; by apply covers_nil in Hc]); intros y Hy; split;
      try (intros Hc; exfalso; by apply covers_nil in Hc); intros [(sr & Hin & ?) _]; exfalso.
    - pose proof (windows_bounds _ _ Hnx Hin). lia.
    - pose proof (windows_bounds _ _ Hr Hin). lia.
    - pose proof (windows_bounds _ _ Hr Hin). lia.
  Qed.

  Lemma points_of_NoDup l old : windows_ok l -> NoDup (points_of l old).
  Proof.
    rewrite <- disjoint_list_ok. induction l as [|sr l IH]; [constructor|]. cbn [disjoint_list].
    intros (Hb & Hd & Hl). specialize (IH Hl). change (points_of (sr :: l) old) with
      (mk_point sr.1 old true :: mk_point sr.2 old false :: points_of l old).
    apply NoDup_cons. split; [|apply NoDup_cons; split; [|done]].
    - rewrite elem_of_cons, points_of_elem. intros [[=]|(tr & Htr & [[=]|[=]])].
      pose proof (windows_bounds l tr ltac:(by apply disjoint_list_ok) Htr).
      specialize (Hd tr Htr); lia.
    - rewrite points_of_elem. intros (tr & Htr & [[=]|[=]]).
      pose proof (windows_bounds l tr ltac:(by apply disjoint_list_ok) Htr).
      specialize (Hd tr Htr); lia.
  Qed.

  Lemma all_points_NoDup : NoDup all_points.
  Proof.
    apply NoDup_app. split_and!; [by apply points_of_NoDup| |by apply points_of_NoDup].
    intros p H1 H2. apply points_of_elem in H1 as (sr & _ & Hs), H2 as (tr & _ & Ht).
    destruct Hs as [->| ->], Ht as [[=]|[=]].
  Qed.

  Global Instance point_le_trans : Transitive point_le.
  Proof. intros a b c. unfold point_le. lia. Qed.
  Global Instance point_le_total : Total point_le.
  Proof. intros a b. unfold point_le. lia. Qed.

  Lemma sorted_points_strict :
    StronglySorted (fun p q => point_key p < point_key q) (sort_points all_points).
  Proof.
    assert (Hs : StronglySorted point_le (sort_points all_points))
      by apply (StronglySorted_merge_sort point_le).
    assert (Hn : NoDup (sort_points all_points)).
    { unfold sort_points. rewrite (merge_sort_Permutation point_le). apply all_points_NoDup. }
    induction Hs as [|p l Hl IH Hf]; constructor.
    - apply IH. apply NoDup_cons in Hn as [_ Hn]. exact Hn.
    - apply NoDup_cons in Hn as [Hni Hn]. rewrite Forall_forall in *. intros q Hq.
      specialize (Hf q Hq). unfold point_le in Hf.
      assert (point_key p <> point_key q); [|lia]. intros He. apply point_key_inj in He. by subst.
  Qed.

  Lemma delta_spec :
    exists added removed same,
      delta r nx = Some (added, removed, same) /\
      (forall y, covers added y <-> is_added y) /\
      (forall y, covers removed y <-> is_removed y) /\
      (forall y, covers same y <-> is_same y).
  Proof.
    unfold delta. case_bool_decide as Heq.
    - exists [], [], nx. split; [done|]. unfold is_added, is_removed, is_same. rewrite <- Heq.
      split_and!; intros y; [| |tauto]; (split; [intros Hc; by apply covers_nil in Hc|tauto]).
    - destruct (sweep_run_inv (sort_points all_points) (-1) _ sinv_init) as (s & k & Hrun & Hi & Hk & Hall).
      + apply sorted_points_strict.
      + intros p Hp. unfold sort_points in Hp. rewrite (merge_sort_Permutation point_le) in Hp.
        split; [done|]. pose proof (key_x p) as [Hx _].
        destruct (point_kind p Hp) as [(sr & Hin & ->)|[(sr & Hin & ->)|[(sr & Hin & ->)|(sr & Hin & ->)]]];
          cbn in Hx; first [pose proof (windows_bounds _ _ Hr Hin)|pose proof (windows_bounds _ _ Hnx Hin)]; lia.
      + intros p Hp _. unfold sort_points. by rewrite (merge_sort_Permutation point_le).
      + fold all_points. rewrite Hrun. exists (sw_added s), (sw_removed s), (sw_same s). split; [done|].
        assert (Hout : forall out spec, decided k out spec ->
          (forall y, spec y -> covers r y \/ covers nx y) -> forall y, covers out y <-> spec y).
        { intros out spec [H1 H2] Hs y. destruct (decide (4 * y + 2 <= k)) as [Hd|Hd]; [by apply H1|].
          split; [intros Hc; exfalso; apply (H2 y); [lia|done]|].
          intros Hy. exfalso. destruct (Hs y Hy) as [(sr & Hin & ?)|(sr & Hin & ?)].
          - destruct (key_old_close _ Hin) as (p & Hp & He). specialize (Hall p Hp). lia.
          - destruct (key_new_close _ Hin) as (p & Hp & He). specialize (Hall p Hp). lia. }
        destruct Hi as [_ _ _ _ Ha Hrm Hs].
        split_and!; (apply Hout; [done|]); unfold is_added, is_removed, is_same; tauto.
  Qed.
End delta.

(** ** SliceInto *)
Lemma go_slice_lookup {A} (l : list A) a b s :
  go_slice l a b = Some s ->
  forall i, 0 <= i -> s !! Z.to_nat i = if i <? b - a then l !! Z.to_nat (a + i) else None.
Proof.
  unfold go_slice. destruct (_ && _) eqn:E; [|done]. intros [= <-] i Hi.
  destruct (i <? b - a) eqn:E2.
  - rewrite lookup_take by lia. rewrite lookup_drop. f_equal. lia.
  - apply lookup_take_ge. lia.
Qed.

Lemma slice_into_spec {A} (r : ranges) (l : list A) :
  windows_ok r ->
  slice_into r l =
    Some (map (fun sr => omap (fun i => l !! Z.to_nat i) (window_positions (length l) sr))
              (filter (fun sr => sr.1 < Z.of_nat (length l)) r)).
Proof.
  intros [Hb _]. induction r as [|sr r IH]; [done|]. cbn [slice_into].
  specialize (IH ltac:(intros; apply Hb; set_solver)).
  specialize (Hb sr ltac:(set_solver)).
  assert (Hone : forall n, n = Z.of_nat (length l) -> sr.1 < n ->
    take (Z.to_nat ((if n <=? sr.2 then n - 1 else sr.2) + 1 - sr.1)) (drop (Z.to_nat sr.1) l)
    = omap (fun i => l !! Z.to_nat i) (window_positions (length l) sr)).
  { clear IH. intros n -> Hlt. unfold window_positions. destruct Hb as [Hb1 Hb2].
    set (a := sr.1) in *. set (b := sr.2) in *.
    assert (Hgen : forall (k : nat) (l' : list A),
      omap (fun i => l' !! Z.to_nat (i - Z.of_nat k))
        (filter (fun i => a <= i <= b) (map Z.of_nat (seq k (length l'))))
      = take (Z.to_nat (b + 1 - a `max` Z.of_nat k)) (drop (Z.to_nat (a - Z.of_nat k)) l')).
    { intros k l'. revert k. induction l' as [|x l' IHl]; intros k; [by rewrite drop_nil, take_nil|].
      cbn [length seq map]. 
      assert (Htail : forall P : list Z, (forall i, i ∈ P -> Z.of_nat k < i) ->
        omap (fun i => (x :: l') !! Z.to_nat (i - Z.of_nat k)) P
        = omap (fun i => l' !! Z.to_nat (i - Z.of_nat (S k))) P).
      { induction P as [|i P IHP]; intros HP; [done|]. cbn.
        rewrite IHP by (intros; apply HP; set_solver).
        specialize (HP i ltac:(set_solver)).
        replace (Z.to_nat (i - Z.of_nat k)) with (S (Z.to_nat (i - Z.of_nat (S k)))) by lia. done. }
      assert (Hgt : forall i, i ∈ filter (fun i => a <= i <= b) (map Z.of_nat (seq (S k) (length l'))) -> Z.of_nat k < i).
      { intros i Hi. apply elem_of_list_filter in Hi as [_ Hi]. apply elem_of_list_In, in_map_iff in Hi as (j & <- & Hj).
        apply in_seq in Hj. lia. }
      rewrite filter_cons. destruct (decide (a <= Z.of_nat k <= b)) as [Hin|Hout].
      - cbn [omap list_omap]. replace (Z.to_nat (Z.of_nat k - Z.of_nat k)) with 0%nat by lia. cbn [lookup list_lookup].
        rewrite Htail, IHl by done.
        replace (Z.to_nat (a - Z.of_nat k)) with 0%nat by lia.
        replace (Z.to_nat (a - Z.of_nat (S k))) with 0%nat by lia.
        replace (Z.to_nat (b + 1 - a `max` Z.of_nat k)) with (S (Z.to_nat (b + 1 - a `max` Z.of_nat (S k)))) by lia.
        done.
      - rewrite Htail, IHl by done. destruct (decide (Z.of_nat k < a)).
        + replace (Z.to_nat (a - Z.of_nat k)) with (S (Z.to_nat (a - Z.of_nat (S k)))) by lia.
          cbn [drop]. f_equal. lia.
        + replace (Z.to_nat (b + 1 - a `max` Z.of_nat k)) with 0%nat by lia.
          replace (Z.to_nat (b + 1 - a `max` Z.of_nat (S k))) with 0%nat by lia. done. }
    specialize (Hgen 0%nat l). cbn [Z.of_nat] in Hgen. rewrite Z.sub_0_r in Hgen.
    etrans; [|etrans; [symmetry; exact Hgen|]];
      [|apply list_omap_ext, Forall_Forall2_diag, Forall_forall; intros i _; by rewrite Z.sub_0_r]. rewrite Z.max_l by lia.
    destruct (Z.of_nat (length l) <=? b) eqn:E; [|done].
    rewrite !take_ge; [done|rewrite drop_length; lia|rewrite drop_length; lia]. }
  destruct (Z.of_nat (length l) =? 0) eqn:E0; cbv zeta.
  - rewrite IH. rewrite filter_cons. rewrite decide_False by lia. done.
  - destruct ((Z.of_nat (length l) <=? sr.1) && (Z.of_nat (length l) <=? sr.2)) eqn:E1.
    + rewrite IH, filter_cons. rewrite decide_False by lia. done.
    + assert (Hlt : sr.1 < Z.of_nat (length l)) by lia.
      assert (Z.of_nat (length l) <=? sr.1 = false) as -> by lia.
      rewrite IH, filter_cons, decide_True by done. cbn [map].
      rewrite <- (Hone _ eq_refl Hlt). unfold subslice, go_slice.
      destruct (Z.of_nat (length l) <=? sr.2) eqn:E2.
      * rewrite !(proj2 (andb_true_iff _ _)); [done|..]; try split; lia.
      * rewrite !(proj2 (andb_true_iff _ _)); [done|..]; try split; lia.
Qed.

Lemma filter_split_perm (l : list Z) (f : Z -> bool) (sr : range) :
  (forall i, f i = true -> ~ (sr.1 <= i <= sr.2)) ->
  List.filter (fun i => ((sr.1 <=? i) && (i <=? sr.2)) || f i) l
  ≡ₚ filter (fun i => sr.1 <= i <= sr.2) l ++ List.filter f l.
Proof.
  intros Hd. induction l as [|x l IH]; [done|]. cbn [List.filter]. rewrite filter_cons.
  destruct (decide (sr.1 <= x <= sr.2)) as [Hin|Hout].
  - assert ((sr.1 <=? x) && (x <=? sr.2) = true) as -> by lia. cbn [orb].
    destruct (f x) eqn:E; [by apply Hd in E|]. rewrite IH. done.
  - assert ((sr.1 <=? x) && (x <=? sr.2) = false) as -> by lia. cbn [orb].
    destruct (f x); rewrite IH; [|done]. by rewrite <- Permutation_middle.
Qed.

Lemma slices_cover_once {A} (r : ranges) (l : list A) ss :
  windows_ok r -> slice_into r l = Some ss ->
  concat ss ≡ₚ omap (fun i => l !! Z.to_nat i) (covered_positions (length l) r).
Proof.
  intros Hok Hs. rewrite slice_into_spec in Hs by done. injection Hs as <-.
  apply disjoint_list_ok in Hok. induction r as [|sr r IH].
  - cbn. unfold covered_positions. cbn.
    assert (He : forall l : list Z, List.filter (fun _ => false) l = []) by (induction l0; done). by rewrite He.
  - destruct Hok as (Hb & Hd & Hr). specialize (IH Hr).
    assert (Hgo : concat (map (fun sr => omap (fun i => l !! Z.to_nat i) (window_positions (length l) sr))
        (filter (fun sr => sr.1 < Z.of_nat (length l)) (sr :: r)))
      = omap (fun i => l !! Z.to_nat i) (window_positions (length l) sr) ++
        concat (map (fun sr => omap (fun i => l !! Z.to_nat i) (window_positions (length l) sr))
          (filter (fun sr => sr.1 < Z.of_nat (length l)) r))).
    { rewrite filter_cons. destruct (decide (sr.1 < Z.of_nat (length l))) as [Hlt|Hge]; [done|].
      assert (window_positions (length l) sr = []) as ->; [|done].
      unfold window_positions. destruct (filter (fun i => sr.1 <= i <= sr.2) _) as [|i l'] eqn:E; [done|].
      assert (Hi : i ∈ filter (fun i => sr.1 <= i <= sr.2) (map Z.of_nat (seq 0 (length l))))
        by (rewrite E; set_solver).
      apply elem_of_list_filter in Hi as [Hi1 Hi2]. apply elem_of_list_In, in_map_iff in Hi2 as (j & <- & Hj).
      apply in_seq in Hj. lia. }
    rewrite Hgo, IH. unfold covered_positions, window_positions. cbn [existsb].
    rewrite <- omap_app. apply Permutation_sym. apply omap_Permutation. apply filter_split_perm.
    intros i Hi Hin. apply existsb_exists in Hi as (tr & Htr & Ht). apply elem_of_list_In in Htr.
    specialize (Hd tr Htr). lia.
Qed.

Lemma inside_spec r i :
  match inside r i with
  | Some sr => sr ∈ r /\ sr.1 <= i <= sr.2
  | None => ~ covers r i
  end.
Proof. destruct (inside r i) eqn:E; [by apply inside_Some|by apply inside_None]. Qed.

Lemma delta_spec_full r nx :
  windows_ok r -> windows_ok nx ->
  exists added removed same,
    delta r nx = Some (added, removed, same) /\
    (forall i, covers added i <-> (covers nx i /\ ~ covers r i) /\ ~ lone nx r i) /\
    (forall i, covers removed i <-> (covers r i /\ ~ covers nx i) /\ ~ lone r nx i) /\
    (forall i, covers same i <-> covers r i /\ covers nx i).
Proof.
  intros Hr Hn. destruct (delta_spec r nx Hr Hn) as (a & rm & s & Hd & Ha & Hrm & Hs).
  exists a, rm, s. split; [done|]. unfold lone. split_and!; intros i; [rewrite Ha|rewrite Hrm|rewrite Hs];
    unfold is_added, is_removed, is_same; tauto.
Qed.

Lemma delta_exact_wide r nx :
  windows_ok r -> windows_ok nx ->
  (forall i, (i, i) ∈ nx -> covers r i) -> (forall i, (i, i) ∈ r -> covers nx i) ->
  exists added removed same,
    delta r nx = Some (added, removed, same) /\
    (forall i, covers added i <-> covers nx i /\ ~ covers r i) /\
    (forall i, covers removed i <-> covers r i /\ ~ covers nx i) /\
    (forall i, covers same i <-> covers r i /\ covers nx i).
Proof.
  intros Hr Hn H1 H2. destruct (delta_spec_full r nx Hr Hn) as (a & rm & s & Hd & Ha & Hrm & Hs).
  exists a, rm, s. split; [done|]. unfold lone in *. split_and!; intros i; [rewrite Ha|rewrite Hrm|apply Hs];
    [specialize (H1 i)|specialize (H2 i)]; tauto.
Qed.
