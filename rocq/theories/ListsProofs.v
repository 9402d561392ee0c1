(** Proofs about sorted and filtered lists. *)
From Verif Require Import Prelude RoomNameModel RoomNameProofs ListsModel ListsSpec SortProofs OpsModel OpsSpec.
Open Scope string_scope.
Open Scope list_scope.
Open Scope Z_scope.

(** ** Comparing strings *)
Lemma string_compare_refl s : String.compare s s = Eq.
Proof.
  induction s as [|a s IH]; [done|]. cbn. unfold Ascii.compare. by rewrite N.compare_refl.
Qed.
Lemma string_compare_lt_trans s1 s2 s3 :
  String.compare s1 s2 = Lt -> String.compare s2 s3 = Lt -> String.compare s1 s3 = Lt.
Proof.
  revert s2 s3. induction s1 as [|a s1 IH]; intros [|b s2] [|c s3]; cbn; try done.
  unfold Ascii.compare.
  destruct (N.compare_spec (Ascii.N_of_ascii a) (Ascii.N_of_ascii b)) as [H1|H1|H1];
    destruct (N.compare_spec (Ascii.N_of_ascii b) (Ascii.N_of_ascii c)) as [H2|H2|H2]; try done.
  - rewrite H1, H2, N.compare_refl. apply IH.
  - rewrite H1. apply N.compare_lt_iff in H2 as ->. done.
  - rewrite <- H2. apply N.compare_lt_iff in H1 as ->. done.
  - assert (H3 : (Ascii.N_of_ascii a < Ascii.N_of_ascii c)%N) by lia. apply N.compare_lt_iff in H3 as ->. done.
Qed.

(** ** Comparators *)
Definition good (c : conn_room -> conn_room -> Z) : Prop :=
  (forall a b, c a b = 1 \/ c a b = 0 \/ c a b = -1) /\
  (forall a b, c b a = - c a b) /\
  (forall a b d, 0 <= c a b -> 0 <= c b d -> 0 <= c a d) /\
  (forall a b d, c a b = 0 -> c b d = 0 -> c a d = 0).

(** A comparator given by a rank, highest first. *)
Lemma good_rank (rank : conn_room -> Z) c :
  (forall a b, c a b = if rank a =? rank b then 0 else if rank b <? rank a then 1 else -1) -> good c.
Proof.
  intros Hc. split_and!.
  - intros a b. rewrite Hc. destruct (rank a =? rank b); [lia|]. destruct (rank b <? rank a); lia.
  - intros a b. rewrite !Hc. destruct (Z.eqb_spec (rank a) (rank b)); destruct (Z.eqb_spec (rank b) (rank a)); try lia.
    destruct (Z.ltb_spec (rank a) (rank b)); destruct (Z.ltb_spec (rank b) (rank a)); lia.
  - intros a b d. rewrite !Hc.
    destruct (Z.eqb_spec (rank a) (rank b)); destruct (Z.eqb_spec (rank b) (rank d)); destruct (Z.eqb_spec (rank a) (rank d));
    destruct (Z.ltb_spec (rank b) (rank a)); destruct (Z.ltb_spec (rank d) (rank b)); destruct (Z.ltb_spec (rank d) (rank a)); lia.
  - intros a b d. rewrite !Hc.
    destruct (Z.eqb_spec (rank a) (rank b)); destruct (Z.eqb_spec (rank b) (rank d)); destruct (Z.eqb_spec (rank a) (rank d));
    destruct (Z.ltb_spec (rank b) (rank a)); destruct (Z.ltb_spec (rank d) (rank b)); destruct (Z.ltb_spec (rank d) (rank a)); lia.
Qed.
Lemma cmp_level_rank a b :
  cmp_level a b = if level a =? level b then 0 else if level b <? level a then 1 else -1.
Proof.
  unfold cmp_level, level.
  destruct (0 <? c_highlight a), (0 <? c_highlight b), (0 <? c_notif a), (0 <? c_notif b),
    (m_encrypted (c_meta a)), (m_encrypted (c_meta b)); done.
Qed.
Lemma cmp_name_cases a b :
  cmp_name a b = match String.compare (c_canon a) (c_canon b) with Lt => 1 | Eq => 0 | Gt => -1 end.
Proof.
  unfold cmp_name, String.ltb. destruct (String.eqb_spec (c_canon a) (c_canon b)) as [->|Hn].
  - by rewrite string_compare_refl.
  - destruct (String.compare (c_canon a) (c_canon b)) eqn:E; [|done|done].
    apply String.compare_eq_iff in E. done.
Qed.
Lemma good_name : good cmp_name.
Proof.
  split_and!.
  - intros a b. rewrite cmp_name_cases. destruct (String.compare _ _); lia.
  - intros a b. rewrite !cmp_name_cases. rewrite (String.compare_antisym (c_canon b)).
    destruct (String.compare (c_canon a) (c_canon b)); done.
  - intros a b d. rewrite !cmp_name_cases.
    destruct (String.compare (c_canon a) (c_canon b)) eqn:E1; destruct (String.compare (c_canon b) (c_canon d)) eqn:E2; try lia.
    + apply String.compare_eq_iff in E1 as ->. by rewrite E2.
    + apply String.compare_eq_iff in E1 as ->. by rewrite E2.
    + apply String.compare_eq_iff in E2 as <-. by rewrite E1.
    + by rewrite (string_compare_lt_trans _ _ _ E1 E2).
  - intros a b d. rewrite !cmp_name_cases.
    destruct (String.compare (c_canon a) (c_canon b)) eqn:E1; [|done|done].
    apply String.compare_eq_iff in E1 as ->. done.
Qed.

Lemma comparator_spec key s c :
  comparator key s = Some c ->
  good c /\ (forall a b, c a b = 1 <-> before key s a b).
Proof.
  unfold comparator, before. intros H.
  destruct (String.eqb_spec s "by_highlight_count") as [->|].
  { injection H as <-. split; [by apply (good_rank c_highlight)|]. intros a b. unfold cmp_highlight.
    split.
    - intros H. right; right; left. split; [done|]. destruct (Z.eqb_spec (c_highlight a) (c_highlight b)); [done|].
      destruct (Z.ltb_spec (c_highlight b) (c_highlight a)); lia.
    - intros [[H _]|[[H _]|[[_ H]|[[H _]|[H _]]]]]; try done.
      destruct (Z.eqb_spec (c_highlight a) (c_highlight b)); [lia|].
      destruct (Z.ltb_spec (c_highlight b) (c_highlight a)); lia. }
  destruct (String.eqb_spec s "by_notification_count") as [->|].
  { injection H as <-. split; [by apply (good_rank c_notif)|]. intros a b. unfold cmp_notif.
    split.
    - intros H. right; right; right; left. split; [done|]. destruct (Z.eqb_spec (c_notif a) (c_notif b)); [done|].
      destruct (Z.ltb_spec (c_notif b) (c_notif a)); lia.
    - intros [[H _]|[[H _]|[[H _]|[[_ H]|[H _]]]]]; try done.
      destruct (Z.eqb_spec (c_notif a) (c_notif b)); [lia|].
      destruct (Z.ltb_spec (c_notif b) (c_notif a)); lia. }
  destruct (String.eqb_spec s "by_name") as [->|].
  { injection H as <-. split; [apply good_name|]. intros a b. rewrite cmp_name_cases. split.
    - intros H. left. split; [done|]. by destruct (String.compare _ _).
    - intros [[_ H]|[[H _]|[[H _]|[[H _]|[H _]]]]]; try done. by rewrite H. }
  destruct (String.eqb_spec s "by_recency") as [->|].
  { injection H as <-. split; [by apply (good_rank (get_ts key))|]. intros a b. unfold cmp_recency.
    split.
    - intros H. right; left. split; [done|]. destruct (Z.eqb_spec (get_ts key a) (get_ts key b)); [done|].
      destruct (Z.ltb_spec (get_ts key b) (get_ts key a)); lia.
    - intros [[H _]|[[_ H]|[[H _]|[[H _]|[H _]]]]]; try done.
      destruct (Z.eqb_spec (get_ts key a) (get_ts key b)); [lia|].
      destruct (Z.ltb_spec (get_ts key b) (get_ts key a)); lia. }
  destruct (String.eqb_spec s "by_notification_level") as [->|]; [|done].
  injection H as <-. split; [by apply (good_rank level), cmp_level_rank|]. intros a b. rewrite cmp_level_rank.
  split.
  - intros H. right; right; right; right. split; [done|]. destruct (Z.eqb_spec (level a) (level b)); [done|].
    destruct (Z.ltb_spec (level b) (level a)); lia.
  - intros [[H _]|[[H _]|[[H _]|[[H _]|[_ H]]]]]; try done.
    destruct (Z.eqb_spec (level a) (level b)); [lia|].
    destruct (Z.ltb_spec (level b) (level a)); lia.
Qed.
Lemma comparator_known key s : known_sort s <-> is_Some (comparator key s).
Proof.
  unfold known_sort, comparator. rewrite !elem_of_cons, elem_of_nil.
  destruct (String.eqb_spec s "by_highlight_count") as [->|]; [split; [eauto|tauto]|].
  destruct (String.eqb_spec s "by_notification_count") as [->|]; [split; [eauto|tauto]|].
  destruct (String.eqb_spec s "by_name") as [->|]; [split; [eauto|tauto]|].
  destruct (String.eqb_spec s "by_recency") as [->|]; [split; [eauto|tauto]|].
  destruct (String.eqb_spec s "by_notification_level") as [->|]; [split; [eauto|tauto]|].
  split; [|by intros [? ?]]. intuition.
Qed.

Lemma mapM_comparator_known key sorts :
  Forall known_sort sorts <-> is_Some (mapM (comparator key) sorts).
Proof.
  rewrite mapM_is_Some. split; intros H; (eapply Forall_impl; [exact H|]); intros s Hs; by apply (comparator_known key s).
Qed.

(** The lexicographic comparison is a strict weak order. *)
Lemma sort_less_spec key sorts cs :
  mapM (comparator key) sorts = Some cs ->
  (forall a b, sort_less cs a b = true <-> goes_first key sorts a b) /\
  (forall a b, sort_less cs a b = true -> sort_less cs b a = false) /\
  (forall a b d, sort_less cs b a = false -> sort_less cs d b = false -> sort_less cs d a = false) /\
  (forall a b d, sort_less cs b a = false -> sort_less cs a b = false ->
                 sort_less cs d b = false -> sort_less cs b d = false -> sort_less cs a d = false /\ sort_less cs d a = false).
Proof.
  intros H. apply mapM_Some in H. induction H as [|s c sorts cs Hc _ IH]; [done|].
  destruct IH as (IH1 & IH2 & IH3 & IH4).
  destruct (comparator_spec key s c Hc) as [(Hv & Hs & Ht & Hz) Hb].
  split_and!.
  - intros a b. cbn. destruct (Hv a b) as [E|[E|E]]; rewrite E; cbn.
    + split; [|done]. intros _. left. by apply Hb.
    + rewrite IH1. split.
      * intros Hg. right. split; [|done]. rewrite <- Hb, Hs, E. done.
      * intros [Hg|[_ Hg]]; [apply Hb in Hg; lia|done].
    + split; [done|]. intros [Hg|[Hg _]]; [apply Hb in Hg; lia|].
      destruct Hg. apply Hb. rewrite Hs, E. done.
  - intros a b. cbn. rewrite (Hs a b). destruct (Hv a b) as [E|[E|E]]; rewrite E; cbn; try done. apply IH2.
  - intros a b d. cbn. rewrite (Hs a b), (Hs b d), (Hs a d).
    specialize (Ht a b d) as Ht1. specialize (Hz a b d) as Hz1.
    specialize (Ht d a b) as Ht2. rewrite (Hs b d), (Hs a d) in Ht2.
    specialize (Ht b d a) as Ht3. rewrite (Hs a b), (Hs a d) in Ht3.
    destruct (Hv a b) as [E1|[E1|E1]]; rewrite E1 in *; cbn; try done;
      destruct (Hv b d) as [E2|[E2|E2]]; rewrite E2 in *; cbn; try done;
      destruct (Hv a d) as [E3|[E3|E3]]; rewrite E3 in *; cbn; try done; try lia.
    apply IH3.
  - intros a b d. cbn. rewrite (Hs a b), (Hs b d), (Hs a d).
    specialize (Hz a b d) as Hz1.
    destruct (Hv a b) as [E1|[E1|E1]]; rewrite E1 in *; cbn; try done;
      destruct (Hv b d) as [E2|[E2|E2]]; rewrite E2 in *; cbn; try done.
    rewrite Hz1 by done. cbn. apply IH4.
Qed.

(** ** The index *)
Lemma write_index_notin k l m x : x ∉ l -> write_index k l m !! x = m !! x.
Proof.
  revert k m; induction l as [|y l IH]; intros k m Hx; cbn; [done|].
  apply not_elem_of_cons in Hx as [Hne Hx]. rewrite IH by done. by rewrite lookup_insert_ne.
Qed.
Lemma write_index_in k l m x i :
  NoDup l -> l !! i = Some x -> write_index k l m !! x = Some (k + i)%nat.
Proof.
  revert k m i; induction l as [|y l IH]; intros k m i Hnd Hi; [done|].
  apply NoDup_cons in Hnd as [Hy Hnd]. cbn. destruct i as [|i]; cbn in Hi.
  - injection Hi as ->. rewrite write_index_notin by done. rewrite lookup_insert. f_equal. lia.
  - rewrite (IH (S k) _ i Hnd Hi). f_equal. lia.
Qed.

Lemma index_ok_NoDup s : index_ok s -> NoDup (s_ids s).
Proof.
  intros H. apply NoDup_alt. intros i j x Hi Hj. apply H in Hi, Hj. congruence.
Qed.
Lemma index_ok_elem s x : index_ok s -> x ∈ s_ids s <-> is_Some (s_idx s !! x).
Proof.
  intros H. split.
  - intros Hx. apply elem_of_list_lookup in Hx as [i Hi]. apply H in Hi. by rewrite Hi.
  - intros [i Hi]. apply H in Hi. by eapply elem_of_list_lookup_2.
Qed.
Lemma index_ok_written s ids m :
  NoDup ids -> (forall x, is_Some (m !! x) -> x ∈ ids) -> s = mk_srooms ids (write_index 0 ids m) -> index_ok s.
Proof.
  intros Hnd Hm -> x i. cbn. split.
  - intros H. destruct (decide (x ∈ ids)) as [Hx|Hx].
    + apply elem_of_list_lookup in Hx as [j Hj]. rewrite (write_index_in 0 ids m x j Hnd Hj) in H.
      injection H as <-. done.
    + rewrite write_index_notin in H by done. destruct Hx. apply Hm. by rewrite H.
  - intros H. by rewrite (write_index_in 0 ids m x i Hnd H).
Qed.

Lemma s_add_spec s x :
  index_ok s ->
  index_ok (s_add s x).1 /\ s_ids (s_add s x).1 = (if decide (x ∈ s_ids s) then s_ids s else s_ids s ++ [x]) /\
  (s_add s x).2 = bool_decide (x ∉ s_ids s).
Proof.
  intros H. unfold s_add. destruct (s_idx s !! x) as [i|] eqn:E; cbn.
  - assert (x ∈ s_ids s) by (apply (index_ok_elem s x H); by rewrite E).
    destruct (decide (x ∈ s_ids s)); [|done]. split_and!; [done|done|]. by rewrite bool_decide_false by (intros Hn; done).
  - assert (Hx : x ∉ s_ids s) by (intros Hx; apply (index_ok_elem s x H) in Hx; rewrite E in Hx; by destruct Hx).
    destruct (decide (x ∈ s_ids s)); [done|]. split_and!; [|done|by rewrite bool_decide_true].
    intros y i. cbn. destruct (decide (y = x)) as [->|Hne].
    + rewrite lookup_insert. split.
      * intros [= <-]. by rewrite lookup_app_r, Nat.sub_diag.
      * intros Hi. apply lookup_app_Some in Hi as [Hi|[Hl Hi]]; [by eapply elem_of_list_lookup_2 in Hi|].
        destruct (i - length (s_ids s))%nat as [|k] eqn:Ek; [|by destruct k]. f_equal. lia.
    + rewrite lookup_insert_ne by done. rewrite (H y i). split.
      * intros Hi. rewrite lookup_app_l; [done|]. by eapply lookup_lt_Some.
      * intros Hi. apply lookup_app_Some in Hi as [Hi|[Hl Hi]]; [done|].
        apply elem_of_list_lookup_2, elem_of_list_singleton in Hi. done.
Qed.

Lemma s_remove_spec s x :
  index_ok s ->
  index_ok (s_remove s x).1 /\ s_ids (s_remove s x).1 = filter (fun y => y <> x) (s_ids s) /\
  ((s_remove s x).2 = -1 <-> x ∉ s_ids s).
Proof.
  intros H. unfold s_remove. destruct (s_idx s !! x) as [i|] eqn:E; cbn [fst snd].
  - apply H in E as Hi. pose proof (index_ok_NoDup s H) as Hnd.
    pose proof (take_drop_middle _ _ _ Hi) as Hsplit.
    set (p := take i (s_ids s)) in *. set (q := drop (S i) (s_ids s)) in *.
    assert (Hlen : length p = i) by (apply take_length_le; apply lookup_lt_Some in Hi; lia).
    assert (Hxpq : x ∉ p ++ q).
    { rewrite <- Hsplit in Hnd. rewrite <- Permutation_middle in Hnd. by apply NoDup_cons in Hnd as [? _]. }
    assert (Hndpq : NoDup (p ++ q)).
    { rewrite <- Hsplit in Hnd. rewrite <- Permutation_middle in Hnd. by apply NoDup_cons in Hnd as [_ ?]. }
    assert (Hdrop : drop i (p ++ q) = q) by (rewrite <- Hlen; by rewrite drop_app).
    split_and!.
    + intros y j. cbn [s_idx s_ids]. rewrite Hdrop. destruct (decide (y ∈ q)) as [Hy|Hy].
      * apply elem_of_list_lookup in Hy as [k Hk].
        assert (Hndq : NoDup q) by (by apply NoDup_app in Hndpq as (_ & _ & ?)).
        rewrite (write_index_in i q _ y k Hndq Hk). split.
        -- intros [= <-]. rewrite lookup_app_r by lia. by rewrite Hlen, Nat.add_sub_swap, Nat.sub_diag.
        -- intros Hj. f_equal. apply (NoDup_lookup (p ++ q) _ _ y Hndpq); [|done].
           rewrite lookup_app_r by lia. by rewrite Hlen, Nat.add_sub_swap, Nat.sub_diag.
      * rewrite write_index_notin by done. destruct (decide (y = x)) as [->|Hne].
        -- rewrite lookup_delete. split; [done|]. intros Hj. apply elem_of_list_lookup_2 in Hj. done.
        -- rewrite lookup_delete_ne by done. rewrite (H y j). rewrite <- Hsplit. split.
           ++ intros Hj. apply lookup_app_Some in Hj as [Hj|[Hl Hj]].
              ** by rewrite lookup_app_l by (by eapply lookup_lt_Some).
              ** apply elem_of_list_lookup_2, elem_of_cons in Hj as [|]; done.
           ++ intros Hj. apply lookup_app_Some in Hj as [Hj|[Hl Hj]].
              ** by rewrite lookup_app_l by (by eapply lookup_lt_Some).
              ** by apply elem_of_list_lookup_2 in Hj.
    + cbn [s_ids]. rewrite <- Hsplit at 1. rewrite filter_app, filter_cons.
      destruct (decide (x <> x)); [done|]. rewrite <- filter_app.
      assert (Hf : forall l : list string, x ∉ l -> filter (fun y => y <> x) l = l).
      { induction l as [|y l IH]; intros Hl; [done|]. apply not_elem_of_cons in Hl as [Hne Hl].
        rewrite filter_cons. destruct (decide (y <> x)) as [|Hn]; [by rewrite IH|]. destruct Hn. done. }
      by rewrite Hf.
    + split; [lia|]. intros Hx. destruct Hx. by eapply elem_of_list_lookup_2.
  - assert (Hx : x ∉ s_ids s) by (intros Hx; apply (index_ok_elem s x H) in Hx; rewrite E in Hx; by destruct Hx).
    split_and!; [done| |done].
    symmetry. clear -Hx. induction (s_ids s) as [|y l IH]; [done|]. apply not_elem_of_cons in Hx as [Hne Hl].
    rewrite filter_cons. destruct (decide (y <> x)) as [|Hn]; [by rewrite IH|]. destruct Hn. done.
Qed.

(** ** Sorting *)
Definition a_room : conn_room :=
  mk_conn_room (new_meta "") false false false 0 0 "" ∅ ∅ ∅.

(** The order used by [s_sort], made total. *)
Definition list_less (find : string -> option conn_room) (cs : list (conn_room -> conn_room -> Z)) (x y : string) : bool :=
  sort_less cs (default a_room (find x)) (default a_room (find y)).

Lemma list_less_weak find key sorts cs :
  mapM (comparator key) sorts = Some cs ->
  (forall x y, list_less find cs x y = true -> list_less find cs y x = false) /\
  (forall x y z, list_less find cs y x = false -> list_less find cs z y = false -> list_less find cs z x = false).
Proof.
  intros H. destruct (sort_less_spec key sorts cs H) as (_ & H2 & H3 & _). unfold list_less. split; eauto.
Qed.

Definition all_known (find : string -> option conn_room) (l : list string) : Prop :=
  forall x, x ∈ l -> is_Some (find x).

Lemma s_sort_eq find key sorts cs s :
  mapM (comparator key) sorts = Some cs -> all_known find (s_ids s) ->
  s_sort find key sorts s =
    Some (mk_srooms (isort (list_less find cs) (s_ids s))
            (write_index 0 (isort (list_less find cs) (s_ids s)) (s_idx s)), true).
Proof.
  intros Hm Hk. unfold s_sort. rewrite Hm.
  assert (forallb (fun r => match find r with Some _ => true | None => false end) (s_ids s) = true) as ->.
  { apply forallb_forall. intros x Hx. apply elem_of_list_In in Hx. destruct (Hk x Hx) as [a ->]. done. }
  cbn [orb]. cbn zeta.
  rewrite (isort_ext _ (list_less find cs)); [done|].
  intros x y Hx Hy. unfold list_less. destruct (Hk x Hx) as [a ->]. destruct (Hk y Hy) as [b ->]. done.
Qed.

Lemma StronglySorted_lookup_lt {A} (R : A -> A -> Prop) l (i j : nat) x y :
  StronglySorted R l -> (i < j)%nat -> l !! i = Some x -> l !! j = Some y -> R x y.
Proof.
  intros Hs; revert i j; induction Hs as [|z l Hs IH Hz]; intros [|i] [|j] Hij Hi Hj; try done; try lia.
  - cbn in Hi, Hj. injection Hi as ->. apply elem_of_list_lookup_2 in Hj.
    by apply (proj1 (Forall_forall _ _) Hz y Hj).
  - cbn in Hi, Hj. apply (IH i j); [lia|done|done].
Qed.
Lemma lookup_StronglySorted {A} (R : A -> A -> Prop) l :
  (forall (i j : nat) x y, (i < j)%nat -> l !! i = Some x -> l !! j = Some y -> R x y) -> StronglySorted R l.
Proof.
  induction l as [|z l IH]; intros H; constructor.
  - apply IH. intros i j x y Hij Hi Hj. apply (H (S i) (S j)); [lia|done|done].
  - apply Forall_forall. intros y Hy. apply elem_of_list_lookup in Hy as [j Hj]. apply (H 0%nat (S j)); [lia|done|done].
Qed.

Lemma in_order_sorted find key sorts cs l :
  mapM (comparator key) sorts = Some cs -> all_known find l ->
  in_order find key sorts l <-> StronglySorted (fun x y => list_less find cs y x = false) l.
Proof.
  intros Hm Hk. destruct (sort_less_spec key sorts cs Hm) as (H1 & _). split.
  - intros Ho. apply lookup_StronglySorted. intros i j x y Hij Hi Hj.
    destruct (Hk x) as [a Ha]; [by eapply elem_of_list_lookup_2|].
    destruct (Hk y) as [b Hb]; [by eapply elem_of_list_lookup_2|].
    unfold list_less. rewrite Ha, Hb. cbn. destruct (sort_less cs b a) eqn:E; [|done].
    apply H1 in E. destruct (Ho i j x y a b); done.
  - intros Hs i j x y a b Hij Hi Hj Ha Hb Hg. apply H1 in Hg.
    pose proof (StronglySorted_lookup_lt _ _ _ _ _ _ Hs Hij Hi Hj) as Hl. unfold list_less in Hl.
    rewrite Ha, Hb in Hl. cbn in Hl. congruence.
Qed.

(** Rooms that no sort order tells apart. *)
Definition same_place (key : string) (sorts : list string) (a b : conn_room) : Prop :=
  ~ goes_first key sorts a b /\ ~ goes_first key sorts b a.

Lemma lookup_mid2 {A} (l1 l2 l3 : list A) x y :
  (l1 ++ x :: l2 ++ y :: l3) !! (length l1 + S (length l2))%nat = Some y.
Proof.
  rewrite lookup_app_r by lia. replace (length l1 + S (length l2) - length l1)%nat with (S (length l2)) by lia.
  change ((l2 ++ y :: l3) !! length l2 = Some y). rewrite lookup_app_r by lia. by rewrite Nat.sub_diag.
Qed.

Lemma s_sort_full find key sorts s :
  Forall known_sort sorts -> all_known find (s_ids s) -> NoDup (s_ids s) ->
  (forall x, is_Some (s_idx s !! x) -> x ∈ s_ids s) ->
  exists s', s_sort find key sorts s = Some (s', true) /\
    s_ids s' ≡ₚ s_ids s /\ in_order find key sorts (s_ids s') /\ index_ok s' /\
    (forall x y a b, find x = Some a -> find y = Some b -> same_place key sorts a b ->
       (exists i j : nat, (i < j)%nat /\ s_ids s !! i = Some x /\ s_ids s !! j = Some y) ->
       (exists i j : nat, (i < j)%nat /\ s_ids s' !! i = Some x /\ s_ids s' !! j = Some y)).
Proof.
  intros Hs Hk Hnd Hi. apply (mapM_comparator_known key) in Hs as [cs Hcs].
  rewrite (s_sort_eq find key sorts cs s Hcs Hk). eexists. split; [done|]. cbn [s_ids].
  destruct (list_less_weak find key sorts cs Hcs) as [Hasym Htr].
  destruct (sort_less_spec key sorts cs Hcs) as (Hsl & _).
  set (ids := isort (list_less find cs) (s_ids s)).
  assert (Hp : ids ≡ₚ s_ids s) by apply isort_perm.
  assert (Hsrt : StronglySorted (fun x y => list_less find cs y x = false) ids) by (by apply isort_sorted).
  split_and!.
  - done.
  - apply (in_order_sorted find key sorts cs); [done| |done]. intros x Hx. apply Hk. by rewrite <- Hp.
  - eapply (index_ok_written _ ids (s_idx s)); [by rewrite Hp| |done]. intros x Hx. rewrite Hp. by apply Hi.
  - intros x y a b Ha Hb Htie (i & j & Hij & Hix & Hjy).
    assert (Hxy : tied (list_less find cs) x y).
    { unfold tied, list_less. rewrite Ha, Hb. cbn. destruct Htie as [T1 T2].
      split; apply not_true_iff_false; intros E; apply Hsl in E; done. }
    assert (Hne : x <> y) by (intros ->; assert (i = j) by (by eapply NoDup_lookup); lia).
    pose proof (isort_stable _ Hasym Htr x (s_ids s)) as Hst. fold ids in Hst.
    assert (Hxx : tied (list_less find cs) x x).
    { unfold tied. assert (list_less find cs x x = false); [|done].
      destruct (list_less find cs x x) eqn:E; [by rewrite (Hasym _ _ E) in E|done]. }
    (* in the old list, x then y, so also in the filtered lists *)
    assert (Hex : forall l : list string, (exists i j : nat, (i < j)%nat /\ l !! i = Some x /\ l !! j = Some y) <->
              exists l1 l2 l3, l = l1 ++ x :: l2 ++ y :: l3).
    { clear. intros l. split.
      - intros (i & j & Hij & Hi & Hj). apply elem_of_list_split_length in Hi as (l1 & l2 & -> & ->).
        rewrite lookup_app_r in Hj by lia. destruct (j - length l1)%nat as [|k] eqn:Ek; [lia|]. cbn in Hj.
        apply elem_of_list_split_length in Hj as (l3 & l4 & -> & _). by exists l1, l3, l4.
      - intros (l1 & l2 & l3 & ->). exists (length l1), (length l1 + S (length l2))%nat. split; [lia|]. split.
        + rewrite lookup_app_r by lia. by rewrite Nat.sub_diag.
        + apply lookup_mid2. }
    apply Hex. assert (Hold : exists l1 l2 l3, s_ids s = l1 ++ x :: l2 ++ y :: l3) by (apply Hex; eauto).
    destruct Hold as (l1 & l2 & l3 & Hold). rewrite Hold in Hst.
    rewrite !filter_app, !filter_cons, filter_app, filter_cons in Hst.
    destruct (decide (tied (list_less find cs) x x)); [|done].
    destruct (decide (tied (list_less find cs) x y)); [|done].
    assert (Hndi : NoDup ids) by (by rewrite Hp).
    assert (Hxi : x ∈ ids) by (rewrite Hp, Hold; apply elem_of_app; right; by left).
    assert (Hyi : y ∈ ids) by (rewrite Hp, Hold; apply elem_of_app; right; right; apply elem_of_app; right; by left).
    apply elem_of_list_split in Hxi as (m1 & m2 & Hm). rewrite Hm in Hyi.
    apply elem_of_app in Hyi as [Hyi|Hyi].
    + (* y before x: contradiction with the filtered lists *)
      exfalso. apply elem_of_list_split in Hyi as (n1 & n2 & ->). rewrite Hm in Hst.
      rewrite <- !app_assoc in Hst. cbn [app] in Hst.
      rewrite !filter_app, !filter_cons, filter_app, filter_cons in Hst.
      destruct (decide (tied (list_less find cs) x x)); [|done].
      destruct (decide (tied (list_less find cs) x y)); [|done].
      set (F := filter (tied (list_less find cs) x)) in *.
      assert (HndF : NoDup (F l1 ++ x :: F l2 ++ y :: F l3)).
      { rewrite <- Hst. rewrite Hm in Hndi. rewrite <- app_assoc in Hndi. cbn [app] in Hndi.
        assert (Heq : F n1 ++ y :: F n2 ++ x :: F m2 = F (n1 ++ y :: n2 ++ x :: m2)).
        { unfold F. rewrite filter_app, filter_cons, filter_app, filter_cons.
          destruct (decide (tied (list_less find cs) x x)); [|done].
          destruct (decide (tied (list_less find cs) x y)); done. }
        rewrite Heq. by apply NoDup_filter. }
      assert (Hpos : (F l1 ++ x :: F l2 ++ y :: F l3) !! length (F l1) = Some x)
        by (rewrite lookup_app_r by lia; by rewrite Nat.sub_diag).
      assert (Hpos2 : (F l1 ++ x :: F l2 ++ y :: F l3) !! (length (F l1) + S (length (F l2)))%nat = Some y).
      { apply lookup_mid2. }
      assert (Hpos3 : (F l1 ++ x :: F l2 ++ y :: F l3) !! length (F n1) = Some y)
        by (rewrite <- Hst; rewrite lookup_app_r by lia; by rewrite Nat.sub_diag).
      assert (Hpos4 : (F l1 ++ x :: F l2 ++ y :: F l3) !! (length (F n1) + S (length (F n2)))%nat = Some x).
      { rewrite <- Hst. apply lookup_mid2. }
      pose proof (NoDup_lookup _ _ _ _ HndF Hpos Hpos4). pose proof (NoDup_lookup _ _ _ _ HndF Hpos2 Hpos3). lia.
    + apply elem_of_cons in Hyi as [->|Hyi]; [done|]. apply elem_of_list_split in Hyi as (n1 & n2 & ->).
      by exists m1, n1, n2.
Qed.

(** ** The link to live list operations: re-sorting after a change to one room. *)
Lemma filter_one_out room (l l' p q : list string) :
  filter (fun y => y <> room) l' = p ++ q -> NoDup l' -> room ∈ l' ->
  exists p' q', l' = p' ++ room :: q' /\ p' ++ q' = p ++ q.
Proof.
  intros Hf Hnd Hin. apply elem_of_list_split in Hin as (p' & q' & ->).
  exists p', q'. split; [done|]. rewrite <- Hf. rewrite filter_app, filter_cons.
  destruct (decide (room <> room)); [done|].
  rewrite <- Permutation_middle in Hnd. apply NoDup_cons in Hnd as [Hni _].
  rewrite <- filter_app. clear -Hni. induction (p' ++ q') as [|y l IH]; [done|].
  apply not_elem_of_cons in Hni as [Hne Hl]. rewrite filter_cons.
  destruct (decide (y <> room)) as [|Hn]; [by rewrite <- IH|]. destruct Hn. done.
Qed.

Lemma resort_moves_one find find' key sorts cs l room :
  mapM (comparator key) sorts = Some cs ->
  in_order find key sorts l -> all_known find l -> NoDup l ->
  (forall x, x <> room -> find' x = find x) ->
  forall l', l' ≡ₚ room :: filter (fun y => y <> room) l ->
  filter (fun y => y <> room) l' = filter (fun y => y <> room) l ->
  one_room_change room OpChange l' (isort (list_less find' cs) l').
Proof.
  intros Hcs Ho Hk Hnd Hf l' Hp Hfl.
  destruct (list_less_weak find' key sorts cs Hcs) as [Hasym Htr].
  assert (Hnd' : NoDup l').
  { rewrite Hp. constructor; [|by apply NoDup_filter]. intros Hx. by apply elem_of_list_filter in Hx as [? _]. }
  set (res := isort (list_less find' cs) l').
  assert (Hpr : res ≡ₚ l') by apply isort_perm.
  assert (Hsorted : StronglySorted (fun x y => list_less find' cs y x = false) (filter (fun y => y <> room) l)).
  { pose proof (proj1 (in_order_sorted find key sorts cs l Hcs Hk) Ho) as Hs.
    assert (Hs' : StronglySorted (fun x y => list_less find cs y x = false) (filter (fun y => y <> room) l)).
    { clear -Hs. induction Hs as [|x l Hs IH Hx]; [constructor|]. rewrite filter_cons.
      destruct (decide (x <> room)); [|done]. constructor; [done|]. apply Forall_forall. intros y Hy.
      apply elem_of_list_filter in Hy as [_ Hy]. by apply (proj1 (Forall_forall _ _) Hx y Hy). }
    assert (Hall : Forall (fun y => y <> room) (filter (fun y => y <> room) l)).
    { apply Forall_forall. intros y Hy. by apply elem_of_list_filter in Hy as [? _]. }
    clear -Hs' Hf Hall. induction Hs' as [|x l0 Hs IH Hx]; [constructor|].
    inversion Hall as [|? ? Hxr Hallr]; subst. constructor; [by apply IH|].
    apply Forall_forall. intros y Hy. unfold list_less. rewrite (Hf x Hxr).
    rewrite (Hf y) by (by apply (proj1 (Forall_forall _ _) Hallr)).
    by apply (proj1 (Forall_forall _ _) Hx y Hy). }
  assert (Hfres : filter (fun y => y <> room) res = filter (fun y => y <> room) l').
  { unfold res. rewrite isort_filter by done. apply isort_id. by rewrite Hfl. }
  assert (Hin : room ∈ l') by (rewrite Hp; by left).
  apply elem_of_list_split in Hin as Hsp. destruct Hsp as (p & q & Hsp).
  assert (Hni : room ∉ p ++ q).
  { rewrite Hsp in Hnd'. rewrite <- Permutation_middle in Hnd'. by apply NoDup_cons in Hnd' as [? _]. }
  assert (Hflt : filter (fun y => y <> room) l' = p ++ q).
  { rewrite Hsp. rewrite filter_app, filter_cons. destruct (decide (room <> room)); [done|].
    rewrite <- filter_app. clear -Hni. induction (p ++ q) as [|y l IH]; [done|].
    apply not_elem_of_cons in Hni as [Hne Hl]. rewrite filter_cons.
    destruct (decide (y <> room)) as [|Hn]; [by rewrite IH|]. destruct Hn. done. }
  destruct (filter_one_out room l' res p q) as (p' & q' & Hr & Hpq).
  { by rewrite Hfres. }
  { by rewrite Hpr. }
  { by rewrite Hpr. }
  rewrite Hr. rewrite Hsp. constructor; [done|by rewrite Hpq].
Qed.
