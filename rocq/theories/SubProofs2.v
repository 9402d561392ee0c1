(** Proofs about subscriptions combined with Go's slices. *)
From Verif Require Import Prelude RequestModel SubModel SubSpec SubProofs.
Open Scope string_scope.
Open Scope list_scope.
Open Scope Z_scope.

(** ** Combining, as Go does it *)
Section heap.
Context (grow : nat -> nat).

Definition vs (h : heap) (s : option slice) : option (list tuple) :=
  match s with Some _ => Some (read h s) | None => None end.
(** A slice in the heap which has no spare room or belongs to arrays from [n] on. *)
Definition own (n : nat) (h : heap) (s : option slice) : Prop :=
  match s with
  | Some s => exists arr, h !! sl_arr s = Some arr /\ (sl_len s <= length arr)%nat /\
                (length arr = sl_len s \/ (n <= sl_arr s)%nat)
  | None => True
  end.
Definition below (n : nat) (s : option slice) : Prop :=
  match s with Some s => (sl_arr s < n)%nat | None => True end.
Definition apart (h : heap) (a b : option slice) : Prop :=
  match a, b with
  | Some x, Some y => sl_arr x <> sl_arr y \/ (no_spare h a /\ no_spare h b)
  | _, _ => True
  end.
Lemma no_spare_own n h s : no_spare h s -> own n h s.
Proof. destruct s as [s|]; [|done]. intros (arr & H & Hl). exists arr. split_and!; [done|lia|by left]. Qed.
Lemma vs_stable h h' s n :
  (forall i, (i < n)%nat -> h' !! i = h !! i) -> below n s -> vs h' s = vs h s.
Proof. destruct s as [s|]; [|done]. intros H Hb. cbn. by rewrite H. Qed.
Lemma no_spare_stable h h' s n :
  (forall i, (i < n)%nat -> h' !! i = h !! i) -> below n s -> no_spare h s -> no_spare h' s.
Proof. destruct s as [s|]; [|done]. intros H Hb (arr & He & Hl). exists arr. by rewrite H. Qed.

Lemma alloc_spec n h xs h' c :
  alloc grow h xs = (h', c) -> (n <= length h)%nat ->
  own n h' c /\ vs h' c = Some xs /\ (length h <= length h')%nat /\
  (forall i, (i < length h)%nat -> h' !! i = h !! i) /\ c = Some (mk_slice (length h) (length xs)).
Proof.
  unfold alloc. intros [= <- <-] Hn.
  assert (Hl : (h ++ [xs ++ replicate (grow (length xs)) ("", "")]) !! length h = Some (xs ++ replicate (grow (length xs)) ("", ""))).
  { by rewrite lookup_app_r, Nat.sub_diag by lia. }
  split_and!.
  - cbn. eexists. split; [exact Hl|]. rewrite app_length. split; [lia|by right].
  - cbn. rewrite Hl. change (default [] (Some ?l)) with l. by rewrite take_app.
  - rewrite app_length. cbn. lia.
  - intros i Hi. by apply lookup_app_l.
  - done.
Qed.
Lemma go_append_spec n h a b h' c :
  go_append grow h a b = (h', c) -> own n h a -> no_spare h b -> below n b -> (n <= length h)%nat ->
  own n h' c /\ vs h' c = app_state (vs h a) (vs h b) /\ (length h <= length h')%nat /\
  (forall i, (i < n)%nat -> h' !! i = h !! i) /\
  (forall s, own n h s -> apart h a s -> own n h' s /\ vs h' s = vs h s /\ apart h' c s).
Proof.
  unfold go_append. intros Hg Ha Hb Hbn Hn.
  destruct (read h b) as [|x xs] eqn:Er.
  { injection Hg as <- <-. split_and!; try done.
    destruct b; cbn [vs app_state]; [by rewrite Er|done]. }
  assert (Hvb : vs h b = Some (x :: xs)) by (destruct b; [cbn [vs]; by rewrite Er|done]).
  destruct a as [a|].
  - destruct Ha as (arr & Harr & Hlen & Ho). rewrite Harr in Hg. change (default [] (Some ?l)) with l in Hg.
    destruct (_ <=? _)%nat eqn:Ele.
    + apply Nat.leb_le in Ele. injection Hg as <- <-.
      assert (Hin : (n <= sl_arr a)%nat).
      { destruct Ho as [Ho|Ho]; [|done]. cbn in Ele. lia. }
      assert (Hla : (sl_arr a < length h)%nat) by (apply lookup_lt_Some in Harr; done).
      split_and!.
      * cbn [own sl_arr sl_len]. eexists. split; [by rewrite list_lookup_insert|].
        rewrite app_length, take_length. cbn [length]. rewrite app_length. split; [lia|by right].
      * cbn [vs read sl_arr sl_len]. rewrite list_lookup_insert by done. change (default [] (Some ?l)) with l.
        rewrite Hvb. cbn [app_state]. unfold read. rewrite Harr. cbn [default from_option id].
        change (x :: xs ++ ?d) with ((x :: xs) ++ d). rewrite (app_assoc (take _ arr)). f_equal. apply take_app_alt. rewrite app_length, take_length. cbn [length]. lia.
      * by rewrite insert_length.
      * intros i Hi. rewrite list_lookup_insert_ne by lia. done.
      * intros [s|] Hs Hap; [|done]. cbn in Hap. destruct Hap as [Hne|[Hns _]].
        -- destruct Hs as (sa & Hsa & ?). split_and!.
           ++ exists sa. by rewrite list_lookup_insert_ne.
           ++ cbn. by rewrite list_lookup_insert_ne.
           ++ by left.
        -- destruct Hns as (arr' & Harr' & Hl'). rewrite Harr in Harr'. injection Harr' as <-. cbn in Ele. lia.
    + destruct (alloc_spec n _ _ _ _ Hg Hn) as (H1 & H2 & H3 & H4 & ->). split_and!; try done.
      * rewrite H2, Hvb. cbn [app_state]. done.
      * intros i Hi. apply H4. lia.
      * intros [s|] Hs Hap; [|done]. destruct Hs as (sa & Hsa & ?).
        assert ((sl_arr s < length h)%nat) by (by eapply lookup_lt_Some). split_and!.
        -- exists sa. by rewrite H4.
        -- cbn. by rewrite H4.
        -- cbn. left. lia.
  - destruct (alloc_spec n _ _ _ _ Hg Hn) as (H1 & H2 & H3 & H4 & ->). split_and!; try done.
    + rewrite H2, Hvb. done.
    + intros i Hi. apply H4. lia.
    + intros [s|] Hs Hap; [|done]. destruct Hs as (sa & Hsa & ?).
      assert ((sl_arr s < length h)%nat) by (by eapply lookup_lt_Some). split_and!.
      * exists sa. by rewrite H4.
      * cbn. by rewrite H4.
      * cbn. left. lia.
Qed.

Definition old_slice (s : hsub) : option slice := match h_old s with Some o => o_state o | None => None end.
Definition below_sub (n : nat) (s : hsub) : Prop := below n (h_state s) /\ below n (old_slice s).
(** What holds of a subscription while it is being combined. *)
Definition held (n : nat) (h : heap) (s : hsub) : Prop :=
  own n h (h_state s) /\ own n h (old_slice s) /\ apart h (h_state s) (old_slice s).
Lemma read_sub_vs h s :
  read_sub h s = mk_sub (vs h (h_state s)) (h_limit s)
    ((fun o => mk_sub (vs h (o_state o)) (o_limit o) None (o_heroes o)) <$> h_old s) (h_heroes s).
Proof. done. Qed.
Lemma read_sub_stable h h' s n :
  (forall i, (i < n)%nat -> h' !! i = h !! i) -> below_sub n s -> read_sub h' s = read_sub h s.
Proof.
  intros H [H1 H2]. rewrite !read_sub_vs. rewrite (vs_stable h h' _ n) by done. f_equal.
  unfold old_slice in H2. destruct (h_old s); [|done]. cbn. by rewrite (vs_stable h h' _ n).
Qed.
Lemma no_spare_sub_stable h h' s n :
  (forall i, (i < n)%nat -> h' !! i = h !! i) -> below_sub n s -> no_spare_sub h s -> no_spare_sub h' s.
Proof.
  intros H [H1 H2] [H3 H4]. unfold no_spare_sub, old_slice in *. split; [by eapply no_spare_stable|].
  destruct (h_old s); [|done]. by eapply no_spare_stable.
Qed.
Lemma no_spare_below h s : no_spare_sub h s -> below_sub (length h) s.
Proof.
  assert (Hx : forall s, no_spare h s -> below (length h) s).
  { intros [x|]; [|done]. intros (arr & Hl & _). by eapply lookup_lt_Some. }
  intros [H1 H2]. unfold below_sub, old_slice. destruct (h_old s); split; auto.
Qed.
Lemma own_below h n s : own n h s -> below (length h) s.
Proof. destruct s as [s|]; [|done]. intros (arr & Hl & _). by eapply lookup_lt_Some. Qed.
Lemma held_below n h s : held n h s -> below_sub (length h) s.
Proof. intros (H1 & H2 & _). split; by eapply own_below. Qed.
Lemma no_spare_held n h s : no_spare_sub h s -> held n h s.
Proof.
  intros [H1 H2]. unfold held, old_slice. split_and!.
  - by apply no_spare_own.
  - destruct (h_old s); [by apply no_spare_own|done].
  - destruct (h_state s); [|done]. destruct (h_old s) as [o|]; [|done]. destruct (o_state o) eqn:E; [|done].
    cbn [apart]. right. done.
Qed.
Lemma zmax_spec a b : zmax a b = if b <? a then a else b.
Proof. done. Qed.
Lemma own_apart_below n h a b : own n h a -> no_spare h b -> below n b -> apart h a b.
Proof.
  destruct a as [a|]; [|done]. destruct b as [b|]; [|done]. intros (arr & H & Hl & Ho) Hb Hn. cbn in Hn.
  cbn [apart]. destruct Ho as [Ho|Ho]; [|left; lia]. right. split; [|done]. exists arr. done.
Qed.

Lemma combine_h_spec n h a b h' c :
  combine_h grow h a b = (h', c) -> held n h a -> no_spare_sub h b -> below_sub n b -> (n <= length h)%nat ->
  held n h' c /\ read_sub h' c = combine (read_sub h a) (read_sub h b) /\ (length h <= length h')%nat /\
  (forall i, (i < n)%nat -> h' !! i = h !! i).
Proof.
  unfold combine_h. intros Hc (Ha1 & Ha2 & Ha3) [Hb1 Hb2] [Hn1 Hn2] Hn.
  destruct (go_append grow h (h_state a) (h_state b)) as [h1 st] eqn:E1.
  destruct (go_append_spec n _ _ _ _ _ E1 Ha1 Hb1 Hn1 Hn) as (O1 & V1 & L1 & P1 & S1).
  rewrite !read_sub_vs. unfold combine. cbn [sub_state sub_old sub_limit].
  destruct a as [ast al ao ah], b as [bst bl bo bh]. unfold old_slice in *; cbn [h_state h_limit h_old h_heroes] in *.
  destruct ao as [x|], bo as [y|].
  - cbn [h_old] in *. destruct (go_append grow h1 (o_state x) (o_state y)) as [h2 st2] eqn:E2. injection Hc as <- <-.
    destruct (S1 (o_state x) Ha2 Ha3) as (Ox & Vx & Ax).
    assert (Hby : no_spare h1 (o_state y)) by (by eapply no_spare_stable).
    assert (Hap : apart h1 (o_state x) st).
    { destruct st, (o_state x); try done. cbn [apart] in *. destruct Ax as [?|[? ?]]; [left; done|right; done]. }
    destruct (go_append_spec n _ _ _ _ _ E2 Ox Hby Hn2 ltac:(lia)) as (O2 & V2 & L2 & P2 & S2).
    destruct (S2 st O1 Hap) as (O3 & V3 & A3).
    split_and!.
    + split_and!; cbn; [done|done|]. destruct st, st2; try done. cbn [apart] in *.
      destruct A3 as [?|[? ?]]; [left; done|right; done].
    + cbn [fmap option_fmap option_map o_state o_limit o_heroes h_state h_limit h_old h_heroes sub_limit sub_state]. rewrite V3, V1, V2, Vx.
      rewrite (vs_stable h h1 (o_state y) n) by done. done.
    + lia.
    + intros i Hi. by rewrite P2, P1.
  - injection Hc as <- <-. split_and!; try done.
    + cbn. by destruct st.
    + cbn [fmap option_fmap option_map h_state h_limit h_old h_heroes]. by rewrite V1.
  - injection Hc as <- <-. assert (Hby : no_spare h1 (o_state y)) by (by eapply no_spare_stable).
    split_and!; try done.
    + split_and!; cbn [h_state old_slice h_old]; [done|by apply no_spare_own|by eapply own_apart_below].
    + cbn [fmap option_fmap option_map h_state h_limit h_old h_heroes]. rewrite V1.
      by rewrite (vs_stable h h1 (o_state y) n).
  - injection Hc as <- <-. split_and!; try done.
    + cbn. by destruct st.
    + cbn [fmap option_fmap option_map h_state h_limit h_old h_heroes]. by rewrite V1.
Qed.
Lemma combine_list_spec n rest : forall h s h' c,
  combine_list grow h s rest = (h', c) -> held n h s ->
  Forall (fun x => no_spare_sub h x /\ below_sub n x) rest -> (n <= length h)%nat ->
  held n h' c /\ read_sub h' c = combine_all (read_sub h s) (map (read_sub h) rest) /\ (length h <= length h')%nat /\
  (forall i, (i < n)%nat -> h' !! i = h !! i).
Proof.
  induction rest as [|x rest IH]; intros h s h' c Hc Hh Hr Hn; cbn [combine_list] in Hc.
  - injection Hc as <- <-. split_and!; done.
  - destruct (combine_h grow h s x) as [h1 s1] eqn:E1. apply Forall_cons in Hr as [[Hx1 Hx2] Hr].
    destruct (combine_h_spec n _ _ _ _ _ E1 Hh Hx1 Hx2 Hn) as (H1 & H2 & H3 & H4).
    destruct (IH h1 s1 h' c Hc H1) as (K1 & K2 & K3 & K4).
    { eapply Forall_impl; [exact Hr|]. intros y [? ?]. split; [by eapply no_spare_sub_stable|done]. }
    { lia. }
    split_and!; try done.
    + rewrite K2, H2. unfold combine_all. cbn [map foldl]. f_equal.
      apply map_ext_in. intros y Hy. apply elem_of_list_In in Hy.
      rewrite Forall_forall in Hr. destruct (Hr y Hy). by eapply read_sub_stable.
    + lia.
    + intros i Hi. by rewrite K4, H4.
Qed.

(** ** The loop over rooms *)
Lemma ids_of_elem b x id : id ∈ ids_of b x <-> asked b x id.
Proof.
  unfold ids_of, asked. rewrite merge_sort_Permutation, elem_of_list_omap. split.
  - intros ([i rooms] & Hin & He). apply elem_of_map_to_list in Hin. case_bool_decide; [|done].
    injection He as ->. eauto.
  - intros (rooms & Hin & Hx). exists (id, rooms). split; [by apply elem_of_map_to_list|].
    by rewrite bool_decide_eq_true_2.
Qed.
Lemma ids_of_nodup b x : NoDup (ids_of b x).
Proof.
  unfold ids_of. rewrite merge_sort_Permutation.
  pose proof (NoDup_fst_map_to_list (b_rooms b)) as Hn. revert Hn.
  generalize (map_to_list (b_rooms b)) as l. induction l as [|[i rooms] l IH]; [constructor|].
  cbn [fmap list_fmap map fst]. intros Hn. apply NoDup_cons in Hn as [H1 H2]. cbn [omap list_omap].
  case_bool_decide; [|by apply IH]. constructor; [|by apply IH].
  intros Hin. apply H1. apply elem_of_list_omap in Hin as ([j r] & Hj & He). case_bool_decide; [|done].
  injection He as ->. apply elem_of_list_fmap. by exists (i, r).
Qed.
Lemma all_rooms_elem b x : x ∈ all_rooms b <-> exists id, asked b x id.
Proof.
  unfold all_rooms. rewrite elem_of_elements, elem_of_list_to_set, in_concat_el. unfold asked. split.
  - intros (l & Hx & Hl). apply elem_of_list_fmap in Hl as ([id rooms] & -> & Hin). cbn in Hx.
    apply elem_of_map_to_list in Hin. eauto.
  - intros (id & rooms & Hr & Hx). exists rooms. split; [done|]. apply elem_of_list_fmap. exists (id, rooms).
    split; [done|]. by apply elem_of_map_to_list.
Qed.
Lemma all_rooms_nodup b : NoDup (all_rooms b).
Proof. unfold all_rooms. apply NoDup_elements. Qed.

(** Which rooms have been put where. *)
Definition grouped (b : builder) (st : bstate) (done_ : list string) : Prop :=
  (forall ids x, x ∈ default [] (bs_rooms st !! ids) <-> x ∈ done_ /\ ids_of b x = ids) /\
  (forall ids, NoDup (default [] (bs_rooms st !! ids))) /\
  (forall ids rooms, bs_rooms st !! ids = Some rooms -> rooms <> []) /\
  (forall ids, (exists x, x ∈ done_ /\ ids_of b x = ids) -> length ids <> 1%nat -> is_Some (bs_combined st !! ids)).
Lemma build_room_grouped b st x st' done_ :
  grouped b st done_ -> x ∉ done_ -> build_room grow b st x = Some st' -> grouped b st' (done_ ++ [x]).
Proof.
  intros (H1 & H2 & H3 & H4) Hx Hb. unfold build_room in Hb. set (ids := ids_of b x) in *.
  destruct (mapM _ ids) as [[|s rest]|] eqn:Em; [done| |done].
  set (hc := match rest with [] => _ | _ :: _ => _ end) in Hb.
  assert (Hc : (forall i, is_Some (bs_combined st !! i) -> is_Some (snd hc !! i)) /\ (length ids <> 1%nat -> is_Some (snd hc !! ids))).
  { apply mapM_Some in Em. apply Forall2_length in Em. subst hc. destruct rest as [|r rest].
    - split; [done|]. cbn in Em. intros; lia.
    - destruct (bs_combined st !! ids) as [c|] eqn:Ec; [split; [done|intros _; cbn; rewrite Ec; by eexists]|].
      destruct (combine_list _ _ _ _) as [h' s']. cbn. split.
      + intros i Hi. destruct (decide (i = ids)) as [-> |Hne]; [rewrite lookup_insert; by eexists|].
        by rewrite lookup_insert_ne.
      + intros _. rewrite lookup_insert. by eexists. }
  destruct hc as [h c]. cbn in Hc. injection Hb as <-. unfold grouped; cbn [bs_rooms bs_combined].
  assert (Hlk : forall i, default [] (<[ids := default [] (bs_rooms st !! ids) ++ [x]]> (bs_rooms st) !! i) =
     if decide (i = ids) then default [] (bs_rooms st !! ids) ++ [x] else default [] (bs_rooms st !! i)).
  { intros i. destruct (decide (i = ids)) as [-> |Hne]; [by rewrite lookup_insert|by rewrite lookup_insert_ne]. }
  split_and!.
  - intros i y. rewrite Hlk. rewrite elem_of_app, elem_of_list_singleton. destruct (decide (i = ids)) as [-> |Hne].
    + rewrite elem_of_app, elem_of_list_singleton, H1. split.
      * intros [[? ?]| ->]; [tauto|]. split; [by right|done].
      * intros [[?| ->] ?]; [left; done|by right].
    + rewrite H1. split; [tauto|]. intros [[?| ->] Hi]; [done|]. by destruct Hne.
  - intros i. rewrite Hlk. destruct (decide (i = ids)) as [-> |Hne]; [|done].
    apply NoDup_app. split_and!; [done| |apply NoDup_singleton].
    intros y Hy Hy'. apply elem_of_list_singleton in Hy' as ->. apply H1 in Hy as [? _]. done.
  - intros i rooms. destruct (decide (i = ids)) as [-> |Hne].
    + rewrite lookup_insert. intros [= <-] Hn. by apply app_eq_nil in Hn as [_ ?].
    + rewrite lookup_insert_ne by done. apply H3.
  - intros i (y & Hy & Hi) Hl. apply elem_of_app in Hy as [Hy|Hy].
    + apply Hc. apply H4; eauto.
    + apply elem_of_list_singleton in Hy as ->. subst i. by apply Hc.
Qed.
Lemma build_loop_grouped b rooms : forall st done_ st',
  grouped b st done_ -> NoDup (done_ ++ rooms) -> build_loop grow b st rooms = Some st' -> grouped b st' (done_ ++ rooms).
Proof.
  induction rooms as [|x rooms IH]; intros st done_ st' Hg Hn Hb; cbn [build_loop] in Hb.
  - injection Hb as <-. by rewrite app_nil_r.
  - destruct (build_room grow b st x) as [st1|] eqn:E; [|done].
    replace (done_ ++ x :: rooms) with ((done_ ++ [x]) ++ rooms) in * by (by rewrite <- app_assoc).
    eapply IH; [|exact Hn|exact Hb]. eapply build_room_grouped; [done| |done].
    intros Hin. apply NoDup_app in Hn as [Hn _]. apply NoDup_app in Hn as (_ & Hn & _).
    apply (Hn x); [done|]. by apply elem_of_list_singleton.
Qed.
Lemma build_room_some b st x :
  (forall id, asked b x id -> (id < length (b_subs b))%nat) -> (exists id, asked b x id) ->
  is_Some (build_room grow b st x).
Proof.
  intros Hk [id Hid]. unfold build_room.
  destruct (mapM (fun i => b_subs b !! i) (ids_of b x)) as [l|] eqn:Em.
  - destruct l as [|s rest].
    + apply mapM_Some in Em. apply Forall2_nil_inv_r in Em. apply ids_of_elem in Hid. rewrite Em in Hid. set_solver.
    + destruct (match rest with [] => _ | _ => _ end). by eexists.
  - exfalso. apply mapM_None in Em. apply Exists_exists in Em as (i & Hi & He).
    apply ids_of_elem, Hk in Hi. apply lookup_ge_None in He. lia.
Qed.
Lemma build_loop_some b rooms : forall st,
  (forall x id, asked b x id -> (id < length (b_subs b))%nat) -> (forall x, x ∈ rooms -> exists id, asked b x id) ->
  is_Some (build_loop grow b st rooms).
Proof.
  induction rooms as [|x rooms IH]; intros st Hk Hr; cbn [build_loop]; [by eexists|].
  destruct (build_room_some b st x) as [st1 ->]; [by apply Hk|apply Hr; set_solver|].
  apply IH; [done|]. set_solver.
Qed.

(** What the combined subscriptions say. *)
Definition faithful (b : builder) (h0 : heap) (st : bstate) : Prop :=
  (length h0 <= length (bs_heap st))%nat /\
  (forall i, (i < length h0)%nat -> bs_heap st !! i = h0 !! i) /\
  (forall ids c, bs_combined st !! ids = Some c ->
     below_sub (length (bs_heap st)) c /\
     exists s rest, mapM (fun i => b_subs b !! i) ids = Some (s :: rest) /\
       read_sub (bs_heap st) c = combine_all (read_sub h0 s) (map (read_sub h0) rest)).
Lemma below_mono n m s : (n <= m)%nat -> below_sub n s -> below_sub m s.
Proof. unfold below_sub, below. intros. destruct (h_state s), (old_slice s); cbn in *; lia. Qed.
Lemma build_room_faithful b h0 st x st' :
  Forall (no_spare_sub h0) (b_subs b) -> faithful b h0 st -> build_room grow b st x = Some st' -> faithful b h0 st'.
Proof.
  intros Hs (F1 & F2 & F3) Hb. unfold build_room in Hb. set (ids := ids_of b x) in *.
  destruct (mapM _ ids) as [[|s rest]|] eqn:Em; [done| |done].
  destruct rest as [|r rest]; [injection Hb as <-; by split_and!|].
  destruct (bs_combined st !! ids) as [c|] eqn:Ec; [injection Hb as <-; by split_and!|].
  destruct (combine_list grow (bs_heap st) s (r :: rest)) as [h' s'] eqn:El. injection Hb as <-.
  assert (Hall : Forall (fun y => no_spare_sub h0 y /\ below_sub (length h0) y) (s :: r :: rest)).
  { apply Forall_forall. intros y Hy. apply mapM_Some in Em.
    apply elem_of_list_lookup in Hy as [j Hj]. destruct (Forall2_lookup_r _ _ _ _ _ Em Hj) as (i & _ & Hi).
    rewrite Forall_forall in Hs. assert (no_spare_sub h0 y) by (apply Hs; by eapply elem_of_list_lookup_2).
    split; [done|by apply no_spare_below]. }
  assert (Hall' : Forall (fun y => no_spare_sub (bs_heap st) y /\ below_sub (length (bs_heap st)) y /\
     read_sub (bs_heap st) y = read_sub h0 y) (s :: r :: rest)).
  { eapply Forall_impl; [exact Hall|]. intros y [H1 H2]. split_and!.
    - by eapply no_spare_sub_stable.
    - by eapply below_mono.
    - by eapply read_sub_stable. }
  pose proof Hall' as Hall2. apply Forall_cons in Hall' as [(Hs1 & Hs2 & Hs3) Hr].
  destruct (combine_list_spec (length (bs_heap st)) _ _ _ _ _ El) as (K1 & K2 & K3 & K4).
  { by apply no_spare_held. }
  { eapply Forall_impl; [exact Hr|]. intros y (? & ? & ?). done. }
  { done. }
  split_and!; cbn [bs_heap bs_combined].
  - lia.
  - intros i Hi. rewrite K4 by lia. by apply F2.
  - intros i c. destruct (decide (i = ids)) as [-> |Hne].
    + rewrite lookup_insert. intros [= <-]. split; [by eapply held_below|]. exists s, (r :: rest). split; [done|].
      rewrite K2, Hs3. f_equal. apply map_ext_in. intros y Hy. apply elem_of_list_In in Hy.
      rewrite Forall_forall in Hr. by destruct (Hr y Hy) as (? & ? & ?).
    + rewrite lookup_insert_ne by done. intros Hc. destruct (F3 _ _ Hc) as (B1 & s0 & rest0 & M0 & R0).
      split; [by eapply below_mono|]. exists s0, rest0. split; [done|]. rewrite <- R0. by eapply read_sub_stable.
Qed.
Lemma build_loop_faithful b h0 rooms : forall st st',
  Forall (no_spare_sub h0) (b_subs b) -> faithful b h0 st -> build_loop grow b st rooms = Some st' -> faithful b h0 st'.
Proof.
  induction rooms as [|x rooms IH]; intros st st' Hs Hf Hb; cbn [build_loop] in Hb.
  - by injection Hb as <-.
  - destruct (build_room grow b st x) as [st1|] eqn:E; [|done]. eapply IH; [done| |exact Hb].
    by eapply build_room_faithful.
Qed.

(** ** Whole builds *)
Section build.
Context (ord : list string -> list string) (Hord : forall l, ord l ≡ₚ l).
Context (ord2 : list (list nat * list string) -> list (list nat * list string)) (Hord2 : forall l, ord2 l ≡ₚ l).

Lemma loop_groups b h st :
  build_loop grow b (mk_bstate h ∅ ∅) (ord (all_rooms b)) = Some st -> grouped b st (ord (all_rooms b)).
Proof.
  intros H. change (ord (all_rooms b)) with ([] ++ ord (all_rooms b)). eapply build_loop_grouped; [| |exact H].
  - split_and!; cbn.
    + intros ids x. rewrite lookup_empty. cbn. set_solver.
    + intros ids. rewrite lookup_empty. constructor.
    + intros ids rooms. by rewrite lookup_empty.
    + intros ids (x & Hx & _). set_solver.
  - cbn. rewrite Hord. apply all_rooms_nodup.
Qed.
Lemma groups_sub b st done_ ids rooms :
  (forall x, x ∈ done_ -> forall id, asked b x id -> (id < length (b_subs b))%nat) ->
  grouped b st done_ -> bs_rooms st !! ids = Some rooms -> is_Some (sub_of_ids b st ids).
Proof.
  intros Hk (H1 & H2 & H3 & H4) Hl. pose proof (H3 _ _ Hl) as Hne. destruct rooms as [|x rooms]; [done|].
  assert (Hx : x ∈ done_ /\ ids_of b x = ids). { apply H1. rewrite Hl. cbn. left. }
  destruct Hx as [Hx Hids]. unfold sub_of_ids.
  destruct ids as [|i [|j ids]].
  - apply H4; [eauto|done].
  - apply lookup_lt_is_Some. apply (Hk x Hx). apply ids_of_elem. rewrite Hids. set_solver.
  - apply H4; [eauto|done].
Qed.
Lemma build_some h b :
  (forall x id, asked b x id -> (id < length (b_subs b))%nat) ->
  is_Some (build_subscriptions grow ord ord2 h b).
Proof.
  intros Hk. unfold build_subscriptions.
  destruct (build_loop_some b (ord (all_rooms b)) (mk_bstate h ∅ ∅) Hk) as [st Hst].
  { intros x Hx. apply all_rooms_elem. by rewrite Hord in Hx. }
  rewrite Hst. apply fmap_is_Some. apply mapM_is_Some. apply Forall_forall. intros [ids rooms] Hin.
  apply fmap_is_Some. rewrite Hord2 in Hin. apply elem_of_map_to_list in Hin.
  eapply groups_sub; [|by eapply loop_groups|done]. intros x _. by apply Hk.
Qed.
(** What a built subscription is. *)
Lemma build_elem h b h' l :
  build_subscriptions grow ord ord2 h b = Some (h', l) ->
  exists st, build_loop grow b (mk_bstate h ∅ ∅) (ord (all_rooms b)) = Some st /\ h' = bs_heap st /\
    map snd l = map snd (ord2 (map_to_list (bs_rooms st))) /\
    forall s rooms, (s, rooms) ∈ l -> exists ids, bs_rooms st !! ids = Some rooms /\ sub_of_ids b st ids = Some s.
Proof.
  unfold build_subscriptions. intros H.
  destruct (build_loop _ _ _ _) as [st|] eqn:Hst; [|done]. apply fmap_Some in H as (l' & Hm & [= -> ->]).
  exists st. split_and!; [done|done| |].
  - clear Hst. revert Hm. generalize (ord2 (map_to_list (bs_rooms st))) as g. intros g Hm. apply mapM_Some in Hm.
    induction Hm as [|[ids rooms] [s r] g l Hx Hm IH]; [done|]. cbn.
    apply fmap_Some in Hx as (s' & _ & [= -> ->]). by rewrite IH.
  - intros s rooms Hin. apply mapM_Some in Hm. apply elem_of_list_lookup in Hin as [j Hj].
    destruct (Forall2_lookup_r _ _ _ _ _ Hm Hj) as ([ids r] & Hi & He).
    apply fmap_Some in He as (s' & Hs & [= -> ->]). exists ids. split; [|done].
    apply elem_of_map_to_list. rewrite <- Hord2. by eapply elem_of_list_lookup_2.
Qed.
Lemma build_rooms h b h' l :
  build_subscriptions grow ord ord2 h b = Some (h', l) ->
  NoDup (concat (map snd l)) /\ forall x, x ∈ concat (map snd l) <-> exists id, asked b x id.
Proof.
  intros H. destruct (build_elem _ _ _ _ H) as (st & Hst & _ & Hl & _). rewrite Hl.
  pose proof (loop_groups _ _ _ Hst) as (H1 & H2 & H3 & H4).
  assert (Hp : concat (map snd (ord2 (map_to_list (bs_rooms st)))) ≡ₚ concat (map snd (map_to_list (bs_rooms st)))).
  { generalize (Hord2 (map_to_list (bs_rooms st))). generalize (ord2 (map_to_list (bs_rooms st))) as g1. generalize (map_to_list (bs_rooms st)) as g2.
    intros g2 g1 Hp. induction Hp as [|[i r] a c Hp IH|[i r] [j t] a|a c d Hp IH Hp' IH']; cbn.
    - done.
    - by rewrite IH.
    - rewrite !app_assoc. by rewrite (Permutation_app_comm t r).
    - by rewrite IH. }
  split.
  - rewrite Hp. pose proof (NoDup_fst_map_to_list (bs_rooms st)) as Hn.
    assert (Hm : forall i r, (i, r) ∈ map_to_list (bs_rooms st) -> NoDup r /\ forall x, x ∈ r <-> x ∈ ord (all_rooms b) /\ ids_of b x = i).
    { intros i r Hin. apply elem_of_map_to_list in Hin. pose proof (H2 i) as Hi. pose proof (H1 i) as Hj.
      rewrite Hin in Hi. rewrite Hin in Hj. done. }
    revert Hn Hm. generalize (map_to_list (bs_rooms st)) as g. induction g as [|[i r] g IH]; intros Hn Hm; cbn; [constructor|].
    apply NoDup_cons in Hn as [Hn1 Hn2]. apply NoDup_app. split_and!.
    + apply (Hm i). left.
    + intros x Hx Hx'. apply in_concat_el in Hx' as (r' & Hxr & Hr). apply elem_of_list_fmap in Hr as ([j r''] & -> & Hr).
      cbn in Hxr. destruct (Hm i r) as [_ Ha]; [left|]. destruct (Hm j r'') as [_ Hb]; [by right|].
      apply Ha in Hx as [_ Hi]. apply Hb in Hxr as [_ Hj]. apply Hn1. apply elem_of_list_fmap. exists (j, r''). split; [|done].
      cbn. congruence.
    + apply IH; [done|]. intros j r' Hin. apply Hm. by right.
  - intros x. rewrite Hp, in_concat_el. rewrite <- all_rooms_elem. split.
    + intros (r & Hx & Hr). apply elem_of_list_fmap in Hr as ([ids r'] & -> & Hin). cbn in Hx.
      apply elem_of_map_to_list in Hin. pose proof (H1 ids x) as Hi. rewrite Hin in Hi. apply Hi in Hx as [Hx _].
      by rewrite Hord in Hx.
    + intros Hx. assert (Hi : x ∈ default [] (bs_rooms st !! ids_of b x)).
      { apply H1. split; [by rewrite Hord|done]. }
      destruct (bs_rooms st !! ids_of b x) as [r|] eqn:Er; [|cbn in Hi; set_solver]. exists r. split; [done|].
      apply elem_of_list_fmap. exists (ids_of b x, r). split; [done|]. by apply elem_of_map_to_list.
Qed.
Lemma build_content h b h' l :
  Forall (no_spare_sub h) (b_subs b) ->
  build_subscriptions grow ord ord2 h b = Some (h', l) ->
  forall s rooms x, (s, rooms) ∈ l -> x ∈ rooms ->
  exists ids s0 rest, NoDup ids /\ StronglySorted lt ids /\ (forall id, id ∈ ids <-> asked b x id) /\
    mapM (fun id => b_subs b !! id) ids = Some (s0 :: rest) /\
    read_sub h' s = combine_all (read_sub h s0) (map (read_sub h) rest).
Proof.
  intros Hs H s rooms x Hin Hx. destruct (build_elem _ _ _ _ H) as (st & Hst & -> & _ & He).
  pose proof (loop_groups _ _ _ Hst) as (H1 & H2 & H3 & H4).
  assert (Hf : faithful b h st).
  { eapply build_loop_faithful; [exact Hs| |exact Hst]. split_and!; cbn; [lia|done|]. intros ids c. by rewrite lookup_empty. }
  destruct Hf as (F1 & F2 & F3).
  destruct (He s rooms Hin) as (ids & Hr & Hsub). pose proof (H1 ids x) as Hi. rewrite Hr in Hi. apply Hi in Hx as [_ Hids].
  assert (Hlt : StronglySorted lt ids).
  { subst ids. pose proof (ids_of_nodup b x) as Hn. pose proof (StronglySorted_merge_sort le (omap (fun '(id, rooms) => if bool_decide (x ∈ (rooms : list string)) then Some id else None)
                   (map_to_list (b_rooms b)))) as Hss. fold (ids_of b x) in Hss. revert Hn Hss. generalize (ids_of b x) as q.
    induction q as [|i q IH]; intros Hn Hss; [constructor|]. apply NoDup_cons in Hn as [Hn1 Hn2].
    apply StronglySorted_inv in Hss as [Hq1 Hq2]. constructor; [by apply IH|].
    rewrite Forall_forall in *. intros j Hj. specialize (Hq2 j Hj). destruct (decide (i = j)); [congruence|lia]. }
  assert (Hcomb : forall c, bs_combined st !! ids = Some c -> c = s -> exists s0 rest,
    mapM (fun id => b_subs b !! id) ids = Some (s0 :: rest) /\
    read_sub (bs_heap st) s = combine_all (read_sub h s0) (map (read_sub h) rest)).
  { intros c Hc ->. by destruct (F3 _ _ Hc) as (_ & Hx). }
  assert (Hfin : exists s0 rest, mapM (fun id => b_subs b !! id) ids = Some (s0 :: rest) /\
    read_sub (bs_heap st) s = combine_all (read_sub h s0) (map (read_sub h) rest)).
  { unfold sub_of_ids in Hsub. destruct ids as [|i [|j ids]].
    - by eapply Hcomb.
    - exists s, []. cbn [mapM]. rewrite Hsub. split; [done|]. unfold combine_all. cbn.
      eapply read_sub_stable; [exact F2|]. apply no_spare_below. rewrite Forall_forall in Hs. apply Hs.
      by eapply elem_of_list_lookup_2.
    - by eapply Hcomb. }
  destruct Hfin as (s0 & rest & Hm & Hv). exists ids, s0, rest. split_and!; try done.
  - rewrite <- Hids. apply ids_of_nodup.
  - intros id. rewrite <- Hids. apply ids_of_elem.
Qed.
End build.
End heap.

(** ** Calls *)
Lemma bruns_spec ops : b_subs (bruns ops) = subs_of ops /\ forall x id, asked (bruns ops) x id <-> requested ops x id.
Proof.
  unfold bruns. induction ops as [|o ops IH] using rev_ind.
  - split; [done|]. intros x id. unfold asked, requested. cbn. split.
    + intros (r & Hr & _). by rewrite lookup_empty in Hr.
    + intros (r & Hr & _). by apply elem_of_nil in Hr.
  - rewrite foldl_app. cbn [foldl]. destruct IH as [IH1 IH2]. unfold subs_of in *. rewrite omap_app.
    destruct o as [s|i rooms]; cbn [bstep add_subscription fst add_rooms b_subs omap list_omap].
    + split; [by rewrite IH1|]. intros x id. unfold asked, requested in *. cbn [bstep add_subscription add_rooms fst b_rooms]. rewrite IH2. split.
      * intros (r & Hr & Hx). exists r. split; [apply elem_of_app; by left|done].
      * intros (r & Hr & Hx). exists r. split; [|done]. apply elem_of_app in Hr as [Hr|Hr]; [done|].
        by apply elem_of_list_singleton in Hr.
    + split; [by rewrite IH1, app_nil_r|]. intros x id. unfold asked, requested in *. cbn [bstep add_subscription add_rooms fst b_rooms].
      specialize (IH2 x id). destruct (decide (id = i)) as [-> |Hne].
      * split.
        -- intros (r & Hr & Hx). rewrite lookup_insert in Hr. injection Hr as <-. apply elem_of_app in Hx as [Hx|Hx].
           ++ destruct (b_rooms (foldl bstep new_builder ops) !! i) as [r'|] eqn:E; [|by apply elem_of_nil in Hx].
              destruct IH2 as [IH2 _]. destruct IH2 as (r & Hr & Hx'); [eauto|]. exists r. split; [apply elem_of_app; by left|done].
           ++ exists rooms. split; [apply elem_of_app; right; left|done].
        -- intros (r & Hr & Hx). rewrite lookup_insert. eexists. split; [done|]. apply elem_of_app.
           apply elem_of_app in Hr as [Hr|Hr].
           ++ left. destruct IH2 as [_ IH2]. destruct IH2 as (r' & Hr' & Hx'); [eauto|]. by rewrite Hr'.
           ++ apply elem_of_list_singleton in Hr. injection Hr as ->. by right.
      * rewrite lookup_insert_ne by done. rewrite IH2. split.
        -- intros (r & Hr & Hx). exists r. split; [apply elem_of_app; by left|done].
        -- intros (r & Hr & Hx). exists r. split; [|done]. apply elem_of_app in Hr as [Hr|Hr]; [done|].
           apply elem_of_list_singleton in Hr. congruence.
Qed.
